(** How fast the film's radiation grows with its temperature. *)
From Coq Require Import Reals Lra Lia Psatz.
From Verif Require Import Model.Num Model.Thermal Spec.ThermalSpec Proofs.NumR Proofs.ThermalProofs
  Proofs.ColdStart Proofs.NewtonConvex Proofs.Convection.
Open Scope R_scope.

Section Polynomial.
Context (e1 e2 e3 e4 e5 f : R).
Definition poly (u : R) : R := e1 * u + e2 * u ^ 2 + e3 * u ^ 3 + e4 * u ^ 4 + e5 * u ^ 5 - f * u ^ 6.
Hypothesis H3 : 0 <= e3.
Hypothesis H4 : 0 <= e4.
Hypothesis H5 : 0 <= e5.
Hypothesis Hf : 0 <= f.
Hypothesis H2 : 15 * f * 140 ^ 4 <= e2.

Lemma mono4 x y z w : 0 <= x <= 140 -> 0 <= y <= 140 -> 0 <= z <= 140 -> 0 <= w <= 140 -> x * y * z * w <= 140 ^ 4.
Proof.
  intros. replace (140 ^ 4) with (140 * 140 * 140 * 140) by ring.
  assert (0 <= x * y) by (apply Rmult_le_pos; lra). assert (0 <= x * y * z) by (apply Rmult_le_pos; lra).
  apply Rmult_le_compat; try lra. apply Rmult_le_compat; try lra. apply Rmult_le_compat; lra.
Qed.
Lemma poly_convex : convex_on 0 140 poly.
Proof.
  intros x y z Hx Hz. unfold poly.
  set (h4 := x*x*x*x + x*x*x*y + x*x*x*z + x*x*y*y + x*x*y*z + x*x*z*z + x*y*y*y + x*y*y*z + x*y*z*z + x*z*z*z
             + y*y*y*y + y*y*y*z + y*y*z*z + y*z*z*z + z*z*z*z).
  set (h3 := x*x*x + x*x*y + x*x*z + x*y*y + x*y*z + x*z*z + y*y*y + y*y*z + y*z*z + z*z*z).
  set (h2 := x*x + x*y + x*z + y*y + y*z + z*z).
  match goal with |- ?a <= ?b => enough (Id : b - a = (z - y) * (y - x) * (z - x) *
     (e2 + e3 * (x + y + z) + e4 * h2 + e5 * h3 - f * h4)) end.
  2:{ unfold h2, h3, h4. ring. }
  assert (B4 : h4 <= 15 * 140 ^ 4).
  { unfold h4. repeat match goal with |- context [?a * ?b * ?c * ?d] =>
      let H := fresh in pose proof (mono4 a b c d ltac:(lra) ltac:(lra) ltac:(lra) ltac:(lra)) as H;
      revert H; generalize (a * b * c * d); intros ? H end. lra. }
  assert (P2 : forall p q, 0 <= p -> 0 <= q -> 0 <= p * q) by (intros; apply Rmult_le_pos; assumption).
  assert (B3 : 0 <= h3). { unfold h3. repeat apply Rplus_le_le_0_compat; repeat apply P2; lra. }
  assert (B2 : 0 <= h2). { unfold h2. repeat apply Rplus_le_le_0_compat; repeat apply P2; lra. }
  clearbody h2 h3 h4.
  assert (0 <= (z - y) * (y - x) * (z - x) * (e2 + e3 * (x + y + z) + e4 * h2 + e5 * h3 - f * h4)).
  { apply P2; [apply P2; [apply P2|]; lra|].
    assert (f * h4 <= f * (15 * 140 ^ 4)) by (apply Rmult_le_compat_l; assumption).
    assert (0 <= e3 * (x + y + z)) by (apply P2; lra).
    assert (0 <= e4 * h2) by (apply P2; lra). assert (0 <= e5 * h3) by (apply P2; lra). lra. }
  lra.
Qed.

Lemma power_step k y z : 0 <= y <= z -> z ^ S k - y ^ S k <= INR (S k) * z ^ k * (z - y).
Proof. intro H. pose proof (bernoulli k y z ltac:(lra) ltac:(lra)). lra. Qed.

(** The slope of a short chord, and the share of it that longer chords to its left have. *)
Context (b : R).
Definition steep (y : R) : R := e1 + 2 * e2 * y + 3 * e3 * y ^ 2 + 4 * e4 * y ^ 3 + 5 * e5 * y ^ 4 + b.
Hypothesis Hb : 0.04 * (2 * e2 + 6 * e3 * 140 + 12 * e4 * 140 ^ 2 + 20 * e5 * 140 ^ 3) <= b.
Lemma steep_bound y z : 0 <= y < z -> z <= 140 -> z - y <= 0.04 -> poly z - poly y <= (z - y) * steep y.
Proof.
  intros Hy Hz Hs.
  assert (He2 : 0 <= e2) by (assert (0 <= 15 * f * 140 ^ 4) by (apply Rmult_le_pos; lra); lra).
  assert (M : forall k, z ^ S k - y ^ S k <= INR (S k) * (z - y) * (y ^ k + INR k * 140 ^ pred k * 0.04)).
  { intro k. pose proof (power_step k y z ltac:(lra)) as A.
    assert (Bk : z ^ k <= y ^ k + INR k * 140 ^ pred k * 0.04).
    { destruct k as [|k]; [cbn; lra|]. pose proof (power_step k y z ltac:(lra)) as C. cbn [pred].
      assert (z ^ k <= 140 ^ k) by (apply pow_incr; lra). pose proof (pow_le z k ltac:(lra)).
      assert (INR (S k) * z ^ k * (z - y) <= INR (S k) * 140 ^ k * 0.04).
      { pose proof (pos_INR (S k)). apply Rmult_le_compat; try lra; [apply Rmult_le_pos; lra|].
        apply Rmult_le_compat_l; lra. }
      lra. }
    assert (INR (S k) * (z - y) * z ^ k <= INR (S k) * (z - y) * (y ^ k + INR k * 140 ^ pred k * 0.04)).
    { apply Rmult_le_compat_l; [|exact Bk]. apply Rmult_le_pos; [apply pos_INR|lra]. }
    lra. }
  pose proof (M 1%nat) as M2. pose proof (M 2%nat) as M3. pose proof (M 3%nat) as M4. pose proof (M 4%nat) as M5.
  cbn [INR pred] in M2, M3, M4, M5.
  assert (M6 : y ^ 6 <= z ^ 6) by (apply pow_incr; lra).
  assert (f * y ^ 6 <= f * z ^ 6) by (apply Rmult_le_compat_l; assumption).
  assert (Q2 := Rmult_le_compat_l _ _ _ He2 M2). assert (Q3 := Rmult_le_compat_l _ _ _ H3 M3).
  assert (Q4 := Rmult_le_compat_l _ _ _ H4 M4). assert (Q5 := Rmult_le_compat_l _ _ _ H5 M5).
  assert (Qb := Rmult_le_compat_l (z - y) _ _ ltac:(lra) Hb).
  unfold poly, steep. clear M. lra.
Qed.
Context (U : R).
Hypothesis HU : 0 < U <= 140.
Hypothesis Left : 0 <= 0.58 * e1 - 0.42 * b.
Hypothesis Right : 0 <= 0.58 * e1 - 0.42 * b +
  (0.16 * e2 - 0.26 * e3 * U - 0.68 * e4 * U ^ 2 - 1.1 * e5 * U ^ 3 - f * U ^ 4) * U.
Lemma steep_share y : 0 <= y <= U -> 0.42 * steep y * y <= poly y.
Proof.
  intro Hy. unfold steep, poly.
  set (q := 0.58 * e1 - 0.42 * b + 0.16 * e2 * y - 0.26 * e3 * y ^ 2 - 0.68 * e4 * y ^ 3 - 1.1 * e5 * y ^ 4 - f * y ^ 5).
  enough (0 <= q) by (unfold q in *; assert (0 <= y * q) by (apply Rmult_le_pos; unfold q; lra); unfold q in *; lra).
  assert (W : forall k, y ^ S k <= U ^ k * y).
  { intro k. cbn [Rpow_def.pow]. rewrite Rmult_comm. apply Rmult_le_compat_r; [lra|]. apply pow_incr. lra. }
  pose proof (W 1%nat) as W2. pose proof (W 2%nat) as W3. pose proof (W 3%nat) as W4. pose proof (W 4%nat) as W5.
  set (s := 0.16 * e2 - 0.26 * e3 * U - 0.68 * e4 * U ^ 2 - 1.1 * e5 * U ^ 3 - f * U ^ 4) in *.
  assert (L : 0.58 * e1 - 0.42 * b + s * y <= q).
  { unfold q, s.
    pose proof (Rmult_le_compat_l _ _ _ H3 W2). pose proof (Rmult_le_compat_l _ _ _ H4 W3).
    pose proof (Rmult_le_compat_l _ _ _ H5 W4). pose proof (Rmult_le_compat_l _ _ _ Hf W5). lra. }
  destruct (Rle_dec 0 s) as [P|N].
  - assert (0 <= s * y) by (apply Rmult_le_pos; lra). lra.
  - assert (s * U <= s * y) by nra. lra.
Qed.
Lemma poly_slope x y z : 0 <= x < y -> y < z <= U -> z - y <= 0.04 ->
  0.42 * ((poly z - poly y) * (y - x)) <= (poly y - poly x) * (z - y).
Proof.
  intros Hx Hz Hs.
  pose proof (steep_bound y z ltac:(lra) ltac:(lra) Hs) as A.
  pose proof (steep_share y ltac:(lra)) as B.
  assert (C : poly y * (y - x) <= (poly y - poly x) * y).
  { assert (P0 : poly 0 = 0) by (unfold poly; ring).
    destruct (proj1 Hx) as [P|<-]; [|rewrite P0; lra].
    pose proof (poly_convex 0 x y ltac:(lra) ltac:(lra)) as C. rewrite P0 in C. lra. }
  apply Rmult_le_reg_r with y; [lra|].
  apply Rle_trans with ((z - y) * (y - x) * (0.42 * steep y * y)).
  - assert ((poly z - poly y) * ((y - x) * y * 0.42) <= (z - y) * steep y * ((y - x) * y * 0.42)).
    { apply Rmult_le_compat_r; [|exact A]. apply Rmult_le_pos; [apply Rmult_le_pos; lra|lra]. }
    lra.
  - apply Rle_trans with ((z - y) * (y - x) * poly y).
    + apply Rmult_le_compat_l; [apply Rmult_le_pos; lra|exact B].
    + assert ((z - y) * (poly y * (y - x)) <= (z - y) * ((poly y - poly x) * y)) by (apply Rmult_le_compat_l; lra).
      lra.
Qed.
End Polynomial.

(** The radiation above 176.5 K is such a polynomial. *)
Lemma emitted_poly t : emitted t =
  emitted 176.5 + poly (435897025778125579 / 3703689575195312500) (1019932649530145857 / 758515625000000000000) (1449943187013171 / 189628906250000000000) (8152037645221 / 379257812500000000000) (780827813 / 33862304687500000000) (372563 / 118518066406250000000) (t - 176.5).
Proof.
  unfold emitted, radiated, poly. rewrite !eps_film_value. unfold film_ir. lra.
Qed.
Lemma emitted_convex : convex_on 176.5 316 emitted.
Proof.
  intros x y z Hx Hz. rewrite (emitted_poly x), (emitted_poly y), (emitted_poly z).
  match goal with |- context [poly ?a ?b ?c ?d ?e ?f (x - 176.5)] =>
    pose proof (poly_convex a b c d e f ltac:(lra) ltac:(lra) ltac:(lra) ltac:(lra) ltac:(lra)
                  (x - 176.5) (y - 176.5) (z - 176.5) ltac:(lra) ltac:(lra)) as C;
    set (px := poly a b c d e f (x - 176.5)) in *; set (py := poly a b c d e f (y - 176.5)) in *;
    set (pz := poly a b c d e f (z - 176.5)) in * end.
  clearbody px py pz. lra.
Qed.
Lemma emitted_share x y z : 176.5 <= x < y -> y < z <= 316 -> z - y <= 0.04 ->
  0.42 * ((emitted z - emitted y) * (y - x)) <= (emitted y - emitted x) * (z - y).
Proof.
  intros Hx Hz Hs. rewrite (emitted_poly x), (emitted_poly y), (emitted_poly z).
  match goal with |- context [poly ?a ?b ?c ?d ?e ?f (x - 176.5)] =>
    pose proof (poly_slope a b c d e f ltac:(lra) ltac:(lra) ltac:(lra) ltac:(lra) ltac:(lra) 0.0012 ltac:(lra)
                  139.5 ltac:(lra) ltac:(lra) ltac:(lra)
                  (x - 176.5) (y - 176.5) (z - 176.5) ltac:(lra) ltac:(lra) ltac:(lra)) as C;
    set (px := poly a b c d e f (x - 176.5)) in *; set (py := poly a b c d e f (y - 176.5)) in *;
    set (pz := poly a b c d e f (z - 176.5)) in * end.
  clearbody px py pz. lra.
Qed.
