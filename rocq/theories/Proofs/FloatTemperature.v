(** Where the search for the balloon's equilibrium temperature ends: a bounded
    distance above the ambient temperature. *)
From Coq Require Import Reals Lra Lia Psatz.
From Verif Require Import Model.Num Model.Thermal Model.StableInit Spec.ThermalSpec Proofs.NumR
  Proofs.ThermalProofs Proofs.ColdStart Proofs.NewtonConvex Proofs.Convection Proofs.EmissionSlope.
Open Scope R_scope.

Lemma emitted_176 : 4.11 <= emitted 176.5. Proof. emit. Qed.
Lemma emitted_205 : 8.96 <= emitted 205.99 <= 8.97. Proof. split; emit. Qed.
Lemma emitted_212 : emitted 212 <= 10.361. Proof. emit. Qed.
Lemma emitted_212' : emitted 212.3 <= 10.435. Proof. emit. Qed.
Lemma emitted_213 : emitted 214 - emitted 213 <= 0.2535. Proof. unfold emitted, radiated. rewrite !eps_film_value. unfold film_ir. lra. Qed.

Lemma emitted_flat x y : 176.5 <= x < y -> y <= 316 -> 0.09 * (y - x) <= emitted y - emitted x.
Proof.
  intros Hx Hy. pose proof (emitted_slope x y ltac:(lra) ltac:(lra) ltac:(lra)) as S.
  assert (P : 4.11 * x <= 176.5 * emitted x).
  { destruct (proj1 Hx) as [L|<-]; [|pose proof emitted_176; lra].
    pose proof (emitted_slope 176.5 x ltac:(lra) L ltac:(lra)). pose proof emitted_176. nra. }
  apply Rmult_le_reg_l with x; [lra|]. 
  assert (0.0225 * x <= emitted x) by lra.
  assert (0.0225 * x * (y - x) <= emitted x * (y - x)) by (apply Rmult_le_compat_r; lra). lra.
Qed.
Lemma emitted_short x y : 176.5 <= x < y -> y < 213 -> emitted y - emitted x <= 0.2535 * (y - x).
Proof.
  intros Hx Hy. pose proof (emitted_convex x y 213 ltac:(lra) ltac:(lra)) as C1.
  pose proof (emitted_convex y 213 214 ltac:(lra) ltac:(lra)) as C2. pose proof emitted_213 as E.
  assert (emitted 213 - emitted y <= 0.2535 * (213 - y)).
  { assert ((emitted 214 - emitted 213) * (213 - y) <= 0.2535 * (213 - y)) by (apply Rmult_le_compat_r; lra). lra. }
  apply Rmult_le_reg_r with (213 - y); [lra|].
  assert ((emitted 213 - emitted y) * (y - x) <= 0.2535 * (213 - y) * (y - x)) by (apply Rmult_le_compat_r; lra). lra.
Qed.
(** A Newton step from the cold side cannot end above 315 K. *)
Lemma overshoot t1 t' Q : 205.99 <= t1 <= 300 -> Q <= 27.72 ->
  (t' - t1) * (4 * emitted t1) <= (Q - emitted t1) * t1 -> t' <= 314.9.
Proof.
  intros H1 HQ H. pose proof emitted_205 as E0.
  assert (E1 : 8.96 * (4 * t1 - 3 * 205.99) <= 205.99 * emitted t1).
  { destruct (proj1 H1) as [L|<-]; [|lra].
    pose proof (emitted_slope 205.99 t1 ltac:(lra) L ltac:(lra)) as S. nra. }
  set (e := emitted t1) in *. clearbody e.
  assert (He : 0 < e) by lra.
  apply Rmult_le_reg_r with (4 * e); [lra|].
  enough (27.72 * t1 <= e * (4 * 314.9 - 3 * t1)).
  { assert (Q * t1 <= 27.72 * t1) by (apply Rmult_le_compat_r; lra). lra. }
  apply Rmult_le_reg_l with 205.99; [lra|].
  apply Rle_trans with (8.96 * (4 * t1 - 3 * 205.99) * (4 * 314.9 - 3 * t1)).
  - assert (0 <= (t1 - 205.99) * (300 - t1)) by (apply Rmult_le_pos; lra). lra.
  - replace (205.99 * (e * (4 * 314.9 - 3 * t1))) with (205.99 * e * (4 * 314.9 - 3 * t1)) by ring.
    apply Rmult_le_compat_r; lra.
Qed.

Section Equilibrium.
Context (rate : R -> option R) (c Ta h G A : R).
Hypothesis Hh : 0 < h.
Hypothesis HG : 0 < G.
Hypothesis HTa : 176.7 <= Ta <= 212.
Hypothesis Hc : 0.0069 <= c.
Hypothesis HA : 11.14 <= A <= 27.7.
Local Notation k := (coefficient h G).
Definition flow (t : R) : R := k (Rabs (Ta - t)) * (t - Ta).
Definition loss (t : R) : R := emitted t + flow t - A.
Hypothesis Hrate : forall t, 13 <= t <= 4000 -> rate t = Some (c * (- loss t)).

Lemma flow_right t : Ta <= t -> flow t = k (t - Ta) * (t - Ta).
Proof. intro H. unfold flow. rewrite Rabs_left1 by lra. replace (- (Ta - t)) with (t - Ta) by ring. reflexivity. Qed.
Lemma flow_left t : t <= Ta -> flow t = - (k (Ta - t) * (Ta - t)).
Proof. intro H. unfold flow. rewrite Rabs_pos_eq by lra. ring. Qed.
Lemma kd_mono d d' : 0 <= d <= d' -> k d * d <= k d' * d'.
Proof.
  intro H. pose proof (coefficient_mono h G Hh HG d d' H). pose proof (coefficient_pos h G Hh HG d ltac:(lra)).
  apply Rmult_le_compat; lra.
Qed.
Lemma kd_pos d : 0 <= d -> 0 <= k d * d.
Proof. intro H. pose proof (coefficient_pos h G Hh HG d H). apply Rmult_le_pos; lra. Qed.
Lemma flow_mono t t' : t <= t' -> flow t <= flow t'.
Proof.
  intro H. destruct (Rle_dec Ta t) as [L|L].
  - rewrite !flow_right by lra. apply kd_mono. lra.
  - rewrite (flow_left t) by lra. destruct (Rle_dec Ta t') as [L'|L'].
    + rewrite flow_right by lra. pose proof (kd_pos (Ta - t) ltac:(lra)). pose proof (kd_pos (t' - Ta) ltac:(lra)). lra.
    + rewrite flow_left by lra. pose proof (kd_mono (Ta - t') (Ta - t) ltac:(lra)). lra.
Qed.
Lemma loss_inc t t' : 150 <= t -> t < t' -> t' <= 316 -> loss t < loss t'.
Proof.
  intros H1 H2 H3. unfold loss. pose proof (flow_mono t t' ltac:(lra)).
  pose proof (emitted_slope t t' ltac:(lra) H2 ltac:(lra)) as S. pose proof (emitted_pos t ltac:(lra)).
  assert (0 < 4 * emitted t * (t' - t)) by (apply Rmult_lt_0_compat; lra).
  assert (0 < emitted t' - emitted t) by (apply Rmult_lt_reg_l with t; lra). lra.
Qed.
Lemma loss_convex : convex_on Ta 316 loss.
Proof.
  intros x y z Hx Hz. unfold loss. rewrite !flow_right by lra.
  pose proof (flow_convex h G Hh HG 200 (x - Ta) (y - Ta) (z - Ta) ltac:(lra) ltac:(lra)) as F. cbv beta in F.
  pose proof (emitted_convex x y z ltac:(lra) ltac:(lra)) as E.
  replace (z - Ta - (y - Ta)) with (z - y) in F by ring. replace (y - Ta - (x - Ta)) with (y - x) in F by ring. lra.
Qed.
Lemma loss_share x y z : Ta + 0.28 <= x < y -> y < z <= 316 -> z - y <= 0.04 ->
  0.42 * ((loss z - loss y) * (y - x)) <= (loss y - loss x) * (z - y).
Proof.
  intros Hx Hz Hs. unfold loss. rewrite !flow_right by lra.
  pose proof (emitted_share x y z ltac:(lra) ltac:(lra) Hs) as E.
  set (a := x - Ta). set (b := y - Ta). set (d := z - Ta).
  assert (Hab : 0.28 <= a < b) by (unfold a, b; lra). assert (Hbd : b < d) by (unfold b, d; lra).
  assert (Hd : d - b <= 0.04) by (unfold d, b; lra).
  pose proof (coefficient_mono h G Hh HG a b ltac:(lra)) as M1. pose proof (coefficient_sub h G Hh HG b d ltac:(lra)) as S1.
  pose proof (coefficient_pos h G Hh HG b ltac:(lra)) as P1.
  replace (z - y) with (d - b) in * by (unfold d, b; ring). replace (y - x) with (b - a) in * by (unfold a, b; ring).
  enough (F : 0.42 * ((k d * d - k b * b) * (b - a)) <= (k b * b - k a * a) * (d - b)) by lra.
  set (kb := k b) in *. set (kd := k d) in *. set (ka := k a) in *.
  (* the later chord is at most kb (d + b) / b, the earlier one at least kb *)
  assert (L : kb * (b - a) <= kb * b - ka * a) by (assert (ka * a <= kb * a) by (apply Rmult_le_compat_r; lra); lra).
  assert (T : (kd * d - kb * b) * b <= kb * ((d - b) * (d + b))).
  { assert (kd * b * d <= kb * d * d) by (apply Rmult_le_compat_r; lra). lra. }
  apply Rle_trans with (kb * (b - a) * (d - b)); [|apply Rmult_le_compat_r; lra].
  apply Rmult_le_reg_r with b; [lra|].
  apply Rle_trans with (0.42 * (kb * ((d - b) * (d + b))) * (b - a)).
  - assert ((kd * d - kb * b) * b * (0.42 * (b - a)) <= kb * ((d - b) * (d + b)) * (0.42 * (b - a))).
    { apply Rmult_le_compat_r; [lra|exact T]. }
    lra.
  - assert (0 <= kb * (b - a) * (d - b)) by (apply Rmult_le_pos; [apply Rmult_le_pos|]; lra).
    assert (kb * (b - a) * (d - b) * (0.42 * (d + b)) <= kb * (b - a) * (d - b) * b) by (apply Rmult_le_compat_l; lra).
    lra.
Qed.
Lemma loss_flat x y : Ta + 0.28 <= x < y -> y <= 316 -> 0.08 * (y - x) <= loss y - loss x.
Proof.
  intros Hx Hy. unfold loss. pose proof (flow_mono x y ltac:(lra)).
  pose proof (emitted_flat x y ltac:(lra) Hy). lra.
Qed.

(** ** The equilibrium *)
Context (U : R).
Hypothesis HU : 1 <= U <= 45.
Hypothesis K1 : k 0.3 <= 0.6.
Hypothesis K3 : 27.7 <= emitted (Ta + U) + k U * U.
Lemma equilibrium : exists r, Ta + 0.3 <= r <= Ta + U /\
  (forall t, Ta <= t < r -> loss t < 0) /\ (forall t, r < t <= 316 -> 0 < loss t).
Proof.
  set (P := fun t => Ta <= t <= 316 /\ loss t <= 0).
  assert (N : loss (Ta + 0.3) <= 0).
  { unfold loss. rewrite flow_right by lra. replace (Ta + 0.3 - Ta) with 0.3 by ring.
    pose proof (emitted_mono (Ta + 0.3) 212.3 ltac:(lra) ltac:(lra) ltac:(lra)). pose proof emitted_212'. lra. }
  assert (Q : 0 <= loss (Ta + U)).
  { unfold loss. rewrite flow_right by lra. replace (Ta + U - Ta) with U by ring. lra. }
  destruct (completeness P) as (r & Ub & Least).
  - exists (Ta + U). intros t [Ht Lt]. apply Rnot_lt_le. intro L.
    pose proof (loss_inc (Ta + U) t ltac:(lra) L ltac:(lra)). lra.
  - exists (Ta + 0.3). split; [lra|exact N].
  - exists r. split; [split|split].
    + apply Ub. split; [lra|exact N].
    + apply Least. intros t [Ht Lt]. apply Rnot_lt_le. intro L.
      pose proof (loss_inc (Ta + U) t ltac:(lra) L ltac:(lra)). lra.
    + intros t Ht. apply Rnot_le_lt. intro L.
      assert (Ub' : r <= t); [|lra]. apply Least. intros s [Hs Ls]. apply Rnot_lt_le. intro W.
      pose proof (loss_inc t s ltac:(lra) W ltac:(lra)). lra.
    + intros t Ht. apply Rnot_le_lt. intro L.
      assert (t <= r); [|lra]. apply Ub. split; [|exact L].
      assert (PN : P (Ta + 0.3)) by (split; [lra|exact N]). pose proof (Ub _ PN). lra.
Qed.

Section Phases.
Context (r : R).
Hypothesis Hr : Ta + 0.3 <= r <= Ta + U.
Hypothesis Below : forall t, Ta <= t < r -> loss t < 0.
Hypothesis Above : forall t, r < t <= 316 -> 0 < loss t.

Lemma rate_on t : 150 <= t <= 316 -> rate t = Some (c * (- loss t)).
Proof. intro H. apply Hrate. lra. Qed.
Definition step t (H1 : 150 <= t - 0.005) (H2 : t + 0.005 <= 316) :=
  step_value rate c loss 150 316 ltac:(lra) rate_on loss_inc t H1 H2.
Lemma near n t D : 0 <= D -> r - 0.01 <= t <= r + 0.05 + D -> t + 0.005 <= 316 ->
  exists T, newton n rate t = Some T /\ r - 0.01 <= T <= r + 0.06 + 0.58 ^ n * D.
Proof.
  apply (converges rate c loss 150 316 ltac:(lra) rate_on loss_inc Ta r ltac:(lra) loss_convex ltac:(lra)
           Below Above (Ta + 0.28) 0.08 ltac:(lra) ltac:(lra)).
  - intros x y z. apply loss_share.
  - intros x y. apply loss_flat.
  - lra.
Qed.
Lemma right_side n t : Ta <= t - 0.005 -> 205.99 <= t - 0.005 -> t <= 315 -> t <= r + 109.1 ->
  exists T, newton (S n) rate t = Some T /\ r - 0.01 <= T <= r + 0.06 + 0.58 ^ n * 110.
Proof.
  intros H1 H2 H3 H4. pose proof (pow_lt 0.58 n ltac:(lra)) as Pn.
  destruct (Rle_dec (r - 0.01) t) as [L|L].
  { destruct (near (S n) t 109.1 ltac:(lra) ltac:(lra) ltac:(lra)) as (T & E & HT).
    exists T. split; [exact E|]. cbn [Rpow_def.pow] in HT. lra. }
  cbn [newton].
  assert (Q1 : 150 <= t - 0.005) by lra. assert (Q2 : t + 0.005 <= 316) by lra.
  destruct (step t Q1 Q2) as (t' & m & -> & E & Em).
  pose proof (never_below loss 150 316 loss_inc Ta r ltac:(lra) loss_convex ltac:(lra) Below t t' H1 Q2 E) as Lo.
  pose proof (Below (t - 0.005) ltac:(lra)) as B1.
  pose proof (Below (t + 0.005) ltac:(lra)) as B2.
  assert (Hi : t' <= 314.9).
  { apply (overshoot (t - 0.005) t' A); [lra|lra|].
    pose proof (emitted_slope (t - 0.005) (t + 0.005) ltac:(lra) ltac:(lra) ltac:(lra)) as S.
    replace (t + 0.005 - (t - 0.005)) with 0.01 in S by lra.
    pose proof (flow_mono (t - 0.005) (t + 0.005) ltac:(lra)) as F.
    assert (F0 : 0 <= flow (t - 0.005)) by (rewrite flow_right by lra; apply kd_pos; lra).
    unfold loss in E. set (t1 := t - 0.005) in *. set (t2 := t + 0.005) in *.
    assert (Lt : t1 < t') by (unfold t1; lra).
    assert ((t' - t1) * (emitted t2 - emitted t1) <= (A - emitted t1) * 0.01).
    { assert (0 <= (t' - t1) * (flow t2 - flow t1)) by (apply Rmult_le_pos; lra). lra. }
    assert ((t' - t1) * (4 * emitted t1 * 0.01) <= (t' - t1) * (t1 * (emitted t2 - emitted t1))) by (apply Rmult_le_compat_l; lra).
    assert (t1 * ((t' - t1) * (emitted t2 - emitted t1)) <= t1 * ((A - emitted t1) * 0.01)) by (apply Rmult_le_compat_l; lra).
    lra. }
  assert (P0 : 0 <= 0.58 ^ n * 110) by lra.
  destruct (Rltb_spec (Rabs m) 1e-5) as [W|W].
  - exists t'. split; [reflexivity|]. split; [exact Lo|].
    (* the mean loss is tiny *)
    pose proof (loss_inc (t - 0.005) (t + 0.005) Q1 ltac:(lra) Q2) as I.
    assert (Fl : 0.09 * 0.01 <= loss (t + 0.005) - loss (t - 0.005)).
    { unfold loss. pose proof (flow_mono (t - 0.005) (t + 0.005) ltac:(lra)).
      pose proof (emitted_flat (t - 0.005) (t + 0.005) ltac:(lra) Q2). lra. }
    set (g1 := loss (t - 0.005)) in *. set (g2 := loss (t + 0.005)) in *.
    assert (M : - (g1 + g2) / 2 < 0.00145).
    { assert (0 < - (g1 + g2) / 2) by lra.
      assert (0.0069 * (- (g1 + g2) / 2) <= c * (- (g1 + g2) / 2)) by (apply Rmult_le_compat_r; lra).
      rewrite Rabs_pos_eq in W by (subst m; lra). lra. }
    enough (t' - (t - 0.005) <= 0.03) by lra.
    apply Rnot_lt_le. intro Far.
    assert (0.03 * (g2 - g1) < (t' - (t - 0.005)) * (g2 - g1)) by (apply Rmult_lt_compat_r; lra). lra.
  - destruct (near n t' 109.1 ltac:(lra) ltac:(lra) ltac:(lra)) as (T & ET & HT).
    exists T. split; [exact ET|]. assert (0.58 ^ n * 109.1 <= 0.58 ^ n * 110) by (apply Rmult_le_compat_l; lra). lra.
Qed.

(** Below the ambient temperature. *)
Context (dm : R).
Hypothesis Hdm : 0.5 <= dm <= 6.02.
Hypothesis K2 : 205.99 < Ta -> k dm <= 0.4.
Lemma left_step t : 205.99 <= t - 0.005 < Ta -> Ta - (t - 0.005) <= dm ->
  exists t' m, newton_step rate t = Some (t', m) /\ 1e-5 <= Rabs m /\ t <= t' <= 314.9 /\
    Ta - (t' - 0.005) <= Rmax 0 (0.6204 * (Ta - (t - 0.005)) - 0.7344).
Proof.
  intros H1 H2. assert (Q1 : 150 <= t - 0.005) by lra. assert (Q2 : t + 0.005 <= 316) by lra.
  destruct (step t Q1 Q2) as (t' & m & Es & E & Em). exists t', m. split; [exact Es|].
  pose proof (K2 ltac:(lra)) as Kd.
  pose proof (loss_inc (t - 0.005) (t + 0.005) Q1 ltac:(lra) Q2) as I.
  pose proof (emitted_short (t - 0.005) (t + 0.005) ltac:(lra) ltac:(lra)) as Se.
  replace (t + 0.005 - (t - 0.005)) with 0.01 in Se by lra.
  pose proof (emitted_slope (t - 0.005) (t + 0.005) ltac:(lra) ltac:(lra) ltac:(lra)) as S.
  replace (t + 0.005 - (t - 0.005)) with 0.01 in S by lra.
  pose proof (emitted_mono (t - 0.005) 212 ltac:(lra) ltac:(lra) ltac:(lra)) as E1. pose proof emitted_212 as E2.
  pose proof (emitted_pos (t - 0.005) ltac:(lra)) as E0.
  pose proof (flow_left (t - 0.005) ltac:(lra)) as F1.
  set (d := Ta - (t - 0.005)) in *. assert (Hd : 0 < d) by (unfold d; lra).
  pose proof (coefficient_mono h G Hh HG d dm ltac:(lra)) as Kd'.
  pose proof (coefficient_pos h G Hh HG d ltac:(lra)) as K0.
  set (t1 := t - 0.005) in *. set (t2 := t + 0.005) in *.
  assert (Et : t2 - t1 = 0.01) by (unfold t1, t2; lra).
  (* the flow over the chord *)
  assert (Fl : (t2 <= Ta /\ 0.01 * k d <= flow t2 - flow t1 <= 0.02 * k d) \/
               (d < 0.01 /\ 0 <= flow t2 - flow t1 <= 0.004)).
  { rewrite F1. destruct (Rle_dec t2 Ta) as [L|L].
    - left. split; [exact L|]. rewrite flow_left by lra. replace (Ta - t2) with (d - 0.01) by (unfold d; lra).
      assert (Hd' : 0 <= d - 0.01) by (unfold d; lra).
      pose proof (coefficient_mono h G Hh HG (d - 0.01) d ltac:(lra)) as M.
      pose proof (coefficient_sub h G Hh HG (d - 0.01) d ltac:(lra)) as Sb.
      pose proof (coefficient_pos h G Hh HG (d - 0.01) Hd') as P.
      set (k1 := k d) in *. set (k2 := k (d - 0.01)) in *. split.
      + assert (k2 * (d - 0.01) <= k1 * (d - 0.01)) by (apply Rmult_le_compat_r; lra). lra.
      + apply Rmult_le_reg_r with d; [exact Hd|].
        assert (k1 * (d - 0.01) * (d - 0.01) <= k2 * d * (d - 0.01)) by (apply Rmult_le_compat_r; lra). lra.
    - right. assert (Hd' : d < 0.01) by (unfold d; lra). split; [exact Hd'|].
      rewrite flow_right by lra. replace (t2 - Ta) with (0.01 - d) by (unfold d; lra).
      pose proof (coefficient_mono h G Hh HG (0.01 - d) dm ltac:(lra)) as M.
      pose proof (coefficient_pos h G Hh HG (0.01 - d) ltac:(lra)) as P.
      set (k1 := k d) in *. set (k2 := k (0.01 - d)) in *.
      assert (k1 * d <= 0.4 * d) by (apply Rmult_le_compat_r; lra).
      assert (k2 * (0.01 - d) <= 0.4 * (0.01 - d)) by (apply Rmult_le_compat_r; lra).
      assert (0 <= k1 * d) by (apply Rmult_le_pos; lra). assert (0 <= k2 * (0.01 - d)) by (apply Rmult_le_pos; lra). lra. }
  set (k1 := k d) in *. set (D := flow t2 - flow t1) in *.
  assert (HD : 0 <= D <= 0.008) by (destruct Fl as [[_ Fl]|[_ Fl]]; lra).
  assert (G1 : loss t1 = emitted t1 - k1 * d - A) by (unfold loss; rewrite F1; lra).
  assert (Gd : loss t2 - loss t1 = emitted t2 - emitted t1 + D) by (unfold loss, D; lra).
  assert (Kd0 : 0 <= k1 * d) by (apply Rmult_le_pos; lra).
  assert (Neg : loss t1 <= -0.779) by lra.
  assert (Lt : t1 < t').
  { apply Rnot_le_lt. intro L. assert (0 <= (t1 - t') * (loss t2 - loss t1)) by (apply Rmult_le_pos; lra). lra. }
  assert (St : (t' - t1) * (emitted t2 - emitted t1 + D) = (A - emitted t1 + k1 * d) * 0.01) by (rewrite <- Gd, G1 in *; lra).
  assert (Low : t1 + 0.7 <= t' \/ True) by (right; exact Logic.I).
  split; [|split; [split|]].
  - (* not small *)
    rewrite Em. rewrite Rabs_pos_eq.
    + assert (0.0069 * 0.7 <= c * - ((loss t1 + loss t2) / 2)) by (apply Rmult_le_compat; lra). lra.
    + assert (0 <= c * - ((loss t1 + loss t2) / 2)) by (apply Rmult_le_pos; lra). lra.
  - (* forward *)
    apply Rnot_lt_le. intro L.
    assert ((t' - t1) * (loss t2 - loss t1) <= 0.005 * (loss t2 - loss t1)) by (apply Rmult_le_compat_r; [lra|unfold t1; lra]). lra.
  - destruct (Rle_dec t' Ta) as [L|L]; [lra|].
    apply (overshoot t1 t' 27.72); [lra|lra|].
    assert (B : (t' - t1) * (emitted t2 - emitted t1) <= (27.72 - emitted t1) * 0.01).
    { destruct Fl as [[_ Fl]|[Fd _]].
      - assert ((t' - t1) * D >= d * (0.01 * k1)).
        { apply Rle_ge. apply Rmult_le_compat; try lra. unfold d. lra. }
        lra.
      - assert (k1 * d <= 0.4 * 0.01) by (apply Rmult_le_compat; lra).
        assert (0 <= (t' - t1) * D) by (apply Rmult_le_pos; lra). lra. }
    assert ((t' - t1) * (4 * emitted t1 * 0.01) <= (t' - t1) * (t1 * (emitted t2 - emitted t1))) by (apply Rmult_le_compat_l; lra).
    assert (t1 * ((t' - t1) * (emitted t2 - emitted t1)) <= t1 * ((27.72 - emitted t1) * 0.01)) by (apply Rmult_le_compat_l; lra).
    lra.
  - destruct Fl as [[_ Fl]|[Fd Fl]].
    + apply Rle_trans with (0.6204 * d - 0.7344); [|apply Rmax_r].
      enough (0.3796 * d + 0.7394 <= t' - t1) by (unfold d in *; lra).
      apply Rnot_lt_le. intro L.
      assert (X : (t' - t1) * (emitted t2 - emitted t1 + D) < (0.3796 * d + 0.7394) * (0.002535 + 0.02 * k1)).
      { apply Rle_lt_trans with ((t' - t1) * (0.002535 + 0.02 * k1)).
        - apply Rmult_le_compat_l; lra.
        - apply Rmult_lt_compat_r; lra. }
      assert (Y : 0 <= (0.4 - k1) * (2 * 0.779 - 0.2535 * d)) by (apply Rmult_le_pos; lra).
      assert (Z : 0 <= k1 * d) by lra.
      lra.
    + apply Rle_trans with 0; [|apply Rmax_l].
      enough (0.1 <= t' - t1) by (unfold d in *; lra).
      apply Rnot_lt_le. intro L.
      assert ((t' - t1) * (emitted t2 - emitted t1 + D) <= 0.1 * (0.002535 + 0.004)) by (apply Rmult_le_compat; lra). lra.
Qed.

Definition reach (j : nat) : R := match j with O => 0 | 1%nat => 1.18 | 2%nat => 3.08 | _ => 6.02 end.
Lemma phases j : (j <= 3)%nat -> forall n t, 205.99 <= t - 0.005 -> t <= 315 -> t <= r + 109.1 ->
  Ta - (t - 0.005) <= reach j -> Ta - (t - 0.005) <= dm ->
  exists T, newton (j + S n) rate t = Some T /\ r - 0.01 <= T <= r + 0.06 + 0.58 ^ n * 110.
Proof.
  induction j as [|j IH]; intros Hj n t H1 H2 H3 H4 H5.
  { cbn [reach] in H4. apply right_side; lra. }
  destruct (Rle_dec Ta (t - 0.005)) as [L|L].
  { replace (S j + S n)%nat with (S (S j + n)) by lia.
    destruct (right_side (S j + n) t L H1 H2 H3) as (T & E & HT). exists T. split; [exact E|].
    rewrite pow_add in HT. pose proof (pow_lt 0.58 n ltac:(lra)) as Pn.
    assert (Pj : 0 <= 0.58 ^ S j <= 1).
    { split; [apply pow_le; lra|]. rewrite <- (pow1 (S j)). apply pow_incr. lra. }
    assert (0.58 ^ S j * 0.58 ^ n <= 1 * 0.58 ^ n) by (apply Rmult_le_compat_r; lra). lra. }
  cbn [Nat.add newton].
  destruct (left_step t ltac:(lra) H5) as (t' & m & -> & Hm & Ht' & Hd).
  rewrite Rltb_false by lra.
  assert (Le : Ta - (t' - 0.005) <= reach j).
  { apply Rle_trans with (1 := Hd). apply Rmax_lub.
    - destruct j as [|[|[|]]]; cbn [reach]; lra.
    - destruct j as [|[|[|]]]; cbn [reach] in *; lra. }
  apply IH; [lia|lra|lra|lra|exact Le|lra].
Qed.
End Phases.

(** The whole search. *)
Lemma float_temperature j : (j <= 3)%nat -> (205.99 < Ta -> k (reach j) <= 0.4) -> Ta - 205.995 <= reach j ->
  exists T, newton 10 rate 206 = Some T /\ Ta + 0.29 <= T <= Ta + U + 0.06 + 0.58 ^ (9 - j) * 110.
Proof.
  intros Hj K2 Hd. destruct equilibrium as (r & Hr & Below & Above).
  set (dm := match j with O => 0.5 | S _ => reach j end).
  assert (X : exists T, newton (j + S (9 - j)) rate 206 = Some T /\ r - 0.01 <= T <= r + 0.06 + 0.58 ^ (9 - j) * 110).
  { destruct j as [|j].
    - apply right_side; cbn [reach] in Hd; assumption || lra.
    - apply (phases r Hr Below Above (reach (S j))); try assumption; try lra.
      destruct j as [|[|[|]]]; cbn [reach]; try lra. }
  replace (j + S (9 - j))%nat with 10%nat in X by lia.
  destruct X as (T & E & HT). exists T. split; [exact E|]. lra.
Qed.
End Equilibrium.
