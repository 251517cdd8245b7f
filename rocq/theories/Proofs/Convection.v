(** Convective heat in the rate of a cold start: the coefficient in closed form, and
    its growth with the temperature difference. *)
From Coq Require Import Reals Lra Lia Psatz.
From Verif Require Import Model.Num Model.Solar Model.Thermal Model.StableInit Spec.ThermalSpec
  Proofs.NumR Proofs.SolarProofs Proofs.ThermalProofs Proofs.ColdStart Proofs.NewtonConvex
  Props.ThermalProps.
Open Scope R_scope.

Definition get (o : option R) : R := match o with Some r => r | None => 0 end.
(** The Rayleigh number per kelvin, and the coefficient in W/(m^2 K). *)
Definition viscosity2 (ambient : R) : R := (1.458e-6) ^ 2 * ambient ^ 3 / (ambient + 110.4) ^ 2.
Definition rayleigh1 (radius ambient p : R) : R :=
  (0.804 - 3.25e-4 * ambient) *
  (9.80665 * (p * T_AIR_MOLAR_MASS / (T_GAS_CONSTANT * ambient)) ^ 2 * (2 * radius) ^ 3 /
   (ambient * viscosity2 ambient)).
Definition heat_scale (radius ambient : R) : R := 0.0241 * Rpower (ambient / 273.15) 0.9 / (2 * radius).
Definition coefficient (h G d : R) : R :=
  h * (2 + 0.457 * get (Thermal.pow (G * d) 0.25) + get (Thermal.pow (1 + 2.69e-8 * (G * d)) (1 / 12))).

Lemma convective_value radius ambient p t : 0 < radius -> 0 < ambient <= 2473 ->
  convective_heat_air_factor radius t ambient p =
  Some (coefficient (heat_scale radius ambient) (rayleigh1 radius ambient p) (Rabs (ambient - t)) * (ambient - t)).
Proof.
  intros Hr Ha. unfold convective_heat_air_factor.
  assert (Ha' : 0 < ambient / 273.15) by lra.
  rewrite (pow_pos_some ambient) by lra. rewrite (pow_pos_some (ambient / 273.15)) by lra.
  assert (Hv : (1.458e-6 * Rpower ambient 1.5 / (ambient + 110.4)) ^ 2 = viscosity2 ambient).
  { unfold viscosity2. assert (E : Rpower ambient 1.5 ^ 2 = ambient ^ 3).
    { rewrite <- Rpower_pow by apply exp_pos. rewrite Rpower_mult.
      replace (1.5 * INR 2) with (INR 3) by (cbn; lra). apply Rpower_pow. lra. }
    rewrite <- E. generalize 1.458e-6. intro w. field. lra. }
  rewrite Hv.
  set (d := Rabs (ambient - t)).
  set (q := 9.80665 * (p * T_AIR_MOLAR_MASS / (T_GAS_CONSTANT * ambient)) ^ 2 * (2 * radius) ^ 3 /
            (ambient * viscosity2 ambient)).
  replace ((0.804 - 3.25e-4 * ambient) * (q * d)) with (rayleigh1 radius ambient p * d)
    by (unfold rayleigh1; fold q; ring).
  set (G := rayleigh1 radius ambient p).
  assert (HG : 0 <= G).
  { unfold G, rayleigh1. apply Rmult_le_pos; [lra|]. fold q. unfold q. apply Rmult_le_pos.
    - apply Rmult_le_pos; [|apply pow_le; lra]. apply Rmult_le_pos; [lra|]. apply pow2_ge_0.
    - left. apply Rinv_0_lt_compat. apply Rmult_lt_0_compat; [lra|]. rewrite <- Hv. apply pow_lt.
      apply Rdiv_lt_0_compat; [|lra]. apply Rmult_lt_0_compat; [lra|apply exp_pos]. }
  assert (Hd : 0 <= d) by apply Rabs_pos.
  assert (HGd : 0 <= G * d) by (apply Rmult_le_pos; assumption).
  unfold coefficient.
  destruct (pow_defined (G * d) 0.25 HGd) as (r1 & E1). rewrite E1.
  destruct (pow_defined (1 + 2.69e-8 * (G * d)) (1 / 12) ltac:(lra)) as (r2 & E2). rewrite E2.
  cbn [get]. unfold heat_scale. f_equal. generalize 0.0241 0.457. intros. field. lra.
Qed.

(** ** The coefficient as a function of the difference *)
Lemma bernoulli n : forall w z, 0 <= w -> 0 <= z -> z ^ S n + INR (S n) * z ^ n * (w - z) <= w ^ S n.
Proof.
  induction n as [|n IH]; intros w z Hw Hz; [cbn; lra|].
  pose proof (IH w z Hw Hz) as I. pose proof (pow_le z n Hz) as Zn.
  assert (I' : (z ^ S n + INR (S n) * z ^ n * (w - z)) * w <= w ^ S n * w) by (apply Rmult_le_compat_r; lra).
  replace (w ^ S (S n)) with (w ^ S n * w) by (cbn; ring).
  enough (z ^ S (S n) + INR (S (S n)) * z ^ S n * (w - z) <= (z ^ S n + INR (S n) * z ^ n * (w - z)) * w) by lra.
  rewrite (S_INR (S n)). cbn [Rpow_def.pow]. set (i := INR (S n)).
  assert (Hi : 0 <= i) by apply pos_INR.
  assert (0 <= i * z ^ n * (w - z) ^ 2) by (apply Rmult_le_pos; [apply Rmult_le_pos; assumption|apply pow2_ge_0]).
  enough (E : (z * z ^ n + i * z ^ n * (w - z)) * w =
     z * (z * z ^ n) + (i + 1) * (z * z ^ n) * (w - z) + i * z ^ n * (w - z) ^ 2) by lra.
  ring.
Qed.

Lemma root4_spec x : 0 <= x -> 0 <= get (Thermal.pow x 0.25) /\ get (Thermal.pow x 0.25) ^ 4 = x.
Proof.
  intro H. destruct (pow_defined x 0.25 H) as (r & E). rewrite E. cbn [get].
  destruct (pow_some x 0.25 r ltac:(lra) E) as (_ & Hr & P & Z). split; [exact Hr|].
  destruct H as [H| <-]; [|rewrite (Z eq_refl); lra].
  destruct (P H) as [_ ->]. now apply root_fourth.
Qed.
Lemma root12_spec x : 1 <= x -> 1 <= get (Thermal.pow x (1 / 12)) /\ get (Thermal.pow x (1 / 12)) ^ 12 = x.
Proof.
  intro H. rewrite pow_pos_some by lra. cbn [get].
  assert (E : Rpower x (1 / 12) ^ 12 = x).
  { rewrite <- Rpower_pow by apply exp_pos. rewrite Rpower_mult.
    replace (1 / 12 * INR 12) with 1 by (cbn; lra). apply Rpower_1. lra. }
  split; [|exact E]. apply Rnot_lt_le. intro L.
  pose proof (exp_pos (1 / 12 * ln x)) as P. fold (Rpower x (1 / 12)) in P.
  set (w := Rpower x (1 / 12)) in *.
  assert (w ^ 12 <= w * 1).
  { replace (w ^ 12) with (w * w ^ 11) by ring. apply Rmult_le_compat_l; [lra|].
    rewrite <- (pow1 11). apply pow_incr. lra. }
  lra.
Qed.
Lemma pow_le_inv n x y : 0 <= x -> 0 <= y -> x ^ S n <= y ^ S n -> x <= y.
Proof.
  intros Hx Hy H. apply Rnot_lt_le. intro L.
  pose proof (pow_incr y x n ltac:(lra)) as I.
  assert (Hx' : 0 < x) by lra. pose proof (pow_lt x n Hx').
  cbn [Rpow_def.pow] in H. assert (y * y ^ n <= y * x ^ n) by (apply Rmult_le_compat_l; assumption). nra.
Qed.

Section Coefficient.
Context (h G : R).
Hypothesis Hh : 0 < h.
Hypothesis HG : 0 < G.
Let w (d : R) : R := get (Thermal.pow (G * d) 0.25).
Let v (d : R) : R := get (Thermal.pow (1 + 2.69e-8 * (G * d)) (1 / 12)).
Let e : R := 2.69e-8 * G.
Lemma e_pos : 0 < e.
Proof. unfold e. apply Rmult_lt_0_compat; lra. Qed.
Lemma w_spec d : 0 <= d -> 0 <= w d /\ w d ^ 4 = G * d.
Proof. intro H. apply root4_spec. apply Rmult_le_pos; lra. Qed.
Lemma v_spec d : 0 <= d -> 1 <= v d /\ v d ^ 12 = 1 + e * d.
Proof.
  intro H. pose proof (Rmult_le_pos G d ltac:(lra) H).
  destruct (root12_spec (1 + 2.69e-8 * (G * d)) ltac:(lra)) as [A B]. split; [exact A|].
  unfold v. rewrite B. unfold e. ring.
Qed.
Lemma w_mono d d' : 0 <= d <= d' -> w d <= w d'.
Proof.
  intro H. destruct (w_spec d ltac:(lra)) as [A A']. destruct (w_spec d' ltac:(lra)) as [B B'].
  apply (pow_le_inv 3); [exact A|exact B|]. rewrite A', B'. apply Rmult_le_compat_l; lra.
Qed.
Lemma v_mono d d' : 0 <= d <= d' -> v d <= v d'.
Proof.
  intro H. destruct (v_spec d ltac:(lra)) as [A A']. destruct (v_spec d' ltac:(lra)) as [B B'].
  apply (pow_le_inv 11); [lra|lra|]. rewrite A', B'. pose proof e_pos. nra.
Qed.

Lemma coefficient_pos d : 0 <= d -> 0 < coefficient h G d.
Proof.
  intro H. unfold coefficient. fold (w d). fold (v d). destruct (w_spec d H). destruct (v_spec d H).
  apply Rmult_lt_0_compat; lra.
Qed.
Lemma coefficient_mono d d' : 0 <= d <= d' -> coefficient h G d <= coefficient h G d'.
Proof.
  intro H. unfold coefficient. fold (w d). fold (v d). fold (w d'). fold (v d').
  pose proof (w_mono d d' H). pose proof (v_mono d d' H). apply Rmult_le_compat_l; lra.
Qed.
(** It grows at most in proportion. *)
Lemma coefficient_sub d d' : 0 <= d <= d' -> coefficient h G d' * d <= coefficient h G d * d'.
Proof.
  intro H. unfold coefficient. fold (w d). fold (v d). fold (w d'). fold (v d').
  destruct (w_spec d ltac:(lra)) as [A A']. destruct (w_spec d' ltac:(lra)) as [B B'].
  destruct (v_spec d ltac:(lra)) as [C C']. destruct (v_spec d' ltac:(lra)) as [D D'].
  pose proof (w_mono d d' H) as Mw. pose proof (v_mono d d' H) as Mv. pose proof e_pos as He.
  assert (W : w d' * d <= w d * d').
  { apply Rmult_le_reg_l with G; [exact HG|].
    replace (G * (w d' * d)) with (w d' * w d ^ 4) by (rewrite A'; ring).
    replace (G * (w d * d')) with (w d * w d' ^ 4) by (rewrite B'; ring).
    replace (w d' * w d ^ 4) with (w d * w d' * w d ^ 3) by ring.
    replace (w d * w d' ^ 4) with (w d * w d' * w d' ^ 3) by ring.
    apply Rmult_le_compat_l; [apply Rmult_le_pos; assumption|]. apply pow_incr. lra. }
  assert (V : v d' * d <= v d * d').
  { apply Rmult_le_reg_l with e; [exact He|].
    replace (e * (v d' * d)) with (v d' * (v d ^ 12 - 1)) by (rewrite C'; ring).
    replace (e * (v d * d')) with (v d * (v d' ^ 12 - 1)) by (rewrite D'; ring).
    assert (P : v d * v d' * v d ^ 11 <= v d * v d' * v d' ^ 11).
    { apply Rmult_le_compat_l; [apply Rmult_le_pos; lra|]. apply pow_incr. lra. }
    replace (v d' * (v d ^ 12 - 1)) with (v d * v d' * v d ^ 11 - v d') by ring.
    replace (v d * (v d' ^ 12 - 1)) with (v d * v d' * v d' ^ 11 - v d) by ring. lra. }
  assert (0 <= h * (w d * d' - w d' * d)) by (apply Rmult_le_pos; lra).
  assert (0 <= h * (v d * d' - v d' * d)) by (apply Rmult_le_pos; lra).
  assert (0 <= h * (d' - d)) by (apply Rmult_le_pos; lra). lra.
Qed.
(** The heat flow is convex in the difference. *)
Lemma flow_convex b : convex_on 0 b (fun d => coefficient h G d * d).
Proof.
  apply (convex_ext 0 b (fun d => h * 2 * d + (h * 0.457 * (d * w d) + h * (d * v d)))).
  { intros d _. unfold coefficient. fold (w d). fold (v d). ring. }
  apply convex_plus; [|apply convex_plus].
  - intros x y z _ _. lra.
  - apply convex_scale; [lra|]. apply (convex_tangent 0 b _ (fun y => 5 / 4 * w y)).
    intros x y Hx Hy. destruct (w_spec x ltac:(lra)) as [A A']. destruct (w_spec y ltac:(lra)) as [B B'].
    apply Rmult_le_reg_l with G; [exact HG|].
    replace (G * (y * w y + 5 / 4 * w y * (x - y))) with (w y ^ 4 * w y + 5 / 4 * w y * (w x ^ 4 - w y ^ 4))
      by (rewrite A', B'; ring).
    replace (G * (x * w x)) with (w x ^ 4 * w x) by (rewrite A'; ring).
    set (p := w x) in *. set (q := w y) in *.
    assert (0 <= (p - q) ^ 2 * (4 * p ^ 3 + 3 * p ^ 2 * q + 2 * p * q ^ 2 + q ^ 3)).
    { apply Rmult_le_pos; [apply pow2_ge_0|].
      assert (0 <= p ^ 3) by (apply pow_le; lra). assert (0 <= q ^ 3) by (apply pow_le; lra).
      assert (0 <= p ^ 2 * q) by (apply Rmult_le_pos; [apply pow_le|]; lra).
      assert (0 <= p * q ^ 2) by (apply Rmult_le_pos; [|apply pow_le]; lra). lra. }
    lra.
  - apply convex_scale; [lra|].
    apply (convex_tangent 0 b _ (fun y => (13 * v y ^ 12 - 1) / (12 * v y ^ 11))).
    intros x y Hx Hy. destruct (v_spec x ltac:(lra)) as [A A']. destruct (v_spec y ltac:(lra)) as [B B'].
    pose proof e_pos as He. set (p := v x) in *. set (q := v y) in *.
    assert (Q11 : 0 < q ^ 11) by (apply pow_lt; lra).
    assert (Ex : x = (p ^ 12 - 1) / e) by (rewrite A'; field; lra).
    assert (Ey : y = (q ^ 12 - 1) / e) by (rewrite B'; field; lra).
    apply Rmult_le_reg_l with (12 * q ^ 11 * e); [apply Rmult_lt_0_compat; lra|].
    replace (12 * q ^ 11 * e * (y * q + (13 * q ^ 12 - 1) / (12 * q ^ 11) * (x - y)))
      with (12 * q ^ 12 * (q ^ 12 - 1) + (13 * q ^ 12 - 1) * (p ^ 12 - q ^ 12))
      by (rewrite Ex, Ey; field; lra).
    replace (12 * q ^ 11 * e * (x * p)) with (12 * q ^ 11 * p * (p ^ 12 - 1)) by (rewrite Ex; field; lra).
    pose proof (bernoulli 11 p q ltac:(lra) ltac:(lra)) as B1.
    pose proof (bernoulli 12 q p ltac:(lra) ltac:(lra)) as B2.
    replace (INR 12) with 12 in B1 by (cbn; lra). replace (INR 13) with 13 in B2 by (cbn; lra).
    assert (B3 : 0 <= q ^ 11 * (q ^ 13 - (p ^ 13 + 13 * p ^ 12 * (q - p)))).
    { apply Rmult_le_pos; lra. }
    enough (E : 12 * q ^ 11 * p * (p ^ 12 - 1) - (12 * q ^ 12 * (q ^ 12 - 1) + (13 * q ^ 12 - 1) * (p ^ 12 - q ^ 12)) =
      q ^ 11 * (q ^ 13 - (p ^ 13 + 13 * p ^ 12 * (q - p))) + (p ^ 12 - (q ^ 12 + 12 * q ^ 11 * (p - q)))) by lra.
    ring.
Qed.
(** Bounds by a number. *)
Lemma coefficient_lower d k : 0 <= d -> 0 <= k -> k ^ 4 <= (0.457 * h) ^ 4 * (G * d) -> k <= coefficient h G d.
Proof.
  intros Hd Hk H. destruct (w_spec d Hd) as [A A']. destruct (v_spec d Hd) as [B _].
  assert (L : k <= 0.457 * h * w d).
  { apply (pow_le_inv 3); [exact Hk|apply Rmult_le_pos; lra|]. rewrite Rpow_mult_distr, A'. exact H. }
  unfold coefficient. fold (w d). fold (v d). nra.
Qed.
Lemma coefficient_upper d b w0 v0 k : 0 <= d -> h <= b -> 0 <= w0 -> 0 <= v0 -> G * d <= w0 ^ 4 ->
  1 + e * d <= v0 ^ 12 -> b * (2 + 0.457 * w0 + v0) <= k -> coefficient h G d <= k.
Proof.
  intros Hd Hb H0 H1 H2 H3 H4. destruct (w_spec d Hd) as [A A']. destruct (v_spec d Hd) as [B B'].
  assert (L : w d <= w0) by (apply (pow_le_inv 3); lra).
  assert (M : v d <= v0) by (apply (pow_le_inv 11); lra).
  unfold coefficient. fold (w d). fold (v d).
  assert (h * (2 + 0.457 * w d + v d) <= b * (2 + 0.457 * w0 + v0)) by (apply Rmult_le_compat; lra). lra.
Qed.
End Coefficient.
