(** The default balloon in equilibrium anywhere above the lowest altitude and below
    6500 Pa: gas temperature and superpressure. *)
From Coq Require Import ZArith Reals Lra Lia Psatz.
From Verif Require Import Model.Num Model.Balloon Model.Atmosphere Model.Solar Model.Thermal Model.StableInit
  Spec.Envelope Spec.AtmosphereSpec Proofs.NumR Proofs.AtmosphereProofs Proofs.EnvelopeProofs Proofs.SolarProofs Proofs.RangeProofs
  Proofs.ColdStart Proofs.Convection Proofs.FloatTemperature Proofs.FloatBalance Proofs.FloatPressure Proofs.FloatAtmosphere
  Props.BalloonProps Props.AtmosphereProps.
Open Scope R_scope.

Section Bands.
Context (Ta q p el sun f : R).
Hypothesis Hp : p = q * Ta.
Hypothesis Hel : -90 <= el <= 90.
Hypothesis Hsun : 0 <= sun <= 1432.
Hypothesis Hf : 225 <= f <= 315.
Local Notation rate := (default_rate Ta p el sun f).

Lemma reach_small q' : 28 <= q <= q' -> 176.7 <= Ta <= 212 -> q' <= 61 -> (Ta <= 208.2 \/ q' <= 47.7) ->
  exists j, (2 <= j <= 3)%nat /\ (Ta <= 208.2 -> j = 2%nat) /\
    (205.99 < Ta -> coefficient (heat_scale (ball_radius 1804) Ta) (rayleigh1 (ball_radius 1804) Ta p) (reach j) <= 0.4) /\
    Ta - 205.995 <= reach j.
Proof.
  intros Hq HTa Hq' H. assert (Q : 28 <= q <= 61) by lra.
  destruct (Rle_dec Ta 208.2) as [L|L].
  - exists 2%nat. split; [lia|]. split; [reflexivity|]. cbn [reach]. split; [|lra].
    apply (k_left Ta q p HTa Q Hp 61 3.08 570); lra.
  - exists 3%nat. split; [lia|]. split; [lra|]. cbn [reach]. split; [|lra].
    apply (k_left Ta q p HTa Q Hp 47.7 6.02 600); lra.
Qed.

Lemma band U qlo c4 e k T0 : 176.7 <= Ta <= 212 -> 28 <= qlo <= q -> q <= 61 -> (Ta <= 208.2 \/ q <= 47.7) ->
  1 <= U <= 45 -> 0 <= k -> 0 <= c4 <= 61500 -> e <= emitted (176.7 + U) -> 27.7 <= e + k * U ->
  k ^ 4 * 15.11 * 273.15 ^ 4 <= (0.457 * 0.0241) ^ 4 * 55.97e6 * c4 * qlo ^ 2 * U ->
  (Ta <= 208.2 -> U + 0.06 + 0.58 ^ 7 * 110 <= T0) -> (208.2 < Ta -> U + 0.06 + 0.58 ^ 6 * 110 <= T0) ->
  exists T, newton 10 rate 206 = Some T /\ Ta + 0.29 <= T <= Ta + T0.
Proof.
  intros HTa Hq Hq61 Hor HU Hk Hc4 He H27 Hkl H2 H3.
  assert (Q : 28 <= q <= 61) by lra.
  destruct (reach_small q ltac:(lra) HTa Hq61 Hor) as (j & Hj & Hj2 & K2 & Hr).
  apply (temperature_at Ta q p el sun f Hp Hel Hsun Hf U j); try assumption; try lia.
  - pose proof (emitted_mono (176.7 + U) (Ta + U) ltac:(lra) ltac:(lra) ltac:(lra)).
    assert (C : k <= coefficient (heat_scale (ball_radius 1804) Ta) (rayleigh1 (ball_radius 1804) Ta p) U).
    { apply (k_lower Ta q p HTa Q Hp c4); try lra.
      - pose proof (prandtl_rises Ta HTa 176.7 ltac:(lra)). lra.
      - apply Rle_trans with (1 := Hkl).
        assert (B : qlo ^ 2 <= q ^ 2) by (apply pow_incr; lra).
        apply Rmult_le_compat_r; [lra|]. apply Rmult_le_compat_l; [|exact B].
        apply Rmult_le_pos; [|lra]. lra. }
    assert (k * U <= coefficient (heat_scale (ball_radius 1804) Ta) (rayleigh1 (ball_radius 1804) Ta p) U * U)
      by (apply Rmult_le_compat_r; lra). lra.
  - destruct (Rle_dec Ta 208.2) as [L|L].
    + rewrite (Hj2 L). exact (H2 L).
    + assert (j = 2 \/ j = 3)%nat as [-> | ->] by lia; [|apply H3; lra].
      apply Rle_trans with (2 := H3 ltac:(lra)). cbn [Nat.sub].
      cbn. lra.
Qed.

Lemma start_temperature : 176.7 <= Ta <= 212 -> 28.4 <= q <= 61 -> (Ta <= 208.2 \/ q <= 47.7) ->
  exists T, newton 10 rate 206 = Some T /\ Ta + 0.29 <= T /\
    (q <= 40 /\ T <= Ta + 47.3 \/ 40 <= q <= 50 /\ T <= Ta + 43.3 \/ 50 <= q /\ Ta <= 208.2 /\ T <= Ta + 38.5).
Proof.
  intros HTa Hq Hor. destruct (Rle_dec q 40) as [L|L]; [|destruct (Rle_dec q 50) as [L5|L5]].
  - destruct (band 43 28.4 61500 12.39 0.357 47.3) as (T & E & B1 & B2); try lra.
    + replace (176.7 + 43) with 219.7 by lra. emit.
    + exists T. split; [exact E|]. split; [exact B1|]. left. lra.
  - destruct (band 39 40 61500 11.1 0.43 43.3) as (T & E & B1 & B2); try lra.
    + replace (176.7 + 39) with 215.7 by lra. emit.
    + exists T. split; [exact E|]. split; [exact B1|]. right. left. lra.
  - destruct (band 36 50 61500 10.5 0.48 38.5) as (T & E & B1 & B2); try lra.
    + replace (176.7 + 36) with 212.7 by lra. emit.
    + exists T. split; [exact E|]. split; [exact B1|]. right. right. lra.
Qed.
End Bands.

Lemma start_superpressure p q Ta T n : p = q * Ta -> 176.7 <= Ta <= 212 -> 30.6 <= q <= 61 ->
  n = initial_mols_air p 1804 68.5 92.5 6830 Ta -> Ta + 0.29 <= T ->
  (q <= 40 /\ T <= Ta + 47.3 \/ 40 <= q <= 50 /\ T <= Ta + 43.3 \/ 50 <= q /\ Ta <= 208.2 /\ T <= Ta + 38.5) ->
  250 <= snd (calculate_superpressure_and_volume 6830 n T p 1804 0.0199) <= 2379.
Proof.
  intros Hp HTa Hq -> HT Hup. destruct (filling p q Ta Hp ltac:(lra)) as (z & Z1 & Z2 & Ez).
  assert (Pp : 0 < p) by (rewrite Hp; apply Rmult_lt_0_compat; lra).
  pose proof (C13_envelope_law 6830 (initial_mols_air p 1804 68.5 92.5 6830 Ta) T p 1804 0.0199 Pp ltac:(lra) ltac:(lra)) as H.
  destruct (calculate_superpressure_and_volume _ _ _ _ _ _) as [V sp]. cbn [snd]. destruct H as [L _].
  unfold envelope_law in L. rewrite Ez in L.
  set (d := T - Ta). assert (Hd : 0.29 <= d) by (unfold d; lra).
  assert (ET : T = Ta + d) by (unfold d; ring). clearbody d. rewrite ET in *. clear ET T.
  destruct Z2 as [Z2|[Z2 Z3]]; [|lra].
  assert (P1 : 0 <= (q - 30.6) * (Ta - 176.7)) by (apply Rmult_le_pos; lra).
  assert (P2 : 0 <= (61 - q) * (Ta - 176.7)) by (apply Rmult_le_pos; lra).
  assert (P3 : 0 <= (61 - q) * (212 - Ta)) by (apply Rmult_le_pos; lra).
  assert (Lo : 250 + 0.00276 * (p + 250) < z * (Ta + d) - p).
  { assert (E1 : (q + 1.5104) * (Ta + 0.29) <= z * (Ta + d)) by (apply Rmult_le_compat; lra). lra. }
  assert (Up : z * (Ta + d) - p < 2379 + 0.0262 * (p + 2379)).
  { assert (E1 : z * (Ta + d) <= (q + 1.511) * (Ta + d)) by (apply Rmult_le_compat_r; lra).
    destruct Hup as [[Q Hd']|[[Q Hd']|(Q & QT & Hd')]].
    - assert (q * d <= 40 * 47.3) by (apply Rmult_le_compat; lra). lra.
    - assert (q * d <= 50 * 43.3) by (apply Rmult_le_compat; lra).
      assert (40 * 176.7 <= q * Ta) by (apply Rmult_le_compat; lra). lra.
    - assert (q * d <= q * 38.5) by (apply Rmult_le_compat_l; lra).
      assert (0 <= (61 - q) * (208.2 - Ta)) by (apply Rmult_le_pos; lra). lra. }
  assert (Ez' : z * 1804 * (Ta + d) = 1804 * (z * (Ta + d))) by ring. rewrite Ez' in L.
  set (x := z * (Ta + d)) in *. clearbody x.
  destruct L as [(L1 & L2 & L3)|(L1 & L2 & L3 & L4)].
  { exfalso. assert (p * V <= p * 1804) by (apply Rmult_le_compat_l; lra). lra. }
  rewrite L3 in L4. split; apply Rnot_lt_le; intro B.
  - assert ((p + sp) * (1804 + 0.0199 * sp) <= (p + 250) * (1804 + 0.0199 * 250)) by (apply Rmult_le_compat; lra). lra.
  - assert ((p + 2379) * (1804 + 0.0199 * 2379) <= (p + sp) * (1804 + 0.0199 * sp)) by (apply Rmult_le_compat; lra). lra.
Qed.

(** ** The air there *)
Lemma start_band alpha p v : 0 <= alpha <= 1 -> Atmosphere.at_pressure (atmosphere_reset alpha) p = Some v ->
  6500 <= p -> 15240 < v_height v ->
  176.7 <= v_temperature v <= 212 /\ 30.6 <= p / v_temperature v <= 61 /\
  (v_temperature v <= 208.2 \/ p / v_temperature v <= 47.7).
Proof.
  intros Ha Ev Hp Hh. set (atm := atmosphere_reset alpha) in *.
  assert (Get : forall h, -610 < h < 85000 -> exists w, at_height atm h = Some w).
  { intros h Hr. destruct (at_height atm h) eqn:X; [eauto|].
    exfalso. apply (proj2 (proj1 (C15_height_then_pressure alpha h Ha)) ltac:(lra)). exact X. }
  destruct (proj2 (C15_pressure_then_height alpha p Ha) v Ev) as [E1 E2]. fold atm in E2.
  destruct (C16_temperature_and_density _ _ _ Ha E2) as (ET & _).
  (* below 19820 m *)
  destruct (Get 19820 ltac:(lra)) as (vt & Et).
  pose proof (ratio_at_19820 alpha vt Ha Et) as Qt.
  destruct (C16_temperature_and_density _ _ _ Ha Et) as (ETt & _).
  pose proof (profile_band alpha 19820 Ha ltac:(lra)) as Tt. rewrite <- ETt in Tt.
  assert (Pt : v_pressure vt <= 28.39 * 212).
  { replace (v_pressure vt) with (v_pressure vt / v_temperature vt * v_temperature vt) by (field; lra).
    destruct (C16_values_positive _ _ _ Ha Et) as (_ & [Pv _] & _).
    apply Rmult_le_compat; try lra. apply Rmult_le_pos; [lra|]. left. apply Rinv_0_lt_compat. lra. }
  assert (Hhi : v_height v < 19820).
  { apply (C16_pressure_decreases alpha _ _ v vt Ha E2 Et). lra. }
  pose proof (profile_band alpha (v_height v) Ha ltac:(lra)) as Tv. rewrite <- ET in Tv.
  split; [exact Tv|].
  assert (Qlo : 30.6 <= p / v_temperature v).
  { apply Rmult_le_reg_r with (v_temperature v); [lra|]. unfold Rdiv. rewrite Rmult_assoc, Rinv_l by lra. lra. }
  (* above the lowest altitude *)
  destruct (Get (50000 * 0.3048) ltac:(lra)) as (vf & Ef). destruct (bottom_band alpha vf Ha Ef) as [Tf Qf].
  assert (Pf : p < v_pressure vf).
  { rewrite <- E1. apply (C16_pressure_decreases alpha _ _ vf v Ha Ef E2). lra. }
  pose proof (round_trip_height alpha Ha _ _ Ef) as Rf.
  pose proof (ratio_increases alpha _ _ _ _ Ha Ev Rf Pf) as Q. rewrite E1 in Q.
  split; [lra|].
  destruct (Rle_dec (v_height v) 17000) as [L|L].
  - left. rewrite ET, profile_first by lra. unfold lapse0.
    assert (alpha * (v_height v + 610) <= 1 * (v_height v + 610)) by (apply Rmult_le_compat; lra). lra.
  - right. destruct (Get 17000 ltac:(lra)) as (vm & Em). pose proof (ratio_at_17000 alpha vm Ha Em) as Qm.
    assert (Pm : p < v_pressure vm).
    { rewrite <- E1. apply (C16_pressure_decreases alpha _ _ vm v Ha Em E2). lra. }
    pose proof (round_trip_height alpha Ha _ _ Em) as Rm.
    pose proof (ratio_increases alpha _ _ _ _ Ha Ev Rm Pm) as Q'. rewrite E1 in Q'. lra.
Qed.

(** In equilibrium there. *)
Lemma start_params alpha p v lat lng now f : 0 <= alpha <= 1 ->
  Atmosphere.at_pressure (atmosphere_reset alpha) p = Some v -> 6500 <= p -> 15240 < v_height v ->
  -1 <= julian_century now <= 1 -> 225 <= f <= 315 ->
  exists r, calculate_stable_params_for_pressure p 1804 0.0199 68.5 92.5 6830 lat lng now f (atmosphere_reset alpha) = Some r /\
    250 <= sp_superpressure r <= 2379 /\
    v_temperature v + 0.29 <= sp_internal_temperature r <= v_temperature v + 47.3.
Proof.
  intros Ha Ev Hp Hh Hj Hf. destruct (start_band alpha p v Ha Ev Hp Hh) as (HTa & Hq & Hor).
  unfold calculate_stable_params_for_pressure. rewrite Ev.
  set (Ta := v_temperature v) in *. set (q := p / Ta) in *.
  pose proof (flux_range lat lng now Hj) as Fl. pose proof (solar_calculator_ranges lat lng now) as El.
  destruct (solar_calculator lat lng now) as [[el az] flux].
  assert (Pq : p = q * Ta) by (unfold q; field; lra).
  destruct (start_temperature Ta q p el flux f Pq ltac:(lra) ltac:(lra) Hf HTa ltac:(lra) Hor) as (T & E & HT & HU).
  unfold default_rate in E. rewrite E.
  pose proof (start_superpressure p q Ta T _ Pq HTa Hq eq_refl HT HU) as S.
  destruct (calculate_superpressure_and_volume _ _ _ _ _ _) as [V sp]. cbn [snd] in S.
  eexists. split; [reflexivity|]. cbn. split; [exact S|]. lra.
Qed.
