(** The superpressure of the default balloon floating near the ends of its range. *)
From Coq Require Import ZArith Reals Lra Lia Psatz.
From Verif Require Import Model.Num Model.Balloon Model.Atmosphere Model.Solar Model.Thermal Model.StableInit
  Spec.Envelope Proofs.NumR Proofs.EnvelopeProofs Proofs.SolarProofs Proofs.FloatBalance Props.BalloonProps.
Open Scope R_scope.

(** Gas and air inside, as pressure per kelvin in the base volume. *)
Lemma filling p q Ta : p = q * Ta -> 0 < Ta ->
  exists z, 1.5104 <= z - q /\ (z - q <= 1.511 \/ z <= 31.479 /\ q <= 29.969) /\
    (6830 + initial_mols_air p 1804 68.5 92.5 6830 Ta) * gas_constant = z * 1804.
Proof.
  intros Hp HT. unfold initial_mols_air, gas_constant.
  set (mols := (p * DRY_AIR_MOLAR_MASS * 1804 / (UNIVERSAL_GAS_CONSTANT * Ta) - 68.5 - 92.5 - HE_MOLAR_MASS * 6830) / DRY_AIR_MOLAR_MASS).
  assert (E : mols * 8.3144621 = (q - (161 + 0.004002602 * 6830) * 8.3144621 / (0.028964922481160 * 1804)) * 1804).
  { unfold mols. rewrite Hp. unfold DRY_AIR_MOLAR_MASS, UNIVERSAL_GAS_CONSTANT, HE_MOLAR_MASS. numR.
    replace (q * Ta * (28964922481160 / 1000000000000000) * 1804 / (83144621 / 10000000 * Ta))
      with (q * (28964922481160 / 1000000000000000) * 1804 / (83144621 / 10000000)) by (field; lra).
    lra. }
  set (k := (161 + 0.004002602 * 6830) * 8.3144621 / (0.028964922481160 * 1804)) in *.
  assert (Hk : 29.9683 <= k <= 29.9684) by (unfold k; lra).
  exists (6830 * 8.3144621 / 1804 + Rmax mols 0 * 8.3144621 / 1804). 
  destruct (Rle_dec mols 0) as [L|L].
  - rewrite Rmax_right by lra. split; [|split; [right|]; lra].
    assert (mols * 8.3144621 <= 0) by lra. lra.
  - rewrite Rmax_left by lra. assert (0 < mols * 8.3144621) by lra.
    split; [lra|]. split; [left; lra|]. lra.
Qed.

Lemma superpressure_between p q Ta T n : p = q * Ta -> 176.7 <= Ta <= 212 -> 28.4 <= q <= 61 ->
  n = initial_mols_air p 1804 68.5 92.5 6830 Ta ->
  Ta + 0.29 <= T -> (q <= 32 /\ T <= Ta + 47.3 \/ 60 <= q /\ 189 <= Ta <= 208.2 /\ T <= Ta + 33.6) ->
  250 <= snd (calculate_superpressure_and_volume 6830 n T p 1804 0.0199) <= 2130.
Proof.
  intros Hp HTa Hq -> HT Hup. destruct (filling p q Ta Hp ltac:(lra)) as (z & Z1 & Z2 & Ez).
  assert (Pp : 0 < p) by (rewrite Hp; apply Rmult_lt_0_compat; lra).
  pose proof (C13_envelope_law 6830 (initial_mols_air p 1804 68.5 92.5 6830 Ta) T p 1804 0.0199 Pp ltac:(lra) ltac:(lra)) as H.
  destruct (calculate_superpressure_and_volume _ _ _ _ _ _) as [V sp]. cbn [snd]. destruct H as [L _].
  unfold envelope_law in L. rewrite Ez in L.
  (* pressure above ambient in the base volume *)
  set (d := T - Ta). assert (Hd : 0.29 <= d) by (unfold d; lra).
  assert (ET : T = Ta + d) by (unfold d; ring). clearbody d. rewrite ET in *. clear ET T.
  assert (Lo : 250 + 0.00276 * (p + 250) < z * (Ta + d) - p).
  { assert (q * Ta + 1.5104 * Ta <= z * Ta) by nra.
    assert (28.4 * 0.29 <= q * d) by (apply Rmult_le_compat; lra).
    assert (q * d + 1.5104 * d <= z * d) by nra.
    assert (p = q * Ta) by exact Hp.
    destruct Hup as [(Q & _)|(Q & QT & _)].
    - assert (q * Ta <= 32 * Ta) by (apply Rmult_le_compat_r; lra). lra.
    - assert (q * Ta <= 61 * Ta) by (apply Rmult_le_compat_r; lra).
      assert (60 * 0.29 <= q * d) by (apply Rmult_le_compat; lra). lra. }
  assert (Up : z * (Ta + d) - p < 2130 + 0.0234 * (p + 2130)).
  { destruct Hup as [(Q & Hd')|(Q & QT & Hd')].
    - destruct Z2 as [Z2|[Z2 Z3]].
      + assert (z * (Ta + d) <= (q + 1.511) * (Ta + d)) by (apply Rmult_le_compat_r; lra).
        assert (q * d <= 32 * 47.3) by (apply Rmult_le_compat; lra). lra.
      + assert (z * (Ta + d) <= 31.479 * (Ta + d)) by (apply Rmult_le_compat_r; lra).
        assert (28.4 * Ta <= q * Ta) by (apply Rmult_le_compat_r; lra). lra.
    - destruct Z2 as [Z2|[Z2 Z3]]; [|lra].
      assert (z * (Ta + d) <= (q + 1.511) * (Ta + d)) by (apply Rmult_le_compat_r; lra).
      assert (q * d <= 61 * 33.6) by (apply Rmult_le_compat; lra).
      assert (60 * Ta <= q * Ta) by (apply Rmult_le_compat_r; lra). lra. }
  assert (Ez' : z * 1804 * (Ta + d) = 1804 * (z * (Ta + d))) by ring. rewrite Ez' in L.
  set (x := z * (Ta + d)) in *. clearbody x.
  destruct L as [(L1 & L2 & L3)|(L1 & L2 & L3 & L4)].
  { exfalso. assert (p * V <= p * 1804) by (apply Rmult_le_compat_l; lra). lra. }
  rewrite L3 in L4. split; apply Rnot_lt_le; intro B.
  - assert ((p + sp) * (1804 + 0.0199 * sp) <= (p + 250) * (1804 + 0.0199 * 250)) by (apply Rmult_le_compat; lra). lra.
  - assert ((p + 2130) * (1804 + 0.0199 * 2130) <= (p + sp) * (1804 + 0.0199 * sp)) by (apply Rmult_le_compat; lra). lra.
Qed.

(** In equilibrium at the pressure [p]. *)
Lemma floats_safely atm p v lat lng now f :
  Atmosphere.at_pressure atm p = Some v -> v_pressure v = p ->
  -1 <= julian_century now <= 1 -> 225 <= f <= 315 ->
  let Ta := v_temperature v in let q := p / Ta in
  (176.7 <= Ta <= 212 /\ 28.4 <= q <= 32 \/ 189 <= Ta <= 208.2 /\ 60 <= q <= 61) ->
  exists r, calculate_stable_params_for_pressure p 1804 0.0199 68.5 92.5 6830 lat lng now f atm = Some r /\
    250 <= sp_superpressure r <= 2130.
Proof.
  intros Ev Ep Hj Hf Ta q H. unfold calculate_stable_params_for_pressure. rewrite Ev. fold Ta.
  pose proof (flux_range lat lng now Hj) as Fl. pose proof (solar_calculator_ranges lat lng now) as El.
  destruct (solar_calculator lat lng now) as [[el az] flux].
  assert (HTa : 176.7 <= Ta <= 212) by lra. assert (Hq : 28.4 <= q <= 61) by lra.
  assert (Hp : p = q * Ta) by (unfold q; field; lra).
  assert (X : exists T, newton 10 (fun t => d_balloon_temperature_dt 1804 68.5 t Ta p el flux f) 206 = Some T /\
    Ta + 0.29 <= T /\ (q <= 32 /\ T <= Ta + 47.3 \/ 60 <= q /\ 189 <= Ta <= 208.2 /\ T <= Ta + 33.6)).
  { destruct H as [[H1 H2]|[H1 H2]].
    - destruct (temperature_top Ta q p el flux f Hp ltac:(lra) ltac:(lra) Hf H1 H2) as (T & E & HT).
      exists T. split; [exact E|]. split; [lra|left; lra].
    - destruct (temperature_bottom Ta q p el flux f Hp ltac:(lra) ltac:(lra) Hf H1 H2) as (T & E & HT).
      exists T. split; [exact E|]. split; [lra|right; lra]. }
  destruct X as (T & -> & HT & HU).
  pose proof (superpressure_between p q Ta T _ Hp HTa Hq eq_refl HT HU) as S.
  destruct (calculate_superpressure_and_volume _ _ _ _ _ _) as [V sp]. cbn [snd] in S.
  eexists. split; [reflexivity|]. exact S.
Qed.
