(** Property C56 (initialisation of the balloon). *)
From Coq Require Import Reals Lra Lia ZArith Psatz.
From Verif Require Import Model.Num Model.Safety Model.Acs Model.Balloon Model.Atmosphere
  Model.Solar Model.Thermal Model.StableInit
  Spec.Envelope Spec.Buoyancy Spec.ThermalSpec Spec.AtmosphereSpec
  Proofs.NumR Proofs.EnvelopeProofs Proofs.BuoyancyProofs Proofs.SolarProofs Proofs.ThermalProofs
  Props.AtmosphereProps Props.ThermalProps Props.SamplingProps.
From Verif Require Import Model.Sampling.
From RecordUpdate Require Import RecordSet.
Import RecordSetNotations.
Open Scope R_scope.

(** A cold start takes the ambient temperature from the atmosphere, adds the
    ballast that makes the balloon weigh what it displaces (none if it is too
    heavy already), inflates the envelope by the gas law, and touches nothing
    else. *)
Theorem C56_cold_start (s s' : bstate R) (lat lng alpha : R) :
  0 <= alpha <= 1 -> 0 < envelope_volume_base s -> 0 < envelope_volume_dv_pressure s ->
  cold_start_to_stable_params s lat lng (atmosphere_reset alpha) = Some s' ->
  let Ta := ambient_temperature s' in
  let displaced := displaced_mass (pressure s) Ta (envelope_volume_base s) in
  let mass n := total_mass (mols_lift_gas s) n (envelope_mass s) (payload_mass s) in
  (exists v, Atmosphere.at_pressure (atmosphere_reset alpha) (pressure s) = Some v /\ Ta = v_temperature v) /\
  0 <= mols_air s' /\
  (mass 0 <= displaced -> mass (mols_air s') = displaced) /\
  (displaced < mass 0 -> mols_air s' = 0) /\
  envelope_law (mols_lift_gas s + mols_air s') (internal_temperature s') (pressure s)
    (envelope_volume_base s) (envelope_volume_dv_pressure s) (envelope_volume s') (superpressure s') /\
  s' = {| date_time := date_time s; time_elapsed := time_elapsed s;
          envelope_volume_base := envelope_volume_base s;
          envelope_volume_dv_pressure := envelope_volume_dv_pressure s;
          envelope_mass := envelope_mass s;
          envelope_max_superpressure := envelope_max_superpressure s;
          envelope_cod := envelope_cod s; payload_mass := payload_mass s;
          nighttime_power_load := nighttime_power_load s;
          daytime_power_load := daytime_power_load s;
          acs_valve_hole_diameter := acs_valve_hole_diameter s;
          battery_capacity := battery_capacity s; x := x s; y := y s; pressure := pressure s;
          ambient_temperature := ambient_temperature s'; mols_lift_gas := mols_lift_gas s;
          mols_air := mols_air s'; internal_temperature := internal_temperature s';
          envelope_volume := envelope_volume s'; superpressure := superpressure s';
          acs_power := acs_power s; acs_mass_flow := acs_mass_flow s;
          solar_charging := solar_charging s; power_load := power_load s;
          battery_charge := battery_charge s; last_command := last_command s;
          bstatus := bstatus s; power_safety_layer_enabled := power_safety_layer_enabled s;
          power_layer := power_layer s; envelope_layer := envelope_layer s;
          altitude_layer := altitude_layer s; upwelling_infrared := upwelling_infrared s |}.
Proof.
  intros Ha Hv Hdv E. unfold cold_start_to_stable_params, calculate_stable_params_for_pressure in E.
  destruct (Atmosphere.at_pressure (atmosphere_reset alpha) (pressure s)) as [v|] eqn:Ev; [|discriminate].
  destruct (C15_pressure_then_height alpha (pressure s) Ha) as [_ R]. destruct (R v Ev) as [Ep Eh].
  destruct (C16_values_positive alpha _ v Ha Eh) as (Ht & Hp & _). rewrite Ep in Hp.
  destruct (solar_calculator lat lng (date_time s)) as [[el az] flux].
  destruct (newton 10 _ 206) as [ti|]; [|discriminate].
  set (m := initial_mols_air _ _ _ _ _ _) in E.
  pose proof (sv_law (mols_lift_gas s) m ti (pressure s) (envelope_volume_base s) (envelope_volume_dv_pressure s)
    ltac:(lra) Hv Hdv) as L.
  destruct (calculate_superpressure_and_volume (mols_lift_gas s) m ti (pressure s) (envelope_volume_base s)
    (envelope_volume_dv_pressure s)) as [V sp].
  injection E as E. cbv zeta.
  split. { exists v. split; [reflexivity|]. subst s'. reflexivity. }
  clear R Ep Eh Ev. subst s'. destruct s. cbn -[envelope_law displaced_mass total_mass initial_mols_air] in *.
  assert (D : displaced_mass pressure (v_temperature v) envelope_volume_base
              - total_mass mols_lift_gas 0 envelope_mass payload_mass =
              air_molar_mass * ((pressure * DRY_AIR_MOLAR_MASS * envelope_volume_base
                / (UNIVERSAL_GAS_CONSTANT * v_temperature v) - envelope_mass - payload_mass
                - HE_MOLAR_MASS * mols_lift_gas) / DRY_AIR_MOLAR_MASS)).
  { unfold displaced_mass, air_density, total_mass. rewrite M_air_eq, M_he_eq, gas_constant_eq.
    unfold air_molar_mass, helium_molar_mass, gas_constant. field. lra. }
  assert (Ma : 0 < air_molar_mass) by (unfold air_molar_mass; lra).
  assert (T0 : forall n, total_mass mols_lift_gas n envelope_mass payload_mass =
             total_mass mols_lift_gas 0 envelope_mass payload_mass + air_molar_mass * n)
    by (intro n; unfold total_mass; ring).
  unfold m, initial_mols_air in *.
  set (q := (_ - _) / DRY_AIR_MOLAR_MASS) in *. clearbody q.
  split; [apply Rmax_r|]. split; [|split; [|split; [exact L|reflexivity]]].
  - intro H. rewrite T0. rewrite Rmax_left by nra. lra.
  - intro H. apply Rmax_right. nra.
Qed.
Print Assumptions C56_cold_start.

(** The balance is struck at the base volume, so the new balloon is exactly
    neutral only if its envelope has exactly that volume; when it is taut the
    excess lift is that of the stretched part. *)
Theorem C56_excess_lift (s s' : bstate R) (lat lng alpha : R) :
  0 <= alpha <= 1 -> 0 < envelope_volume_base s -> 0 < envelope_volume_dv_pressure s ->
  cold_start_to_stable_params s lat lng (atmosphere_reset alpha) = Some s' ->
  let mass n := total_mass (mols_lift_gas s) n (envelope_mass s) (payload_mass s) in
  mass 0 <= displaced_mass (pressure s) (ambient_temperature s') (envelope_volume_base s) ->
  0 < superpressure s' ->
  displaced_mass (pressure s') (ambient_temperature s') (envelope_volume s') - mass (mols_air s') =
    air_density (pressure s) (ambient_temperature s') * (envelope_volume_dv_pressure s * superpressure s') /\
  mass (mols_air s') < displaced_mass (pressure s') (ambient_temperature s') (envelope_volume s').
Proof.
  intros Ha Hv Hdv E mass Hm Hsp.
  destruct (C56_cold_start s s' lat lng alpha Ha Hv Hdv E) as ((v & Ev & Et) & _ & B & _ & L & Es).
  assert (Ep : pressure s' = pressure s) by now rewrite Es.
  destruct (C15_pressure_then_height alpha (pressure s) Ha) as [_ R]. destruct (R v Ev) as [Ep' Eh].
  destruct (C16_values_positive alpha _ v Ha Eh) as (Ht & Hp & _). rewrite Ep' in Hp.
  destruct L as [(_ & Z & _)|(_ & _ & EV & _)]; [lra|].
  rewrite Ep. unfold mass. rewrite (B Hm).
  pose proof (density_pos (pressure s) (ambient_temperature s') ltac:(lra) ltac:(lra)) as Dp.
  unfold displaced_mass. rewrite EV.
  assert (0 < envelope_volume_dv_pressure s * superpressure s') by (apply Rmult_lt_0_compat; assumption).
  split; [ring|]. nra.
Qed.
Print Assumptions C56_excess_lift.

(** The temperature search: at most ten secant-slope corrections from 206 K,
    stopping after the first one whose mean rate was below 1e-5 K/s. *)
Theorem C56_search (rate : R -> option R) (t : R) : newton 10 rate 206 = Some t ->
  exists (n : nat) (T mean : nat -> R),
    (1 <= n <= 10)%nat /\ T 0%nat = 206 /\ T n = t /\
    (forall i, (i < n)%nat -> exists d1 d2,
       rate (T i - 0.005) = Some d1 /\ rate (T i + 0.005) = Some d2 /\ mean i = (d1 + d2) / 2 /\
       (d1 <> d2 -> T (S i) = T i - mean i * (0.01 / (d2 - d1))) /\ (d1 = d2 -> T (S i) = T i)) /\
    (forall i, (S i < n)%nat -> 1e-5 <= Rabs (mean i)) /\
    ((n < 10)%nat -> Rabs (mean (n - 1)%nat) < 1e-5).
Proof.
  assert (Main : forall m t0, newton (S m) rate t0 = Some t ->
    exists (n : nat) (T mean : nat -> R),
    (1 <= n <= S m)%nat /\ T 0%nat = t0 /\ T n = t /\
    (forall i, (i < n)%nat -> exists d1 d2,
       rate (T i - 0.005) = Some d1 /\ rate (T i + 0.005) = Some d2 /\ mean i = (d1 + d2) / 2 /\
       (d1 <> d2 -> T (S i) = T i - mean i * (0.01 / (d2 - d1))) /\ (d1 = d2 -> T (S i) = T i)) /\
    (forall i, (S i < n)%nat -> 1e-5 <= Rabs (mean i)) /\
    ((n < S m)%nat -> Rabs (mean (n - 1)%nat) < 1e-5)).
  { induction m as [|m IH]; intros t0 H.
    - cbn [newton] in H. destruct (newton_step rate t0) as [[t' mn]|] eqn:E; [|discriminate].
      assert (Et : t' = t) by (destruct (Rltb (Rabs mn) 1e-5); congruence). subst t'.
      exists 1%nat, (fun i => match i with O => t0 | _ => t end), (fun _ => mn).
      split; [lia|]. split; [reflexivity|]. split; [reflexivity|]. split; [|split; intros; lia].
      intros i Hi. assert (i = 0%nat) by lia. subst i. cbv iota beta.
      unfold newton_step, delta_temp in E.
      replace (0.01 / 2) with 0.005 in E by lra.
      destruct (rate (t0 - 0.005)) as [d1|]; [|discriminate]. destruct (rate (t0 + 0.005)) as [d2|]; [|discriminate].
      injection E as E1 E2. exists d1, d2. repeat split; try reflexivity; [symmetry; exact E2| |].
      + intro N. rewrite Rltb_true in E1.
        * rewrite <- E1, <- E2. field. lra.
        * apply Rabs_pos_lt. intro Z. apply N. assert (d2 - d1 = 0) by lra. lra.
      + intro Z. subst d2. rewrite Rltb_false in E1; [symmetry; exact E1|].
        replace ((d1 - d1) / 0.01) with 0 by lra. rewrite Rabs_R0. lra.
    - cbn [newton] in H. destruct (newton_step rate t0) as [[t' mn]|] eqn:E; [|discriminate].
      assert (S0 : exists d1 d2, rate (t0 - 0.005) = Some d1 /\ rate (t0 + 0.005) = Some d2 /\ mn = (d1 + d2) / 2 /\
       (d1 <> d2 -> t' = t0 - mn * (0.01 / (d2 - d1))) /\ (d1 = d2 -> t' = t0)).
      { unfold newton_step, delta_temp in E.
        replace (0.01 / 2) with 0.005 in E by lra.
        destruct (rate (t0 - 0.005)) as [d1|]; [|discriminate]. destruct (rate (t0 + 0.005)) as [d2|]; [|discriminate].
        injection E as E1 E2. exists d1, d2. repeat split; try reflexivity; [symmetry; exact E2| |].
        + intro N. rewrite Rltb_true in E1.
          * rewrite <- E1, <- E2. field. lra.
          * apply Rabs_pos_lt. intro Z. apply N. assert (d2 - d1 = 0) by lra. lra.
        + intro Z. subst d2. rewrite Rltb_false in E1; [symmetry; exact E1|].
          replace ((d1 - d1) / 0.01) with 0 by lra. rewrite Rabs_R0. lra. }
      destruct (Rltb_spec (Rabs mn) 1e-5) as [L|L].
      + injection H as <-. exists 1%nat, (fun i => match i with O => t0 | _ => t' end), (fun _ => mn).
        split; [lia|]. split; [reflexivity|]. split; [reflexivity|]. split; [|split; [intros; lia|intros _; exact L]].
        intros i Hi. assert (i = 0%nat) by lia. subst i. exact S0.
      + destruct (IH t' H) as (n & T & mean & Hn & T0 & Tn & St & Lo & La).
        exists (S n), (fun i => match i with O => t0 | S j => T j end), (fun i => match i with O => mn | S j => mean j end).
        split; [lia|]. split; [reflexivity|]. split; [exact Tn|]. split; [|split].
        * intros [|i] Hi; [rewrite T0; exact S0|]. apply St. lia.
        * intros [|i] Hi; [lra|]. apply Lo. lia.
        * intro Hl. destruct n as [|n]; [lia|]. cbn [Nat.sub]. specialize (La ltac:(lia)).
          cbn [Nat.sub] in La. rewrite Nat.sub_0_r in *. exact La. }
  exact (Main 9%nat 206).
Qed.
Print Assumptions C56_search.

(** Every correction goes towards the equilibrium temperature. *)
Theorem C56_search_direction (V m ambient p el sun Te T T' mean : R) :
  0 < V -> 0 < m -> 0 < ambient <= 2473 -> 0 <= p <= 101325 -> -90 <= el <= 90 -> 13 <= Te <= 4000 ->
  14 <= T <= 3999 ->
  let rate t := d_balloon_temperature_dt V m t ambient p el sun (radiated Te) in
  newton_step rate T <> None /\
  (newton_step rate T = Some (T', mean) ->
   forall equilibrium, 13 <= equilibrium <= 4000 -> rate equilibrium = Some 0 ->
     (T + 0.005 <= equilibrium -> T < T') /\ (equilibrium <= T - 0.005 -> T' < T)).
Proof.
  intros HV Hm Ha Hp Hel HTe HT rate.
  destruct (C55_heat_balance V m ambient p el sun Te HV Hm Ha Hp Hel HTe) as (r & att & es & film & _ & _ & _ & _ & _ & Q).
  destruct (Q (T - 0.005) ltac:(lra)) as (d1 & E1 & _). destruct (Q (T + 0.005) ltac:(lra)) as (d2 & E2 & _).
  fold (rate (T - 0.005)) in E1. fold (rate (T + 0.005)) in E2.
  unfold newton_step, delta_temp. replace (0.01 / 2) with 0.005 by lra. rewrite E1, E2. split; [discriminate|].
  assert (Lt : d2 < d1) by (apply (C55_stable_temperature V m ambient p el sun Te (T - 0.005) (T + 0.005) d1 d2);
    (lra || assumption)).
  rewrite Rltb_true by (apply Rabs_pos_lt; lra).
  intro E. injection E as E E'. intros eq Heq E0. subst mean T'.
  assert (St : forall t d, 13 <= t <= 4000 -> rate t = Some d -> t < eq <-> 0 < d).
  { intros t d Ht Et. apply (C55_stable_temperature V m ambient p el sun Te t eq d 0); assumption. }
  assert (St' : forall t d, 13 <= t <= 4000 -> rate t = Some d -> eq < t <-> d < 0).
  { intros t d Ht Et. apply (C55_stable_temperature V m ambient p el sun Te eq t 0 d); assumption. }
  assert (Sg : forall q, 0 < q -> q / ((d2 - d1) / 0.01) < 0).
  { intros q Hq. unfold Rdiv. assert (/ ((d2 - d1) * / 0.01) < 0) by (apply Rinv_lt_0_compat; lra). nra. }
  split; intro H.
  - assert (0 < d1) by (apply (St (T - 0.005) d1); [lra|assumption|lra]).
    assert (0 <= d2). { destruct (Rle_dec 0 d2); [assumption|]. exfalso.
      assert (eq < T + 0.005) by (apply (St' (T + 0.005) d2); [lra|assumption|lra]). lra. }
    specialize (Sg ((d1 + d2) / 2) ltac:(lra)). lra.
  - assert (d2 < 0) by (apply (St' (T + 0.005) d2); [lra|assumption|lra]).
    assert (d1 <= 0). { destruct (Rle_dec d1 0); [assumption|]. exfalso.
      assert (T - 0.005 < eq) by (apply (St (T - 0.005) d1); [lra|assumption|lra]). lra. }
    specialize (Sg (- (d1 + d2) / 2) ltac:(lra)). unfold Rdiv in *. lra.
Qed.
Print Assumptions C56_search_direction.

(** ** A cold start that succeeds: the default balloon at the height where the
    air of the alpha = 0 atmosphere has 206 K, at night. *)

(** At any instant it is night somewhere. *)
Lemma night_somewhere (t : Z) : exists lat lng,
  let '(el, _, _) := solar_calculator lat lng t in -90 <= el <= -28.
Proof.
  set (jc := julian_century t). set (d := declination_sun jc).
  set (lngd := (120 - 1440 * fraction_of_day t - degrees (equation_of_time jc)) / 4).
  exists (- d), (radians lngd). unfold solar_calculator. fold jc d.
  rewrite degrees_radians.
  assert (Hh : hour_angle jc (fraction_of_day t) lngd = - (PI - PI / 6)).
  { unfold hour_angle. replace (1440 * fraction_of_day t + degrees (equation_of_time jc) + 4 * lngd) with 120
      by (unfold lngd; field).
    assert (F : fmod 120 1440 = 120).
    { unfold fmod, Rtrunc. rewrite Rleb_true by lra.
      assert (I : Int_part (120 / 1440) = 0%Z).
      { destruct (base_Int_part (120 / 1440)) as [I1 I2].
        set (n := Int_part (120 / 1440)) in *. clearbody n.
        assert (IZR n < 1) by lra. assert (-1 < IZR n) by lra.
        apply lt_IZR in H. apply (lt_IZR (-1)) in H0. lia. }
      rewrite I. lra. }
    rewrite F. rewrite Rltb_false by (unfold radians; pose proof PI_bounds; lra).
    unfold radians. field. }
  rewrite Hh.
  assert (Hc : -1 <= sin (- d) * sin d + cos (- d) * cos d * cos (- (PI - PI / 6)) <= - (1 / 2)).
  { rewrite sin_neg, cos_neg, cos_neg, cos_minus, cos_PI, sin_PI.
    pose proof (sin2_cos2 d) as P1. unfold Rsqr in P1.
    assert (1 / 2 <= cos (PI / 6) <= 1).
    { split; [|apply COS_bound]. rewrite <- cos_PI3. pose proof PI_bounds. left. apply cos_decreasing_1; lra. }
    set (c := cos (PI / 6)) in *. clearbody c.
    assert (0 <= cos d * cos d) by nra. assert (0 <= sin d * sin d) by nra. split; nra. }
  unfold zenith_angle. set (c := sin (- d) * _ + _) in *. clearbody c.
  assert (Hz : PI - PI / 3 <= acos c <= PI).
  { split; [|apply acos_bound].
    destruct (Rle_dec (PI - PI / 3) (acos c)) as [G|G]; [exact G|]. exfalso.
    pose proof PI_bounds as Pb. pose proof (acos_bound c) as [A1 A2].
    assert (cos (PI - PI / 3) < cos (acos c)) by (apply cos_decreasing_1; lra).
    rewrite cos_acos in H by lra. rewrite cos_minus, cos_PI, sin_PI, cos_PI3 in H. lra. }
  assert (Hd : 120 <= degrees (acos c) <= 180).
  { destruct Hz as [Z1 Z2]. apply degrees_le in Z1, Z2. rewrite degrees_PI in Z2.
    replace (degrees (PI - PI / 3)) with 120 in Z1 by (unfold degrees; pose proof PI_bounds; field; lra). lra. }
  set (e0 := 90 - degrees (acos c)). assert (He0 : -90 <= e0 <= -30) by (unfold e0; lra). clearbody e0.
  pose proof (refraction_bounds e0 ltac:(lra)) as B. pose proof (refraction_low e0 ltac:(lra)) as L.
  split; [apply B|]. unfold atmospheric_refraction.
  rewrite (Rltb_false 85 e0), (Rltb_false 5 e0), (Rltb_false (-0.575) e0) by lra. lra.
Qed.

(** A ground temperature whose infrared balances the emission at 206 K. *)
Definition emission (T : R) : R := radiated T * eps (film_ir T) film_reflectivity.
Lemma balancing_ground : exists Te, 13 <= Te <= 4000 /\
  2 * (0.4605 * emission Te) = emission (206 - 0.005) + emission (206 + 0.005).
Proof.
  set (C := emission (206 - 0.005) + emission (206 + 0.005)).
  set (g := fun T => 2 * (0.4605 * (5.6704 / 10 ^ 8 * T ^ 4 *
      (film_ir T * (2 - film_ir T / (1 - film_reflectivity))))) - C).
  assert (Ee : forall T, emission T = 5.6704 / 10 ^ 8 * T ^ 4 * (film_ir T * (2 - film_ir T / (1 - film_reflectivity)))).
  { intro T. unfold emission, radiated. rewrite eps_closed by (unfold film_reflectivity; lra). reflexivity. }
  assert (Cv : C = 5.6704 / 10 ^ 8 * (206 - 0.005) ^ 4 * (film_ir (206 - 0.005) * (2 - film_ir (206 - 0.005) / (1 - film_reflectivity)))
    + 5.6704 / 10 ^ 8 * (206 + 0.005) ^ 4 * (film_ir (206 + 0.005) * (2 - film_ir (206 + 0.005) / (1 - film_reflectivity))))
    by (unfold C; now rewrite !Ee).
  unfold film_ir, film_reflectivity in Cv.
  destruct (IVT g 13 4000) as (Te & HTe & E).
  - unfold g, film_ir. intro T. reg.
  - lra.
  - unfold g, film_ir, film_reflectivity. lra.
  - unfold g, film_ir, film_reflectivity. lra.
  - exists Te. split; [exact HTe|]. rewrite Ee. unfold g in E. fold C. lra.
Qed.

Lemma limit_is_eps a x : total_absorbed a film_reflectivity x -> x = eps a film_reflectivity.
Proof.
  intro H. apply (UL_sequence (absorbed_within a film_reflectivity)); [exact H|].
  apply absorbed_limit. unfold film_reflectivity. lra.
Qed.

Example C56_witness : exists (s s' : bstate R) lat lng,
  cold_start_to_stable_params s lat lng (atmosphere_reset 0) = Some s' /\
  0 < envelope_volume_base s /\ 0 < envelope_volume_dv_pressure s /\
  total_mass (mols_lift_gas s) 0 (envelope_mass s) (payload_mass s)
    < displaced_mass (pressure s) (ambient_temperature s') (envelope_volume_base s) /\
  0 < mols_air s' /\ internal_temperature s' = 206.
Proof.
  destruct balancing_ground as (Te & HTe & Eq).
  set (now := 1356998400000000%Z). destruct (night_somewhere now) as (lat & lng & N).
  set (h := 94 / 0.007 - 610).
  assert (Hh : 12818 < h < 12819) by (unfold h; lra).
  destruct (at_height (atmosphere_reset 0) h) as [v|] eqn:Ev;
    [|exfalso; revert Ev; apply (C15_height_then_pressure 0 h ltac:(lra)); lra].
  destruct (C15_height_then_pressure 0 h ltac:(lra)) as [_ Rt]. destruct (Rt v Ev) as [_ Ap].
  destruct (C16_temperature_and_density 0 h v ltac:(lra) Ev) as (Tv & _).
  assert (T206 : v_temperature v = 206).
  { rewrite Tv. unfold temperature_profile, layers, gained, Rmin. cbn [List.map List.fold_right].
    repeat (destruct (Rle_dec _ _); try (exfalso; lra)). unfold h. lra. }
  destruct (floor_pressure 0 ltac:(lra)) as (vf & Ef & Hf).
  assert (Hlow : 6500 < v_pressure v).
  { assert (v_pressure vf < v_pressure v); [|lra].
    apply (C16_pressure_decreases 0 h MIN_ALTITUDE_M v vf ltac:(lra) Ev Ef). unfold MIN_ALTITUDE_M. lra. }
  assert (Hhigh : v_pressure v <= 101325).
  { unfold at_height in Ev. cbn [List.hd List.last HEIGHT_TRANSITIONS] in Ev.
    rewrite Rleb_true, Rltb_true in Ev by lra. cbn [negb] in Ev. unfold atmosphere_reset in Ev.
    cbn [lapse_rates temp_transitions press_transitions] in Ev.
    unfold mix_lapse_rates, LAPSE_RATES_LOW, LAPSE_RATES_HIGH in Ev.
    cbn [List.combine List.map fst snd] in Ev.
    set (l := (1 - 0) * -0.007 + 0 * -0.0058) in Ev. assert (El : l = -0.007) by (unfold l; lra). clearbody l. subst l.
    cbn [temperature_transitions pressure_transitions HEIGHT_TRANSITIONS at_height_loop] in Ev.
    rewrite Rltb_true in Ev by lra. unfold Reqb in Ev. destruct (Req_EM_T (-0.007) 0) as [E|_]; [exfalso; lra|].
    injection Ev as Ev. rewrite <- Ev. cbn [v_pressure].
    unfold pressure_for_linear_temperature, Rpower.
    replace ((300 + -0.007 * (h - -610)) / 300) with (206 / 300) by (unfold h; lra).
    assert (L : ln (206 / 300) <= 0) by (rewrite <- ln_1; apply ln_mono; lra).
    assert (K : 1 <= - A_GRAVITY / (A_GAS * -0.007)).
    { assert (Hg : 287 < A_GAS < 288) by (unfold A_GAS; lra). set (q := A_GAS) in *. clearbody q.
      unfold A_GRAVITY. replace (q * -0.007) with (- (q * 0.007)) by lra. unfold Rdiv at 1. rewrite Rinv_opp.
      apply Rmult_le_reg_r with (q * 0.007); [lra|].
      replace (- (9.80665) * - / (q * 0.007) * (q * 0.007)) with (9.80665 * (/ (q * 0.007) * (q * 0.007))) by ring.
      rewrite Rinv_l by lra. lra. }
    set (e := - A_GRAVITY / (A_GAS * -0.007)) in *. clearbody e.
    assert (X : exp (e * ln (206 / 300)) <= 206 / 300).
    { rewrite <- (exp_ln (206 / 300)) at 2 by lra.
      assert (Y : e * ln (206 / 300) <= ln (206 / 300)) by nra.
      destruct Y as [Y| ->]; [left; now apply exp_increasing|lra]. }
    lra. }
  set (s0 := default_state (T := R) now (0, 0)%Z).
  set (s := s0 <| pressure := v_pressure v |> <| upwelling_infrared := radiated Te |>).
  assert (Nw : newton 10 (fun t => d_balloon_temperature_dt 1804 68.5 t 206 (v_pressure v)
      (fst (fst (solar_calculator lat lng now))) (snd (solar_calculator lat lng now)) (radiated Te)) 206 = Some 206).
  { destruct (solar_calculator lat lng now) as [[el az] flux]. cbn [fst snd].
    destruct (C55_heat_balance 1804 68.5 206 (v_pressure v) el flux Te ltac:(lra) ltac:(lra) ltac:(lra) ltac:(lra)
      ltac:(lra) HTe) as (r & att & es & film & Er & Eatt & _ & Efilm & Kp & Q).
    assert (Z : att = 0).
    { unfold solar_atmospheric_attenuation in Eatt.
      rewrite (Rltb_false 90 el), (Rltb_false el (-90)), (Rltb_false 101325), (Rltb_false (v_pressure v) 0) in Eatt by lra.
      cbn [orb] in Eatt. rewrite (Rltb_true el) in Eatt by (unfold MIN_SOLAR_EL_DEG; lra). congruence. }
    destruct (Q (206 - 0.005) ltac:(lra)) as (d1 & E1 & B1). destruct (Q (206 + 0.005) ltac:(lra)) as (d2 & E2 & B2).
    assert (F : forall T, 13 <= T <= 4000 -> radiated T * film T = emission T).
    { intros T HT. unfold emission. f_equal. apply limit_is_eps. now apply Efilm. }
    assert (Sum : d1 + d2 = 0).
    { rewrite Z in B1, B2.
      replace (206 - (206 - 0.005)) with 0.005 in B1 by lra. replace (206 - (206 + 0.005)) with (Ropp 0.005) in B2 by lra.
      rewrite Rabs_Ropp in B2. set (kk := convection (2 * r) 206 (v_pressure v) (Rabs 0.005)) in B1, B2. clearbody kk.
      assert (S : 1500 * 68.5 * (d1 + d2) = 4 * PI * r ^ 2 *
        (2 * (0.4605 * (radiated Te * film Te)) - (radiated (206 - 0.005) * film (206 - 0.005)
           + radiated (206 + 0.005) * film (206 + 0.005)))).
      { rewrite Rmult_plus_distr_l, B1, B2. ring. }
      rewrite !F in S by lra. rewrite Eq in S.
      rewrite Rminus_diag_eq, Rmult_0_r in S by reflexivity. lra. }
    assert (St : newton_step (fun t => d_balloon_temperature_dt 1804 68.5 t 206 (v_pressure v) el flux (radiated Te)) 206
                 = Some (206, 0)).
    { unfold newton_step, delta_temp. replace (0.01 / 2) with 0.005 by lra. rewrite E1, E2, Sum.
      f_equal. f_equal; [|lra]. destruct (Rltb 0 _); [|reflexivity]. unfold Rdiv. rewrite !Rmult_0_l. lra. }
    cbn [newton]. rewrite St. rewrite Rltb_true by (rewrite Rabs_R0; lra). reflexivity. }
  assert (Vb : envelope_volume_base s = 1804) by reflexivity.
  assert (Me : envelope_mass s = 68.5) by (change (685 / 10 = 68.5); lra).
  assert (Mp : payload_mass s = 92.5) by (change (925 / 10 = 92.5); lra).
  assert (Ml : mols_lift_gas s = 6830) by reflexivity.
  assert (Dv : envelope_volume_dv_pressure s = 0.0199) by (change (199 / 10000 = 0.0199); lra).
  assert (Ps : pressure s = v_pressure v) by reflexivity.
  assert (Us : upwelling_infrared s = radiated Te) by reflexivity.
  assert (Ns : date_time s = now) by reflexivity.
  assert (E : exists s', cold_start_to_stable_params s lat lng (atmosphere_reset 0) = Some s' /\
    internal_temperature s' = 206).
  { unfold cold_start_to_stable_params, calculate_stable_params_for_pressure.
    rewrite Ps, Ap, Ns, Vb, Me, Us, T206.
    destruct (solar_calculator lat lng now) as [[el az] flux]. cbn [fst snd] in Nw. rewrite Nw.
    destruct (calculate_superpressure_and_volume _ _ _ _ _ _) as [V sp].
    eexists. split; [reflexivity|]. reflexivity. }
  destruct E as (s' & E & Ti). exists s, s', lat, lng. split; [exact E|].
  assert (V0 : 0 < envelope_volume_base s) by lra. assert (D0 : 0 < envelope_volume_dv_pressure s) by lra.
  destruct (C56_cold_start s s' lat lng 0 ltac:(lra) V0 D0 E) as ((v' & Ev' & Ta) & M0 & Ma & _ & _).
  rewrite Ps, Ap in Ev'. injection Ev' as <-. rewrite T206 in Ta.
  assert (Heavy : total_mass (mols_lift_gas s) 0 (envelope_mass s) (payload_mass s)
    < displaced_mass (pressure s) (ambient_temperature s') (envelope_volume_base s)).
  { rewrite Ta, Vb, Me, Mp, Ml, Ps. unfold total_mass, displaced_mass, air_density, helium_molar_mass, air_molar_mass, gas_constant.
    apply Rlt_trans with (6500 * 0.028964922481160 / (8.3144621 * 206) * 1804); [lra|].
    apply Rmult_lt_compat_r; [lra|]. apply Rmult_lt_compat_r; [apply Rinv_0_lt_compat; lra|]. lra. }
  split; [exact V0|]. split; [exact D0|]. split; [exact Heavy|]. split; [|exact Ti].
  specialize (Ma (Rlt_le _ _ Heavy)). rewrite <- Ma in Heavy. unfold total_mass, air_molar_mass in Heavy. lra.
Qed.
