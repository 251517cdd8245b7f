(** Property C63, continued: which vehicle every episode starts with, and how its
    safety layers are set. *)
From Coq Require Import ZArith Reals Lra Lia Psatz Bool List.
From RecordUpdate Require Import RecordSet.
From Verif Require Import Model.Num Model.Prng Model.Safety Model.Balloon Model.Atmosphere
  Model.Geometry Model.Solar Model.SolarSearch Model.Thermal Model.StableInit Model.Sampling
  Model.WindField Model.Env
  Proofs.NumR Proofs.EnvProofs.
Import ListNotations RecordSetNotations.
Open Scope R_scope.
#[local] Opaque initialize_balloon Sampling.sample_time atmosphere_reset simulate_step world_of.

(** The published vehicle: 1804 m^3 envelope of 68.5 kg that stretches 0.0199 m^3/Pa
    and bursts at 2380 Pa, 92.5 kg payload, 6830 mol of helium, a 4 cm valve, loads
    of 120.4 W by day and 183.7 W by night, 3058.56 Wh battery. *)
Definition published_vehicle (s : bstate R) : Prop :=
  envelope_volume_base s = 1804 /\ envelope_volume_dv_pressure s = 0.0199 /\ envelope_mass s = 68.5 /\
  envelope_max_superpressure s = 2380 /\ envelope_cod s = 0.25 /\ payload_mass s = 92.5 /\
  mols_lift_gas s = 6830 /\ acs_valve_hole_diameter s = 0.04 /\
  daytime_power_load s = 120.4 /\ nighttime_power_load s = 183.7 /\ battery_capacity s = 3058.56.

(** All safety layers on and none of them pausing; the power layer expects the
    night from the sunset that follows the start, until half an hour after the
    sunrise that follows the start. *)
Definition layers_set (center : R * R) (s : bstate R) : Prop :=
  power_safety_layer_enabled s = true /\ envelope_layer s = ENominal /\ altitude_layer s = ANominal /\
  let '(lat, lng) := calculate_latlng_from_offset center (x s) (y s) in
  exists sunrise sunset,
    get_next_sunrise_sunset (Rltb (Rabs (degrees lat)) 60) (-4.242)
      (fun time => fst (fst (solar_calculator lat lng time))) (date_time s) (180 * 1000000)
      = Some (sunrise, sunset) /\
    power_layer s = mkPow false (sunrise + 1800 * 1000000) sunset.

Lemma cold_start_keeps s0 la ln atm s : cold_start_to_stable_params s0 la ln atm = Some s ->
  forall center,
  (published_vehicle s0 -> published_vehicle s) /\ (layers_set center s0 -> layers_set center s) /\
  acs_power s = acs_power s0 /\ acs_mass_flow s = acs_mass_flow s0 /\ solar_charging s = solar_charging s0 /\
  power_load s = power_load s0.
Proof.
  unfold cold_start_to_stable_params. destruct (calculate_stable_params_for_pressure _ _ _ _ _ _ _ _ _ _ _) as [r|]; [|discriminate].
  intros E center. injection E as <-. split; [exact (fun D => D)|]. split; [exact (fun D => D)|]. repeat split.
Qed.

Lemma initialize_vehicle (P : prng) draws rng atm now center s :
  initialize_balloon P draws rng atm now = Some (center, s) ->
  published_vehicle s /\ layers_set center s /\
  acs_power s = 0 /\ acs_mass_flow s = 0 /\ solar_charging s = 0 /\ power_load s = 0.
Proof.
  intros E. Transparent initialize_balloon. unfold initialize_balloon in E. Opaque initialize_balloon.
  destruct (sample_location P _) as [lat lng].
  destruct (sample_pressure P _ _) as [p|]; [|discriminate].
  destruct (sample_upwelling_infrared P draws LogitNormal _) as [ir| |]; try discriminate.
  set (px := cos _ * _) in E. set (py := sin _ * _) in E. clearbody px py.
  unfold new_state in E. destruct (latlng _ px py) as [la ln] eqn:El.
  destruct (SolarSearch.get_next_sunrise_sunset _ _ _ _ _) as [ss|] eqn:Es; [|discriminate].
  cbn -[cold_start_to_stable_params default_state] in E.
  set (s0 := _ : bstate R) in E.
  destruct (cold_start_to_stable_params s0 la ln atm) as [s1|] eqn:Ec; [|discriminate].
  injection E as E1 E2. subst s1 center.
  destruct (cold_start_keeps _ _ _ _ _ Ec (radians lat, radians lng)) as (G1 & G2 & G3 & G4 & G5 & G6). clear Ec.
  assert (D : published_vehicle s0).
  { unfold published_vehicle, s0. cbn [envelope_volume_base envelope_volume_dv_pressure envelope_cod
      acs_valve_hole_diameter daytime_power_load nighttime_power_load battery_capacity
      envelope_mass payload_mass mols_lift_gas envelope_max_superpressure set default_state]. numR. repeat split; lra. }
  assert (L : layers_set (radians lat, radians lng) s0).
  { unfold layers_set. assert (X : x s0 = px) by reflexivity. assert (Y : y s0 = py) by reflexivity.
    assert (N : date_time s0 = now) by reflexivity. rewrite X, Y, N.
    split; [reflexivity|]. split; [reflexivity|]. split; [reflexivity|].
    unfold latlng in El. rewrite El. exists (fst ss), (snd ss).
    split; [|reflexivity]. rewrite <- surjective_pairing, <- Es.
    replace (180 * 1000000)%Z with SEARCH_TIME_DELTA by reflexivity.
    replace (-4.242) with Solar.MIN_SOLAR_EL_DEG by (unfold Solar.MIN_SOLAR_EL_DEG; lra). reflexivity. }
  rewrite G3, G4, G5, G6. split; [exact (G1 D)|]. split; [exact (G2 L)|].
  repeat split; reflexivity.
Qed.

Theorem C63_vehicle : forall (P : prng) noise4d (F : forecaster P) (FC : feature_class P F) draws
    (e e' : env P F FC) seed o i,
  env_reset P noise4d F FC draws e seed = (e', Returned (o, i)) ->
  exists center s,
    a_balloon P F FC (e_arena P F FC e') = Some (center, s) /\
    published_vehicle s /\ layers_set center s /\
    acs_power s = 0 /\ acs_mass_flow s = 0 /\ solar_charging s = 0 /\ power_load s = 0.
Proof.
  intros P noise4d F FC draws e e' seed o i E. unfold env_reset in E.
  set (e1 := match seed with Some z => _ | None => _ end) in E. clearbody e1.
  set (k := split P (e_rng P F FC e1) 2 1) in E. cbn -[arena_reset get_info] in E.
  unfold arena_reset in E. cbn -[get_info observe_and_get_features] in E.
  destruct (initialize_balloon _ _ _ _ _) as [[center s]|] eqn:Ei; [|discriminate].
  pose proof (initialize_vehicle P _ _ _ _ _ _ Ei) as V.
  destruct (negb _); [discriminate|].
  destruct (fc_new _ _ _ _ _) as [f|]; [|discriminate].
  match type of E with context [observe_and_get_features P noise4d F FC ?b] => set (a1 := b) in E end.
  pose proof (observe_balloon P noise4d F FC a1) as Hob.
  destruct (observe_and_get_features P noise4d F FC a1) as [a2 [o2|]]; [|discriminate].
  cbn [fst] in Hob. change (a_balloon P F FC a1) with (Some (center, s)) in Hob.
  rewrite Hob in E. injection E as <- <- <-.
  exists center, s. split; [exact Hob|exact V].
Qed.
Print Assumptions C63_vehicle.
