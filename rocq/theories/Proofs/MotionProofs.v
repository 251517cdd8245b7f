(** A sub-step of the simulator is an Euler step of the equations of motion. *)
From Coq Require Import ZArith Reals Lra Lia Psatz Bool List.
From RecordUpdate Require Import RecordSet.
From Verif Require Import Model.Num Model.Safety Model.Acs Model.Balloon Model.Atmosphere Model.Geometry
  Model.Solar Model.Thermal Model.Env.
From Verif Require Import Spec.Envelope Spec.Buoyancy Spec.ThermalSpec Spec.TablesSpec Spec.Motion.
From Verif Require Import Proofs.NumR Proofs.AcsProofs Proofs.BalloonProofs Proofs.EnvelopeProofs Proofs.BuoyancyProofs
  Proofs.ThermalProofs Proofs.TablesProofs Proofs.SolarProofs
  Props.TablesProps Props.SolarProps Props.BalloonProps Props.ThermalProps Props.AtmosphereProps Props.VehicleProps.
Import ListNotations RecordSetNotations.
Open Scope R_scope.

(** ** Light *)
Lemma attenuation_sunlight el p a : solar_atmospheric_attenuation el p = Some a -> a = sunlight el p.
Proof.
  unfold solar_atmospheric_attenuation, sunlight.
  destruct (_ || _); [discriminate|]. destruct (_ || _); [discriminate|].
  unfold Solar.MIN_SOLAR_EL_DEG. destruct (Rltb_spec el (-4.242)); destruct (Rlt_dec el (-4.242)); try lra;
    intros [= <-]; [reflexivity|].
  unfold air_mass, radians. cbv zeta.
  replace ((614 * sin (el * PI / 180)) ^ 2) with (614 * sin (el * PI / 180) * (614 * sin (el * PI / 180))) by ring.
  replace (-0.65) with (- 0.65) by lra. replace (-0.95) with (- 0.95) by lra. lra.
Qed.
Lemma shadow_shading el h : balloon_shadow el h = shading el h.
Proof.
  unfold balloon_shadow, shading, degrees. cbv zeta.
  match goal with |- (if Rleb ?a ?b then _ else _) = _ => destruct (Rleb_spec a b), (Rle_dec a b); try lra end.
Qed.
Lemma power_panels el p w : solar_power el p = Some w -> w = panel_power el p.
Proof.
  unfold solar_power. destruct (solar_atmospheric_attenuation el p) as [a|] eqn:E; [|discriminate].
  intros [= <-]. rewrite (attenuation_sunlight _ _ _ E), !shadow_shading. reflexivity.
Qed.

(** ** Heat *)
Lemma pow_some x y v : Thermal.pow x y = Some v -> v = root x y /\ 0 <= x.
Proof.
  unfold Thermal.pow, root. destruct (Rltb_spec 0 x).
  - intros [= <-]. destruct (Req_EM_T x 0); [lra|]. split; [reflexivity|lra].
  - destruct (Reqb_spec x 0) as [->|]; [|discriminate]. intros [= <-].
    destruct (Req_EM_T 0 0); [|congruence]. split; [reflexivity|lra].
Qed.
Lemma convective_returned radius t ambient p c : convective_heat_air_factor radius t ambient p = Some c ->
  c = convection (2 * radius) ambient p (Rabs (ambient - t)) * (ambient - t).
Proof.
  unfold convective_heat_air_factor.
  replace 1.458e-6 with (1.458 / 10 ^ 6) by lra.
  replace 1.5 with (3 / 2) by lra. replace 0.9 with (9 / 10) by lra. replace 0.25 with (1 / 4) by lra.
  replace 3.25e-4 with 0.000325 by lra. replace 2.69e-8 with (2.69 / 10 ^ 8) by lra.
  destruct (Thermal.pow ambient (3 / 2)) as [a|] eqn:E1; [|discriminate].
  destruct (Thermal.pow (ambient / 273.15) (9 / 10)) as [b|] eqn:E2; [|discriminate].
  apply pow_some in E1. apply pow_some in E2. destruct E1 as [-> _], E2 as [-> _]. cbv zeta.
  fold (air_viscosity ambient). fold (air_conductivity ambient).
  change (p * T_AIR_MOLAR_MASS / (T_GAS_CONSTANT * ambient)) with (dry_air_density ambient p).
  change (0.804 - 0.000325 * ambient) with (air_prandtl ambient).
  set (D := 2 * radius). set (d := Rabs (ambient - t)).
  replace (air_prandtl ambient * (9.80665 * dry_air_density ambient p ^ 2 * D ^ 3 / (ambient * air_viscosity ambient ^ 2) * d))
    with (rayleigh_number D ambient p d)
    by (unfold rayleigh_number, grashof_number, Rdiv; ring).
  set (ra := rayleigh_number D ambient p d).
  destruct (Thermal.pow ra (1 / 4)) as [x|] eqn:E3; [|discriminate].
  destruct (Thermal.pow (1 + 2.69 / 10 ^ 8 * ra) (1 / 12)) as [z|] eqn:E4; [|discriminate].
  apply pow_some in E3. apply pow_some in E4. destruct E3 as [-> _], E4 as [-> _].
  intros [= <-]. reflexivity.
Qed.
Lemma emissive_warm t x : total_absorptivity (absorptivity_ir t) PE01_REFLECTIVITY = Some x -> 0 < t.
Proof.
  intro H. apply total_absorptivity_spec in H. destruct H as (_ & E & B).
  unfold eps, absorptivity_ir, PE01_REFLECTIVITY, PE01_ABSORPTIVITY_IR_BASE, PE01_ABSORPTIVITY_IR_D_TEMPERATURE,
    PE01_ABSORPTIVITY_IR_REF_TEMPERATURE in E.
  apply Rnot_le_lt. intro L. set (a := 0.04587 + 0.000232 * (t - 210)) in *.
  assert (A : a < 0) by (unfold a; lra). clearbody a.
  assert (Q : 0 < 1 + (1 - a - 0.0291) / (1 - 0.0291)).
  { assert (0 < (1 - a - 0.0291) / (1 - 0.0291)) by (apply Rdiv_lt_0_compat; lra). lra. }
  assert (a * (1 + (1 - a - 0.0291) / (1 - 0.0291)) < 0) by (apply Rmult_neg_pos; assumption). lra.
Qed.
Lemma heat_returned V m t ambient p el flux ir rate : 0 < V -> 0 < m ->
  d_balloon_temperature_dt V m t ambient p el flux ir = Some rate ->
  0 < t /\ (exists att, solar_atmospheric_attenuation el p = Some att) /\
  exists radius Te sun_share earth_share own_share,
    4 / 3 * PI * radius ^ 3 = V /\ 0 < radius /\ radiated Te = ir /\
    total_absorbed film_solar film_reflectivity sun_share /\
    total_absorbed (film_ir Te) film_reflectivity earth_share /\
    total_absorbed (film_ir t) film_reflectivity own_share /\
    1500 * m * rate = 4 * PI * radius ^ 2 *
      (0.25 * flux * sunlight el p * sun_share + 0.4605 * ir * earth_share
       + convection (2 * radius) ambient p (Rabs (ambient - t)) * (ambient - t)
       - radiated t * own_share).
Proof.
  intros HV Hm. unfold d_balloon_temperature_dt. pose proof PI_RGT_0 as Hpi.
  set (q := 3 * V / (4 * PI)). assert (Hq : 0 < q) by (unfold q; apply Rdiv_lt_0_compat; lra).
  rewrite pow_pos_some by exact Hq. set (radius := Rpower q (1 / 3)). assert (Hr : 0 < radius) by apply exp_pos.
  destruct (solar_atmospheric_attenuation el p) as [att|] eqn:Eatt; [|discriminate].
  destruct (total_absorptivity PE01_ABSORPTIVITY_SOLAR PE01_REFLECTIVITY) as [ss|] eqn:Es; [|discriminate].
  destruct (black_body_flux_to_temperature ir) as [Te|] eqn:Ee; [|discriminate].
  destruct (total_absorptivity (absorptivity_ir Te) PE01_REFLECTIVITY) as [es|] eqn:Ea; [|discriminate].
  destruct (total_absorptivity (absorptivity_ir t) PE01_REFLECTIVITY) as [os|] eqn:Eo; [|discriminate].
  destruct (convective_heat_air_factor radius t ambient p) as [c|] eqn:Ec; [|discriminate].
  intros [= <-]. split; [exact (emissive_warm _ _ Eo)|]. split; [now exists att|].
  exists radius, Te, ss, es, os.
  split. { unfold radius. rewrite cube_root by exact Hq. unfold q. field. lra. }
  split; [exact Hr|].
  destruct C55_black_body as (F1 & _ & _ & F4 & F5).
  split. { assert (H : 0 <= ir). { apply Rnot_lt_le. intro L. apply F5 in L. congruence. }
    destruct (F4 ir H) as (T & ET & _ & E). rewrite Ee in ET. injection ET as <-. now rewrite <- F1. }
  assert (Lim : forall a x, total_absorptivity a PE01_REFLECTIVITY = Some x -> total_absorbed a film_reflectivity x).
  { intros a x H. apply total_absorptivity_spec in H. destruct H as (_ & -> & _).
    change PE01_REFLECTIVITY with film_reflectivity. apply absorbed_limit. unfold film_reflectivity. lra. }
  split; [exact (Lim _ _ Es)|]. split; [exact (Lim _ _ Ea)|]. split; [exact (Lim _ _ Eo)|].
  rewrite (convective_returned _ _ _ _ _ Ec), (attenuation_sunlight _ _ _ Eatt), F1.
  unfold SOLAR_VIEW_FACTOR, EARTH_VIEW_FACTOR, PE01_FILM_SPECIFIC_HEAT.
  set (k := convection _ _ _ _). set (lt := sunlight el p). set (rt := radiated t).
  replace (1500 * m * ((flux * lt * 0.25 * (4 * PI * radius * radius) * ss +
      ir * 0.4605 * (4 * PI * radius * radius) * es +
      4 * PI * radius * radius * (k * (ambient - t)) - rt * (4 * PI * radius * radius) * os) / (1500 * m)))
    with (flux * lt * 0.25 * (4 * PI * radius * radius) * ss +
      ir * 0.4605 * (4 * PI * radius * radius) * es +
      4 * PI * radius * radius * (k * (ambient - t)) - rt * (4 * PI * radius * radius) * os) by (field; lra).
  ring.
Qed.

(** ** The fan *)
Lemma cell n lo step c : 0 < step -> lo <= c <= lo + step * INR (S n) ->
  exists i, (i < S n)%nat /\ 0 <= (c - (lo + step * INR i)) / step <= 1.
Proof.
  intros Hs. revert c. induction n as [|n IH]; intros c [H1 H2].
  - exists 0%nat. split; [lia|]. cbn [INR] in *.
    split; [apply Rmult_le_pos; [lra|left; apply Rinv_0_lt_compat; lra]|].
    apply Rmult_le_reg_r with step; [lra|]. unfold Rdiv. rewrite Rmult_assoc, Rinv_l by lra. lra.
  - rewrite S_INR in H2. destruct (Rle_dec c (lo + step * INR (S n))) as [L|G].
    + destruct (IH c (conj H1 L)) as (i & Hi & Hc). exists i. split; [lia|exact Hc].
    + exists (S n). split; [lia|]. split; [apply Rmult_le_pos; [lra|left; apply Rinv_0_lt_compat; lra]|].
      apply Rmult_le_reg_r with step; [lra|]. unfold Rdiv. rewrite Rmult_assoc, Rinv_l by lra. lra.
Qed.
Lemma efficiency_spec r w : fan_efficiency r w (get_fan_efficiency r w).
Proof.
  destruct (cell 11 1.05 0.025 (Rmax 1.05 (Rmin 1.35 r)) ltac:(lra)) as (i & Hi & Ha).
  { split; [apply Rmax_l|]. apply Rmax_lub; [cbn; lra|]. eapply Rle_trans; [apply Rmin_l|]. cbn. lra. }
  destruct (cell 2 100 100 (Rmax 100 (Rmin 400 w)) ltac:(lra)) as (j & Hj & Hb).
  { split; [apply Rmax_l|]. apply Rmax_lub; [cbn; lra|]. eapply Rle_trans; [apply Rmin_l|]. cbn. lra. }
  exists i, j. split; [exact Hi|]. split; [exact Hj|]. cbv zeta. split; [exact Ha|]. split; [exact Hb|].
  exact (C30_efficiency_is_bilinear r w i j Hi Hj Ha Hb).
Qed.

(** ** A sub-step *)
Definition condition_of (s : bstate R) : condition :=
  mkCondition (date_time s) (x s) (y s) (pressure s) (ambient_temperature s) (internal_temperature s)
    (mols_air s) (envelope_volume s) (superpressure s) (battery_charge s) (solar_charging s) (power_load s).
Definition control_of (c : command) : control :=
  match c with UP => vent | STAY => hold | DOWN => pump end.
(** The published vehicle in positive quantities of air and gas. *)
Definition airworthy (s : bstate R) : Prop :=
  published_vehicle s /\ power_safety_layer_enabled s = true /\
  0 < ambient_temperature s /\ 0 < envelope_volume s /\ 0 < 6830 + mols_air s.

Definition profile_of (atm : atmosphere) (p : R) : option (R * R) :=
  option_map (fun v => (v_height v, v_temperature v)) (Atmosphere.at_pressure atm p).
Definition sun_of (center : R * R) (px py : R) (t : Z) : R * R :=
  let '(lat, lng) := calculate_latlng_from_offset center px py in
  let '(el, _, flux) := solar_calculator lat lng t in (el, flux).
Lemma world_profile atm center p : Balloon.at_pressure (world_of atm center) p = profile_of atm p.
Proof. reflexivity. Qed.
Lemma world_sun atm center px py t : sun (world_of atm center) px py t = sun_of center px py t.
Proof. unfold world_of, sun_of, latlng. cbn [sun]. destruct (calculate_latlng_from_offset center px py). reflexivity. Qed.

Lemma profile_positive alpha p h t : 0 <= alpha <= 1 -> profile_of (atmosphere_reset alpha) p = Some (h, t) ->
  0 < p /\ 0 < t.
Proof.
  intros Ha. unfold profile_of. destruct (Atmosphere.at_pressure (atmosphere_reset alpha) p) as [v|] eqn:E; [|discriminate].
  intros [= _ <-]. destruct (C15_pressure_then_height alpha p Ha) as [_ R]. destruct (R v E) as [Ep Eh].
  destruct (C16_values_positive alpha _ v Ha Eh) as (Ht & Hp & _). lra.
Qed.

#[local] Opaque world_of.
Lemma substep_euler alpha center wind a s s' : 0 <= alpha <= 1 -> airworthy s ->
  let w := world_of (atmosphere_reset alpha) center in
  simulate_substep w wind a (10 * 1000000) s = Some s' ->
  airworthy s' /\
  ten_seconds (profile_of (atmosphere_reset alpha)) (sun_of center) (upwelling_infrared s) (fst wind) (snd wind)
    (control_of a) (condition_of s) (condition_of s').
Proof.
  intros Ha (Veh & En & Hamb & HV & Hn) w E.
  pose proof Veh as (V1 & V2 & V3 & V4 & V5 & V6 & V7 & V8 & V9 & V10 & V11).
  destruct (substep_fields _ _ _ _ _ _ E) as (np & h & amb & Hnp & Hat & Ef). cbv zeta in Ef.
  change (Balloon.at_pressure w (pressure s)) with (profile_of (atmosphere_reset alpha) (pressure s)) in Hat.
  destruct (profile_positive _ _ _ _ Ha Hat) as [Hp Hamb'].
  assert (Hair : airborne s) by (unfold airborne; rewrite V5; repeat split; lra).
  destruct (C14_pressure_change _ _ _ _ _ _ E Hair) as (v & dir & h0 & t0 & h1 & t1 & P1 & P2 & P3 & P4 & P5 & P6).
  destruct (C08_ballast_amount _ _ _ _ _ _ E) as (B1 & B2). cbv zeta in B1, B2.
  destruct (C07_energy_balance _ _ _ _ _ _ E ltac:(rewrite V11; lra)) as (E1 & E2 & E3 & _).
  assert (Law : envelope_law (mols_lift_gas s + mols_air s) (internal_temperature s) (pressure s)
    (envelope_volume_base s) (envelope_volume_dv_pressure s) (envelope_volume s') (superpressure s')).
  { pose proof (sv_law (mols_lift_gas s) (mols_air s) (internal_temperature s) (pressure s)
      (envelope_volume_base s) (envelope_volume_dv_pressure s) Hp ltac:(rewrite V1; lra) ltac:(rewrite V2; lra)) as L.
    destruct Ef as (_ & _ & _ & _ & _ & _ & _ & _ & _ & _ & _ & _ & _ & _ & _ & _ & _ & _ & _ & F1 & F2 & _).
    rewrite F1, F2. destruct (calculate_superpressure_and_volume _ _ _ _ _ _). exact L. }
  destruct Ef as (D1 & _ & G1 & G2 & G3 & G4 & G5 & G6 & G10 & G9 & G8 & G11 & X1 & X2 & _ & X3 & G7 & _
    & (dT & HdT & HT) & _ & _ & _ & _ & _ & _ & _ & _ & _ & G12 & _).
  change (d_temperature w) with d_balloon_temperature_dt in HdT.
  assert (Sun : sun w (x s) (y s) (date_time s) = sun_of center (x s) (y s) (date_time s)) by apply world_sun.
  rewrite Sun in *.
  rewrite V3 in HdT.
  assert (H68 : 0 < 68.5) by lra.
  destruct (heat_returned _ _ _ _ _ _ _ _ _ HV H68 HdT)
    as (Hwarm & (att & Eatt) & radius & Te & ss & es & os & R1 & R2 & R3 & R4 & R5 & R6 & R7).
  assert (HV' : 0 < envelope_volume s').
  { rewrite V7 in Law. unfold envelope_law in Law. assert (K : 0 < (6830 + mols_air s) * gas_constant * internal_temperature s).
    { apply Rmult_lt_0_compat; [|exact Hwarm]. apply Rmult_lt_0_compat; [exact Hn|unfold gas_constant; lra]. }
    destruct Law as [(_ & _ & L)|(L & _)]; [|rewrite V1 in L; lra].
    rewrite <- L in K. apply Rmult_lt_reg_l with (pressure s); [exact Hp|]. lra. }
  assert (Hm : 0 <= mols_air s') by (rewrite B1; apply Rmax_r).
  assert (Ten : IZR (10 * 1000000) / 1000000 = 10) by (change (10 * 1000000)%Z with 10000000%Z; lra).
  rewrite Ten in *.
  split.
  { unfold airworthy, published_vehicle. rewrite G1, G2, G3, G4, G5, G6, G7, G8, G9, G10, G11, G12, X3.
    repeat split; try assumption. lra. }
  unfold ten_seconds, condition_of. cbn [instant east north air_pressure air_temperature gas_temperature ballast
    volume overpressure energy charging load].
  unfold total_seconds, us_per_second in X1, X2, HT. numR. rewrite Ten in X1, X2, HT.
  split; [exact D1|]. split; [exact X1|]. split; [exact X2|].
  split.
  { unfold vertical. cbn [air_pressure air_temperature volume ballast]. rewrite V7, V3, V6, V5 in *.
    exists v, h0, t0, h1, t1. rewrite <- P2. split; [exact P1|]. split; [exact P3|]. split; [exact P4|]. split; [exact P5|exact P6]. }
  split.
  { unfold heating. cbn [air_pressure air_temperature volume gas_temperature east north instant].
    destruct (sun_of center (x s) (y s) (date_time s)) as [el flux]. cbn [fst snd] in *.
    exists radius, Te, ss, es, os. repeat (split; [assumption|]).
    rewrite HT. replace (internal_temperature s + dT * 10 - internal_temperature s) with (dT * 10) by ring.
    replace (1500 * 68.5 * (dT * 10)) with (10 * (1500 * 68.5 * dT)) by ring. rewrite R7. ring. }
  split. { rewrite V7, V1, V2 in Law. exact Law. }
  set (ratio := (pressure s + Rmax (superpressure s) 0) / pressure s) in *.
  set (flow := match a with UP => _ | STAY => 0 | DOWN => _ end) in B1.
  exists flow, (acs_power s'). split.
  { unfold air_flow, control_of. cbn [overpressure air_pressure gas_temperature].
    unfold flow. rewrite B2. destruct a.
    - fold ratio. split; [apply C30_power_curve|]. exists (get_fan_efficiency ratio (get_most_efficient_power ratio)).
      split; [apply efficiency_spec|reflexivity].
    - split; reflexivity.
    - split; [reflexivity|]. rewrite V8. replace (0.04 / 2) with 0.02 by lra. reflexivity. }
  split; [exact B1|].
  assert (Pow : solar_power_fn w (fst (sun_of center (x s) (y s) (date_time s))) (pressure s)
                = panel_power (fst (sun_of center (x s) (y s) (date_time s))) (pressure s)).
  { change (solar_power_fn w ?e ?p) with (match solar_power e p with Some q => q | None => 0 end).
    destruct (solar_power _ _) as [q|] eqn:Eq; [exact (power_panels _ _ _ Eq)|].
    unfold solar_power in Eq. rewrite Eatt in Eq. discriminate. }
  rewrite Pow in *. split; [exact E1|]. rewrite V9, V10 in E2. split; [exact E2|].
  rewrite E3, E1, E2, V9, V10, V11. replace (10 / 3600) with (10 / 3600) by lra. reflexivity.
Qed.
