(** Property C107: balloons made by create_balloon. *)
From Coq Require Import ZArith Reals Lra Lia.
From RecordUpdate Require Import RecordSet.
From Verif Require Import Model.Num Model.Safety Model.Balloon Model.Units Model.Geometry Model.Solar Model.SolarSearch
  Model.Atmosphere Model.StableInit Model.Env Model.CreateBalloon Model.Datetimes.
From Verif Require Import Spec.Envelope Spec.Buoyancy.
From Verif Require Import Proofs.NumR Proofs.RealSun Props.StableInitProps Props.AtmosphereProps Props.ResetProps Props.VehicleProps Props.RealSunProps Props.GeometryProps.
Import RecordSetNotations.
Open Scope R_scope.

(** What was asked for. *)
Definition as_asked (s : bstate R) (px py p power_percent : R) (now elapsed : Z) (layer : bool) (infrared : R) : Prop :=
  x s = px /\ y s = py /\ pressure s = p /\ date_time s = now /\ time_elapsed s = elapsed /\
  power_safety_layer_enabled s = layer /\ upwelling_infrared s = infrared /\
  battery_charge s / battery_capacity s = power_percent.

(** The state before a stable start. *)
Lemma created_before px py clat clng p pw time elapsed layer infrared center s :
  create_balloon px py clat clng p pw time elapsed layer false infrared None = Some (center, s) ->
  center = (clat * PI / 180, clng * PI / 180) /\
  as_asked s px py p pw (match time with Some t => t | None => 1364203532000000%Z end)
    (match elapsed with Some t => t | None => 0%Z end) layer infrared /\
  published_vehicle s /\ bstatus s = OK /\ last_command s = STAY /\
  envelope_layer s = ENominal /\ altitude_layer s = ANominal /\
  (exists sunrise sunset, let '(lat, lng) := calculate_latlng_from_offset center px py in
    get_next_sunrise_sunset (Rltb (Rabs (degrees lat)) 60) (-4.242)
      (fun t => fst (fst (solar_calculator lat lng t))) (date_time s) 180000000 = Some (sunrise, sunset) /\
    power_layer s = mkPow false (sunrise + 1800000000) sunset) /\
  ambient_temperature s = 206 /\ internal_temperature s = 206 /\ mols_air s = 0 /\ superpressure s = 0 /\
  envelope_volume s = 1804.
Proof.
  unfold create_balloon, new_state. set (c := (radians clat, radians clng)).
  destruct (latlng c px py) as [lat lng] eqn:El.
  set (now := match time with Some t => t | None => START_DATE_TIME end).
  destruct (get_next_sunrise_sunset _ _ _ now _) as [ss|] eqn:Es; [|discriminate].
  intro H. injection H as <- <-. split; [reflexivity|].
  assert (Cap : (3058.56 : R) <> 0) by lra.
  split; [|split; [|split; [reflexivity|split; [reflexivity|split; [reflexivity|split; [reflexivity|split]]]]]].
  - unfold as_asked. repeat (split; [reflexivity|]).
    cbn [battery_charge battery_capacity set default_state]. numR. field.
  - unfold published_vehicle. cbn [envelope_volume_base envelope_volume_dv_pressure envelope_cod
      acs_valve_hole_diameter daytime_power_load nighttime_power_load battery_capacity
      envelope_mass payload_mass mols_lift_gas envelope_max_superpressure set default_state]. numR. repeat split; lra.
  - exists (fst ss), (snd ss). unfold latlng in El. rewrite El. split; [|reflexivity].
    rewrite <- surjective_pairing, <- Es. reflexivity.
  - cbn [ambient_temperature internal_temperature mols_air superpressure envelope_volume set default_state]. numR.
    repeat split; lra.
Qed.

Lemma created_stable px py clat clng p pw time elapsed layer infrared atm center s :
  create_balloon px py clat clng p pw time elapsed layer true infrared atm = Some (center, s) ->
  exists a s0, atm = Some a /\
    create_balloon px py clat clng p pw time elapsed layer false infrared None = Some (center, s0) /\
    let '(lat, lng) := calculate_latlng_from_offset center px py in
    cold_start_to_stable_params s0 lat lng a = Some s.
Proof.
  unfold create_balloon. destruct (new_state _ _ _ _ _ _) as [s1|]; [|discriminate].
  destruct atm as [a|]; [|discriminate]. unfold latlng. destruct (calculate_latlng_from_offset _ px py) as [lat lng] eqn:El.
  destruct (cold_start_to_stable_params _ lat lng a) as [s2|] eqn:Ec; [|discriminate].
  intro H. injection H as <- <-. eexists a, _. split; [reflexivity|]. split; [reflexivity|]. rewrite El. exact Ec.
Qed.

(** A balloon that create_balloon answers is at the asked place, pressure and time (by
    default 2013-03-25 09:25:32 UTC), with that fraction of its battery charged; it is
    Google Loon's vehicle, in order, at rest, with all layers at their start. *)
Theorem C107_created : forall px py clat clng p pw time elapsed layer stable infrared atm center s,
  create_balloon px py clat clng p pw time elapsed layer stable infrared atm = Some (center, s) ->
  center = (clat * PI / 180, clng * PI / 180) /\
  as_asked s px py p pw (match time with Some t => t | None => 1364203532000000%Z end)
    (match elapsed with Some t => t | None => 0%Z end) layer infrared /\
  published_vehicle s /\ bstatus s = OK /\ last_command s = STAY /\
  envelope_layer s = ENominal /\ altitude_layer s = ANominal /\
  (exists sunrise sunset, let '(lat, lng) := calculate_latlng_from_offset center px py in
    get_next_sunrise_sunset (Rltb (Rabs (degrees lat)) 60) (-4.242)
      (fun t => fst (fst (solar_calculator lat lng t))) (date_time s) 180000000 = Some (sunrise, sunset) /\
    power_layer s = mkPow false (sunrise + 1800000000) sunset).
Proof.
  intros px py clat clng p pw time elapsed layer stable infrared atm center s H. destruct stable.
  - destruct (created_stable _ _ _ _ _ _ _ _ _ _ _ _ _ H) as (a & s0 & -> & H0 & C).
    destruct (created_before _ _ _ _ _ _ _ _ _ _ _ _ H0) as (Ec & As & V & St & Lc & Le & La & Pl & _).
    destruct (calculate_latlng_from_offset center px py) as [lat lng].
    unfold cold_start_to_stable_params in C.
    destruct (calculate_stable_params_for_pressure _ _ _ _ _ _ _ _ _ _ _) as [r|]; [|discriminate].
    injection C as <-. split; [exact Ec|]. split; [exact As|]. split; [exact V|]. split; [exact St|]. split; [exact Lc|].
    split; [exact Le|]. split; [exact La|]. exact Pl.
  - assert (H0 : create_balloon px py clat clng p pw time elapsed layer false infrared None = Some (center, s)) by exact H.
    destruct (created_before _ _ _ _ _ _ _ _ _ _ _ _ H0) as (Ec & As & V & St & Lc & Le & La & Pl & _).
    repeat (split; [assumption|]). exact Pl.
Qed.

(** The gas: with a stable start the envelope obeys the gas law, and the balloon weighs
    what the air it displaces weighs, if it is not too heavy already; without, it is as in a
    new BalloonState: 206 K, without ballast and superpressure. *)
Theorem C107_gas : forall px py clat clng p pw time elapsed layer infrared alpha atm center s, 0 <= alpha <= 1 ->
  (create_balloon px py clat clng p pw time elapsed layer true infrared (Some (atmosphere_reset alpha)) = Some (center, s) ->
     let displaced := displaced_mass p (ambient_temperature s) 1804 in
     (exists v, Atmosphere.at_pressure (atmosphere_reset alpha) p = Some v /\ ambient_temperature s = v_temperature v) /\
     0 <= mols_air s /\
     (total_mass 6830 0 68.5 92.5 <= displaced -> total_mass 6830 (mols_air s) 68.5 92.5 = displaced) /\
     (displaced < total_mass 6830 0 68.5 92.5 -> mols_air s = 0) /\
     envelope_law (6830 + mols_air s) (internal_temperature s) p 1804 0.0199 (envelope_volume s) (superpressure s)) /\
  (create_balloon px py clat clng p pw time elapsed layer false infrared atm = Some (center, s) ->
     ambient_temperature s = 206 /\ internal_temperature s = 206 /\ mols_air s = 0 /\ superpressure s = 0 /\
     envelope_volume s = 1804).
Proof.
  intros px py clat clng p pw time elapsed layer infrared alpha atm center s Ha. split.
  - intro H. destruct (created_stable _ _ _ _ _ _ _ _ _ _ _ _ _ H) as (a & s0 & Ea & H0 & C). injection Ea as <-.
    destruct (created_before _ _ _ _ _ _ _ _ _ _ _ _ H0) as (_ & As & V & _).
    destruct (calculate_latlng_from_offset center px py) as [lat lng].
    destruct V as (V1 & V2 & V3 & _ & _ & V6 & V7 & _). destruct As as (_ & _ & Ap & _).
    destruct (C56_cold_start s0 s lat lng alpha Ha ltac:(rewrite V1; lra) ltac:(rewrite V2; lra) C)
      as (At & P & M1 & M2 & L & _).
    rewrite V1, V3, V6, V7, Ap in M1, M2. rewrite V1, V2, V7, Ap in L. rewrite Ap in At. cbv zeta. split; [exact At|]. repeat split; assumption || apply L.
  - intro H. assert (H0 : create_balloon px py clat clng p pw time elapsed layer false infrared None = Some (center, s)) by exact H.
    now destruct (created_before _ _ _ _ _ _ _ _ _ _ _ _ H0) as (_ & _ & _ & _ & _ & _ & _ & _ & G).
Qed.

(** When it answers: without a stable start, for a time of the years 1970 to 2099, exactly
    if the balloon is less than 60 degrees from the equator. *)
Theorem C107_returns : forall px py clat clng p pw time elapsed layer infrared atm,
  let now := match time with Some t => t | None => 1364203532000000%Z end in
  (0 <= now)%Z -> (now + 86400000000 < 47541 * 86400000000)%Z ->
  (create_balloon px py clat clng p pw time elapsed layer false infrared atm <> None <->
   Rabs (degrees (fst (calculate_latlng_from_offset (clat * PI / 180, clng * PI / 180) px py))) < 60).
Proof.
  intros px py clat clng p pw time elapsed layer infrared atm now N1 N2.
  unfold create_balloon, new_state, latlng. change (radians clat, radians clng) with (clat * PI / 180, clng * PI / 180).
  change (match time with Some t => t | None => START_DATE_TIME end) with now.
  destruct (calculate_latlng_from_offset _ px py) as [lat lng]. cbn [fst].
  destruct (C74_search_answers lat lng now SEARCH_TIME_DELTA N1 N2 ltac:(reflexivity) ltac:(reflexivity)) as [A B].
  destruct (Rlt_dec (Rabs (degrees lat)) 60) as [L|L].
  - destruct (A L) as (r & s & E & _). rewrite E. split; [intros _; exact L|discriminate].
  - rewrite (B ltac:(lra)). split; [intro H; now contradict H|intro; contradiction].
Qed.

(** With one, it answers there for every time before 2100, every pressure that the
    atmosphere knows, up to that at sea level, and every infrared radiation of 225 to 350 W/m^2. *)
Theorem C107_stable_returns : forall px py clat clng p pw time elapsed layer infrared alpha,
  let now := match time with Some t => t | None => 1364203532000000%Z end in
  (0 <= now < 4102444800000000)%Z -> 0 <= alpha <= 1 -> 225 <= infrared <= 350 -> p <= 101325 ->
  (exists h v, at_height (atmosphere_reset alpha) h = Some v /\ v_pressure v = p) ->
  Rabs (degrees (fst (calculate_latlng_from_offset (clat * PI / 180, clng * PI / 180) px py))) < 60 ->
  exists s, create_balloon px py clat clng p pw time elapsed layer true infrared (Some (atmosphere_reset alpha))
    = Some ((clat * PI / 180, clng * PI / 180), s).
Proof.
  intros px py clat clng p pw time elapsed layer infrared alpha now N Ha Hi Hp Hv Hl.
  destruct (create_balloon px py clat clng p pw time elapsed layer false infrared None) as [[center s0]|] eqn:E0.
  2: { exfalso. revert E0. now apply C107_returns; [|unfold now in *; lia|]. }
  destruct (created_before _ _ _ _ _ _ _ _ _ _ _ _ E0) as (Ec & As & V & _).
  destruct As as (_ & _ & Ap & At & _ & _ & Ai & _). destruct V as (V1 & _ & V3 & _).
  destruct (Atmosphere.at_pressure (atmosphere_reset alpha) p) as [v|] eqn:Ev.
  2: { exfalso. revert Ev. apply (C15_pressure_then_height alpha p Ha). exact Hv. }
  destruct (calculate_latlng_from_offset (clat * PI / 180, clng * PI / 180) px py) as [lat lng] eqn:El.
  destruct (C65_cold_start s0 lat lng alpha v Ha) as (s & Es & _); rewrite ?Ap, ?At, ?Ai, ?V1, ?V3; try assumption; try lra.
  - change (-1 <= julian_century now <= 1).
    destruct (julian_century_value now) as (-> & _); [unfold in_years, us_per_day; lia|].
    assert (0 <= now / 1000000 < 4102444800)%Z as [A1 A2].
    { split; [apply Z.div_pos; lia|apply Z.div_lt_upper_bound; lia]. }
    apply IZR_le in A1. apply IZR_lt in A2. lra.
  - exists s. revert E0. unfold create_balloon. destruct (new_state _ _ _ _ _ _) as [s1|]; [|discriminate].
    intro E0. cbv zeta in E0 |- *.
    match type of E0 with Some (_, ?a) = _ => assert (Q : a = s0) by (apply (f_equal (fun o => match o with Some (_, b) => b | None => a end)) in E0; exact E0); rewrite Q end. unfold latlng.
    change (radians clat, radians clng) with (clat * PI / 180, clng * PI / 180). rewrite El, Es. reflexivity.
Qed.

(** "Creates a balloon object for easy testing": the default arguments should do.  They do
    not: they ask for a stable start without an atmosphere, which is refused whatever else
    is asked for. *)
Theorem C107_default_refuted : create_default_balloon = None /\
  forall px py clat clng p pw time elapsed layer infrared,
    create_balloon px py clat clng p pw time elapsed layer true infrared None = None.
Proof.
  split; [unfold create_default_balloon|intros]; unfold create_balloon; now destruct (new_state _ _ _ _ _ _).
Qed.

(** power_percent should be a percentage, or be checked.  It is neither: a balloon asked
    for with 95 has 95 times the charge that its battery can hold. *)
Theorem C107_percent_refuted : exists center s,
  create_balloon 0 0 0 0 7000 95 None None true false 250 None = Some (center, s) /\
  battery_charge s = 95 * battery_capacity s /\ battery_capacity s = 3058.56.
Proof.
  destruct (create_balloon 0 0 0 0 7000 95 None None true false 250 None) as [[center s]|] eqn:E.
  - exists center, s. split; [reflexivity|].
    destruct (C107_created _ _ _ _ _ _ _ _ _ _ _ _ _ _ E) as (_ & As & V & _).
    destruct V as (_ & _ & _ & _ & _ & _ & _ & _ & _ & _ & Cap). split; [|exact Cap].
    destruct As as (_ & _ & _ & _ & _ & _ & _ & Q). rewrite Cap in *. apply (f_equal (fun q => q * 3058.56)) in Q.
    unfold Rdiv in Q. rewrite Rmult_assoc, Rinv_l in Q by lra. lra.
  - exfalso. revert E. apply (C107_returns 0 0 0 0 7000 95 None None true 250 None ltac:(lia) ltac:(lia)).
    replace (0 * PI / 180) with 0 by field. rewrite C51_identity by (pose proof PI_RGT_0; lra). cbn [fst]. unfold degrees.
    replace (0 * 180 / PI) with 0 by (field; apply PI_neq0). rewrite Rabs_R0. lra.
Qed.

(** The default time is 25 March 2013, 09:25:32 UTC. *)
Example C107_witness : exists d, units_datetime 2013 3 25 9 25 32 0 None = Some d /\
  timestamp 0 d = 1364203532000000%Z.
Proof. eexists. split; [reflexivity|]. vm_compute. reflexivity. Qed.

Print Assumptions C107_created.
Print Assumptions C107_gas.
Print Assumptions C107_returns.
Print Assumptions C107_stable_returns.
Print Assumptions C107_default_refuted.
Print Assumptions C107_percent_refuted.
Print Assumptions C107_witness.
