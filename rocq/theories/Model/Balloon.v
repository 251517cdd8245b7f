(** Model of the balloon simulator: env/balloon/balloon.py.
    Paths are relative to /repo/balloon_learning_environment/.

    Quantities with units are stored as the number the unit class stores:
    Distance in metres, Power in watts, Energy in watt-hours (utils/units.py),
    datetime and timedelta as integer microseconds. *)
From Coq Require Import ZArith Bool List.
From RecordUpdate Require Import RecordSet.
From Verif Require Import Model.Num Model.Safety Model.Acs.
Import ListNotations RecordSetNotations.
Open Scope num_scope.

(** BalloonStatus: balloon.py:66-70. *)
Inductive status := OK | OUT_OF_POWER | BURST | ZEROPRESSURE.

(** status == BalloonStatus.OK: balloon.py:65-70, 288, 327. *)
Definition status_is_ok (s : status) : bool :=
  match s with OK => true | _ => false end.

(** Exceptions that can escape simulate_step. *)
Inductive exn :=
| AssertionError            (* one of the two asserts, or a library assert *)
| ZeroDivisionError         (* int % 0 *)
| LibraryError.             (* raised by at_pressure or the thermal model *)

Section Balloon.
Context {T : Type} {N : Num T}.

(** BalloonState: balloon.py:150-208.  [center_latlng] is represented by the
    oracle [sun] below (it never changes). *)
Record bstate := mkB {
  date_time : Z;
  time_elapsed : Z;
  envelope_volume_base : T;
  envelope_volume_dv_pressure : T;
  envelope_mass : T;
  envelope_max_superpressure : T;
  envelope_cod : T;
  payload_mass : T;
  nighttime_power_load : T;
  daytime_power_load : T;
  acs_valve_hole_diameter : T;
  battery_capacity : T;
  x : T;
  y : T;
  pressure : T;
  ambient_temperature : T;
  mols_lift_gas : T;
  mols_air : T;
  internal_temperature : T;
  envelope_volume : T;
  superpressure : T;
  acs_power : T;
  acs_mass_flow : T;
  solar_charging : T;
  power_load : T;
  battery_charge : T;
  last_command : command;
  bstatus : status;
  power_safety_layer_enabled : bool;
  power_layer : pow_state;
  envelope_layer : env_state;
  altitude_layer : alt_state;
  upwelling_infrared : T
}.

#[export] Instance etaB : Settable _ := settable! mkB
  <date_time; time_elapsed; envelope_volume_base; envelope_volume_dv_pressure;
   envelope_mass; envelope_max_superpressure; envelope_cod; payload_mass;
   nighttime_power_load; daytime_power_load; acs_valve_hole_diameter;
   battery_capacity; x; y; pressure; ambient_temperature; mols_lift_gas;
   mols_air; internal_temperature; envelope_volume; superpressure; acs_power;
   acs_mass_flow; solar_charging; power_load; battery_charge; last_command;
   bstatus; power_safety_layer_enabled; power_layer; envelope_layer;
   altitude_layer; upwelling_infrared>.

(** The outside world as seen by the step function.  Each component is a
    function parameter: theorems quantify over all of them. *)
Record world := mkWorld {
  (* atmosphere.at_pressure(p): (height in metres, temperature), or an
     exception: env/balloon/standard_atmosphere.py *)
  at_pressure : T -> option (T * T);
  (* solar.solar_calculator(latlng, date_time): (elevation, flux), where latlng
     is computed from x, y: balloon.py:217-220, 451-452 *)
  sun : T -> T -> Z -> T * T;
  (* thermal.d_balloon_temperature_dt with the arguments of balloon.py:462-465,
     or an exception *)
  d_temperature : T -> T -> T -> T -> T -> T -> T -> T -> option T;
  (* solar.solar_power(elevation, pressure).watts; it raises only for inputs
     that solar_atmospheric_attenuation refuses, and the thermal model has called
     that with the same inputs before in the same sub-step *)
  solar_power_fn : T -> T -> T
}.

(** utils/constants.py:23-28. *)
Definition GRAVITY : T := lit 980665 100000.
(** UNIVERSAL_GAS_CONSTANT: constants.py:26. *)
Definition UNIVERSAL_GAS_CONSTANT : T := lit 83144621 10000000.
(** DRY_AIR_MOLAR_MASS: constants.py:27. *)
Definition DRY_AIR_MOLAR_MASS : T := lit 28964922481160 1000000000000000.
(** HE_MOLAR_MASS: constants.py:28. *)
Definition HE_MOLAR_MASS : T := lit 4002602 1000000000.

(** solar.MIN_SOLAR_EL_DEG: env/balloon/solar.py. *)
Definition MIN_SOLAR_EL_DEG : T := nopp (lit 4242 1000).

(** BalloonState.battery_soc: balloon.py:222-229. *)
Definition battery_soc (s : bstate) : T := battery_charge s / battery_capacity s.

(** BalloonState.excess_energy: balloon.py:231-238. *)
Definition excess_energy (w : world) (s : bstate) : bool :=
  let el := fst (sun w (x s) (y s) (date_time s)) in
  let sp := solar_power_fn w el (pressure s) in
  (daytime_power_load s <? sp) && (lit 99 100 <? battery_soc s).

(** BalloonState.navigation_is_paused: balloon.py:240-245. *)
Definition navigation_is_paused (s : bstate) : bool :=
  pow_paused (power_layer s) || env_paused (envelope_layer s)
  || alt_paused (altitude_layer s).

(** BalloonState.pressure_ratio: balloon.py:247-250. *)
Definition pressure_ratio (s : bstate) : T :=
  let sp := pymax (superpressure s) (nofZ 0) in
  (pressure s + sp) / pressure s.

(** _clip: balloon.py:351-353.  On Energy objects only __gt__ exists; min/max
    then compare through the reflected operator, with the same outcome. *)
Definition clip (v lo hi : T) : T := pymin (pymax v lo) hi.

(** calculate_superpressure_and_volume: balloon.py:552-609;
    returns (envelope_volume, superpressure). *)
Definition calculate_superpressure_and_volume
    (mols_lift mols_a temp press v0 dv : T) : T * T :=
  let unconstrained :=
    (mols_lift + mols_a) * UNIVERSAL_GAS_CONSTANT * temp / press in
  if unconstrained <=? v0 then (unconstrained, nofZ 0)
  else
    let b := - (v0 - dv * press) in
    let c := - (dv * unconstrained * press) in
    let vol := lit 5 10 * (- b + nsqrt (b * b - nofZ 4 * c)) in
    (vol, press * unconstrained / vol - press).

(** ** _simulate_step_internal: balloon.py:356-549. *)

(** Step 2, balloon.py:412-445: the new ambient pressure. *)
Definition flight_system_mass (s : bstate) : T :=
  HE_MOLAR_MASS * mols_lift_gas s + DRY_AIR_MOLAR_MASS * mols_air s
  + envelope_mass s + payload_mass s.

(** rho_air: balloon.py:412-413. *)
Definition rho_air (s : bstate) : T :=
  (pressure s * DRY_AIR_MOLAR_MASS)
  / (UNIVERSAL_GAS_CONSTANT * ambient_temperature s).

(** direction: balloon.py:422-423. *)
Definition direction (s : bstate) : T :=
  if flight_system_mass s <=? rho_air s * envelope_volume s
  then nofZ 1 else nopp (nofZ 1).

(** dh_dt: balloon.py:415, 424-427. *)
Definition dh_dt (s : bstate) : T :=
  let drag := envelope_cod s * npow (envelope_volume s) (nofZ 2 / nofZ 3) in
  direction s *
  nsqrt (nabs (nofZ 2 * (rho_air s * envelope_volume s - flight_system_mass s)
               * GRAVITY / (rho_air s * drag))).

(** dp_dt and the pressure update: balloon.py:438-445.  [None]: at_pressure
    raised. *)
Definition next_pressure (w : world) (s : bstate) (stride : Z) : option T :=
  let dp := nofZ 1 in
  match at_pressure w (pressure s),
        at_pressure w (pressure s + direction s * dp) with
  | Some (h0, _), Some (h1, _) =>
      let dp_dh := direction s * dp / (h1 - h0) in
      let dp_dt := dp_dh * dh_dt s in
      Some (pressure s + dp_dt * total_seconds stride)
  | _, _ => None
  end.

(** Step 5, balloon.py:487-513: (acs_power, acs_mass_flow). *)
Definition acs_step (s : bstate) (a : command) : T * T :=
  match a with
  | UP =>
      let d := acs_valve_hole_diameter s in
      let valve_area := npi * (d * d) / nofZ 4 in
      let gas_density :=
        (superpressure s + pressure s) * DRY_AIR_MOLAR_MASS
        / (UNIVERSAL_GAS_CONSTANT * internal_temperature s) in
      (nofZ 0,
       nopp (nofZ 1) * lit 62 100 * valve_area
       * nsqrt (nofZ 2 * superpressure s * gas_density))
  | DOWN =>
      let p := get_most_efficient_power (pressure_ratio s) in
      let e := get_fan_efficiency (pressure_ratio s) p in
      (p, get_mass_flow p e)
  | STAY => (nofZ 0, nofZ 0)
  end.

(** The status entry of state_changes after steps 4 and 6 (absent = unchanged):
    balloon.py:479-482, 541-542. *)
Definition next_status (s : bstate) (new_sp new_charge : T) : status :=
  let st := bstatus s in
  let st := if envelope_max_superpressure s <? new_sp then BURST else st in
  let st := if new_sp <=? nofZ 0 then ZEROPRESSURE else st in
  if new_charge <=? nofZ 0 then OUT_OF_POWER else st.

(** The whole sub-step; [None] when at_pressure or the thermal model raises (nothing is changed then,
    the changes are collected in a dictionary first: balloon.py:382, 549). *)
Definition simulate_substep (w : world) (wind : T * T) (a : command)
    (stride : Z) (s : bstate) : option bstate :=
  match next_pressure w s stride, at_pressure w (pressure s) with
  | Some new_pressure, Some (_, new_ambient) =>
      let '(el, flux) := sun w (x s) (y s) (date_time s) in
      match
        d_temperature w (envelope_volume s) (envelope_mass s)
          (internal_temperature s) (ambient_temperature s) (pressure s)
          el flux (upwelling_infrared s) with
      | None => None
      | Some d_temp =>
      let '(new_vol, new_sp) :=
        calculate_superpressure_and_volume (mols_lift_gas s) (mols_air s)
          (internal_temperature s) (pressure s)
          (envelope_volume_base s) (envelope_volume_dv_pressure s) in
      let '(new_acs_power, new_flow) := acs_step s a in
      let new_mols :=
        pymax (mols_air s
               + new_flow / DRY_AIR_MOLAR_MASS * total_seconds stride)
              (nofZ 0) in
      let is_day := MIN_SOLAR_EL_DEG <? el in
      let charging :=
        if is_day then solar_power_fn w el (pressure s) else nofZ 0 in
      let load :=
        (if is_day then daytime_power_load s else nighttime_power_load s)
        + new_acs_power in
      let new_charge :=
        clip (battery_charge s
              + (charging - load) * timedelta_to_hours stride)
             (nofZ 0) (battery_capacity s) in
      Some
        (s <| x := x s + fst wind * total_seconds stride |>
           <| y := y s + snd wind * total_seconds stride |>
           <| pressure := new_pressure |>
           <| ambient_temperature := new_ambient |>
           <| internal_temperature :=
                internal_temperature s + d_temp * total_seconds stride |>
           <| envelope_volume := new_vol |>
           <| superpressure := new_sp |>
           <| acs_power := new_acs_power |>
           <| acs_mass_flow := new_flow |>
           <| mols_air := new_mols |>
           <| solar_charging := charging |>
           <| power_load := load |>
           <| battery_charge := new_charge |>
           <| bstatus := next_status s new_sp new_charge |>
           <| date_time := (date_time s + stride)%Z |>
           <| time_elapsed := (time_elapsed s + stride)%Z |>)
      end
  | _, _ => None
  end.

(** The loop of balloon.py:321-328: at most [n] sub-steps, stopping at the first
    one after which the status is not OK.  The boolean is true when a library call
    raised (the state is then the one before the failing sub-step). *)
Fixpoint substeps (w : world) (wind : T * T) (a : command) (stride : Z)
    (n : nat) (s : bstate) : bstate * bool :=
  match n with
  | O => (s, false)
  | S k =>
      match simulate_substep w wind a stride s with
      | None => (s, true)
      | Some s' =>
          if status_is_ok (bstatus s') then substeps w wind a stride k s'
          else (s', false)
      end
  end.

(** The three safety layers in order: balloon.py:304-313.  The result is the new
    layer states and the effective action, or an exception from at_pressure
    (altitude_safety.py:86), raised after the other two layers have moved. *)
Definition safety_layers (w : world) (a : command) (s : bstate)
  : bstate * option command :=
  let '(p', a1) :=
    if power_safety_layer_enabled s
    then pow_get_action (power_layer s) a (date_time s)
           (nighttime_power_load s) (battery_charge s) (battery_capacity s)
    else (power_layer s, a) in
  let '(e', a2) :=
    env_get_action (envelope_max_superpressure s) (envelope_layer s) a1
      (superpressure s) in
  let s1 := s <| power_layer := p' |> <| envelope_layer := e' |> in
  match at_pressure w (pressure s) with
  | None => (s1, None)
  | Some (altitude, _) =>
      let '(al', a3) := alt_get_action (altitude_layer s) a2 altitude in
      (s1 <| altitude_layer := al' |>, Some a3)
  end.

(** int(timedelta.total_seconds()): truncation towards zero. *)
Definition int_seconds (d : Z) : Z := Z.quot d us_per_second.

(** What a call of simulate_step ended with: the command that was executed, or
    an exception. *)
Inductive outcome := Executed (effective : command) | Raised (e : exn).

(** Balloon.simulate_step: balloon.py:263-328.
    [Executed a]: the call returned normally after running [a].  Python's
    % and // are floor division and modulo on ints, as Z's. *)
Definition simulate_step (w : world) (wind : T * T) (a : command)
    (time_delta stride : Z) (s : bstate) : bstate * outcome :=
  let s := s <| last_command := a |> in
  if negb (status_is_ok (bstatus s)) then (s, Raised AssertionError)
  else
    match safety_layers w a s with
    | (s, None) => (s, Raised LibraryError)
    | (s, Some eff) =>
        let outer := int_seconds time_delta in
        let inner := int_seconds stride in
        if Z.eqb inner 0 then (s, Raised ZeroDivisionError)
        else if negb (Z.eqb (outer mod inner) 0)
        then (s, Raised AssertionError)
        else
          match substeps w wind eff stride (Z.to_nat (outer / inner)) s with
          | (s, true) => (s, Raised LibraryError)
          | (s, false) => (s, Executed eff)
          end
    end.

(** Field defaults of BalloonState and __post_init__: balloon.py:153-215.
    [ss] is what get_next_sunrise_sunset returned for the initial position. *)
Definition default_state (now : Z) (ss : Z * Z) : bstate := {|
  date_time := now;
  time_elapsed := 0;
  envelope_volume_base := nofZ 1804;
  envelope_volume_dv_pressure := lit 199 10000;
  envelope_mass := lit 685 10;
  envelope_max_superpressure := nofZ 2380;
  envelope_cod := lit 25 100;
  payload_mass := lit 925 10;
  nighttime_power_load := lit 1837 10;
  daytime_power_load := lit 1204 10;
  acs_valve_hole_diameter := lit 4 100;
  battery_capacity := lit 305856 100;
  x := nofZ 0;
  y := nofZ 0;
  pressure := nofZ 6000;
  ambient_temperature := nofZ 206;
  mols_lift_gas := nofZ 6830;
  mols_air := nofZ 0;
  internal_temperature := nofZ 206;
  envelope_volume := nofZ 1804;
  superpressure := nofZ 0;
  acs_power := nofZ 0;
  acs_mass_flow := nofZ 0;
  solar_charging := nofZ 0;
  power_load := nofZ 0;
  battery_charge := lit 29056 10;
  last_command := STAY;
  bstatus := OK;
  power_safety_layer_enabled := true;
  power_layer := pow_init ss;
  envelope_layer := ENominal;
  altitude_layer := ANominal;
  upwelling_infrared := nofZ 250
|}.

End Balloon.

Arguments bstate T : clear implicits.
Arguments world T : clear implicits.
