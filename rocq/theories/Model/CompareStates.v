(** Model of utils/test_helpers.py: compare_balloon_states, the comparison that decides
    whether two balloons are in the same state.  Paths are relative to
    /repo/balloon_learning_environment/. *)
From Coq Require Import ZArith String List.
From Verif Require Import Model.Num Model.Safety Model.Balloon.
Import ListNotations.
Open Scope string_scope.

Section Compare.
Context {T L : Type}.

(** A BalloonState: its centre (center_latlng: balloon.py:150) and the rest. *)
Definition located : Type := L * bstate T.

(** dataclasses.fields(BalloonState), balloon.py:150-208: the name of each field, and when the
    values of two states are equal.  Equality of numbers stands for == (a NaN is equal to
    nothing in Python), that of units for their __eq__ (utils/units.py:108-112, 242, 292),
    that of the safety layers is not looked at. *)
Definition fields : list (string * (located -> located -> Prop)) :=
  let f {A} (name : string) (get : bstate T -> A) := (name, fun b1 b2 : located => get (snd b1) = get (snd b2)) in
  [ ("center_latlng", fun b1 b2 => fst b1 = fst b2);
    f "date_time" date_time; f "time_elapsed" time_elapsed;
    f "envelope_volume_base" envelope_volume_base;
    f "envelope_volume_dv_pressure" envelope_volume_dv_pressure;
    f "envelope_mass" envelope_mass;
    f "envelope_max_superpressure" envelope_max_superpressure;
    f "envelope_cod" envelope_cod; f "payload_mass" payload_mass;
    f "nighttime_power_load" nighttime_power_load;
    f "daytime_power_load" daytime_power_load;
    f "acs_valve_hole_diameter" acs_valve_hole_diameter;
    f "battery_capacity" battery_capacity;
    f "x" x; f "y" y; f "pressure" pressure; f "ambient_temperature" ambient_temperature;
    f "mols_lift_gas" mols_lift_gas; f "mols_air" mols_air;
    f "internal_temperature" internal_temperature; f "envelope_volume" envelope_volume;
    f "superpressure" superpressure; f "acs_power" acs_power; f "acs_mass_flow" acs_mass_flow;
    f "solar_charging" solar_charging; f "power_load" power_load;
    f "battery_charge" battery_charge; f "last_command" last_command; f "status" bstatus;
    f "power_safety_layer_enabled" power_safety_layer_enabled;
    f "power_safety_layer" power_layer;
    f "envelope_safety_layer" envelope_layer;
    f "altitude_safety_layer" altitude_layer;
    f "upwelling_infrared" upwelling_infrared ].

(** 'safety_layer' in key: test_helpers.py:153-154. *)
Definition skipped (key : string) : bool :=
  match index 0 "safety_layer" key with Some _ => true | None => false end.

(** What is asserted of one field: test_helpers.py:149-177.  The two kinds of values (arrays and
    others) are treated alike; no field is called 'power'. *)
Definition field_passes (check_not_equal : list string) (key : string) (equal : Prop) : Prop :=
  if skipped key then True
  else if existsb (String.eqb key) check_not_equal then ~ equal
  else match check_not_equal with [] => equal | _ => True end.

(** compare_balloon_states(b1, b2, check_not_equal) raises no AssertionError:
    test_helpers.py:134-178. *)
Definition compare_balloon_states (b1 b2 : located) (check_not_equal : list string) : Prop :=
  Forall (fun f => field_passes check_not_equal (fst f) (snd f b1 b2)) fields.

(** b1 == b2 for two BalloonStates: the __eq__ of the dataclass (balloon.py:73-74) compares the
    fields in order, except those declared with compare=False (balloon.py:201-206). *)
Definition state_eq (b1 b2 : located) : Prop :=
  Forall (fun f => if existsb (String.eqb (fst f))
                       ["power_safety_layer"; "envelope_safety_layer"; "altitude_safety_layer"]
                   then True else snd f b1 b2) fields.
End Compare.
