(** Model of the three safety layers of a balloon.
    Paths below are relative to /repo/balloon_learning_environment/. *)
From Coq Require Import ZArith Bool List.
From Verif Require Import Model.Num.
Open Scope num_scope.

(** control.AltitudeControlCommand: env/balloon/control.py:21-25
    (IntEnum: DOWN = 0, STAY = 1, UP = 2). *)
Inductive command := DOWN | STAY | UP.

(** == on AltitudeControlCommand: control.py:21-25. *)
Definition command_eqb (a b : command) : bool :=
  match a, b with
  | DOWN, DOWN | STAY, STAY | UP, UP => true
  | _, _ => false
  end.

(** AltitudeControlCommand(int), which raises ValueError for any other int:
    env/balloon/control.py:21-25. *)
Definition command_of_int (z : Z) : option command :=
  if Z.eqb z 0 then Some DOWN
  else if Z.eqb z 1 then Some STAY
  else if Z.eqb z 2 then Some UP
  else None.

Section Layers.
Context {T : Type} {N : Num T}.

(* ------------------------------------------------------------------ *)
(** ** env/balloon/altitude_safety.py *)

(** _AltitudeState: altitude_safety.py:40-43. *)
Inductive alt_state := ANominal | ALow | AVeryLow.

(** units.Distance(feet=f).m: utils/units.py:29-38 with the other arguments at
    their default 0.0. *)
Definition metres_of_feet (f : T) : T :=
  nofZ 0 + nofZ 0 + (nofZ 0 + nofZ 0) * nofZ 1000 + f * lit 3048 10000.

(** BUFFER, RESTART_HYSTERESIS, MIN_ALTITUDE in metres:
    altitude_safety.py:35-37. *)
Definition ALT_BUFFER : T := metres_of_feet (nofZ 500).
(** RESTART_HYSTERESIS: altitude_safety.py:36. *)
Definition ALT_HYSTERESIS : T := metres_of_feet (nofZ 500).
(** MIN_ALTITUDE: altitude_safety.py:37. *)
Definition MIN_ALTITUDE : T := metres_of_feet (nofZ 50000).

(** The triggers of the transition table, first match wins:
    altitude_safety.py:48-60. *)
Definition alt_very_low (_ : alt_state) : alt_state := AVeryLow.
(** Trigger 'low': altitude_safety.py:50. *)
Definition alt_low (_ : alt_state) : alt_state := ALow.
(** Trigger 'low_nominal': altitude_safety.py:51-58. *)
Definition alt_low_nominal (s : alt_state) : alt_state :=
  match s with
  | AVeryLow | ALow => ALow
  | ANominal => ANominal
  end.
(** Trigger 'nominal': altitude_safety.py:59. *)
Definition alt_nominal (_ : alt_state) : alt_state := ANominal.

(** AltitudeSafetyLayer._transition_state: altitude_safety.py:103-111.
    Distance.__lt__ and __add__ act on metres (utils/units.py:64-66, 114-115). *)
Definition alt_transition (s : alt_state) (altitude : T) : alt_state :=
  if altitude <? MIN_ALTITUDE then alt_very_low s
  else if altitude <? MIN_ALTITUDE + ALT_BUFFER then alt_low s
  else if altitude <? MIN_ALTITUDE + ALT_BUFFER + ALT_HYSTERESIS
       then alt_low_nominal s
  else alt_nominal s.

(** AltitudeSafetyLayer.get_action after the altitude has been looked up:
    altitude_safety.py:87-97.  (The lookup, line 86, is in Balloon.v.) *)
Definition alt_get_action (s : alt_state) (a : command) (altitude : T)
  : alt_state * command :=
  let s' := alt_transition s altitude in
  match s' with
  | AVeryLow => (s', UP)
  | ALow => (s', if command_eqb a DOWN then STAY else a)
  | ANominal => (s', a)
  end.

(** AltitudeSafetyLayer.navigation_is_paused: altitude_safety.py:99-101. *)
Definition alt_paused (s : alt_state) : bool :=
  match s with ANominal => false | _ => true end.

(* ------------------------------------------------------------------ *)
(** ** env/balloon/envelope_safety.py *)

(** _SuperpressureState: envelope_safety.py:45-50. *)
Inductive env_state := ENominal | ELowCritical | ELow | EHigh | EHighCritical.

(** CRITICAL_BUFFER, BUFFER, RESTART_HYSTERESIS: envelope_safety.py:40-42. *)
Definition CRITICAL_BUFFER : Z := 150.
(** BUFFER: envelope_safety.py:41. *)
Definition ENV_BUFFER : Z := 250.
(** RESTART_HYSTERESIS: envelope_safety.py:42. *)
Definition ENV_HYSTERESIS : Z := 50.

(** Triggers of the transition table: envelope_safety.py:54-90. *)
Definition env_low_critical (_ : env_state) := ELowCritical.
(** Trigger 'low': envelope_safety.py:59-62. *)
Definition env_low (_ : env_state) := ELow.
(** Trigger 'low_nominal': envelope_safety.py:63-70. *)
Definition env_low_nominal (s : env_state) :=
  match s with ELowCritical | ELow => ELow | _ => ENominal end.
(** Trigger 'nominal': envelope_safety.py:71-74. *)
Definition env_nominal (_ : env_state) := ENominal.
(** Trigger 'high_nominal': envelope_safety.py:75-82. *)
Definition env_high_nominal (s : env_state) :=
  match s with EHigh | EHighCritical => EHigh | _ => ENominal end.
(** Trigger 'high': envelope_safety.py:83-86. *)
Definition env_high (_ : env_state) := EHigh.
(** Trigger 'high_critical': envelope_safety.py:87-89. *)
Definition env_high_critical (_ : env_state) := EHighCritical.

(** EnvelopeSafetyLayer._transition_state: envelope_safety.py:142-157.
    [max] is the max_superpressure given to the constructor (line 107). *)
Definition env_transition (max : T) (s : env_state) (sp : T) : env_state :=
  if sp <? nofZ CRITICAL_BUFFER then env_low_critical s
  else if sp <? nofZ ENV_BUFFER then env_low s
  else if sp <? nofZ (ENV_BUFFER + ENV_HYSTERESIS) then env_low_nominal s
  else if sp <? max - nofZ ENV_BUFFER - nofZ ENV_HYSTERESIS then env_nominal s
  else if sp <? max - nofZ ENV_BUFFER then env_high_nominal s
  else if sp <? max - nofZ CRITICAL_BUFFER then env_high s
  else env_high_critical s.

(** EnvelopeSafetyLayer.get_action: envelope_safety.py:109-136. *)
Definition env_get_action (max : T) (s : env_state) (a : command) (sp : T)
  : env_state * command :=
  let s' := env_transition max s sp in
  match s' with
  | ELowCritical | EHighCritical => (s', UP)
  | ELow | EHigh => (s', if command_eqb a DOWN then STAY else a)
  | ENominal => (s', a)
  end.

(** EnvelopeSafetyLayer.navigation_is_paused: envelope_safety.py:138-140. *)
Definition env_paused (s : env_state) : bool :=
  match s with ENominal => false | _ => true end.

(* ------------------------------------------------------------------ *)
(** ** env/balloon/power_safety.py *)

(** Instants and durations (datetime, timedelta) are integer microseconds. *)
Definition us_per_second : Z := 1000000.
(** dt.timedelta(days=1): power_safety.py:84, 86. *)
Definition us_per_day : Z := 86400000000.

(** timedelta.total_seconds(), a float: microseconds / 10^6. *)
Definition total_seconds (d : Z) : T := lit d us_per_second.

(** units.timedelta_to_hours: utils/units.py:312-317. *)
Definition timedelta_to_hours (d : Z) : T := total_seconds d / lit 36000 10.

(** The mutable attributes of PowerSafetyLayer: power_safety.py:40-50.
    ([_sunrise] itself is never read again after line 50.) *)
Record pow_state := mkPow {
  pow_paused : bool;               (* navigation_is_paused *)
  pow_sunrise_h : Z;               (* _sunrise_with_hysteresis *)
  pow_sunset : Z                   (* _sunset *)
}.

(** PowerSafetyLayer.__init__: power_safety.py:33-50.  The pair is what
    solar.get_next_sunrise_sunset returned. *)
Definition pow_init (sunrise_sunset : Z * Z) : pow_state :=
  mkPow false (fst sunrise_sunset + 30 * 60 * us_per_second)%Z
        (snd sunrise_sunset).

(** while date_time > v: v += timedelta(days=1)  -- power_safety.py:83-86.
    The loop as written, with fuel; [None] means the fuel ran out.  *)
Fixpoint roll_days_fuel (fuel : nat) (now v : Z) : option Z :=
  match fuel with
  | O => None
  | S k => if Z.ltb v now then roll_days_fuel k now (v + us_per_day)%Z
           else Some v
  end.

(** The loop with enough fuel (see [roll_days_never_out_of_fuel]); the default
    is never used. *)
Definition roll_days (now v : Z) : Z :=
  match roll_days_fuel (S (Z.to_nat ((now - v) / us_per_day + 1))) now v with
  | Some r => r
  | None => v
  end.

(** get_paused_action: power_safety.py:120-126. *)
Definition get_paused_action (a : command) : command :=
  if command_eqb a DOWN then STAY else a.

(** PowerSafetyLayer.get_action: power_safety.py:52-118.  Power in watts,
    energies in watt-hours (utils/units.py:199-296: Energy /, - and
    Power * timedelta act on those fields). *)
Definition pow_get_action (s : pow_state) (a : command) (now : Z)
    (night_load charge capacity : T) : pow_state * command :=
  let sr := roll_days now (pow_sunrise_h s) in
  let ss := roll_days now (pow_sunset s) in
  if Z.ltb ss sr then
    (* day *)
    if pow_paused s && (charge / capacity <? lit 5 100)
    then (mkPow (pow_paused s) sr ss, get_paused_action a)
    else (mkPow false sr ss, a)
  else if pow_paused s then (mkPow true sr ss, get_paused_action a)
  else
    let floating_charge := night_load * timedelta_to_hours (sr - now)%Z in
    if (charge - floating_charge) / capacity <? lit 25 1000
    then (mkPow true sr ss, get_paused_action a)
    else (mkPow false sr ss, a).

End Layers.
