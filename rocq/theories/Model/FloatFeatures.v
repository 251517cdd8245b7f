(** The features an agent is given, in the numbers the program computes them with: the
    functions of utils/transforms.py and the conversions of utils/units.py in double
    precision, and the feature vector of env/features.py, whose entries are float32.
    Paths are relative to /repo/balloon_learning_environment/.  [None]: an exception. *)
From Coq Require Import ZArith Bool List.
From Flocq Require Import Core BinarySingleNaN.
From Verif Require Import Model.Num Model.Float64 Model.Safety Model.Balloon.
Import ListNotations.
Open Scope num_scope.

Section Numbers.
Context {T : Type} {N : Num T}.

(** linear_rescale_with_extrapolation: utils/transforms.py:45-52. *)
Definition rescale (x vmin vmax : T) : option T :=
  if vmax <=? vmin then None else Some ((x - vmin) / (vmax - vmin)).
(** undo_linear_rescale_with_extrapolation: utils/transforms.py:55-60. *)
Definition undo_rescale (x vmin vmax : T) : option T :=
  if vmax <=? vmin then None else Some (vmin + x * (vmax - vmin)).
(** linear_rescale_with_saturation: utils/transforms.py:63-66. *)
Definition rescale_saturated (x vmin vmax : T) : option T :=
  option_map (fun y => clip y (nofZ 0) (nofZ 1)) (rescale x vmin vmax).
(** squash_to_unit_interval: utils/transforms.py:79-85, _contains_negative_values: 24-28. *)
Definition squash (x constant : T) : option T :=
  if constant <=? nofZ 0 then None
  else if x <? nofZ 0 then None
  else Some (x / (x + constant)).

(** Distance.__init__: utils/units.py:29-38; what is stored, in metres. *)
Definition distance_m (m meters km kilometers feet : T) : T :=
  m + meters + (km + kilometers) * nofZ 1000 + feet * lit 3048 10000.
(** Distance.km: utils/units.py:50-53. *)
Definition distance_km (d : T) : T := d / nofZ 1000.
(** Distance.feet: utils/units.py:60-62. *)
Definition distance_feet (d : T) : T := d / lit 3048 10000.
End Numbers.

(** Python's float of an int in the features: env/features.py:394-455. *)
Definition b32 (b : bool) : float32 := to_float32 (float_of_Z (if b then 1 else 0)).

(** What _add_ambient_features reads beside the balloon's state: compute_solar_angle,
    compute_sunrise_time, units.relative_distance (in metres), power_table.lookup and
    excess_energy; env/features.py:382-455. *)
Record readings := mkReadings {
  solar_angle : float;
  sunrise_time : float;
  distance : float;
  power : float;
  excess : bool
}.

Section Ambient.
(** math.sin, math.cos and math.atan2 of the C library; pow as in Model/Float64.v. *)
Context (pow : float -> float -> float) (sin cos : float -> float) (atan2 : float -> float -> float).
Local Instance F : Num float := Num_float pow.

(** _add_ambient_features: env/features.py:382-455: entries 0 to 15 of the feature vector.
    The bounds of the pressure are those of utils/constants.py:37-38. *)
Definition ambient (r : readings) (s : bstate float) : option (list float32) :=
  match rescale_saturated (pressure s) (nofZ 5000) (nofZ 14000),
        rescale_saturated (solar_angle r) (nofZ (-90)) (nofZ 90) with
  | Some f0, Some f2 =>
      let t := sunrise_time r in
      if negb (Bleb (nofZ 0) t && Bleb t (nofZ 2 * npi + lit 1 1000000)) then None
      else
        let heading := atan2 (nopp (distance_km (x s))) (nopp (distance_km (y s))) in
        match squash (distance_km (distance r)) (nofZ 250),
              rescale_saturated (power r) (nofZ 100) (nofZ 300) with
        | Some f7, Some f14 =>
            let last c := b32 (command_eqb (last_command s) c) in
            Some [to_float32 f0; to_float32 (battery_soc s); to_float32 f2;
                  to_float32 (sin t); to_float32 (cos t);
                  to_float32 (sin heading); to_float32 (cos heading); to_float32 f7;
                  last UP; last STAY; last DOWN;
                  b32 (navigation_is_paused s); b32 (negb (navigation_is_paused s)); b32 (excess r);
                  to_float32 f14; to_float32 (pressure_ratio s)]
        | _, _ => None
        end
  | _, _ => None
  end.

(** One reachable level of the wind column: env/features.py:531-549; deviation, angle error
    and magnitude of the wind there. *)
Definition level_features (deviation angle magnitude : float) : option (float32 * float32 * float32) :=
  match rescale angle (nofZ 0) npi, squash magnitude (nofZ 30) with
  | Some a, Some m =>
      if Bleb (nofZ 0) deviation && Bleb deviation (lit 100001 100000)
      then Some (to_float32 deviation, to_float32 a, to_float32 m) else None
  | _, _ => None
  end.
End Ambient.

(** _add_unreachable_pressure_levels: env/features.py:559-581, one level. *)
Definition unreachable_features : float32 * float32 * float32 := (b32 false, b32 true, b32 true).

(** PerciatelliWindFeature.is_valid_wind: env/features.py:154-160. *)
Definition valid_wind (w : float32 * float32 * float32) : bool :=
  let '(uncertainty, bearing, magnitude) := w in
  negb (Beqb magnitude (b32 true)) || negb (Beqb bearing (b32 true)) || negb (Beqb uncertainty (b32 false)).

(** observation_space: env/features.py:332-348. *)
Definition low32 (i : nat) : float32 :=
  if existsb (Nat.eqb i) [3; 4; 5; 6] then Bopp (b32 true) else if Nat.eqb i 15 then b32 true else b32 false.
(** The upper bounds: env/features.py:332-348. *)
Definition high32 (i : nat) : float32 := if Nat.eqb i 15 then B754_infinity false else b32 true.
(** gym.spaces.Box.contains, one entry (library behaviour): low <= x and x <= high. *)
Definition in_box (i : nat) (f : float32) : bool := Bleb (low32 i) f && Bleb f (high32 i).
