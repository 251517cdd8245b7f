(** Model of utils/sampling.py (paths relative to
    /repo/balloon_learning_environment/).  Times in microseconds, pressures in
    pascals, angles in degrees.  [None]: an exception. *)
From Coq Require Import ZArith Reals.
From Verif Require Import Model.Num Model.Prng Model.Atmosphere Model.Solar.
Open Scope R_scope.

Section Sampling.
Context (P : prng).

(** sample_location: sampling.py:37-62; (latitude, longitude). *)
Definition sample_location (k : key P) : R * R :=
  let lat_key := split P k 2 0 in
  let lng_key := split P k 2 1 in
  (uniform P lat_key (-10) 10, uniform P lng_key (-175) 175).

(** The defaults of sample_time: units.datetime(2011, 1, 1) and (2014, 12, 31) as
    microseconds since 1970: sampling.py:67-68. *)
Definition BEGIN_RANGE : Z := (1293840000 * 1000000)%Z.
(** The default end_range of sample_time: sampling.py:68. *)
Definition END_RANGE : Z := (1419984000 * 1000000)%Z.
(** sample_time: 65-83; int() truncates. *)
Definition sample_time (k : key P) (begin_range end_range : Z) : Z :=
  let time_range := (end_range - begin_range)%Z in
  let time_offset := choice P k (Z.quot time_range 1000000) in
  (begin_range + time_offset * 1000000)%Z.

(** altitude_safety.MIN_ALTITUDE in metres: altitude_safety.py:37, units.py:23. *)
Definition MIN_ALTITUDE_M : R := 50000 * 0.3048.
(** sample_pressure: sampling.py:86-111. *)
Definition sample_pressure (k : key P) (atm : option atmosphere) : option R :=
  let max_pressure :=
    match atm with
    | Some a => option_map v_pressure (at_height a MIN_ALTITUDE_M)
    | None => Some 11400
    end in
  option_map (fun m => uniform P k 6500 m) max_pressure.

(** The argument distribution_type: sampling.py:114-116. *)
Inductive distribution_type := LogitNormal | InverseLognormal | OtherDistribution.
(** One draw of the loop: 137-149.  Chain applies Power, then Scale, then Shift. *)
Definition infrared_draw (d : distribution_type) (k : key P) : option R :=
  match d with
  | LogitNormal => Some (315 * logit_normal P k)
  | InverseLognormal => Some (- (35 * Rpower (log_normal P k) 0.68 + -300.9568))
  | OtherDistribution => None
  end.
(** The while loop: 136-152; [fuel] bounds the number of draws considered, and
    exhausting it means the loop is still running. *)
Inductive outcome := Sampled (x : R) | RaisesValueError | StillRunning.
(** sample_upwelling_infrared: sampling.py:114-152. *)
Fixpoint sample_upwelling_infrared (fuel : nat) (d : distribution_type) (k : key P) : outcome :=
  match fuel with
  | O => StillRunning
  | S fuel' =>
      match infrared_draw d k with
      | None => RaisesValueError
      | Some sample =>
          if Rleb 225 sample then Sampled sample
          else sample_upwelling_infrared fuel' d (split P k 2 0)
      end
  end.
End Sampling.
