(** The rules of the two agents that read the observation vector. *)
From Coq Require Import ZArith Reals List.
From Verif Require Import Model.Prng Spec.FeatureSpec.
Import ListNotations.
Open Scope R_scope.

(** ** StationSeeker: the score of a pressure level, with the parameters of the paper *)
(** How much the bearing counts, depending on the distance to the station in km. *)
Definition bearing_weight (distance : R) : R :=
  if Rle_dec distance 250 then 0.6
  else if Rle_dec 500 distance then 0.45
  else 0.6 - 0.15 * ((distance - 250) / 250).
(** A wind of the given bearing (radians off the direction to the station) and
    magnitude (m/s). *)
Definition score_of_wind (distance bearing magnitude : R) : R :=
  let near := exp (- (distance / 35)) in
  (1 - near) * exp (- (bearing_weight distance * bearing)) + near * exp (- (0.07 * magnitude)).
(** [apart]: how many levels away from the balloon. *)
Definition score_of_level (distance uncertainty bearing magnitude apart : R) : R :=
  (1.01 - uncertainty) * score_of_wind distance bearing magnitude
  + 0.5 * uncertainty + 0.05 * exp (- (0.001 * apart)).

(** What an observation says. *)
Definition unsquash (c v : R) : R := c * v / (1 - v).
Definition station_distance (v : list R) : R := unsquash 250 (component v 7).
Definition usable (v : list R) (k : Z) : Prop := (0 <= k <= 360)%Z /\ wind_entry v k <> unreachable.
Definition score (v : list R) (k : Z) : R :=
  let '(un, be, ma) := wind_entry v k in
  score_of_level (station_distance v) un (PI * be) (unsquash 30 ma) (IZR (Z.abs (k - 180))).
Definition plausible (v : list R) : Prop :=
  length v = 1099%nat /\ 0 <= component v 7 < 1 /\
  forall k, usable v k -> let '(un, be, ma) := wind_entry v k in
    0 <= un <= 1.01 /\ 0 <= be /\ 0 <= ma < 1.

(** ** RandomWalk *)
Definition walk_action (target pressure : R) : Z :=
  if Rlt_dec target (pressure - 100) then 2%Z        (* up: to lower pressures *)
  else if Rlt_dec (pressure + 100) target then 0%Z   (* down *)
  else 1%Z.                                          (* stay *)
Definition observed_pressure (v : list R) : R := 5000 + component v 0 * 9000.

Section Walk.
Context (P : prng).
(** The keys: each is the first half of the one before; the second half is used. *)
Fixpoint walk_key (key0 : key P) (n : nat) : key P :=
  match n with O => key0 | S n => split P (walk_key key0 n) 2 0 end.
Definition noise (key0 : key P) (n : nat) : R := normals P (split P (walk_key key0 n) 2 1) 1 0.
(** The target after [n] steps, when [duration i] is the time in seconds that the
    i-th step (from 1) accounts for. *)
Fixpoint walk_target (duration : nat -> R) (key0 : key P) (target0 : R) (n : nat) : R :=
  match n with
  | O => target0
  | S m => walk_target duration key0 target0 m + duration n * 0.1666 * noise key0 m
  end.
End Walk.
