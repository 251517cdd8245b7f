(** The default reward, generically in the numbers it is computed with: env/balloon_env.py:43-102.
    Paths are relative to /repo/balloon_learning_environment/.  [None]: an exception. *)
From Coq Require Import ZArith Bool.
From Flocq Require Import Core BinarySingleNaN.
From Verif Require Import Model.Num Model.Float64 Model.Safety Model.Balloon Model.FloatFeatures.
From Verif Require Model.Reward.
Open Scope num_scope.

Section Reward.
Context {T : Type} {N : Num T}.
(** math.exp of the C library, which the standard does not fix: a parameter. *)
Context (exp : T -> T).

(** relative_distance: utils/units.py:307-309; np.linalg.norm is the square root of the sum
    of the squares (a fused multiply-add in the dot product is not modelled). *)
Definition relative_distance (x y : T) : T :=
  distance_m (nsqrt (x * x + y * y)) (nofZ 0) (nofZ 0) (nofZ 0) (nofZ 0).
(** Distance.__sub__: utils/units.py:70-74. *)
Definition distance_sub (a b : T) : T := distance_m (a - b) (nofZ 0) (nofZ 0) (nofZ 0) (nofZ 0).

(** perciatelli_reward_function: env/balloon_env.py:43-102; Distance.__le__:
    utils/units.py:117-118. *)
Definition reward (w : world T) (s : bstate T)
    (station_keeping_radius_km reward_dropoff reward_halflife : T) : option T :=
  let radius := distance_m (nofZ 0) (nofZ 0) station_keeping_radius_km (nofZ 0) (nofZ 0) in
  let distance := relative_distance (x s) (y s) in
  let base :=
    if distance <=? radius then Some (nofZ 1)
    else if reward_halflife =? nofZ 0 then None
    else Some (reward_dropoff *
               exp (- (lit 69314718056 100000000000) / reward_halflife
                    * distance_km (distance_sub distance radius))) in
  match base with
  | None => None
  | Some r =>
      if Reward.is_down (last_command s) && negb (excess_energy w s) then
        match rescale_saturated (acs_power s) (nofZ 100) (nofZ 300) with
        | None => None
        | Some scale => Some (r * (lit 95 100 - lit 3 10 * scale))
        end
      else Some r
  end.

(** The default arguments: env/balloon_env.py:47-49. *)
Definition reward_default (w : world T) (s : bstate T) : option T :=
  reward w s (nofZ 50) (lit 4 10) (nofZ 100).
End Reward.
