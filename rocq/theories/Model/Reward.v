(** Model of the default reward: env/balloon_env.py:43-102
    (paths relative to /repo/balloon_learning_environment/), over the reals.
    [None]: an exception (ZeroDivisionError for reward_halflife = 0). *)
From Coq Require Import ZArith Reals Bool.
From Verif Require Import Model.Num Model.Safety Model.Balloon Model.Transforms.
From Verif Require Model.Units.
Open Scope R_scope.

(** balloon_state.last_command == AltitudeControlCommand.DOWN: balloon_env.py:93. *)
Definition is_down (c : command) : bool := match c with DOWN => true | _ => false end.

(** Distances of the state are metres; [Distance(km=r)] is r*1000 metres
    (units.py:29-38); [<=] compares metres (units.py:117-118). *)
Definition perciatelli_reward_function (w : world R) (s : bstate R)
    (station_keeping_radius_km reward_dropoff reward_halflife : R) : option R :=
  let radius := station_keeping_radius_km * 1000 in
  let distance := Units.relative_distance (x s) (y s) in
  let base :=
    if Rleb distance radius then Some 1
    else if Reqb reward_halflife 0 then None
    else Some (reward_dropoff *
               exp (- (69314718056 / 100000000000) / reward_halflife
                    * ((distance - radius) / 1000))) in
  match base with
  | None => None
  | Some reward =>
      if is_down (last_command s) && negb (excess_energy w s) then
        match linear_rescale_with_saturation (acs_power s) 100 300 with
        | None => None
        | Some scale => Some (reward * (95 / 100 - 3 / 10 * scale))
        end
      else Some reward
  end.

(** The default arguments: balloon_env.py:47-49. *)
Definition default_reward (w : world R) (s : bstate R) : option R :=
  perciatelli_reward_function w s 50 (4 / 10) 100.

(** BalloonEnv.reward_range: balloon_env.py:271-274. *)
Definition reward_range : R * R := (0, 1).
