(** Model of acme_utils.py: the evaluation environment and the exploring actor (paths
    relative to /repo/balloon_learning_environment/), with the parts of Acme that run
    them: GymWrapper, StepLimitWrapper and EnvironmentLoop.run_episode, by their
    documentation.  SinglePrecisionWrapper (rounding to float32), the networks of R2D2 and
    the replay buffer are left out.  [None]: an exception ends the episode. *)
From Coq Require Import ZArith Reals List Bool.
From Verif Require Import Model.Num Model.Prng Model.Units Model.Balloon Model.WindField Model.Atmosphere
  Model.Env Model.Agents Model.Exploration.
Import ListNotations.
Open Scope R_scope.

(** _balloon_is_within_radius: acme_utils.py:51-56 (a bool divided by an int). *)
Definition acme_reward (radius : R) (max_episode_length : Z) (b : bstate R) : option R :=
  if (max_episode_length =? 0)%Z then None
  else Some ((if Rleb (Units.relative_distance (x b) (y b)) radius then 1 else 0) / IZR max_episode_length).

(** The environment of create_env with is_eval True: 59-71; env.radius is the radius of
    an environment with default arguments, 50 km (balloon_env.py:112, 139). *)
Definition acme_eval_env (P : prng) (noise4d : Z -> R -> R -> R -> R -> R) (F : forecaster P)
    (FC : feature_class P F) (draws : nat) (max_episode_length : Z) : gym_env :=
  balloon_gym P noise4d F FC (fun _ _ _ b => acme_reward (50 * 1000) max_episode_length b) draws.

(** dm_env.TimeStep. *)
Record timestep (obs : Type) := mkTimestep {
  ts_last : bool; ts_reward : R; ts_discount : R; ts_observation : obs }.
Arguments mkTimestep {obs}. Arguments ts_last {obs}. Arguments ts_reward {obs}.
Arguments ts_discount {obs}. Arguments ts_observation {obs}.

(** acme.core.Actor. *)
Record actor (obs : Type) := mkActor {
  ac_state : Type;
  ac_select_action : ac_state -> obs -> option (ac_state * Z);
  ac_observe_first : ac_state -> obs -> option ac_state;
  ac_observe : ac_state -> Z -> timestep obs -> option ac_state;
  ac_update : ac_state -> option ac_state
}.
Arguments ac_state {obs}. Arguments ac_select_action {obs}. Arguments ac_observe_first {obs}.
Arguments ac_observe {obs}. Arguments ac_update {obs}.

Section Loop.
Context (G : gym_env) (C : actor (g_obs G)).
(** GymWrapper.step in StepLimitWrapper.step: acme_utils.py:69-71; [k] is the number of
    steps so far; the step limit is positive. *)
Definition wrapped_step (limit k : Z) (e : g_state G) (action : Z)
  : option (g_state G * timestep (g_obs G)) :=
  match g_step G e action with
  | None => None
  | Some (e, (o, r, done, _)) =>
      Some (e, mkTimestep (done || (limit <=? k + 1)%Z) r (if done then 0 else 1) o)
  end.

(** The while loop of EnvironmentLoop.run_episode; [fuel] only has to be large enough,
    and the step limit is.  Answers the timesteps with the actions that led to them. *)
Fixpoint acme_loop (fuel : nat) (limit k : Z) (e : g_state G) (c : ac_state C) (o : g_obs G)
  : option (g_state G * ac_state C * list (Z * timestep (g_obs G))) :=
  match fuel with
  | O => Some (e, c, [])
  | S fuel =>
      match ac_select_action C c o with
      | None => None
      | Some (c, action) =>
      match wrapped_step limit k e action with
      | None => None
      | Some (e, t) =>
      match ac_observe C c action t with
      | None => None
      | Some c =>
      match ac_update C c with
      | None => None
      | Some c =>
          if ts_last t then Some (e, c, [(action, t)])
          else
            match acme_loop fuel limit (k + 1) e c (ts_observation t) with
            | None => None
            | Some (e, c, l) => Some (e, c, (action, t) :: l)
            end
      end end end end
  end.

(** run_episode; episode_length is the number of the timesteps, and episode_return the
    sum of their rewards. *)
Definition acme_episode (limit : Z) (e : g_state G) (c : ac_state C)
  : option (g_state G * ac_state C * list (Z * timestep (g_obs G))) :=
  match g_reset G e with
  | None => None
  | Some (e, o) =>
      match ac_observe_first C c o with
      | None => None
      | Some c => acme_loop (Z.to_nat limit) limit 0 e c o
      end
  end.
(** The sum of the rewards of an episode, which Acme's loop reports (library; used by
    train_acme_qrdqn.py:69-81). *)
Definition episode_return (l : list (Z * timestep (g_obs G))) : R :=
  fold_left (fun total at_ => total + ts_reward (snd at_)) l 0.
End Loop.

(** CombinedActor: 160-185. *)
Section Combined.
Context {obs : Type} (C : actor obs) (P : prng) (A : agent_class obs).
(** The two objects that CombinedActor keeps: acme_utils.py:163-169. *)
Definition combined : Type := ac_state C * marco_polo P A.
(** select_action: 171-174. *)
Definition combined_select_action (s : combined) (o : obs) : option (combined * Z) :=
  match ac_select_action C (fst s) o with
  | None => None
  | Some (c, action) =>
      match mp_step P A (snd s) 0 o action with
      | None => None
      | Some (m, action) => Some ((c, m), action)
      end
  end.
(** observe_first: 176-178. *)
Definition combined_observe_first (s : combined) (o : obs) : option combined :=
  match ac_observe_first C (fst s) o with
  | None => None
  | Some c =>
      match mp_begin_episode P A (snd s) o 42 with
      | None => None
      | Some (m, _) => Some (c, m)
      end
  end.
(** observe, update: 180-185. *)
Definition combined_observe (s : combined) (action : Z) (t : timestep obs) : option combined :=
  match ac_observe C (fst s) action t with None => None | Some c => Some (c, snd s) end.
(** update: acme_utils.py:184-185. *)
Definition combined_update (s : combined) : option combined :=
  match ac_update C (fst s) with None => None | Some c => Some (c, snd s) end.
(** CombinedActor: acme_utils.py:160-185. *)
Definition combined_actor : actor obs :=
  mkActor obs combined combined_select_action combined_observe_first combined_observe combined_update.
End Combined.
