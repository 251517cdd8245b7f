(** Model of distributed_train_acme_qrdqn.py (paths relative to
    /repo/balloon_learning_environment/) with the parts of Acme and Launchpad that run it,
    by their documentation: every actor runs episodes in its own environment, adds the
    length of each finished episode to the shared counter, and a limiter that looks at the
    counter from time to time ends the program.  The learner, the replay buffer, the
    evaluator, the checkpoints and the loggers are left out; what an actor reads of the
    learner's variables may change it in any way before each of its episodes. *)
From Coq Require Import ZArith List.
From Verif Require Import Model.Agents Model.Acme.
Import ListNotations.
Open Scope Z_scope.

(** What happens while the program runs, in the order in which it happens: an actor
    finishes an episode, or the limiter looks at the counter
    (distributed_train_acme_qrdqn.py:113-114; library behaviour). *)
Inductive event := FINISHES (i : nat) | LOOKS.

(** max_num_actor_steps: distributed_train_acme_qrdqn.py:108. *)
Definition max_num_actor_steps (num_episodes max_episode_length : Z) : Z :=
  num_episodes * max_episode_length.

Section Distributed.
(** The environments of the actors, and the actors: distributed_train_acme_qrdqn.py:98-101;
    [learnt] is the influence of the learner on actor [i] before its [n]-th episode. *)
Context (G : gym_env) (C : actor (g_obs G)) (learnt : nat -> nat -> ac_state C -> ac_state C).

(** The actors, the counted steps and the lengths of the finished episodes, in the order
    in which they finish (library state; distributed_train_acme_qrdqn.py:97-114). *)
Record running := mkRunning {
  r_actors : list (g_state G * ac_state C); r_steps : Z; r_lengths : list Z }.

(** list.__setitem__ for an index in range (library; used for the actors of
    distributed_train_acme_qrdqn.py:113-114). *)
Fixpoint replace {A} (i : nat) (a : A) (l : list A) : list A :=
  match l, i with
  | [], _ => []
  | _ :: l, O => a :: l
  | b :: l, S i => b :: replace i a l
  end.

(** One episode of actor [i] in the environment of create_env(False) with the step limit:
    distributed_train_acme_qrdqn.py:80-81, 99.  [None]: there is no such actor or the
    episode raises. *)
Definition finish (max_episode_length : Z) (i : nat) (r : running) : option running :=
  match nth_error (r_actors r) i with
  | None => None
  | Some (e, c) =>
      match acme_episode G C max_episode_length e (learnt i (length (r_lengths r)) c) with
      | None => None
      | Some (e, c, ts) =>
          let steps := Z.of_nat (length ts) in
          Some (mkRunning (replace i (e, c) (r_actors r)) (r_steps r + steps) (r_lengths r ++ [steps]))
      end
  end.

(** The program: [true] if the limiter has ended it.  Nothing happens after that
    (distributed_train_acme_qrdqn.py:97-114; the limiter is Acme's StepsLimiter). *)
Fixpoint distributed_loop (num_episodes max_episode_length : Z) (events : list event) (r : running)
  : option (bool * running) :=
  match events with
  | [] => Some (false, r)
  | LOOKS :: events =>
      if max_num_actor_steps num_episodes max_episode_length <=? r_steps r then Some (true, r)
      else distributed_loop num_episodes max_episode_length events r
  | FINISHES i :: events =>
      match finish max_episode_length i r with
      | None => None
      | Some r => distributed_loop num_episodes max_episode_length events r
      end
  end.

(** get_program, launched, with the actors that it makes, num_actors of them:
    distributed_train_acme_qrdqn.py:77-114, 117-125. *)
Definition distributed_main (num_episodes max_episode_length : Z) (actors : list (g_state G * ac_state C))
    (events : list event) : option (bool * running) :=
  distributed_loop num_episodes max_episode_length events (mkRunning actors 0 []).
End Distributed.
Arguments mkRunning {G C}. Arguments r_actors {G C}. Arguments r_steps {G C}. Arguments r_lengths {G C}.
