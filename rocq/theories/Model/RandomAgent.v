(** Model of agents/agent.py, RandomAgent (paths relative to
    /repo/balloon_learning_environment/), with numpy's global random generator. *)
From Coq Require Import ZArith Reals List.
From Verif Require Import Model.Agents.
Open Scope Z_scope.

(** numpy's global generator: its state, which every user of numpy.random in the process
    shares, and randint(n) for a positive n (library behaviour; used in
    agents/agent.py:153). *)
Record np_random := mkNpRandom { ng : Type; ng_randint : ng -> Z -> ng * Z }.

Section RandomAgent.
Context (N : np_random) (obs : Type) (num_actions : Z).
(** _random_action: agents/agent.py:152-153; numpy raises ValueError unless the bound is
    positive. *)
Definition random_action (g : ng N) : option (ng N * Z) :=
  if num_actions <=? 0 then None else Some (ng_randint N g num_actions).
(** begin_episode: agents/agent.py:155-156. *)
Definition random_begin_episode (g : ng N) (unused_obs : obs) : option (ng N * Z) := random_action g.
(** step: agents/agent.py:158-159. *)
Definition random_step (g : ng N) (reward : R) (observation : obs) : option (ng N * Z) := random_action g.
(** end_episode: agents/agent.py:161-162. *)
Definition random_end_episode (g : ng N) (reward : R) (terminal : bool) : option (ng N) := Some g.
(** RandomAgent: agents/agent.py:149-162; set_mode is the one of Agent, which does
    nothing: 101-112.  The object itself never changes, and the state is numpy's. *)
Definition random_agent : agent_class obs :=
  mkAgent obs (ng N) (fun g _ => g) random_begin_episode random_step random_end_episode.
End RandomAgent.
