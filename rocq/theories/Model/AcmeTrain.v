(** Model of train_acme_qrdqn.py and of how acme_utils.py makes the actors and policies of
    training and evaluation (paths relative to /repo/balloon_learning_environment/).
    Acme's EnvironmentLoop.run(1) and counting.Counter are modelled by their documentation;
    the learner, its replay buffer and the two policies are arbitrary here, except for what
    create_dqn says about them.  [None]: an exception ends the program. *)
From Coq Require Import ZArith Reals List Bool.
From Verif Require Import Model.Num Model.Prng Model.Agents Model.Exploration Model.Acme Model.AcmeEval.
Import ListNotations.
Open Scope R_scope.

(** ** Making actors *)
(** An actor object: its class and its state (acme.core.Actor). *)
Definition made (obs : Type) : Type := { C : actor obs & ac_state C }.

(** marco_polo_actor: acme_utils.py:188-210.  Only the adder matters of the arguments of
    make_actor; [walk] is the RandomWalkAgent that MarcoPoloExploration makes, [seed] its
    reading of the clock. *)
Definition marco_polo_actor {obs Adder : Type} (P : prng) (A : agent_class obs) (walk : ag_state A) (seed : Z)
    (make_actor_fn : option Adder -> made obs) (adder : option Adder) : made obs :=
  let original_actor := make_actor_fn adder in
  match adder with
  | None => original_actor
  | Some _ =>
      existT _ (combined_actor (projT1 original_actor) P A)
             (projT2 original_actor, new_marco_polo P A walk 0.8 seed)
  end.

(** The make_actor of the builder that create_dqn returns: acme_utils.py:220, 275-277. *)
Definition dqn_make_actor {obs Adder : Type} (P : prng) (A : agent_class obs) (walk : ag_state A) (seed : Z)
    (use_marco_polo_exploration : bool) (make_actor_fn : option Adder -> made obs) : option Adder -> made obs :=
  if use_marco_polo_exploration then marco_polo_actor P A walk seed make_actor_fn else make_actor_fn.

(** ** Policies *)
(** Library behaviour: the probabilities of rlax.epsilon_greedy(epsilon) for the given
    values: the greedy actions share 1 - epsilon, all actions share epsilon. *)
Definition epsilon_greedy (epsilon : R) (values : list R) : list R :=
  map (fun a =>
         (1 - epsilon) * (if existsb (Nat.eqb a) (greedy_actions values) then 1 / INR (length (greedy_actions values)) else 0)
         + epsilon / INR (length values))
      (seq 0 (length values)).

(** behavior_policy: acme_utils.py:255-263, by the probabilities of the actions. *)
Definition behavior_probabilities {obs : Type} (inputs : nat) (flat : obs -> Mlp.features)
    (ps : Mlp.network_params) (o : obs) (epsilon : R) : list R :=
  epsilon_greedy epsilon (dqn_values inputs flat ps o).
(** eval_policy: acme_utils.py:265-273; its last argument is not used. *)
Definition eval_probabilities {obs : Type} (inputs : nat) (flat : obs -> Mlp.features)
    (ps : Mlp.network_params) (o : obs) (_ : R) : list R :=
  epsilon_greedy 0 (dqn_values inputs flat ps o).

(** ** The training program *)
(** An actor that acts by the variables of a source (variable_source=agent,
    train_acme_qrdqn.py:60-64), which it may read when an episode begins and in update. *)
Record reader (obs V : Type) := mkReader {
  rd_state : Type;
  rd_select_action : rd_state -> obs -> option (rd_state * Z);
  rd_observe_first : rd_state -> V -> obs -> option rd_state;
  rd_observe : rd_state -> Z -> timestep obs -> option rd_state;
  rd_update : rd_state -> V -> option rd_state
}.
Arguments rd_state {obs V}. Arguments rd_select_action {obs V}. Arguments rd_observe_first {obs V}.
Arguments rd_observe {obs V}. Arguments rd_update {obs V}.

(** The actor while its source holds the variables [source 0], [source 1], ..., those with
    number n when the n-th call that may read them is made (acme.core.VariableSource;
    train_acme_qrdqn.py:64, distributed_train_acme_qrdqn.py:53, 65). *)
Definition reading {obs V : Type} (B : reader obs V) (source : nat -> V) : actor obs :=
  mkActor obs (rd_state B * nat)
    (fun s o => match rd_select_action B (fst s) o with None => None | Some (b, a) => Some ((b, snd s), a) end)
    (fun s o => match rd_observe_first B (fst s) (source (snd s)) o with None => None | Some b => Some (b, S (snd s)) end)
    (fun s a t => match rd_observe B (fst s) a t with None => None | Some b => Some (b, snd s) end)
    (fun s => match rd_update B (fst s) (source (snd s)) with None => None | Some b => Some (b, S (snd s)) end).

(** The actor that rl_agent.make_actor makes for evaluation (library behaviour of Acme's
    GenericActor): it keeps parameters and a key; it reads its source when an episode
    begins if its attribute _per_episode_update is set
    (distributed_train_acme_qrdqn.py:66) and in every update if not
    (train_acme_qrdqn.py:60-64); it acts by eval_policy (acme_utils.py:265-273). *)
Definition generic_actor {obs : Type} (P : prng) (sample : key P -> list nat -> nat) (inputs : nat)
    (flat : obs -> Mlp.features) (per_episode_update : bool) : reader obs Mlp.network_params :=
  let read (a : acme_agent P) ps := mkAcmeAgent P ps (ae_rng P a) in
  mkReader obs Mlp.network_params (acme_agent P)
    (fun a o => Some (actor_select_action P sample inputs flat a o))
    (fun a ps _ => Some (if per_episode_update then read a ps else a))
    (fun a _ _ => Some a)
    (fun a ps => Some (if per_episode_update then a else read a ps)).

(** The shared counter (train_acme_qrdqn.py:48, 73, 78): the counts of the two loops. *)
Record counts := mkCounts {
  actor_episodes : Z; actor_steps : Z; evaluator_episodes : Z; evaluator_steps : Z }.
(** What a loop writes after an episode: its own label, the length and the return of the
    episode, and the counts (library behaviour; train_acme_qrdqn.py:66-78). *)
Inductive label := ACTOR | EVALUATOR.
(** See [label]: train_acme_qrdqn.py:66-78. *)
Record log_entry := mkLog { lg_label : label; lg_length : Z; lg_return : R; lg_counts : counts }.

(** counter.increment(episodes=1, steps=...) of the two counters with a prefix and without
    delay (library behaviour; train_acme_qrdqn.py:73, 78). *)
Definition increment (l : label) (steps : Z) (c : counts) : counts :=
  match l with
  | ACTOR => mkCounts (actor_episodes c + 1) (actor_steps c + steps) (evaluator_episodes c) (evaluator_steps c)
  | EVALUATOR => mkCounts (actor_episodes c) (actor_steps c) (evaluator_episodes c + 1) (evaluator_steps c + steps)
  end.

Section Program.
(** The two environments, the agent that learns and the actor that evaluates it:
    train_acme_qrdqn.py:40-64. *)
Context (G GE : gym_env) (C : actor (g_obs G)) (V : Type) (get_variables : ac_state C -> V)
        (B : reader (g_obs GE) V).
(** The variables of main that change: train_acme_qrdqn.py:40-78. *)
Record program := mkProgram {
  p_env : g_state G; p_agent : ac_state C; p_eval_env : g_state GE; p_eval_actor : rd_state B;
  p_counter : counts; p_log : list log_entry }.

(** EnvironmentLoop.run(1) of an actor in an environment, with what is written
    (library behaviour; train_acme_qrdqn.py:69-81). *)
Definition run_one (G : gym_env) (C : actor (g_obs G)) (l : label) (limit : Z) (e : g_state G) (c : ac_state C)
    (n : counts) : option (g_state G * ac_state C * counts * log_entry) :=
  match acme_episode G C limit e c with
  | None => None
  | Some (e, c, ts) =>
      let steps := Z.of_nat (length ts) in
      let n := increment l steps n in
      Some (e, c, n, mkLog l steps (episode_return G ts) n)
  end.

(** loop.run(1): train_acme_qrdqn.py:80. *)
Definition train_one (limit : Z) (p : program) : option program :=
  match run_one G C ACTOR limit (p_env p) (p_agent p) (p_counter p) with
  | None => None
  | Some (e, c, n, r) => Some (mkProgram e c (p_eval_env p) (p_eval_actor p) n (p_log p ++ [r]))
  end.
(** eval_loop.run(1): train_acme_qrdqn.py:81; the evaluating actor reads the variables of
    the agent, which do not change meanwhile. *)
Definition evaluate_one (limit : Z) (p : program) : option program :=
  match run_one GE (reading B (fun _ => get_variables (p_agent p))) EVALUATOR limit
          (p_eval_env p) (p_eval_actor p, O) (p_counter p) with
  | None => None
  | Some (e, (b, _), n, r) => Some (mkProgram (p_env p) (p_agent p) e b n (p_log p ++ [r]))
  end.
(** The loop of main: train_acme_qrdqn.py:79-81. *)
Fixpoint train_loop (num_episodes : nat) (limit : Z) (p : program) : option program :=
  match num_episodes with
  | O => Some p
  | S num_episodes =>
      match train_one limit p with
      | None => None
      | Some p =>
          match evaluate_one limit p with
          | None => None
          | Some p => train_loop num_episodes limit p
          end
      end
  end.
(** main: train_acme_qrdqn.py:38-81, from the environments, the agent and the evaluating
    actor that it makes. *)
Definition train_main (num_episodes : nat) (limit : Z) (e : g_state G) (c : ac_state C) (ee : g_state GE)
    (b : rd_state B) : option program :=
  train_loop num_episodes limit (mkProgram e c ee b (mkCounts 0 0 0 0) []).
End Program.
