(** Model of agents/acme_eval_agent.py and of the parts of acme_utils.py it uses (paths
    relative to /repo/balloon_learning_environment/).  Acme's learner is only a holder of
    network parameters here; its actor and its checkpointer are modelled by their
    documentation.  [None]: the call raises. *)
From Coq Require Import ZArith Reals String List Bool.
From Verif Require Import Model.Num Model.Prng Model.Mlp Model.Agents Model.PyString.
Import ListNotations.
Open Scope R_scope.

Section AcmeEval.
Context (P : prng).
(** Library behaviour: jax.random.categorical with the given actions equally probable
    (rlax.epsilon_greedy(...).sample, acme_utils.py:271). *)
Context (sample : key P -> list nat -> nat).
(** An observation as the array that the network flattens: networks.py:84. *)
Context {obs : Type} (inputs : nat) (flat : obs -> features).

(** The network of create_dqn: acme_utils.py:240-250 with 78-98: three actions (whatever
    number of actions the agent is given), hidden layers of 600 units and 51 quantiles. *)
Definition dqn_values (ps : network_params) (o : obs) : list R :=
  map (quantile_q_values ps inputs 600 51 (flat o)) (seq 0 3).
(** Library behaviour: the actions that rlax.epsilon_greedy(0) gives a positive
    probability (acme_utils.py:271). *)
Definition greedy_actions (values : list R) : list nat :=
  filter (fun a => forallb (fun v => Rleb v (nth a values 0)) values) (seq 0 (length values)).
(** eval_policy: acme_utils.py:265-273. *)
Definition eval_policy (ps : network_params) (k : key P) (o : obs) : nat :=
  sample k (greedy_actions (dqn_values ps o)).

(** The attributes that matter of AcmeEvalAgent (acme_eval_agent.py:63-115): the
    parameters that the actor reads from its learner, and _actor._state.rng. *)
Record acme_agent := mkAcmeAgent { ae_params : network_params; ae_rng : key P }.
(** __init__ with _create_agent, _setup_actor_learner and _add_actor_state: 63-115; [initial] is what the learner draws from PRNGKey(0). *)
Definition new_acme_agent (initial : network_params) : acme_agent :=
  mkAcmeAgent initial (prng_key P 0).

(** _actor.select_action (library behaviour): splits the key of its state, keeps the first
    half and applies the policy with the second (acme_eval_agent.py:117-121). *)
Definition actor_select_action (a : acme_agent) (o : obs) : acme_agent * Z :=
  (mkAcmeAgent (ae_params a) (Prng.split P (ae_rng a) 2 0),
   Z.of_nat (eval_policy (ae_params a) (Prng.split P (ae_rng a) 2 1) o)).
(** begin_episode: 117-118. *)
Definition acme_begin_episode (a : acme_agent) (o : obs) : option (acme_agent * Z) :=
  Some (actor_select_action a o).
(** step: 120-121. *)
Definition acme_step (a : acme_agent) (reward : R) (o : obs) : option (acme_agent * Z) :=
  Some (actor_select_action a o).
(** end_episode: 123-124. *)
Definition acme_end_episode (a : acme_agent) (reward : R) (terminal : bool) : option acme_agent := Some a.
(** set_mode: 126-129. *)
Definition acme_set_mode (a : acme_agent) (mode : agent_mode) : option acme_agent :=
  match mode with EVAL => Some a | TRAIN => None end.

(** A directory of checkpoints, as the checkpointer sees it: the path of the latest one,
    if there is any (_checkpoint_manager.latest_checkpoint, 51-53), and the parameters that
    can be restored from a path (48-49; [None]: restoring raises). *)
Record acme_checkpoints := mkAcmeCheckpoints {
  latest_checkpoint : option string;
  restorable : string -> option network_params
}.
(** load_checkpoint: 131-156.  osp.dirname(None) raises TypeError; until the checkpoint is
    restored, the agent is not changed.  The answer says whether the call returned. *)
Definition acme_load_checkpoint (a : acme_agent) (c : acme_checkpoints) (iteration_number : Z)
  : acme_agent * bool :=
  match latest_checkpoint c with
  | None => (a, false)
  | Some latest =>
      let checkpoint_dir := dirname latest in
      let checkpoint_to_reload := path_join checkpoint_dir ("ckpt-" ++ str_of_int iteration_number)%string in
      match restorable c checkpoint_to_reload with
      | None => (a, false)
      | Some ps => (mkAcmeAgent ps (prng_key P 0), true)
      end
  end.

(** The agent as eval_agent uses it: 60-156.  eval_agent only ever sets EVAL mode
    (eval_lib.py:151), for which set_mode neither raises nor changes anything. *)
Definition acme_class : agent_class obs :=
  mkAgent obs acme_agent (fun a _ => a) acme_begin_episode acme_step acme_end_episode.
End AcmeEval.
