(** Model of the learning of the two agents built on Dopamine, agents/quantile_agent.py and
    agents/dqn_agent.py (paths relative to /repo/balloon_learning_environment/), with their
    gin files in agents/configs/.

    [None]: an exception.  Dopamine itself is not part of the code: its replay buffer, its
    gradient step and its choice of actions are parameters; of its JaxDQNAgent (which
    JaxQuantileAgent inherits from) only the order of the calls is written down. *)
From Coq Require Import ZArith Reals List Bool.
From Verif Require Import Model.Num Model.Agents Model.Exploration.
Import ListNotations.
Open Scope R_scope.

(** Dopamine's replay buffer, its train function and its action selection, as oracles (called at
    quantile_agent.py:122-146, dqn_agent.py:74-92). *)
Record dopamine (obs : Type) := mkDopamine {
  d_params : Type;
  d_optimizer_state : Type;
  d_replay : Type;
  d_batch : Type;
  d_rng : Type;
  d_add_count : d_replay -> Z;
  (* what _store_transition is given: the last observation, the action, the reward, terminal *)
  d_add : d_replay -> obs -> Z -> R -> bool -> option d_replay;
  d_sample : d_replay -> option (d_replay * d_batch);
  d_sampling_probabilities : d_batch -> list R;
  d_indices : d_batch -> list nat;
  d_set_priority : d_replay -> list nat -> list R -> option d_replay;
  (* train: online parameters, target parameters, optimizer state and the states, actions,
     next states, rewards and terminals of a batch; losses of the batch and their mean *)
  d_train : d_params -> d_params -> d_optimizer_state -> d_batch
            -> d_optimizer_state * d_params * (list R * R);
  d_select_action : d_params -> bool -> d_rng -> obs -> d_rng * Z
}.
Arguments d_params {obs}. Arguments d_optimizer_state {obs}. Arguments d_replay {obs}.
Arguments d_batch {obs}. Arguments d_rng {obs}. Arguments d_add_count {obs}. Arguments d_add {obs}.
Arguments d_sample {obs}. Arguments d_sampling_probabilities {obs}. Arguments d_indices {obs}.
Arguments d_set_priority {obs}. Arguments d_train {obs}. Arguments d_select_action {obs}.

(** The settings of a run; configs/dqn.gin:13-15, 21, configs/quantile.gin:21-23, 28 and
    configs/finetune_perciatelli.gin:22-24, 29 all set the same. *)
Record settings := mkSettings {
  min_replay_history : Z;
  update_period : Z;
  target_update_period : Z;
  summary_writing_frequency : Z;
  prioritized : bool;              (* self._replay_scheme == 'prioritized' *)
  has_writer : bool                (* self.summary_writer is not None *)
}.
(** configs/dqn.gin:13-15, 21; quantile.gin:21-23, 28; finetune_perciatelli.gin:22-24, 29. *)
Definition gin_settings (prioritized has_writer : bool) : settings :=
  mkSettings 500 4 100 1 prioritized has_writer.

Section TrainStep.
Context {obs : Type} (D : dopamine obs) (S : settings).

(** The attributes that _train_step reads and writes: quantile_agent.py:120-159,
    dqn_agent.py:72-100. *)
Record learning := mkLearning {
  online_params : d_params D;
  target_network_params : d_params D;
  optimizer_state : d_optimizer_state D;
  replay : d_replay D;
  training_steps : Z;
  rng : d_rng D;
  observation : option obs;          (* self._observation, once recorded *)
  summaries : list (Z * R)           (* what the summary writer was given: step and value *)
}.

(** The importance weights: quantile_agent.py:141-143.  jnp.max of an empty array raises. *)
Definition maximum (l : list R) : option R :=
  match l with [] => None | x :: l => Some (fold_left Rmax l x) end.
(** quantile_agent.py:141-143. *)
Definition loss_weights (probs : list R) : option (list R) :=
  let w := map (fun p => 1 / sqrt (p + 1 / 10 ^ 10)) probs in
  match maximum w with None => None | Some m => Some (map (fun x => x / m) w) end.
(** jnp.mean: quantile_agent.py:147. *)
Definition mean (l : list R) : R := fold_left Rplus l 0 / INR (length l).
(** loss_weights * loss: quantile_agent.py:146. *)
Definition products (a b : list R) : list R := map (fun p => fst p * snd p) (combine a b).

(** The part of _train_step under the update period: quantile_agent.py:124-154. *)
Definition update_q (s : learning) : option learning :=
  match d_sample D (replay s) with
  | None => None
  | Some (buffer, batch) =>
      let '(opt, online, (loss, mean_loss)) :=
        d_train D (online_params s) (target_network_params s) (optimizer_state s) batch in
      match
        (if prioritized S then
           match loss_weights (d_sampling_probabilities D batch) with
           | None => None
           | Some w =>
               match d_set_priority D buffer (d_indices D batch)
                       (map (fun l => sqrt (l + 1 / 10 ^ 10)) loss) with
               | None => None
               | Some buffer => Some (buffer, mean (products w loss))
               end
           end
         else Some (buffer, mean_loss))
      with
      | None => None
      | Some (buffer, mean_loss) =>
          if (has_writer S && (0 <? training_steps s)%Z)%bool then
            if (summary_writing_frequency S =? 0)%Z then None
            else
              Some (mkLearning online (target_network_params s) opt buffer (training_steps s) (rng s) (observation s)
                (if (training_steps s mod summary_writing_frequency S =? 0)%Z
                 then summaries s ++ [(training_steps s, mean_loss)] else summaries s))
          else Some (mkLearning online (target_network_params s) opt buffer (training_steps s) (rng s) (observation s) (summaries s))
      end
  end.

(** _train_step: quantile_agent.py:120-159 (dqn_agent.py:72-100 is the same without priorities:
    [prioritized] false). *)
Definition train_step (s : learning) : option learning :=
  match
    (if (d_add_count D (replay s) >? min_replay_history S)%Z then
       if (update_period S =? 0)%Z then None
       else
         match (if (training_steps s mod update_period S =? 0)%Z then update_q s else Some s) with
         | None => None
         | Some s =>
             if (target_update_period S =? 0)%Z then None
             else
               Some (if (training_steps s mod target_update_period S =? 0)%Z
                     then mkLearning (online_params s) (online_params s) (optimizer_state s) (replay s)
                            (training_steps s) (rng s) (observation s) (summaries s)
                     else s)
         end
     else Some s)
  with
  | None => None
  | Some s =>
      Some (mkLearning (online_params s) (target_network_params s) (optimizer_state s) (replay s)
              (training_steps s + 1) (rng s) (observation s) (summaries s))
  end.

(** Dopamine's JaxDQNAgent.begin_episode, step and end_episode (library): observations are
    recorded; outside of evaluation a transition is stored for every reward and _train_step is
    called before every choice. *)
Definition record_observation (s : learning) (o : obs) : learning :=
  mkLearning (online_params s) (target_network_params s) (optimizer_state s) (replay s)
    (training_steps s) (rng s) (Some o) (summaries s).
(** Library behaviour: the choice of an action in JaxDQNAgent.begin_episode and step
    (quantile_agent.py:91-118, dqn_agent.py:66-70). *)
Definition choose (s : learning) (eval_mode : bool) (o : obs) : learning * Z :=
  let '(r, a) := d_select_action D (online_params s) eval_mode (rng s) o in
  (mkLearning (online_params s) (target_network_params s) (optimizer_state s) (replay s)
     (training_steps s) r (observation s) (summaries s), a).
(** Library behaviour: JaxDQNAgent._store_transition. *)
Definition store (s : learning) (o : option obs) (action : Z) (reward : R) (terminal : bool) : option learning :=
  match o with
  | None => None
  | Some o =>
      match d_add D (replay s) o action reward terminal with
      | None => None
      | Some b =>
          Some (mkLearning (online_params s) (target_network_params s) (optimizer_state s) b
                  (training_steps s) (rng s) (observation s) (summaries s))
      end
  end.
(** Library behaviour: JaxDQNAgent.begin_episode (quantile_agent.py:101, dqn_agent.py:67). *)
Definition jax_begin_episode (s : learning) (eval_mode : bool) (o : obs) : option (learning * Z) :=
  let s := record_observation s o in
  match (if eval_mode then Some s else train_step s) with
  | None => None
  | Some s => Some (choose s eval_mode o)
  end.
(** Library behaviour: JaxDQNAgent.step (quantile_agent.py:114, dqn_agent.py:70). *)
Definition jax_step (s : learning) (eval_mode : bool) (action : Z) (reward : R) (o : obs) : option (learning * Z) :=
  let last := observation s in
  let s := record_observation s o in
  match (if eval_mode then Some s
         else match store s last action reward false with None => None | Some s => train_step s end) with
  | None => None
  | Some s => Some (choose s eval_mode o)
  end.
(** Library behaviour: JaxDQNAgent.end_episode (quantile_agent.py:162, dqn_agent.py:103). *)
Definition jax_end_episode (s : learning) (eval_mode : bool) (action : Z) (reward : R) (terminal : bool) : option learning :=
  if eval_mode then Some s else store s (observation s) action reward terminal.

(** JaxQuantileAgent, with the _train_step above, as the learner of agents/quantile_agent.py
    (whose other methods are in Exploration.v). *)
Definition dopamine_learner : learner obs :=
  mkLearner obs learning jax_begin_episode jax_step jax_end_episode.

(** DQNAgent: agents/dqn_agent.py.  self.action is set by JaxDQNAgent. *)
Record dqn := mkDqn { dqn_learning : learning; dqn_action : Z; dqn_eval_mode : bool }.
(** set_mode: dqn_agent.py:105-110. *)
Definition dqn_set_mode (q : dqn) (m : agent_mode) : dqn :=
  match m with
  | TRAIN => mkDqn (dqn_learning q) (dqn_action q) false
  | EVAL => mkDqn (dqn_learning q) (dqn_action q) true
  end.
(** begin_episode: 66-67; step: 69-70; end_episode: 102-103. *)
Definition dqn_begin_episode (q : dqn) (o : obs) : option (dqn * Z) :=
  match jax_begin_episode (dqn_learning q) (dqn_eval_mode q) o with
  | None => None
  | Some (l, a) => Some (mkDqn l a (dqn_eval_mode q), a)
  end.
(** step: dqn_agent.py:69-70. *)
Definition dqn_step (q : dqn) (reward : R) (o : obs) : option (dqn * Z) :=
  match jax_step (dqn_learning q) (dqn_eval_mode q) (dqn_action q) reward o with
  | None => None
  | Some (l, a) => Some (mkDqn l a (dqn_eval_mode q), a)
  end.
(** end_episode: dqn_agent.py:102-103. *)
Definition dqn_end_episode (q : dqn) (reward : R) (terminal : bool) : option dqn :=
  match jax_end_episode (dqn_learning q) (dqn_eval_mode q) (dqn_action q) reward terminal with
  | None => None
  | Some l => Some (mkDqn l (dqn_action q) (dqn_eval_mode q))
  end.
(** DQNAgent as an Agent: dqn_agent.py:32-142. *)
Definition dqn_class : agent_class obs :=
  mkAgent obs dqn dqn_set_mode dqn_begin_episode dqn_step dqn_end_episode.
End TrainStep.
