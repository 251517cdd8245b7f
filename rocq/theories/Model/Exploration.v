(** Model of agents/marco_polo_exploration.py and of the action selection of
    agents/quantile_agent.py (paths relative to /repo/balloon_learning_environment/).
    [None]: an exception of the agent called. *)
From Coq Require Import ZArith Reals Bool.
From Verif Require Import Model.Num Model.Prng Model.Env Model.Agents.
Open Scope Z_scope.

(** marco_polo_exploration.py:35-36, in microseconds. *)
Definition RL_PHASE_LENGTH : Z := 4 * 3600 * 1000000.
(** _EXPLORATORY_PHASE_LENGTH: marco_polo_exploration.py:36. *)
Definition EXPLORATORY_PHASE_LENGTH : Z := 2 * 3600 * 1000000.
Section Exploration.
Context {obs : Type} (P : prng) (A : agent_class obs).

(** MarcoPoloExploration: marco_polo_exploration.py:39-93. *)
Record marco_polo := mkMarcoPolo {
  exploratory_agent : ag_state A;
  exploratory_episode_probability : R;
  exploratory_episode : bool;
  exploratory_phase : bool;
  phase_time_elapsed : Z;
  mp_rng : key P
}.

(** __init__: 43-55; the agent made by the constructor argument, and the seed (or
    the clock's reading) are given. *)
Definition new_marco_polo (a : ag_state A) (probability : R) (seed : Z) : marco_polo :=
  mkMarcoPolo a probability false false 0 (prng_key P seed).

(** begin_episode: 57-66; the action of the exploratory agent is dropped;
    jax.random.uniform(rng) is between 0 and 1. *)
Definition mp_begin_episode (m : marco_polo) (o : obs) (action : Z) : option (marco_polo * Z) :=
  match ag_begin_episode A (exploratory_agent m) o with
  | None => None
  | Some (a, _) =>
      let rng := split P (mp_rng m) 2 0 in
      let self_rng := split P (mp_rng m) 2 1 in
      Some (mkMarcoPolo a (exploratory_episode_probability m)
              (Rleb (uniform P rng 0 1) (exploratory_episode_probability m))
              false 0 self_rng,
            action)
  end.

(** _phase_expired: 68-76. *)
Definition phase_expired (m : marco_polo) : bool :=
  if exploratory_phase m && (EXPLORATORY_PHASE_LENGTH <=? phase_time_elapsed m) then true
  else if negb (exploratory_phase m) && (RL_PHASE_LENGTH <=? phase_time_elapsed m) then true
  else false.

(** _update_phase: 78-85. *)
Definition update_phase (m : marco_polo) : marco_polo :=
  let m := mkMarcoPolo (exploratory_agent m) (exploratory_episode_probability m)
             (exploratory_episode m) (exploratory_phase m)
             (phase_time_elapsed m + AGENT_TIME_STEP) (mp_rng m) in
  if negb (exploratory_episode m) then m
  else if phase_expired m then
    mkMarcoPolo (exploratory_agent m) (exploratory_episode_probability m)
      (exploratory_episode m) (negb (exploratory_phase m)) 0 (mp_rng m)
  else m.

(** step: 87-93. *)
Definition mp_step (m : marco_polo) (reward : R) (o : obs) (action : Z) : option (marco_polo * Z) :=
  let m := update_phase m in
  if exploratory_phase m then
    match ag_step A (exploratory_agent m) reward o with
    | None => None
    | Some (a, act) =>
        Some (mkMarcoPolo a (exploratory_episode_probability m) (exploratory_episode m)
                (exploratory_phase m) (phase_time_elapsed m) (mp_rng m), act)
    end
  else Some (m, action).
End Exploration.

(** ** QuantileAgent *)
(** An exploration wrapper: exploration.py:29-46, by its two methods. *)
Record explorer (obs : Type) := mkExplorer {
  x_state : Type;
  x_begin_episode : x_state -> obs -> Z -> option (x_state * Z);
  x_step : x_state -> R -> obs -> Z -> option (x_state * Z)
}.
Arguments x_state {obs}. Arguments x_begin_episode {obs}. Arguments x_step {obs}.

(** exploration.Exploration, the one that changes nothing: exploration.py:29-46. *)
Definition no_exploration (obs : Type) : explorer obs :=
  mkExplorer obs unit (fun s _ a => Some (s, a)) (fun s _ _ a => Some (s, a)).
(** MarcoPoloExploration: marco_polo_exploration.py:39-93. *)
Definition marco_polo_explorer {obs : Type} (P : prng) (A : agent_class obs) : explorer obs :=
  mkExplorer obs (marco_polo P A) (mp_begin_episode P A) (mp_step P A).

(** Dopamine's JaxQuantileAgent, an arbitrary learner: it is told the mode it runs
    in and the attribute self.action, which it stores in its replay buffer with the
    reward of the step or of the end of the episode. *)
Record learner (obs : Type) := mkLearner {
  l_state : Type;
  l_begin_episode : l_state -> bool -> obs -> option (l_state * Z);
  l_step : l_state -> bool -> Z -> R -> obs -> option (l_state * Z);
  l_end_episode : l_state -> bool -> Z -> R -> bool -> option l_state
}.
Arguments l_state {obs}. Arguments l_begin_episode {obs}. Arguments l_step {obs}.
Arguments l_end_episode {obs}.

Section Quantile.
Context {obs : Type} (L : learner obs) (X : explorer obs).
(** The attributes of QuantileAgent that its methods use: quantile_agent.py:43-89. *)
Record quantile := mkQuantile {
  q_learner : l_state L;
  q_explorer : x_state X;
  q_action : Z;
  q_eval_mode : bool
}.

(** set_mode: quantile_agent.py:164-169. *)
Definition q_set_mode (q : quantile) (m : agent_mode) : quantile :=
  mkQuantile (q_learner q) (q_explorer q) (q_action q) (match m with TRAIN => false | EVAL => true end).

(** begin_episode: quantile_agent.py:91-106. *)
Definition q_begin_episode (q : quantile) (o : obs) : option (quantile * Z) :=
  match l_begin_episode L (q_learner q) (q_eval_mode q) o with
  | None => None
  | Some (l, action) =>
      if q_eval_mode q then Some (mkQuantile l (q_explorer q) action (q_eval_mode q), action)
      else
        match x_begin_episode X (q_explorer q) o action with
        | None => None
        | Some (x, action) => Some (mkQuantile l x action (q_eval_mode q), action)
        end
  end.

(** step: quantile_agent.py:108-118. *)
Definition q_step (q : quantile) (reward : R) (o : obs) : option (quantile * Z) :=
  match l_step L (q_learner q) (q_eval_mode q) (q_action q) reward o with
  | None => None
  | Some (l, action) =>
      if q_eval_mode q then Some (mkQuantile l (q_explorer q) action (q_eval_mode q), action)
      else
        match x_step X (q_explorer q) reward o action with
        | None => None
        | Some (x, action) => Some (mkQuantile l x action (q_eval_mode q), action)
        end
  end.

(** end_episode: quantile_agent.py:161-162. *)
Definition q_end_episode (q : quantile) (reward : R) (terminal : bool) : option quantile :=
  match l_end_episode L (q_learner q) (q_eval_mode q) (q_action q) reward terminal with
  | None => None
  | Some l => Some (mkQuantile l (q_explorer q) (q_action q) (q_eval_mode q))
  end.

(** The agent, as agent.Agent: quantile_agent.py:34-205 without checkpoints. *)
Definition quantile_agent : agent_class obs :=
  mkAgent obs quantile q_set_mode q_begin_episode q_step q_end_episode.
End Quantile.
