(** Model of the training loop, train_lib.py, with the checkpoint methods of the
    agents, agents/dqn_agent.py:112-142 (the same in agents/quantile_agent.py)
    (paths relative to /repo/balloon_learning_environment/).

    What happens to the checkpoint directory is recorded as a list, so that a run can
    be cut off anywhere.  [None]: an exception ends the program. *)
From Coq Require Import ZArith Reals List Bool String.
From Verif Require Import Model.Num Model.Agents Model.Checkpoints Model.Collectors.
Import ListNotations.
Open Scope list_scope.
Open Scope R_scope.

(** What Dopamine's unbundle can do with the agent: it returns (True or False), or
    raises a ValueError, or anything else. *)
Inductive unbundled (S : Type) := Unbundled (s : S) (ok : bool) | Value_error (s : S) | Other_error.
Arguments Unbundled {S}. Arguments Value_error {S}. Arguments Other_error {S}.

(** An agent that can be trained: Dopamine's bundle_and_checkpoint ([Some None]: it
    returns None; [None]: it raises) and unbundle, the checkpoint duration and
    set_summary_writer (agents/agent.py:96-99). *)
Record trainable (obs : Type) := mkTrainable {
  t_agent : agent_class obs;
  t_bundle_type : Type;
  t_bundle : ag_state t_agent -> Z -> option (option t_bundle_type);
  t_unbundle : ag_state t_agent -> Z -> t_bundle_type -> unbundled (ag_state t_agent);
  t_duration : option Z;
  t_set_summary_writer : ag_state t_agent -> option string -> ag_state t_agent
}.
Arguments t_agent {obs}. Arguments t_bundle_type {obs}. Arguments t_bundle {obs}.
Arguments t_unbundle {obs}. Arguments t_duration {obs}. Arguments t_set_summary_writer {obs}.

(** What happens, as far as the checkpoints are concerned. *)
Inductive happening (B : Type) :=
| Loaded (k : Z) (b : B)          (* the agent was restored from a bundle *)
| Ran (k : Z)                     (* the episodes of an iteration have been run *)
| Opened (k : Z)                  (* a checkpoint file has been opened for writing *)
| Written (k : Z) (b : B)         (* and been written *)
| Removed.                        (* a file has been removed *)
Arguments Loaded {B}. Arguments Ran {B}. Arguments Opened {B}. Arguments Written {B}.
Arguments Removed {B}.

Section Training.
Context (G : gym_env) (A : trainable (g_obs G)).
Let agent := ag_state (t_agent A).
Let B := t_bundle_type A.
(** The order in which tf.io.gfile.listdir lists a directory. *)
Context (listdir : directory B -> list string).

(** The loop of _run_one_episode: train_lib.py:54-71, from iteration i with n still to
    go; rendering (i % render_period) only matters if the period is 0.  Answers the
    action, reward, terminal and final_episode_step that are left. *)
Fixpoint episode_loop (n : nat) (i : Z) (max render_period : Z) (e : g_state G) (a : agent)
    (cs : list collector) (action : Z) (r : R) (terminal : bool)
  : option (g_state G * agent * list collector * (Z * R * bool * Z)) :=
  match n with
  | O => Some (e, a, cs, (action, r, terminal, max))
  | S n =>
      match g_step G e action with
      | None => None
      | Some (e, (obs, r, terminal, _)) =>
          if (render_period =? 0)%Z then None
          else
            match dispatch cs (Step (mkStatistics i action r terminal)) with
            | None => None
            | Some cs =>
                if terminal then Some (e, a, cs, (action, r, terminal, i + 1))%Z
                else
                  match ag_step (t_agent A) a r obs with
                  | None => None
                  | Some (a, action) => episode_loop n (i + 1) max render_period e a cs action r terminal
                  end
            end
      end
  end.

(** _run_one_episode: 40-78. *)
Definition run_one_episode (max render_period : Z) (e : g_state G) (a : agent) (cs : list collector)
  : option (g_state G * agent * list collector) :=
  match dispatch cs Begin_episode with
  | None => None
  | Some cs =>
      match g_reset G e with
      | None => None
      | Some (e, obs) =>
          match ag_begin_episode (t_agent A) a obs with
          | None => None
          | Some (a, action) =>
              match episode_loop (Z.to_nat max) 0 max render_period e a cs action 0 false with
              | None => None
              | Some (e, a, cs, (action, r, terminal, final)) =>
                  match ag_end_episode (t_agent A) a r terminal with
                  | None => None
                  | Some a =>
                      match dispatch cs (End_episode (mkStatistics final action r terminal)) with
                      | None => None
                      | Some cs => Some (e, a, cs)
                      end
                  end
              end
          end
      end
  end.

(** The inner loop of run_training_loop: 122-127. *)
Fixpoint run_episodes (n : nat) (max render_period : Z) (e : g_state G) (a : agent) (cs : list collector)
  : option (g_state G * agent * list collector) :=
  match n with
  | O => Some (e, a, cs)
  | S n =>
      match run_one_episode max render_period e a cs with
      | None => None
      | Some (e, a, cs) => run_episodes n max render_period e a cs
      end
  end.

(** What happened during a run of train_lib.py:81-131, with the directory after each step. *)
Definition trace := list (happening B * directory B).
(** Helper, for train_lib.py:81-131: the directory at the end. *)
Definition last_directory (tr : trace) (d : directory B) : directory B := last (map snd tr) d.

(** save_checkpoint: dqn_agent.py:112-123 and dopamine_utils.py:50-69.  The second
    component: it did not raise. *)
Definition save_checkpoint (a : agent) (k : Z) (d : directory B) : trace * bool :=
  match t_bundle A a k with
  | None => ([], false)
  | Some bundle =>
      let tr :=
        match bundle with
        | None => []
        | Some b => [(Opened k, write d (checkpoint_name k) None);
                     (Written k b, write d (checkpoint_name k) (Some b))]
        end in
      match t_duration A with
      | None => (tr, true)
      | Some duration =>
          let d := last_directory tr d in
          let '(ds, raised) := clean_up (listdir d) k duration d in
          (tr ++ map (fun d => (Removed, d)) ds, negb raised)
      end
  end.

(** reload_latest_checkpoint: dqn_agent.py:131-142 with load_checkpoint, 125-129 and
    dopamine_utils.py:72-85.  Restoring from a file that is not there only warns. *)
Definition reload_latest_checkpoint (a : agent) (d : directory B) : trace * option (agent * Z) :=
  let latest := get_latest_checkpoint (names d) in
  if (latest <? 0)%Z then ([], Some (a, (-1)%Z))
  else
    match lookup d (checkpoint_name latest) with
    | None => ([], Some (a, latest))
    | Some None => ([], None)
    | Some (Some b) =>
        match t_unbundle A a latest b with
        | Unbundled a _ => ([(Loaded latest b, d)], Some (a, latest))
        | Value_error a => ([], Some (a, (-1)%Z))
        | Other_error => ([], None)
        end
    end.

(** The outer loop: train_lib.py:121-129. *)
Fixpoint run_iterations (n : nat) (k : Z) (episodes_per_iteration max render_period : Z)
    (e : g_state G) (a : agent) (cs : list collector) (d : directory B)
  : trace * option (g_state G * agent * list collector * directory B) :=
  match n with
  | O => ([], Some (e, a, cs, d))
  | S n =>
      match run_episodes (Z.to_nat episodes_per_iteration) max render_period e a cs with
      | None => ([], None)
      | Some (e, a, cs) =>
          let '(tr, ok) := save_checkpoint a k d in
          let tr := (Ran k, d) :: tr in
          if ok then
            let '(tr', result) :=
              run_iterations n (k + 1) episodes_per_iteration max render_period e a cs
                (last_directory tr d) in
            (tr ++ tr', result)
          else (tr, None)
      end
  end.

(** run_training_loop: 81-131. *)
Definition run_training_loop (base_dir : string) (num_actions num_iterations max render_period
    episodes_per_iteration : Z) (constructors : list constructor)
    (e : g_state G) (a : agent) (d : directory B)
  : trace * option (g_state G * agent * list collector * directory B) :=
  match reload_latest_checkpoint a d with
  | (tr, None) => (tr, None)
  | (tr, Some (a, latest)) =>
      let start := Z.max (latest + 1) 0 in
      match make_collectors (Some base_dir) num_actions (start * episodes_per_iteration) constructors with
      | None => (tr, None)
      | Some cs =>
          let a := t_set_summary_writer A a (get_summary_writer cs) in
          let a := ag_set_mode (t_agent A) a TRAIN in
          match dispatch cs Pre_training with
          | None => (tr, None)
          | Some cs =>
              match run_iterations (Z.to_nat (num_iterations - start)) start episodes_per_iteration
                      max render_period e a cs d with
              | (tr', None) => (tr ++ tr', None)
              | (tr', Some (e, a, cs, d)) =>
                  match dispatch cs End_training with
                  | None => (tr ++ tr', None)
                  | Some cs => (tr ++ tr', Some (e, a, cs, d))
                  end
              end
          end
      end
  end.
End Training.
