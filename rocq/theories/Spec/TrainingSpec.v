(** What training histories are, in terms of what happens to the checkpoints, and
    what the transitions of a training episode are.  Only used to *state* properties. *)
From Coq Require Import ZArith Reals List String.
From Verif Require Import Model.Num Model.Agents Model.Checkpoints Model.Collectors Model.Training.
Import ListNotations.
Open Scope list_scope.

(** The iterations and bundles saved, in this order. *)
Fixpoint saved {B} (l : list (happening B)) : list (Z * B) :=
  match l with
  | [] => []
  | Written k b :: l => (k, b) :: saved l
  | _ :: l => saved l
  end.
(** The first m iterations: 0, 1, 2, .. *)
Definition first_iterations (m : nat) : list Z := map Z.of_nat (seq 0 m).

(** Checkpointing that neither fails nor raises, and a sensible duration. *)
Definition checkpoints_work {obs} (A : trainable obs) : Prop :=
  (forall a k, exists b, t_bundle A a k = Some (Some b)) /\
  (forall a k b, exists a' ok, t_unbundle A a k b = Unbundled a' ok) /\
  (forall z, t_duration A = Some z -> (0 <= z)%Z).

Section Histories.
Context (G : gym_env) (A : trainable (g_obs G)) (listdir : directory (t_bundle_type A) -> list string).

(** One process after the other, each started with arguments and objects of its own,
    and each ended, or cut off by a crash anywhere except while a checkpoint file is
    being written. *)
Inductive history (d0 : directory (t_bundle_type A)) :
    list (happening (t_bundle_type A)) -> directory (t_bundle_type A) -> Prop :=
| no_process : history d0 [] d0
| one_process l d base_dir num_actions num_iterations max render_period episodes constructors e a tr rest :
    history d0 l d ->
    fst (run_training_loop G A listdir base_dir num_actions num_iterations max render_period episodes
           constructors e a d) = tr ++ rest ->
    (forall tr0 k d', tr <> tr0 ++ [(Opened k, d')]) ->
    history d0 (l ++ map fst tr) (last_directory G A tr d).
End Histories.

(** ** Episodes *)
Record transition := mkTransition { x_action : Z; x_reward : R; x_terminal : bool }.

Section Episodes.
Context (G : gym_env) (A : agent_class (g_obs G)).
(** The transitions executed from an action on, and the agent's last choice: after a
    terminal transition it is not asked again. *)
Inductive transitions : g_state G -> ag_state A -> Z -> list transition ->
                        g_state G -> ag_state A -> Z -> Prop :=
| no_transition e a action : transitions e a action [] e a action
| terminal_transition e a action e1 o r i :
    g_step G e action = Some (e1, (o, r, true, i)) ->
    transitions e a action [mkTransition action r true] e1 a action
| one_transition e a action e1 o r i a1 action1 ts e2 a2 action2 :
    g_step G e action = Some (e1, (o, r, false, i)) ->
    ag_step A a r o = Some (a1, action1) ->
    transitions e1 a1 action1 ts e2 a2 action2 ->
    transitions e a action (mkTransition action r false :: ts) e2 a2 action2.

(** A training episode of at most max transitions.  The last reward (0 without
    transitions) and whether it was terminal are told to the agent. *)
Definition last_reward (ts : list transition) : R := last (map x_reward ts) 0%R.
Definition last_terminal (ts : list transition) : bool := last (map x_terminal ts) false.
Definition training_episode (max : Z) (e : g_state G) (a : ag_state A) (ts : list transition)
    (chosen : Z) (e' : g_state G) (a' : ag_state A) : Prop :=
  exists e0 o a0 action a1,
    g_reset G e = Some (e0, o) /\ ag_begin_episode A a o = Some (a0, action) /\
    transitions e0 a0 action ts e' a1 chosen /\
    ((last_terminal ts = true /\ Z.of_nat (List.length ts) <= max) \/
     (last_terminal ts = false /\ Z.of_nat (List.length ts) = Z.max 0 max))%Z /\
    ag_end_episode A a1 (last_reward ts) (last_terminal ts) = Some a'.
End Episodes.

(** ** Collectors *)
(** A collector on its own, told about a list of events one after the other. *)
Fixpoint told (c : collector) (evs : list event) : option collector :=
  match evs with
  | [] => Some c
  | ev :: evs => match handle c ev with Some c => told c evs | None => None end
  end.
(** The same for the dispatcher. *)
Fixpoint dispatched (cs : list collector) (evs : list event) : option (list collector) :=
  match evs with
  | [] => Some cs
  | ev :: evs => match dispatch cs ev with Some cs => dispatched cs evs | None => None end
  end.

(** The events of an episode: one for each transition, numbered from 0, between a
    begin_episode and an end_episode that repeats the last reward, with the agent's
    last choice of an action. *)
Fixpoint step_events (i : Z) (ts : list transition) : list event :=
  match ts with
  | [] => []
  | t :: ts => Step (mkStatistics i (x_action t) (x_reward t) (x_terminal t)) :: step_events (i + 1) ts
  end.
Definition episode_events (max : Z) (ts : list transition) (chosen : Z) : list event :=
  Begin_episode :: step_events 0 ts ++
    [End_episode (mkStatistics (if last_terminal ts then Z.of_nat (List.length ts) else max) chosen
                    (last_reward ts) (last_terminal ts))].

(** One training episode after the other, each with its transitions and last choice. *)
Inductive training_episodes (G : gym_env) (A : agent_class (g_obs G)) (max : Z) :
    g_state G -> ag_state A -> list (list transition * Z) -> g_state G -> ag_state A -> Prop :=
| no_training_episode e a : training_episodes G A max e a [] e a
| one_training_episode e a ts chosen e1 a1 l e2 a2 :
    training_episode G A max e a ts chosen e1 a1 ->
    training_episodes G A max e1 a1 l e2 a2 ->
    training_episodes G A max e a ((ts, chosen) :: l) e2 a2.
Definition training_events (max : Z) (l : list (list transition * Z)) : list event :=
  Pre_training :: flat_map (fun p => episode_events max (fst p) (snd p)) l ++ [End_training].

(** Sums, and how often something occurs. *)
Definition sum (l : list R) : R := fold_right Rplus 0%R l.
Definition occurrences (z : Z) (l : list Z) : nat := count_occ Z.eq_dec l z.
