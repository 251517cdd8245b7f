(** Properties C47 and C69: exploration. *)
From Coq Require Import ZArith Reals List Bool Lia Lra.
From Verif Require Import Model.Num Model.Prng Model.Agents Model.Exploration.
From Verif Require Import Spec.PrngSpec Spec.ExplorationSpec Spec.ReplaySpec.
From Verif Require Import Proofs.NumR Proofs.ExplorationProofs.
Import ListNotations.
Open Scope Z_scope.

(** ** C47 *)
(** After begin_episode, whatever the exploratory agent is, a list of steps gives the
    actions of the schedule, and the exploratory agent has been asked exactly in the
    steps where its action was used. *)
Theorem C47_schedule : forall (obs : Type) (P : prng) (A : agent_class obs) m o action m0 first inputs,
  mp_begin_episode P A m o action = Some (m0, first) ->
  first = action /\
  option_map (fun '(m', actions) => (exploratory_agent P A m', actions))
    (calls (fun m '(reward, o, action) => mp_step P A m reward o action) m0 inputs) =
  scheduled A (fun n => exploratory_episode P A m0 && explores n) 1
    (exploratory_agent P A m0) inputs.
Proof.
  intros obs P A m o action m0 first inputs E.
  destruct (begin_clock P A _ _ _ _ _ E) as (C & -> & _). split; [reflexivity|].
  exact (schedule_calls P A inputs m0 0 C).
Qed.

(** What this means for the n-th step (from 1): the learner's action is passed on
    unless the episode is exploratory and n falls in the second part of its cycle. *)
Theorem C47_learner_actions : forall (obs : Type) (P : prng) (A : agent_class obs) m o action m0 first
    inputs m' actions,
  mp_begin_episode P A m o action = Some (m0, first) ->
  calls (fun m '(reward, o, action) => mp_step P A m reward o action) m0 inputs = Some (m', actions) ->
  length actions = length inputs /\
  forall i d, (i < length inputs)%nat ->
    (exploratory_episode P A m0 && explores (S i) = false)%bool ->
    nth i actions 0 = snd (nth i inputs d).
Proof.
  intros obs P A m o action m0 first inputs m' actions E H.
  destruct (C47_schedule obs P A m o action m0 first inputs E) as [_ S]. rewrite H in S. cbn [option_map] in S. clear H E.
  set (x := fun n : nat => (exploratory_episode P A m0 && explores n)%bool) in *.
  change (length actions = length inputs /\ forall i d, (i < length inputs)%nat ->
    x (Datatypes.S i) = false -> nth i actions 0 = snd (nth i inputs d)).
  change (forall i d, (i < length inputs)%nat -> x (Datatypes.S i) = false -> nth i actions 0 = snd (nth i inputs d))
    with (forall i d, (i < length inputs)%nat -> x (1 + i)%nat = false -> nth i actions 0 = snd (nth i inputs d)).
  revert S. generalize (exploratory_agent P A m0), (exploratory_agent P A m'), 1%nat. clearbody x.
  revert actions.
  induction inputs as [|[[r o'] a] rest IH]; intros actions a0 a1 n E; cbn [scheduled] in E.
  - injection E as _ ->. split; [reflexivity|]. cbn. lia.
  - destruct (if x n then ag_step A a0 r o' else Some (a0, a)) as [[a2 g]|] eqn:Eg in E; [|discriminate E].
    destruct (scheduled A x (Datatypes.S n) a2 rest) as [[a3 gs]|] eqn:Es; [|discriminate].
    injection E as _ ->. destruct (IH gs a2 a3 (Datatypes.S n) (eq_sym Es)) as [Ln Hn].
    split; [cbn; now rewrite Ln|]. intros [|i] d Hi Hx; cbn [nth].
    + rewrite Nat.add_0_r in Hx. rewrite Hx in Eg. injection Eg as _ ->. reflexivity.
    + apply Hn; [cbn in Hi; lia|]. rewrite <- Hx. f_equal. lia.
Qed.

(** Which episodes are exploratory: the k-th (from 0) is when the k-th draw is at
    most the probability, whatever happened before. *)
Theorem C47_which_episodes : forall (obs : Type) (P : prng) (A : agent_class obs) a p seed events m' outs,
  calls (fun m e => match e with
                    | Began o action => mp_begin_episode P A m o action
                    | Stepped (reward, o, action) => mp_step P A m reward o action
                    end) (new_marco_polo P A a p seed) events = Some (m', outs) ->
  exploratory_episode P A m' =
    match episodes_begun events with O => false | S k => Rleb (draw P seed k) p end.
Proof.
  intros obs P A a p seed events m' outs E.
  pose proof (rng_chain P A events (new_marco_polo P A a p seed) m' outs (prng_key P seed) 0 p) as H.
  rewrite Nat.add_0_r in H. unfold draw. apply H; [|reflexivity|reflexivity|reflexivity].
  rewrite <- E. clear. generalize (new_marco_polo P A a p seed).
  induction events as [|[o x|[[r o] x]] es IH]; intro m; [reflexivity| |]; cbn [calls mp_event mp_call].
  - destruct (mp_begin_episode P A m o x) as [[m1 o1]|]; [|reflexivity]. rewrite IH. reflexivity.
  - destruct (mp_step P A m r o x) as [[m1 o1]|]; [|reflexivity]. rewrite IH. reflexivity.
Qed.

Corollary C47_always_or_never : forall (P : prng), lawful P -> forall seed k p,
  ((1 <= p)%R -> Rleb (draw P seed k) p = true) /\ ((p < 0)%R -> Rleb (draw P seed k) p = false).
Proof.
  intros P HP seed k p. unfold draw.
  pose proof (uniform_range P HP (split P (chain P k (prng_key P seed)) 2 0) 0 1 ltac:(lra)) as U.
  split; intro H; [apply Rleb_true|apply Rleb_false]; lra.
Qed.

(** The cycle. *)
Example C47_cycle :
  map explores [0; 1; 79; 80; 119; 120; 199; 200; 239; 240]%nat =
  [false; false; false; true; true; false; false; true; true; false].
Proof. reflexivity. Qed.
Example C47_two_hours_of_six : forall c, (length (filter explores (seq (120 * c) 120)) = 40)%nat.
Proof.
  intro c. assert (H : forall n, (n <= 120)%nat ->
    length (filter explores (seq (120 * c) n)) = length (filter explores (seq 0 n))).
  { induction n as [|n IH]; intro Hn; [reflexivity|].
    rewrite !seq_S, !filter_app, !app_length, IH by lia. f_equal. cbn [filter].
    replace (explores (120 * c + n)) with (explores (0 + n)); [destruct (explores (0 + n)); reflexivity|].
    unfold explores. replace (120 * c + n)%nat with (n + c * 120)%nat by lia.
    rewrite Nat.mod_add by lia. reflexivity. }
  rewrite H by lia. reflexivity.
Qed.

(** An exploratory agent that counts the questions it gets, in an episode of 200
    steps in which the learner always says 7. *)
Definition counting : agent_class unit :=
  mkAgent unit Z (fun s _ => s) (fun _ _ => Some (0, 0)) (fun s _ _ => Some (s + 1, s + 1))
    (fun s _ _ => Some s).
Example C47_example : forall P : prng, lawful P -> exists m0,
  mp_begin_episode P counting (new_marco_polo P counting 5 1%R 3) tt 7 = Some (m0, 7) /\
  option_map snd (calls (fun m '(reward, o, action) => mp_step P counting m reward o action) m0
                    (repeat (0%R, tt, 7) 122)) =
  Some (repeat 7 79 ++ map Z.of_nat (seq 1 40) ++ repeat 7 3).
Proof.
  intros P HP. eexists. split; [reflexivity|].
  match goal with |- option_map snd (calls _ ?m _) = _ =>
    destruct (C47_schedule unit P counting (new_marco_polo P counting 5 1%R 3) tt 7 m 7
                (repeat (0%R, tt, 7) 122) eq_refl) as [_ H] end.
  revert H. cbn [exploratory_episode exploratory_agent].
  rewrite (proj1 (C47_always_or_never P HP 3 0 1%R) ltac:(lra)) ||
    replace (Rleb (uniform P _ 0 1) _) with true
      by (symmetry; apply (proj1 (C47_always_or_never P HP 3 0 1%R)); lra).
  cbn [andb]. intro H.
  match goal with |- option_map snd ?c = _ =>
    transitivity (option_map snd (option_map (fun '(m', actions) =>
      (exploratory_agent P counting m', actions)) c)) end.
  { destruct (calls _ _ _) as [[? ?]|]; reflexivity. }
  rewrite H. reflexivity.
Qed.

(** ** C69 *)
(** Whatever the learner and the exploration strategy, in training as in evaluation,
    the actions the learner stores with its rewards during an episode are the actions
    the agent returned, in order. *)
Theorem C69_stored_actions : forall (obs : Type) (L : learner obs) (X : explorer obs)
    a first inputs reward terminal a' actions,
  episode (quantile_agent (recording L) X) a first inputs reward terminal = Some (a', actions) ->
  snd (q_learner (recording L) X a') = snd (q_learner (recording L) X a) ++ actions.
Proof. intros obs L X a first inputs reward terminal a' actions E. apply (episode_stores L X _ _ _ _ _ _ _ E). Qed.

(** In evaluation the exploration strategy is not consulted: the episode is the
    learner's own. *)
Theorem C69_evaluation : forall (obs : Type) (L : learner obs) (X : explorer obs) l x action0
    first inputs reward terminal,
  let a := ag_set_mode (quantile_agent L X) (mkQuantile L X l x action0 false) EVAL in
  let e := ag_set_mode (learner_agent L) (l, action0, false) EVAL in
  option_map (fun '(a', actions) => (q_learner L X a', q_explorer L X a', actions))
    (episode (quantile_agent L X) a first inputs reward terminal) =
  option_map (fun '(l', _, _, actions) => (l', x, actions))
    (episode (learner_agent L) e first inputs reward terminal).
Proof.
  intros obs L X l x action0 first inputs reward terminal a e.
  pose proof (eval_episode L X (mkQuantile L X l x action0 true) first inputs reward terminal eq_refl) as H.
  change (option_map (fun '(a', acts) => (view L X a', q_explorer L X a', acts))
            (episode (quantile_agent L X) a first inputs reward terminal) =
          option_map (fun '(s, acts) => (s, x, acts))
            (episode (learner_agent L) e first inputs reward terminal)) in H.
  destruct (episode (quantile_agent L X) a first inputs reward terminal) as [[a' acts]|],
    (episode (learner_agent L) e first inputs reward terminal) as [[[[l' t'] ev'] acts']|];
    cbn [option_map] in *; try discriminate; [|reflexivity].
  unfold view in H. cbn [q_explorer] in H. injection H as -> _ _ -> ->. reflexivity.
Qed.

(** With the default strategy, which does not explore, training episodes are the
    learner's own as well. *)
Theorem C69_no_exploration : forall (obs : Type) (L : learner obs) l x action0 mode
    first inputs reward terminal,
  let a := ag_set_mode (quantile_agent L (no_exploration obs)) (mkQuantile L (no_exploration obs) l x action0 false) mode in
  let e := ag_set_mode (learner_agent L) (l, action0, false) mode in
  option_map (fun '(a', actions) => (q_learner L (no_exploration obs) a', actions))
    (episode (quantile_agent L (no_exploration obs)) a first inputs reward terminal) =
  option_map (fun '(l', _, _, actions) => (l', actions))
    (episode (learner_agent L) e first inputs reward terminal).
Proof.
  intros obs L l x action0 [|] first inputs reward terminal a e.
  - pose proof (plain_episode L (mkQuantile L (no_exploration obs) l x action0 false) first inputs reward terminal eq_refl) as H.
    change (mkQuantile L (no_exploration obs) l x action0 false) with a in H. 
    change (view L (no_exploration obs) a) with e in H. rewrite <- H.
    destruct (episode (quantile_agent L (no_exploration obs)) a first inputs reward terminal) as [[a' acts]|]; reflexivity.
  - pose proof (C69_evaluation obs L (no_exploration obs) l x action0 first inputs reward terminal) as H.
    fold a in H. fold e in H. cbv zeta in H.
    destruct (episode (quantile_agent L (no_exploration obs)) a first inputs reward terminal) as [[a' acts]|],
      (episode (learner_agent L) e first inputs reward terminal) as [[[[l' t'] ev'] acts']|];
      cbn [option_map] in *; try discriminate; [|reflexivity].
    injection H as -> _ ->. reflexivity.
Qed.

(** A learner that always says 2, and a strategy that counts its steps: in training
    the counted numbers are stored, in evaluation the learner's. *)
Definition stubborn : learner unit :=
  mkLearner unit unit (fun s _ _ => Some (s, 2)) (fun s _ _ _ _ => Some (s, 2)) (fun s _ _ _ _ => Some s).
Definition counter : explorer unit :=
  mkExplorer unit Z (fun s _ a => Some (s, a)) (fun s _ _ _ => Some (s + 1, s)).
Example C69_example : forall mode, exists a',
  let agent := quantile_agent (recording stubborn) counter in
  let actions := match mode with TRAIN => [2; 10; 11; 12] | EVAL => [2; 2; 2; 2] end in
  episode agent (ag_set_mode agent (mkQuantile (recording stubborn) counter (tt, [0; 1]) 10 0 false) mode)
    tt (repeat (0%R, tt) 3) 0%R true = Some (a', actions) /\
  snd (q_learner _ _ a') = [0; 1] ++ actions.
Proof. intros [|]; eexists; split; reflexivity. Qed.

Print Assumptions C47_schedule.
Print Assumptions C47_learner_actions.
Print Assumptions C47_which_episodes.
Print Assumptions C47_always_or_never.
Print Assumptions C69_stored_actions.
Print Assumptions C69_evaluation.
Print Assumptions C69_no_exploration.
