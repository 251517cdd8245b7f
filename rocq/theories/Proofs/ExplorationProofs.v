From Coq Require Import ZArith Reals List Bool Lia Lra.
From Verif Require Import Model.Num Model.Prng Model.Env Model.Agents Model.Exploration
  Spec.ExplorationSpec Spec.ReplaySpec Proofs.NumR.
Import ListNotations.
Open Scope Z_scope.

Section Schedule.
Context {obs : Type} (P : prng) (A : agent_class obs).
Notation marco_polo := (marco_polo P A).
Notation mp_step := (mp_step P A).

Definition mp_call (m : marco_polo) (i : input obs) : option (marco_polo * Z) :=
  let '(reward, o, action) := i in mp_step m reward o action.

(** Where the clock of the phase is after [n] steps. *)
Definition clock_ok (m : marco_polo) (n : nat) : Prop :=
  if exploratory_episode P A m
  then exploratory_phase P A m = explores n /\
       phase_time_elapsed P A m =
         AGENT_TIME_STEP * Z.of_nat (if explores n then n mod 120 - 80 else n mod 120)
  else exploratory_phase P A m = false.

Lemma mod_succ n : ((S n) mod 120 = if n mod 120 =? 119 then 0 else S (n mod 120))%nat.
Proof.
  pose proof (Nat.div_mod n 120 ltac:(lia)) as D. pose proof (Nat.mod_upper_bound n 120 ltac:(lia)).
  destruct (Nat.eqb_spec (n mod 120) 119); symmetry.
  - apply (Nat.mod_unique (S n) 120 (n / 120 + 1)); lia.
  - apply (Nat.mod_unique (S n) 120 (n / 120)); lia.
Qed.

Lemma update_clock m n : clock_ok m n ->
  clock_ok (update_phase P A m) (S n) /\
  exploratory_agent P A (update_phase P A m) = exploratory_agent P A m /\
  exploratory_episode P A (update_phase P A m) = exploratory_episode P A m /\
  mp_rng P A (update_phase P A m) = mp_rng P A m /\
  exploratory_episode_probability P A (update_phase P A m) = exploratory_episode_probability P A m.
Proof.
  destruct m as [a p e ph el k]. unfold clock_ok, update_phase. cbn [exploratory_agent exploratory_episode_probability exploratory_episode exploratory_phase phase_time_elapsed mp_rng negb andb].
  destruct e; cbn [exploratory_agent exploratory_episode_probability exploratory_episode exploratory_phase phase_time_elapsed mp_rng negb andb]; [|intro H; repeat split; exact H].
  intros [Hp He]. unfold phase_expired. cbn [exploratory_agent exploratory_episode_probability exploratory_episode exploratory_phase phase_time_elapsed mp_rng negb andb]. rewrite Hp, He.
  unfold AGENT_TIME_STEP, EXPLORATORY_PHASE_LENGTH, RL_PHASE_LENGTH, explores in *.
  rewrite mod_succ. pose proof (Nat.mod_upper_bound n 120 ltac:(lia)) as B.
  set (r := (n mod 120)%nat) in *. clearbody r.
  destruct (Nat.leb_spec 80 r); cbn [andb negb].
  - destruct (Z.leb_spec0 (2 * 3600 * 1000000)
      (3 * 60 * 1000000 * Z.of_nat (r - 80) + 3 * 60 * 1000000)) as [C1|C1].
    + assert (r = 119%nat) by lia. subst r. cbn. repeat split; lia.
    + assert (r <> 119%nat) by lia. destruct (Nat.eqb_spec r 119); [lia|].
      cbn [exploratory_agent exploratory_episode_probability exploratory_episode exploratory_phase phase_time_elapsed mp_rng negb andb]. destruct (Nat.leb_spec 80 (S r)); [|lia]. repeat split; lia.
  - destruct (Nat.eqb_spec r 119); [lia|].
    destruct (Z.leb_spec0 (4 * 3600 * 1000000) (3 * 60 * 1000000 * Z.of_nat r + 3 * 60 * 1000000));
      cbn [exploratory_agent exploratory_episode_probability exploratory_episode exploratory_phase phase_time_elapsed mp_rng negb andb]; destruct (Nat.leb_spec 80 (S r)); repeat split; lia.
Qed.

Lemma begin_clock m o action m0 given : mp_begin_episode P A m o action = Some (m0, given) ->
  clock_ok m0 0 /\ given = action /\ mp_rng P A m0 = split P (mp_rng P A m) 2 1 /\
  exploratory_episode_probability P A m0 = exploratory_episode_probability P A m /\
  exploratory_episode P A m0 =
    Rleb (uniform P (split P (mp_rng P A m) 2 0) 0 1) (exploratory_episode_probability P A m) /\
  exists b, ag_begin_episode A (exploratory_agent P A m) o = Some (exploratory_agent P A m0, b).
Proof.
  unfold mp_begin_episode. destruct (ag_begin_episode A _ o) as [[a b]|] eqn:E; [|discriminate].
  intro H. injection H as <- <-. unfold clock_ok. cbn.
  repeat split; [destruct (Rleb _ _); repeat split|exists b; reflexivity].
Qed.

Lemma schedule_calls inputs : forall m n, clock_ok m n ->
  option_map (fun '(m', outs) => (exploratory_agent P A m', outs)) (calls mp_call m inputs) =
  scheduled A (fun k => exploratory_episode P A m && explores k) (S n) (exploratory_agent P A m) inputs.
Proof.
  induction inputs as [|[[r o] action] rest IH]; intros m n C; [reflexivity|].
  cbn [calls scheduled]. unfold mp_call at 1, Exploration.mp_step.
  destruct (update_clock m n C) as (C' & Ea & Ee & _). set (m1 := update_phase P A m) in *. clearbody m1.
  assert (Ph : exploratory_phase P A m1 = exploratory_episode P A m && explores (S n)).
  { unfold clock_ok in C'. rewrite Ee in C'. destruct (exploratory_episode P A m); [apply C'|exact C']. }
  rewrite Ph, Ea. destruct (exploratory_episode P A m && explores (S n)) eqn:X.
  - destruct (ag_step A (exploratory_agent P A m) r o) as [[a act]|]; [|reflexivity].
    set (m2 := mkMarcoPolo _ _ _ _ _ _ _ _).
    assert (C2 : clock_ok m2 (S n)).
    { unfold clock_ok, m2 in *. cbn. rewrite Ph in C'. exact C'. }
    specialize (IH m2 (S n) C2). unfold m2 at 2 3 in IH. cbn [exploratory_episode exploratory_agent] in IH.
    rewrite Ee in IH. rewrite <- IH. destruct (calls mp_call m2 rest) as [[m3 os]|]; reflexivity.
  - specialize (IH m1 (S n) C'). rewrite Ee, Ea in IH. rewrite <- IH.
    destruct (calls mp_call m1 rest) as [[m3 os]|]; reflexivity.
Qed.

(** ** Which episodes explore *)
Definition mp_event (m : marco_polo) (e : event obs) : option (marco_polo * Z) :=
  match e with
  | Began o action => mp_begin_episode P A m o action
  | Stepped i => mp_call m i
  end.

Lemma step_keeps m i m' out : mp_call m i = Some (m', out) ->
  exploratory_episode P A m' = exploratory_episode P A m /\ mp_rng P A m' = mp_rng P A m /\
  exploratory_episode_probability P A m' = exploratory_episode_probability P A m.
Proof.
  destruct i as [[r o] action]. unfold mp_call, Exploration.mp_step.
  assert (U : exploratory_episode P A (update_phase P A m) = exploratory_episode P A m /\
    mp_rng P A (update_phase P A m) = mp_rng P A m /\
    exploratory_episode_probability P A (update_phase P A m) = exploratory_episode_probability P A m).
  { destruct m as [a p e ph el k]. unfold update_phase. cbn [exploratory_episode]. destruct e; cbn [negb].
    - destruct (phase_expired _ _ _); repeat split.
    - repeat split. }
  set (m1 := update_phase P A m) in *. clearbody m1.
  destruct (exploratory_phase P A m1).
  - destruct (ag_step A _ r o) as [[a act]|]; [|discriminate]. intro H. injection H as <- _. exact U.
  - intro H. injection H as <- _. exact U.
Qed.

Lemma rng_chain es : forall m m' outs key0 n p,
  calls mp_event m es = Some (m', outs) ->
  mp_rng P A m = chain P n key0 -> exploratory_episode_probability P A m = p ->
  exploratory_episode P A m =
    match n with O => false | S k => Rleb (uniform P (split P (chain P k key0) 2 0) 0 1) p end ->
  exploratory_episode P A m' =
    match (episodes_begun es + n)%nat with
    | O => false | S k => Rleb (uniform P (split P (chain P k key0) 2 0) 0 1) p end.
Proof.
  induction es as [|e es IH]; intros m m' outs key0 n p E Hk Hp He.
  - cbn in E. injection E as <- _. exact He.
  - cbn [calls] in E. destruct (mp_event m e) as [[m1 o1]|] eqn:E1; [|discriminate].
    destruct (calls mp_event m1 es) as [[m2 os]|] eqn:E2; [|discriminate]. injection E as <- _.
    destruct e as [o action|i]; cbn [mp_event] in E1.
    + destruct (begin_clock _ _ _ _ _ E1) as (_ & _ & K & Q & X & _).
      change (episodes_begun (Began o action :: es)) with (S (episodes_begun es)).
      replace (S (episodes_begun es) + n)%nat with (episodes_begun es + S n)%nat by lia.
      apply (IH m1 m2 os key0 (S n) p E2).
      * rewrite K, Hk. reflexivity.
      * congruence.
      * rewrite X, Hk, Hp. reflexivity.
    + destruct (step_keeps _ _ _ _ E1) as (X & K & Q).
      change (episodes_begun (Stepped i :: es)) with (episodes_begun es).
      apply (IH m1 m2 os key0 n p E2); congruence.
Qed.
End Schedule.

(** ** The actions the learner stores *)
Section Quantile.
Context {obs : Type} (L : learner obs) (X : explorer obs).
Notation agent := (quantile_agent (recording L) X).
Notation q := (quantile (recording L) X).
Definition stored (a : q) : list Z := snd (q_learner _ _ a).

Lemma steps_store inputs : forall (a a' : q) acts,
  steps agent a inputs = Some (a', acts) ->
  stored a' ++ [q_action _ _ a'] = stored a ++ [q_action _ _ a] ++ acts /\
  q_eval_mode _ _ a' = q_eval_mode _ _ a.
Proof.
  induction inputs as [|[r o] rest IH]; intros a a' acts E.
  - cbn in E. injection E as <- <-. split; reflexivity.
  - cbn [steps] in E. destruct (ag_step agent a r o) as [[a1 act]|] eqn:E1; [|discriminate].
    destruct (steps agent a1 rest) as [[a2 acts2]|] eqn:E2; [|discriminate]. injection E as <- <-.
    specialize (IH _ _ _ E2). destruct IH as [IH M]. rewrite IH.
    clear E2 IH. cbn [ag_step quantile_agent] in E1. unfold q_step in E1. cbn [l_step recording] in E1.
    destruct (l_step L _ _ _ r o) as [[l b]|]; [|discriminate].
    unfold stored. destruct (q_eval_mode _ _ a) eqn:Ev.
    + injection E1 as <- <-. cbn [q_learner q_action snd]. rewrite <- app_assoc.
      split; [reflexivity|]. rewrite M. reflexivity.
    + destruct (x_step X _ r o b) as [[x' c]|]; [|discriminate]. injection E1 as <- <-.
      cbn [q_learner q_action snd]. rewrite <- app_assoc. split; [reflexivity|]. rewrite M. reflexivity.
Qed.

Lemma episode_stores (a a' : q) first inputs reward terminal acts :
  episode agent a first inputs reward terminal = Some (a', acts) ->
  stored a' = stored a ++ acts /\ q_eval_mode _ _ a' = q_eval_mode _ _ a.
Proof.
  unfold episode. destruct (ag_begin_episode agent a first) as [[a1 act]|] eqn:E1; [|discriminate].
  destruct (steps agent a1 inputs) as [[a2 acts2]|] eqn:E2; [|discriminate].
  destruct (ag_end_episode agent a2 reward terminal) as [a3|] eqn:E3; [|discriminate].
  intro H. injection H as <- <-.
  destruct (steps_store _ _ _ _ E2) as [S2 M2].
  assert (S3 : stored a3 = stored a2 ++ [q_action _ _ a2] /\ q_eval_mode _ _ a3 = q_eval_mode _ _ a2).
  { clear E1 E2 S2. cbn [ag_end_episode quantile_agent] in E3. unfold q_end_episode in E3.
    cbn [l_end_episode recording] in E3. destruct (l_end_episode L _ _ _ _ _); [|discriminate].
    injection E3 as <-. split; reflexivity. }
  assert (S1 : stored a1 = stored a /\ q_action _ _ a1 = act /\ q_eval_mode _ _ a1 = q_eval_mode _ _ a).
  { clear E2 E3 S2 S3 M2. cbn [ag_begin_episode quantile_agent] in E1. unfold q_begin_episode in E1.
    cbn [l_begin_episode recording] in E1. destruct (l_begin_episode L _ _ _) as [[l b]|]; [|discriminate].
    unfold stored. destruct (q_eval_mode _ _ a).
    - injection E1 as <- <-. repeat split.
    - destruct (x_begin_episode X _ _ _) as [[x' c]|]; [|discriminate]. injection E1 as <- <-. repeat split. }
  destruct S3 as [S3 M3], S1 as (S1 & A1 & M1). rewrite S3, S2, S1, A1. split; [reflexivity|congruence].
Qed.
End Quantile.

(** In evaluation, or with the empty strategy, the learner decides alone. *)
Section Alone.
Context {obs : Type} (L : learner obs) (X : explorer obs).
Notation agent := (quantile_agent L X).

Definition view (a : quantile L X) : ag_state (learner_agent L) :=
  (q_learner _ _ a, q_action _ _ a, q_eval_mode _ _ a).

Lemma eval_steps inputs : forall a : quantile L X, q_eval_mode _ _ a = true ->
  option_map (fun '(a', acts) => (view a', q_explorer _ _ a', acts)) (steps agent a inputs) =
  option_map (fun '(s, acts) => (s, q_explorer _ _ a, acts)) (steps (learner_agent L) (view a) inputs).
Proof.
  induction inputs as [|[r o] rest IH]; intros a Ev; [reflexivity|].
  cbn [steps ag_step quantile_agent learner_agent view]. unfold q_step, view. rewrite ?Ev.
  destruct (l_step L (q_learner _ _ a) true (q_action _ _ a) r o) as [[l b]|]; [|reflexivity].
  specialize (IH (mkQuantile L X l (q_explorer _ _ a) b true) eq_refl).
  cbn [q_learner q_explorer q_action q_eval_mode view] in IH.
  cbn [ag_state ag_step quantile_agent learner_agent] in *.
  destruct (steps agent _ rest) as [[a2 acts2]|], (steps (learner_agent L) _ rest) as [[s2 acts2']|];
    cbn [option_map] in *; try discriminate; [|reflexivity].
  injection IH as <- -> ->. reflexivity.
Qed.

Lemma eval_episode (a : quantile L X) first inputs reward terminal : q_eval_mode _ _ a = true ->
  option_map (fun '(a', acts) => (view a', q_explorer _ _ a', acts))
    (episode agent a first inputs reward terminal) =
  option_map (fun '(s, acts) => (s, q_explorer _ _ a, acts))
    (episode (learner_agent L) (view a) first inputs reward terminal).
Proof.
  intro Ev. unfold episode. cbn [ag_begin_episode quantile_agent learner_agent view].
  unfold q_begin_episode, view. rewrite ?Ev.
  destruct (l_begin_episode L (q_learner _ _ a) true first) as [[l b]|]; [|reflexivity].
  pose proof (eval_steps inputs (mkQuantile L X l (q_explorer _ _ a) b true) eq_refl) as IH.
  unfold view in IH. cbn [q_learner q_explorer q_action q_eval_mode] in IH.
  cbn [ag_state ag_step quantile_agent learner_agent] in *.
  destruct (steps agent _ inputs) as [[a2 acts2]|], (steps (learner_agent L) _ inputs) as [[s2 acts2']|];
    cbn [option_map] in *; try discriminate; [|reflexivity].
  injection IH as <- Ex <-.
  cbn [ag_end_episode quantile_agent learner_agent]. unfold q_end_episode.
  destruct (l_end_episode L _ _ _ reward terminal) as [l'|]; [|reflexivity]. cbn. rewrite Ex. reflexivity.
Qed.
End Alone.

Section Plain.
Context {obs : Type} (L : learner obs).
Notation X := (no_exploration obs).
Notation agent := (quantile_agent L X).
Notation view := (view L X).

Lemma plain_steps inputs : forall a : quantile L X, q_eval_mode _ _ a = false ->
  option_map (fun '(a', acts) => (view a', acts)) (steps agent a inputs) =
  steps (learner_agent L) (view a) inputs.
Proof.
  induction inputs as [|[r o] rest IH]; intros a Ev; [reflexivity|].
  cbn [steps ag_step quantile_agent learner_agent]. unfold q_step, ExplorationProofs.view. rewrite ?Ev.
  destruct (l_step L (q_learner _ _ a) false (q_action _ _ a) r o) as [[l b]|]; [|reflexivity].
  cbn [x_step no_exploration].
  specialize (IH (mkQuantile L X l (q_explorer _ _ a) b false) eq_refl).
  unfold ExplorationProofs.view in IH. cbn [q_learner q_explorer q_action q_eval_mode] in IH.
  cbn [ag_state ag_step quantile_agent learner_agent] in *. rewrite <- IH.
  destruct (steps agent _ rest) as [[a2 acts2]|]; reflexivity.
Qed.
Lemma plain_episode (a : quantile L X) first inputs reward terminal : q_eval_mode _ _ a = false ->
  option_map (fun '(a', acts) => (view a', acts)) (episode agent a first inputs reward terminal) =
  episode (learner_agent L) (view a) first inputs reward terminal.
Proof.
  intro Ev. unfold episode. cbn [ag_begin_episode quantile_agent learner_agent].
  unfold q_begin_episode, ExplorationProofs.view. rewrite ?Ev.
  destruct (l_begin_episode L (q_learner _ _ a) false first) as [[l b]|]; [|reflexivity].
  cbn [x_begin_episode no_exploration].
  pose proof (plain_steps inputs (mkQuantile L X l (q_explorer _ _ a) b false) eq_refl) as IH.
  unfold ExplorationProofs.view in IH. cbn [q_learner q_explorer q_action q_eval_mode] in IH.
  cbn [ag_state ag_step quantile_agent learner_agent] in *. rewrite <- IH.
  destruct (steps agent _ inputs) as [[a2 acts2]|]; [|reflexivity]. cbn [option_map].
  cbn [ag_end_episode quantile_agent learner_agent]. unfold q_end_episode.
  destruct (l_end_episode L _ _ _ reward terminal) as [l'|]; reflexivity.
Qed.
End Plain.
