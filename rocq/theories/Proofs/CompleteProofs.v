(** Loops over an environment that always answers run to their end. *)
From Coq Require Import ZArith Reals List Bool Lia Lra Psatz.
From Verif Require Import Model.Num Model.Prng Model.Safety Model.Balloon Model.WindField Model.Atmosphere
  Model.Env Model.Features Model.Agents Model.Eval Model.Exploration Model.Acme
  Model.Collectors Model.Training.
From Verif Require Import Spec.CompleteSpec.
From Verif Require Spec.Episodes.
From Verif Require Import Proofs.NumR Props.EnvProps.
Import ListNotations.
Open Scope R_scope.

Section Complete.
Context (P : prng) (noise4d : Z -> R -> R -> R -> R -> R) (F : forecaster P) (FC : feature_class P F).
Context (reward_fn : wind_field P F -> atmosphere -> R * R -> bstate R -> option R).
Notation gym := (balloon_gym P noise4d F FC reward_fn).
Notation env := (env P F FC).
Context (ready : nat -> env -> Prop) (shown : observation P F FC -> Prop) (K : nat).
Hypothesis reset_ok : forall (e : env) seed, exists N e1 o i,
  (forall draws, (N <= draws)%nat -> env_reset P noise4d F FC draws e seed = (e1, Returned (o, i))) /\ ready 0 e1 /\ shown o.
Hypothesis step_ok : forall k (e : env) a, (k < K)%nat -> ready k e -> (0 <= a <= 2)%Z ->
  exists e' o r d i, env_step P noise4d F FC reward_fn e a = (e', Returned (o, r, d, i)) /\ shown o /\ (d = false -> ready (S k) e').

Lemma gym_step draws k (e : env) a : (k < K)%nat -> ready k e -> (0 <= a <= 2)%Z ->
  exists e' o r d i b, g_step (gym draws) e a = Some (e', (o, r, d, i)) /\ g_balloon (gym draws) e' = Some b /\ shown o /\
    (d = false -> ready (S k) e').
Proof.
  intros Hk Hr Ha. destruct (step_ok k e a Hk Hr Ha) as (e' & o & r & d & i & E & Sh & N).
  cbn [balloon_gym g_step g_balloon]. rewrite E.
  destruct (C09_reported _ _ _ _ _ _ _ _ _ _ _ _ E) as (_ & s & _ & B & _).
  unfold Episodes.balloon_of in B. destruct (a_balloon P F FC (e_arena P F FC e')) as [[ce s']|] eqn:Eb; [|discriminate].
  exists e', o, r, d, (mkInfoDict (Some (out_of_power i)) (Some (envelope_burst i)) (Some (zeropressure i))), s'. rewrite Eb. auto.
Qed.

Section Evaluation.
Context (A : agent_class (observation P F FC)) (good busy : ag_state A -> Prop) (HA : obliging A shown good busy).
Context (rp : Z) (fp : bool) (Hrp : rp <> 0%Z).

Lemma loop_completes draws max : forall fuel (l : locals (gym draws) A) k,
  (Z.of_nat k + Z.of_nat fuel <= Z.of_nat K)%Z -> ready k (l_env _ _ l) -> busy (l_agent _ _ l) -> (0 <= l_action _ _ l <= 2)%Z ->
  exists l', loop (gym draws) A rp fp fuel max l = Some l' /\ busy (l_agent _ _ l').
Proof.
  induction fuel as [|fuel IH]; intros l k HK Hr Hg Ha; cbn [loop]; [eauto|].
  destruct (l_step_count (gym draws) A l <? max)%Z; [|eauto].
  destruct (gym_step draws k (l_env _ _ l) (l_action _ _ l) ltac:(lia) Hr Ha) as (e' & o & r & d & i & b & E & Eb & Sh & N).
  destruct (obliging_step _ _ _ _ HA _ r o Hg Sh) as (a' & x & Es & Hg' & Hx).
  unfold iteration. rewrite E. change (g_obs (gym draws)) with (observation P F FC) in *.
  rewrite Es, Eb. destruct (Z.eqb_spec rp 0) as [|_]; [contradiction|].
  destruct d.
  - cbn [l_is_done]. eexists. split; [reflexivity|]. exact Hg'.
  - cbn [l_is_done]. apply (IH _ (S k)); [lia|now apply N|exact Hg'|exact Hx].
Qed.

(** The number of draws matters for a reset only. *)
Definition recast d d' (l : locals (gym d) A) : locals (gym d') A :=
  match l with mkLocals _ _ a b c e f g h i j k m n => mkLocals (gym d') A a b c e f g h i j k m n end.
Lemma iteration_recast d d' l :
  iteration (gym d') A rp fp (recast d d' l) = option_map (recast d d') (iteration (gym d) A rp fp l).
Proof.
  destruct l as [e0 ag ac rw dn0 tr sw fpth sc op eb zp]. unfold iteration.
  cbn [recast l_env l_agent l_action l_reward l_is_done l_total_reward l_flight_path l_steps_within_radius l_step_count].
  change (g_step (gym d')) with (g_step (gym d)). change (g_obs (gym d')) with (observation P F FC).
  change (g_obs (gym d)) with (observation P F FC).
  change (g_balloon (gym d')) with (g_balloon (gym d)). change (g_radius (gym d')) with (g_radius (gym d)).
  destruct (g_step (gym d) e0 ac) as [[e' [[[o r] dn] info]]|]; [|reflexivity].
  destruct (ag_step A ag r o) as [[a' x]|]; [|reflexivity].
  destruct (g_balloon (gym d) e'); [|reflexivity].
  destruct (rp =? 0)%Z; [reflexivity|]. destruct dn; reflexivity.
Qed.
Lemma loop_recast d d' max : forall fuel l,
  loop (gym d') A rp fp fuel max (recast d d' l) = option_map (recast d d') (loop (gym d) A rp fp fuel max l).
Proof.
  induction fuel as [|fuel IH]; intro l; cbn [loop]; [reflexivity|].
  assert (Es : l_step_count _ _ (recast d d' l) = l_step_count _ _ l) by now destruct l. rewrite Es.
  destruct (l_step_count (gym d) A l <? max)%Z; [|reflexivity]. rewrite iteration_recast.
  destruct (iteration (gym d) A rp fp l) as [l'|]; [|reflexivity]. cbn [option_map].
  assert (Ed : l_is_done _ _ (recast d d' l') = l_is_done _ _ l') by now destruct l'. rewrite Ed.
  destruct (l_is_done (gym d) A l'); [reflexivity|]. apply IH.
Qed.

(** One evaluation episode, with all sufficiently large numbers of draws. *)
Lemma seed_completes max z (e : env) a : (0 < max <= Z.of_nat K)%Z -> good a ->
  exists N r e' a', good a' /\ forall draws, (N <= draws)%nat ->
    eval_seed (gym draws) A rp fp max z e a = Some (r, e', a').
Proof.
  intros Hm Hg. destruct (reset_ok (env_seed P F FC e z) None) as (N & e1 & o & i & E & R & Sh).
  destruct (obliging_begin _ _ _ _ HA a o Hg Sh) as (a1 & x & Eb & Hg1 & Hx).
  destruct (loop_completes N max (Z.to_nat max) (mkLocals (gym N) A e1 a1 x 0 false 0 0 [] 0 false false false) 0%nat)
    as (l & El & Hl); [lia|exact R|exact Hg1|exact Hx|].
  destruct (obliging_end _ _ _ _ HA _ (l_reward _ _ l) (l_is_done _ _ l) Hl) as (a2 & Ee & Hg2).
  destruct l as [e2 ag ac rw dn tr sw fpth sc op eb zp] eqn:L. cbn [l_agent l_reward l_is_done] in Ee.
  exists N, (mkEvalResult z tr (IZR sw / IZR sc) op eb zp sc fpth), e2, a2. split; [exact Hg2|]. intros draws Hd.
  unfold eval_seed. cbn [g_seed g_reset balloon_gym]. rewrite (E draws Hd).
  change (g_obs (gym draws)) with (observation P F FC). rewrite Eb.
  change (mkLocals (gym draws) A e1 a1 x 0 false 0 0 [] 0 false false false)
    with (recast N draws (mkLocals (gym N) A e1 a1 x 0 false 0 0 [] 0 false false false)).
  rewrite loop_recast, El. cbn [option_map recast l_agent l_reward l_is_done].
  change (g_obs (gym draws)) with (observation P F FC). rewrite Ee. reflexivity.
Qed.

Lemma seeds_complete max zs : (0 < max <= Z.of_nat K)%Z -> forall (e : env) a, good a ->
  exists N rs e' a', good a' /\ forall draws, (N <= draws)%nat ->
    eval_seeds (gym draws) A rp fp max zs e a = Some (rs, e', a').
Proof.
  intro Hm. induction zs as [|z zs IH]; intros e a Hg.
  - exists 0%nat, [], e, a. split; [exact Hg|]. reflexivity.
  - destruct (seed_completes max z e a Hm Hg) as (N1 & r & e1 & a1 & Hg1 & E1).
    destruct (IH e1 a1 Hg1) as (N2 & rs & e2 & a2 & Hg2 & E2).
    exists (Nat.max N1 N2), (r :: rs), e2, a2. split; [exact Hg2|]. intros draws Hd. cbn [eval_seeds].
    rewrite E1 by lia. rewrite E2 by lia. reflexivity.
Qed.
Lemma evaluation_completes max zs (e : env) a : (0 < max <= Z.of_nat K)%Z -> good (ag_set_mode A a EVAL) ->
  exists N rs e' a', good a' /\ forall draws, (N <= draws)%nat ->
    eval_agent (gym draws) A rp fp a e (mkSuite zs max) = Some (rs, e', a').
Proof.
  intros Hm Hg. destruct (seeds_complete max zs Hm e _ Hg) as (N & rs & e' & a' & Hg' & E).
  exists N, rs, e', a'. split; [exact Hg'|]. intros draws Hd. unfold eval_agent. cbn [max_episode_length seeds].
  destruct (Z.ltb_spec 0 max); [|lia]. now apply E.
Qed.
End Evaluation.

Section Acting.
Context (C : actor (observation P F FC)) (good : ac_state C -> Prop) (HC : obliging_actor C shown good).
Lemma acme_loop_completes draws limit : forall fuel k j (e : env) c o,
  (k + fuel <= K)%nat -> ready k e -> good c -> shown o ->
  exists e' c' l, acme_loop (gym draws) C fuel limit j e c o = Some (e', c', l) /\ good c'.
Proof.
  induction fuel as [|fuel IH]; intros k j e c o HK Hr Hg Ho; cbn [acme_loop]; [do 3 eexists; split; [reflexivity|exact Hg]|].
  destruct (obliging_select _ _ _ HC c o Hg Ho) as (c1 & x & Es & Hg1 & Hx). 
  destruct (gym_step draws k e x ltac:(lia) Hr Hx) as (e' & o' & r & d & i & b & E & Eb & Sh & N).
  change (g_obs (gym draws)) with (observation P F FC) in *. rewrite Es. unfold wrapped_step. rewrite E.
  change (g_obs (gym draws)) with (observation P F FC) in *. set (t := mkTimestep _ _ _ _).
  destruct (obliging_observe _ _ _ HC c1 x t Hg1 Sh) as (c2 & Eo & Hg2). rewrite Eo.
  destruct (obliging_update _ _ _ HC c2 Hg2) as (c3 & Eu & Hg3). rewrite Eu.
  destruct (ts_last t) eqn:T; [do 3 eexists; split; [reflexivity|exact Hg3]|].
  assert (D : d = false) by now apply orb_false_elim in T.
  destruct (IH (S k) (j + 1)%Z e' c3 (ts_observation t) ltac:(lia) (N D) Hg3 Sh) as (e2 & c4 & l & El & Hg4).
  change (g_obs (gym draws)) with (observation P F FC) in *. rewrite El. do 3 eexists. split; [reflexivity|exact Hg4].
Qed.
Lemma acting_completes limit (e : env) c : (0 < limit <= Z.of_nat K)%Z -> good c ->
  exists N e' c' (l : list (Z * timestep (observation P F FC))), good c' /\ forall draws, (N <= draws)%nat ->
    acme_episode (gym draws) C limit e c = Some (e', c', l).
Proof.
  intros Hl Hg. destruct (reset_ok e None) as (N & e1 & o & i & E & R & Sh).
  destruct (obliging_first _ _ _ HC c o Hg Sh) as (c1 & Ef & Hg1).
  destruct (acme_loop_completes N limit (Z.to_nat limit) 0 0 e1 c1 o ltac:(lia) R Hg1 Sh) as (e2 & c2 & l & El & Hg2).
  exists N, e2, c2, l. split; [exact Hg2|]. intros draws Hd. unfold acme_episode. cbn [g_reset balloon_gym].
  rewrite (E draws Hd).
  change (g_obs (gym draws)) with (observation P F FC). rewrite Ef. exact El.
Qed.
End Acting.
Section Training.
Context (A : trainable (observation P F FC)) (good busy : ag_state (t_agent A) -> Prop) (HA : obliging (t_agent A) shown good busy).
Context (off on : list collector -> Prop) (HW : recording off on).
Context (rp : Z) (Hrp : rp <> 0%Z).

Lemma training_loop_completes draws max : forall n k j (e : env) a cs x r t,
  (k + n <= K)%nat -> ready k e -> busy a -> on cs -> (0 <= x <= 2)%Z ->
  exists e' a' cs' y r' t' f, episode_loop (gym draws) A n j max rp e a cs x r t = Some (e', a', cs', (y, r', t', f)) /\ busy a' /\ on cs' /\
    (0 <= y <= 2)%Z.
Proof.
  induction n as [|n IH]; intros k j e a cs x r t HK Hr Hg Hw Hx; cbn [episode_loop].
  - do 7 eexists. split; [reflexivity|]. auto.
  - destruct (gym_step draws k e x ltac:(lia) Hr Hx) as (e' & o & r' & d & i & b & E & Eb & Sh & N). rewrite E.
    destruct (Z.eqb_spec rp 0) as [|_]; [contradiction|].
    destruct (recording_step _ _ HW cs (mkStatistics j x r' d) Hw Hx) as (cs' & -> & Hw').
    destruct d.
    + do 7 eexists. split; [reflexivity|]. auto.
    + destruct (obliging_step _ _ _ _ HA a r' o Hg Sh) as (a' & y & Es & Hg' & Hy).
      change (g_obs (gym draws)) with (observation P F FC). rewrite Es.
      apply (IH (S k)); auto; lia.
Qed.
Lemma training_completes max (e : env) a cs : (max <= Z.of_nat K)%Z -> good a -> off cs ->
  exists N e' a' cs', good a' /\ off cs' /\ forall draws, (N <= draws)%nat ->
    run_one_episode (gym draws) A max rp e a cs = Some (e', a', cs').
Proof.
  intros Hm Hg Hw. destruct (recording_begin _ _ HW cs Hw) as (cs1 & Ec & Hw1).
  destruct (reset_ok e None) as (N & e1 & o & i & E & R & Sh).
  destruct (obliging_begin _ _ _ _ HA a o Hg Sh) as (a1 & x & Eb & Hg1 & Hx).
  destruct (training_loop_completes N max (Z.to_nat max) 0 0 e1 a1 cs1 x 0 false ltac:(lia) R Hg1 Hw1 Hx)
    as (e2 & a2 & cs2 & y & r & t & f & El & Hg2 & Hw2 & Hy).
  destruct (obliging_end _ _ _ _ HA a2 r t Hg2) as (a3 & Ee & Hg3).
  destruct (recording_end _ _ HW cs2 (mkStatistics f y r t) Hw2 Hy) as (cs3 & Ec3 & Hw3).
  exists N, e2, a3, cs3. split; [exact Hg3|]. split; [exact Hw3|]. intros draws Hd. unfold run_one_episode. rewrite Ec.
  cbn [g_reset balloon_gym]. rewrite (E draws Hd). change (g_obs (gym draws)) with (observation P F FC). rewrite Eb.
  change (episode_loop (gym draws) A) with (episode_loop (gym N) A). rewrite El, Ee, Ec3. reflexivity.
Qed.
Lemma trainings_complete max n : (max <= Z.of_nat K)%Z -> forall (e : env) a cs, good a -> off cs ->
  exists N e' a' cs', good a' /\ off cs' /\ forall draws, (N <= draws)%nat ->
    run_episodes (gym draws) A n max rp e a cs = Some (e', a', cs').
Proof.
  intro Hm. induction n as [|n IH]; intros e a cs Hg Hw.
  - exists 0%nat, e, a, cs. split; [exact Hg|]. split; [exact Hw|]. reflexivity.
  - destruct (training_completes max e a cs Hm Hg Hw) as (N1 & e1 & a1 & cs1 & Hg1 & Hw1 & E1).
    destruct (IH e1 a1 cs1 Hg1 Hw1) as (N2 & e2 & a2 & cs2 & Hg2 & Hw2 & E2).
    exists (Nat.max N1 N2), e2, a2, cs2. split; [exact Hg2|]. split; [exact Hw2|]. intros draws Hd. cbn [run_episodes].
    rewrite E1 by lia. apply E2. lia.
Qed.
End Training.
End Complete.
