(** Property C83: evaluation and exploration with Acme. *)
From Coq Require Import ZArith Reals List Bool Lia Lra Psatz.
From Verif Require Import Model.Num Model.Prng Model.Units Model.Safety Model.Balloon Model.WindField Model.Atmosphere
  Model.Env Model.Agents Model.Eval Model.Exploration Model.Acme.
From Verif Require Import Spec.EvalSpec Spec.ExplorationSpec Spec.AcmeSpec.
From Verif Require Import Proofs.NumR Proofs.ExplorationProofs Props.EvalProps.
Import ListNotations.
Open Scope R_scope.

(** ** Episodes *)
Section Loop.
Context (G : gym_env) (C : actor (g_obs G)).
Hypothesis has_balloon : forall e a e1 r, g_step G e a = Some (e1, r) -> g_balloon G e1 <> None.

Lemma loop_flies fuel : forall limit k e c o e' c' l,
  acme_loop G C fuel limit k e c o = Some (e', c', l) ->
  exists bs, flies G e l bs e' /\ length bs = length l.
Proof.
  induction fuel as [|fuel IH]; intros limit k e c o e' c' l; cbn [acme_loop].
  - intro H. injection H as <- <- <-. exists []. split; [constructor|reflexivity].
  - destruct ac_select_action as [[c1 a]|]; [|discriminate].
    unfold wrapped_step. destruct (g_step G e a) as [[e1 [[[o1 r] d] i]]|] eqn:E; [|discriminate].
    pose proof (has_balloon _ _ _ _ E) as B. destruct (g_balloon G e1) as [b|] eqn:Eb; [clear B|contradiction].
    set (t := mkTimestep _ _ _ _). destruct (ac_observe C c1 a t) as [c2|]; [|discriminate].
    destruct (ac_update C c2) as [c3|]; [|discriminate].
    destruct (ts_last t).
    + intro H. injection H as <- <- <-. exists [b]. split; [|reflexivity].
      eapply flies_step; try eassumption; try reflexivity. constructor.
    + destruct (acme_loop G C fuel limit (k + 1) e1 c3 (ts_observation t)) as [[[e2 c4] l']|] eqn:L; [|discriminate].
      intro H. injection H as <- <- <-. destruct (IH _ _ _ _ _ _ _ _ L) as (bs & F & Lb).
      exists (b :: bs). split; [|cbn; now rewrite Lb]. eapply flies_step; try eassumption; reflexivity.
Qed.

Lemma loop_ends fuel : forall limit k e c o e' c' l,
  (0 < fuel)%nat -> (limit = k + Z.of_nat fuel)%Z ->
  acme_loop G C fuel limit k e c o = Some (e', c', l) ->
  ends_with_last l /\ (0 < length l <= fuel)%nat /\
  (forall a t, In (a, t) l -> ts_last t = true -> ts_discount t = 0 \/ length l = fuel).
Proof.
  induction fuel as [|fuel IH]; intros limit k e c o e' c' l P Hl; [lia|]. cbn [acme_loop].
  destruct ac_select_action as [[c1 a]|]; [|discriminate].
  destruct (wrapped_step G limit k e a) as [[e1 t]|] eqn:W; [|discriminate].
  destruct (ac_observe C c1 a t) as [c2|]; [|discriminate].
  destruct (ac_update C c2) as [c3|]; [|discriminate].
  destruct (ts_last t) eqn:T.
  - intro H. injection H as <- <- <-. split; [|split].
    + exists [], a, t. split; [reflexivity|]. split; [exact T|]. intros ? ? [].
    + cbn. lia.
    + intros a' t' [H|[]] _. injection H as <- <-. unfold wrapped_step in W.
      destruct (g_step G e a) as [[e2 [[[o1 r] d] i]]|]; [|discriminate]. injection W as <- <-. cbn [ts_last ts_discount orb] in *.
      destruct d; [now left|]. cbn [orb] in T. cbn [length]. apply Z.leb_le in T. right. lia.
  - destruct (acme_loop G C fuel limit (k + 1) e1 c3 (ts_observation t)) as [[[e2 c4] l']|] eqn:L; [|discriminate].
    intro H. injection H as <- <- <-.
    assert (F : (0 < fuel)%nat).
    { destruct fuel; [|lia]. exfalso. unfold wrapped_step in W.
      destruct (g_step G e a) as [[e3 [[[o1 r] d] i]]|]; [|discriminate]. injection W as <- <-. cbn [ts_last] in T.
      apply orb_false_iff in T. destruct T as [_ T]. apply Z.leb_gt in T. lia. }
    assert (Q : (limit = (k + 1) + Z.of_nat fuel)%Z) by lia.
    destruct (IH _ _ _ _ _ _ _ _ F Q L) as ((l0 & x & u & -> & U & N) & B & D). split; [|split].
    + exists ((a, t) :: l0), x, u. split; [reflexivity|]. split; [exact U|].
      intros a' t' [H|H]; [injection H as <- <-; exact T|eapply N; exact H].
    + cbn [length]. lia.
    + intros a' t' [H|H] Ht; [injection H as <- <-; congruence|].
      destruct (D _ _ H Ht) as [Z0|Z0]; [now left|right; cbn [length]; lia].
Qed.
End Loop.

Lemma return_sum (G : gym_env) (l : list (Z * timestep (g_obs G))) :
  episode_return G l = total (map (fun at_ => ts_reward (snd at_)) l).
Proof.
  unfold episode_return.
  enough (H : forall acc, fold_left (fun total at_ => total + ts_reward (snd at_)) l acc
                          = acc + total (map (fun at_ => ts_reward (snd at_)) l)) by (rewrite H; lra).
  induction l as [|x l IH]; intro acc; cbn [fold_left map total fold_right]; [lra|]. rewrite IH.
  unfold total. lra.
Qed.

(** ** Evaluation *)
(** Within the radius of 50 km. *)
Definition within_50_km (b : bstate R) : Prop := sqrt (Rsqr (x b) + Rsqr (y b)) <= 50000.

Section Evaluation.
Context (P : prng) (noise4d : Z -> R -> R -> R -> R -> R) (F : forecaster P) (FC : feature_class P F) (draws : nat).
Context (max : Z) (max_pos : (0 < max)%Z).
Notation G := (acme_eval_env P noise4d F FC draws max).

Lemma eval_env_step e a e1 o r d i : g_step G e a = Some (e1, (o, r, d, i)) ->
  exists b, g_balloon G e1 = Some b /\ (within_50_km b /\ r = / IZR max \/ ~ within_50_km b /\ r = 0).
Proof.
  unfold acme_eval_env, balloon_gym. cbn [g_step g_balloon]. unfold env_step.
  destruct command_of_int as [c|]; [|discriminate].
  destruct arena_step as [a' [o'|]]; [|discriminate].
  destruct (a_balloon P F FC a') as [[center s]|] eqn:Ea; [|discriminate].
  unfold acme_reward. destruct (Z.eqb_spec max 0) as [|_]; [lia|].
  intro H. injection H as <- <- <- <- <-. cbn. rewrite Ea. exists s. split; [reflexivity|].
  unfold within_50_km, Units.relative_distance, Rsqr.
  assert (0 < IZR max) by now apply IZR_lt.
  destruct (Rleb_spec (sqrt (x s * x s + y s * y s)) (50 * 1000)) as [L|L].
  - left. split; [lra|]. field. lra.
  - right. split; [lra|]. field. lra.
Qed.
Lemma flies_count e l bs e' : flies G e l bs e' ->
  exists k, counts within_50_km bs k /\ (k <= length bs)%nat /\
    total (map (fun at_ => ts_reward (snd at_)) l) * IZR max = INR k.
Proof.
  assert (0 < IZR max) by now apply IZR_lt.
  induction 1 as [e|e a e1 o r d i b t l bs e2 E Eb Er Eo Ed F' (k & K & Kl & S)].
  - exists 0%nat. split; [constructor|]. split; [cbn; lia|]. cbn. lra.
  - destruct (eval_env_step _ _ _ _ _ _ _ E) as (b' & Eb' & W). rewrite Eb in Eb'. injection Eb' as <-.
    destruct W as [[W R]|[W R]].
    + exists (Datatypes.S k). split; [now constructor|]. split; [cbn; lia|].
      cbn [map total fold_right snd]. rewrite Er, R, Rmult_plus_distr_r. fold (total (map (fun at_ => ts_reward (snd at_)) l)).
      rewrite S, S_INR. field. lra.
    + exists k. split; [now constructor|]. split; [cbn; lia|].
      cbn [map total fold_right snd]. rewrite Er, R, Rmult_plus_distr_r. fold (total (map (fun at_ => ts_reward (snd at_)) l)).
      rewrite S. lra.
Qed.

(** The return of an evaluation episode, whatever the actor: the number of steps after
    which the balloon was within the radius, divided by the maximal (not the actual)
    length of an episode; so it is between 0 and 1. *)
Theorem C83_evaluation_return : forall (C : actor (g_obs G)) e c e' c' l,
  acme_episode G C max e c = Some (e', c', l) ->
  exists e0 o bs k,
    g_reset G e = Some (e0, o) /\ flies G e0 l bs e' /\ length bs = length l /\
    ends_with_last l /\ (0 < Z.of_nat (length l) <= max)%Z /\
    counts within_50_km bs k /\
    episode_return G l = INR k / IZR max /\ 0 <= episode_return G l <= 1.
Proof.
  intros C e c e' c' l. unfold acme_episode.
  destruct (g_reset G e) as [[e0 o]|]; [|discriminate].
  destruct (ac_observe_first C c o) as [c0|]; [|discriminate]. intro H.
  assert (HB : forall e a e1 r, g_step G e a = Some (e1, r) -> g_balloon G e1 <> None).
  { intros e2 a e1 [[[o1 r] d] i] E. destruct (eval_env_step _ _ _ _ _ _ _ E) as (b & -> & _). discriminate. }
  destruct (loop_flies G C HB _ _ _ _ _ _ _ _ _ H) as (bs & Fl & Lb).
  assert (Q1 : (0 < Z.to_nat max)%nat) by lia. assert (Q2 : (max = 0 + Z.of_nat (Z.to_nat max))%Z) by lia.
  destruct (loop_ends G C _ _ _ _ _ _ _ _ _ Q1 Q2 H) as (En & Ln & _).
  destruct (flies_count _ _ _ _ Fl) as (k & K & Kl & S).
  assert (Pm : 0 < IZR max) by now apply IZR_lt.
  exists e0, o, bs, k. split; [reflexivity|]. split; [exact Fl|]. split; [exact Lb|]. split; [exact En|].
  split; [lia|]. split; [exact K|]. rewrite return_sum, <- S.
  split; [field; lra|].
  assert (Kb : 0 <= INR k <= IZR max).
  { split; [apply pos_INR|]. rewrite INR_IZR_INZ. apply IZR_le. lia. }
  rewrite <- S in Kb. split; apply Rmult_le_reg_r with (IZR max); lra.
Qed.

(** An evaluation of the same environment by this package reports the time within the
    radius relative to the steps flown: the two agree for episodes of full length, and
    Acme's is smaller by the factor steps / max for the others. *)
Theorem C83_agrees_with_evaluation : forall (A : agent_class (g_obs G)) rp fp a e zs rs e' a',
  eval_agent G A rp fp a e (mkSuite zs max) = Some (rs, e', a') ->
  g_radius G e = 50000 ->
  Forall (fun r => r_cumulative_reward r * IZR max = r_time_within_radius r * IZR (r_final_timestep r)) rs.
Proof.
  intros A rp fp a e zs rs e' a' H R.
  destruct (C38_results G A rp fp _ _ _ _ _ _ H) as (_ & tss & L & Ep & Rep). cbn [seeds max_episode_length] in *.
  assert (Pm : 0 < IZR max) by now apply IZR_lt.
  (* the radius does not change *)
  assert (Rs : forall e z e1, g_seed G e z = Some e1 -> g_radius G e1 = g_radius G e).
  { intros e1 z e2 E. cbn in E. injection E as <-. reflexivity. }
  assert (Rr : forall e e1 o, g_reset G e = Some (e1, o) -> g_radius G e1 = g_radius G e).
  { intros e1 e2 o. cbn. unfold env_reset. destruct arena_reset as [ar [o'|]]; [|discriminate].
    cbn. destruct (a_balloon P F FC ar) as [[ce s]|]; [|discriminate]. intro E. injection E as <- <-. reflexivity. }
  assert (Rt : forall e x e1 r, g_step G e x = Some (e1, r) -> g_radius G e1 = g_radius G e).
  { intros e1 x e2 r. cbn. unfold env_step. destruct command_of_int; [|discriminate].
    destruct arena_step as [ar [o'|]]; [|discriminate]. destruct (a_balloon P F FC ar) as [[ce s]|]; [|discriminate].
    destruct acme_reward; [|discriminate]. intro E. injection E as <- <-. reflexivity. }
  assert (St : forall e a x ts e1 a1, steps G A e a x ts e1 a1 -> g_radius G e = 50000 ->
     g_radius G e1 = 50000 /\ exists k, counts is_inside ts k /\ total (map t_reward ts) * IZR max = INR k).
  { intros e1 a1 x ts e2 a2 S. induction S as [e1 a1 x|e1 a1 x e2 o r d i a2 x2 b ts e3 a3 E Ea Eb S IH]; intro R1.
    - split; [exact R1|]. exists 0%nat. split; [constructor|]. cbn. lra.
    - pose proof (Rt _ _ _ _ E) as R2. rewrite R1 in R2. destruct (IH R2) as (R3 & k & K & T). split; [exact R3|].
      destruct (eval_env_step _ _ _ _ _ _ _ E) as (b' & Eb' & W). rewrite Eb in Eb'. injection Eb' as <-.
      destruct W as [[W V]|[W V]].
      + exists (Datatypes.S k). split; [apply count_yes; [|exact K]; unfold is_inside; cbn [t_balloon t_radius]; rewrite R2; exact W|].
        cbn [map total fold_right t_reward]. fold (total (map t_reward ts)). rewrite Rmult_plus_distr_r, T, V, S_INR. field. lra.
      + exists k. split; [apply count_no; [|exact K]; unfold is_inside; cbn [t_balloon t_radius]; rewrite R2; exact W|].
        cbn [map total fold_right t_reward]. fold (total (map t_reward ts)). rewrite Rmult_plus_distr_r, T, V. lra. }
  clear H. revert rs Rep. generalize dependent (ag_set_mode A a EVAL). intros a0 Ep.
  induction Ep as [e1 a1|z zs e1 a1 ts e2 a2 tss e3 a3 H1 H2 IH]; intros rs Rep.
  - inversion Rep. constructor.
  - cbn [List.combine] in Rep. inversion Rep as [|? r ? rs' Hr Hrs]; subst.
    destruct H1 as (e0 & e00 & o & a00 & action & a01 & ts0 & u & E0 & E1 & E2 & Hs & Hst & Et & E3).
    destruct (St _ _ _ _ _ _ Hs) as (R2 & k & K & T).
    { rewrite (Rr _ _ _ E1), (Rs _ _ _ E0). exact R. }
    constructor.
    + destruct Hr as (_ & Hc & Hf & (ins & Ki & Hi) & _). cbn [fst snd] in *.
      rewrite Hc, Hf, <- INR_IZR_INZ, Hi, T. f_equal. clear - K Ki. revert ins Ki.
      induction K; intros ins Ki; inversion Ki; subst; try contradiction; auto.
    + apply IH; [exact R2|now injection L|exact Hrs].
Qed.
End Evaluation.

(** ** Exploration *)
Section Exploration.
Context (G : gym_env) (C : actor (g_obs G)) (P : prng) (A : agent_class (g_obs G)).

Lemma combined_loop fuel : forall limit k e c m o n e' c' m' l,
  clock_ok P A m n ->
  acme_loop G (combined_actor C P A) fuel limit k e (c, m) o = Some (e', (c', m'), l) ->
  exists sl, coached C c o l sl c' /\ length sl = length l /\
    scheduled A (fun n => exploratory_episode P A m && explores n) (S n) (exploratory_agent P A m)
      (map (fun os => (0, fst os, snd os)) (List.combine (observations o l) sl))
    = Some (exploratory_agent P A m', map fst l).
Proof.
  induction fuel as [|fuel IH]; intros limit k e c m o n e' c' m' l K; cbn [acme_loop].
  - intro H. injection H as <- <- <- <-. exists []. split; [constructor|]. split; reflexivity.
  - cbn [combined_actor ac_select_action ac_observe ac_update]. unfold combined_select_action. cbn [fst snd].
    destruct (ac_select_action C c o) as [[c1 s]|] eqn:Es; [|discriminate].
    destruct (mp_step P A m 0 o s) as [[m1 a]|] eqn:Em; [|discriminate].
    destruct (wrapped_step G limit k e a) as [[e1 t]|] eqn:W; [|discriminate].
    unfold combined_observe. cbn [fst snd]. destruct (ac_observe C c1 a t) as [c2|] eqn:Eo; [|discriminate].
    unfold combined_update. cbn [fst snd]. destruct (ac_update C c2) as [c3|] eqn:Eu; [|discriminate].
    (* the step of the exploration *)
    destruct (update_clock P A m n K) as (K' & Ua & Ue & _).
    assert (S1 : (if exploratory_episode P A m && explores (S n) then ag_step A (exploratory_agent P A m) 0 o else Some (exploratory_agent P A m, s))
                 = Some (exploratory_agent P A m1, a)
                 /\ exploratory_episode P A m1 = exploratory_episode P A m /\ clock_ok P A m1 (S n)).
    { unfold mp_step in Em. pose proof K' as K2. unfold clock_ok in K'. rewrite Ue in K'.
      destruct (exploratory_phase P A (update_phase P A m)) eqn:Ph.
      - destruct (exploratory_episode P A m) eqn:X; [|discriminate]. destruct K' as [Kp _]. cbn [andb]. rewrite <- Kp.
        rewrite Ua in Em. destruct (ag_step A (exploratory_agent P A m) 0 o) as [[aa act]|]; [|discriminate].
        injection Em as <- <-. cbn. split; [reflexivity|]. split; [exact Ue|].
        unfold clock_ok in *. cbn. rewrite ?Ph in *. exact K2.
      - injection Em as <- <-. split; [|split; [exact Ue|exact K2]].
        destruct (exploratory_episode P A m); [destruct K' as [<- _]|]; cbn [andb]; now rewrite Ua. }
    destruct S1 as (S1 & S2 & S3).
    destruct (ts_last t).
    + intro H. injection H as <- <- <- <-. exists [s]. split.
      { eapply coached_step; try eassumption. constructor. }
      split; [reflexivity|]. cbn [observations length firstn List.combine map scheduled fst snd]. rewrite S1. reflexivity.
    + destruct (acme_loop G (combined_actor C P A) fuel limit (k + 1) e1 (c3, m1) (ts_observation t)) as [[[e2 [c4 m4]] l']|] eqn:L; [|discriminate].
      intro H. injection H as <- <- <- <-. destruct (IH _ _ _ _ _ _ _ _ _ _ _ S3 L) as (sl & Co & Ls & Sc).
      exists (s :: sl). split; [eapply coached_step; eassumption|]. split; [cbn; now rewrite Ls|].
      unfold observations in *. cbn [length firstn map List.combine scheduled fst snd]. rewrite S1.
      rewrite S2 in Sc. 
      rewrite Sc. reflexivity.
Qed.

(** In an episode with the exploring actor the learner's actor is asked for an action at
    every observation and told the actions that were executed; whether the episode
    explores is drawn at its start, and if it does the random walk is asked instead of
    the learner for the actions with numbers (from 1) 80 to 119, 200 to 239 and so on.
    The learner's first turn is therefore 79 actions long, one less than in the schedule
    of the same exploration with the package's own agents (C47, where the first action,
    of begin_episode, is not counted). *)
Theorem C83_exploration : forall limit e c m e' c' m' l,
  acme_episode G (combined_actor C P A) limit e (c, m) = Some (e', (c', m'), l) ->
  exists e0 o c0 first_agent ignored sl,
    g_reset G e = Some (e0, o) /\ ac_observe_first C c o = Some c0 /\
    ag_begin_episode A (exploratory_agent P A m) o = Some (first_agent, ignored) /\
    coached C c0 o l sl c' /\ length sl = length l /\
    let exploring := Rleb (uniform P (split P (mp_rng P A m) 2 0) 0 1) (exploratory_episode_probability P A m) in
    scheduled A (fun n => exploring && explores n) 1 first_agent
      (map (fun os => (0, fst os, snd os)) (List.combine (observations o l) sl))
    = Some (exploratory_agent P A m', map fst l).
Proof.
  intros limit e c m e' c' m' l. unfold acme_episode.
  destruct (g_reset G e) as [[e0 o]|]; [|discriminate].
  cbn [combined_actor ac_observe_first]. unfold combined_observe_first. cbn [fst snd].
  destruct (ac_observe_first C c o) as [c0|] eqn:Ef; [|discriminate].
  destruct (mp_begin_episode P A m o 42) as [[m0 x]|] eqn:Eb; [|discriminate]. intro H.
  destruct (begin_clock P A _ _ _ _ _ Eb) as (K & _ & _ & _ & X & b & Ag).
  destruct (combined_loop _ _ _ _ _ _ _ _ _ _ _ _ K H) as (sl & Co & Ls & Sc).
  exists e0, o, c0, (exploratory_agent P A m0), b, sl. rewrite X in Sc. cbv zeta. auto 10.
Qed.
End Exploration.

Print Assumptions C83_evaluation_return.
Print Assumptions C83_agrees_with_evaluation.
Print Assumptions C83_exploration.
