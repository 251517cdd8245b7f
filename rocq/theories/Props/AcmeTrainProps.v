(** C100: training with Acme and evaluating in between. *)
From Coq Require Import ZArith Reals List Bool Lia Lra.
From Verif Require Import Model.Num Model.Prng Model.Vae Model.Mlp Model.Balloon Model.WindField Model.Atmosphere Model.Env
  Model.Agents Model.Exploration Model.Acme Model.AcmeEval Model.AcmeTrain
  Spec.EvalSpec Spec.ExplorationSpec Spec.AcmeSpec Spec.AcmeEvalSpec Spec.AcmeTrainSpec
  Props.AcmeProps Props.AcmeEvalProps.
Import ListNotations.
Open Scope R_scope.

Section Program.
Context (G GE : gym_env) (C : actor (g_obs G)) (V : Type) (get_variables : ac_state C -> V)
        (B : reader (g_obs GE) V).
Notation main := (train_main G GE C V get_variables B).
Notation rounds := (rounds G GE C V get_variables B).
Notation loop := (train_loop G GE C V get_variables B).

Lemma loop_snoc n limit p : loop (S n) limit p =
  match loop n limit p with
  | None => None
  | Some p => match train_one G GE C V B limit p with
              | None => None
              | Some p => evaluate_one G GE C V get_variables B limit p
              end
  end.
Proof.
  revert p. induction n as [|n IH]; intro p.
  - cbn. destruct train_one as [p1|]; [|reflexivity]. now destruct evaluate_one.
  - cbn [train_loop]. destruct (train_one G GE C V B limit p) as [p1|]; [|reflexivity].
    destruct (evaluate_one G GE C V get_variables B limit p1) as [p2|]; [|reflexivity].
    rewrite <- IH. reflexivity.
Qed.
Lemma training_steps_app (l l' : list (round G GE C)) : training_steps (l ++ l') = (training_steps l + training_steps l')%Z.
Proof. induction l as [|r l IH]; [reflexivity|]. cbn [app training_steps]. rewrite IH. lia. Qed.
Lemma evaluation_steps_app (l l' : list (round G GE C)) : evaluation_steps (l ++ l') = (evaluation_steps l + evaluation_steps l')%Z.
Proof. induction l as [|r l IH]; [reflexivity|]. cbn [app evaluation_steps]. rewrite IH. lia. Qed.

(** The program runs as many rounds as it was asked to, each an episode of training and
    then one of evaluation of what has been learned so far.  It writes two entries for a
    round: the length and the return of the episode, how many episodes and steps of
    training and of evaluation there have been by then. *)
Theorem C100_program : forall n limit e c ee b p,
  main n limit e c ee b = Some p ->
  exists l, rounds limit e c ee b l (p_env _ _ _ _ _ p) (p_agent _ _ _ _ _ p) (p_eval_env _ _ _ _ _ p) (p_eval_actor _ _ _ _ _ p) /\
    length l = n /\ length (p_log _ _ _ _ _ p) = (2 * n)%nat /\
    p_counter _ _ _ _ _ p = mkCounts (Z.of_nat n) (training_steps l) (Z.of_nat n) (evaluation_steps l) /\
    forall i r, nth_error l i = Some r ->
      nth_error (p_log _ _ _ _ _ p) (2 * i) =
        Some (mkLog ACTOR (Z.of_nat (length (training r))) (episode_return G (training r))
               (mkCounts (Z.of_nat i + 1) (training_steps (firstn (S i) l))
                         (Z.of_nat i) (evaluation_steps (firstn i l)))) /\
      nth_error (p_log _ _ _ _ _ p) (2 * i + 1) =
        Some (mkLog EVALUATOR (Z.of_nat (length (evaluation r))) (episode_return GE (evaluation r))
               (mkCounts (Z.of_nat i + 1) (training_steps (firstn (S i) l))
                         (Z.of_nat i + 1) (evaluation_steps (firstn (S i) l)))).
Proof.
  intros n limit e c ee b. unfold train_main. induction n as [|n IH]; intro p.
  - cbn. intro H. injection H as <-. exists []. split; [constructor|]. cbn. repeat split; try reflexivity.
    all: destruct i; discriminate.
  - rewrite loop_snoc. destruct (loop n limit _) as [p0|] eqn:L; [|discriminate].
    destruct (IH p0 eq_refl) as (l & R & Ll & Lg & Cn & Nth). clear IH L.
    destruct p0 as [e1 c1 ee1 b1 n1 g1]. cbn [p_env p_agent p_eval_env p_eval_actor p_counter p_log] in *. subst n1.
    unfold train_one, run_one. cbn [p_env p_agent p_eval_env p_eval_actor p_counter p_log].
    destruct (acme_episode G C limit e1 c1) as [[[e2 c2] t]|] eqn:Et; [|discriminate].
    unfold evaluate_one, run_one. cbn [p_env p_agent p_eval_env p_eval_actor p_counter p_log].
    destruct (acme_episode GE (reading B (fun _ => get_variables c2)) limit ee1 (b1, O)) as [[[ee2 bk] ev]|] eqn:Ee; [|discriminate].
    change (ac_state (reading B (fun _ => get_variables c2))) with (rd_state B * nat)%type in bk.
    destruct bk as [b2 k]. intro H. injection H as <-. cbn [p_env p_agent p_eval_env p_eval_actor p_counter p_log].
    assert (Rs : exists es o, g_reset GE ee1 = Some (es, o)).
    { unfold acme_episode in Ee. destruct (g_reset GE ee1) as [[es o]|]; [eauto|discriminate]. }
    destruct Rs as (es & o & Rs).
    exists (l ++ [mkRound t c2 o ev]).
    split; [eapply one_more; eassumption|]. rewrite !app_length. cbn [length].
    split; [lia|]. split; [lia|].
    cbn [increment actor_episodes actor_steps evaluator_episodes evaluator_steps].
    rewrite training_steps_app, evaluation_steps_app. cbn [training_steps evaluation_steps training evaluation].
    rewrite !Z.add_0_r. split; [f_equal; lia|].
    intros i r Hi. destruct (Nat.lt_ge_cases i n) as [Hn|Hn].
    + rewrite nth_error_app1 in Hi by lia. destruct (Nth i r Hi) as [N1 N2].
      rewrite <- !app_assoc. rewrite !(nth_error_app1 g1) by lia. rewrite !firstn_app.
      replace (S i - length l)%nat with O by lia. replace (i - length l)%nat with O by lia.
      cbn [firstn]. rewrite !app_nil_r. split; assumption.
    + assert (i = n).
      { assert (i < length (l ++ [mkRound t c2 o ev]))%nat by (apply nth_error_Some; rewrite Hi; discriminate).
        rewrite app_length in H. cbn in H. lia. }
      subst i. rewrite nth_error_app2 in Hi by lia. rewrite Ll, Nat.sub_diag in Hi. cbn in Hi. injection Hi as <-.
      rewrite (firstn_all2 (n := S n)) by (rewrite app_length; cbn; lia).
      rewrite firstn_app, Ll, Nat.sub_diag. cbn [firstn]. rewrite app_nil_r, <- Ll, firstn_all, Ll.
      rewrite training_steps_app, evaluation_steps_app. cbn [training_steps evaluation_steps training evaluation].
      rewrite !Z.add_0_r.
      rewrite <- !app_assoc, !(nth_error_app2 g1) by lia. rewrite Lg.
      replace (2 * n - 2 * n)%nat with O by lia. replace (2 * n + 1 - 2 * n)%nat with 1%nat by lia.
      split; reflexivity.
Qed.
End Program.

(** Evaluating does not change training: two programs that train the same agent in the same
    environment, but evaluate other actors in other environments, leave the agent the same
    and write the same about training. *)
Theorem C100_training_unchanged : forall G C GE V gv B GE' V' gv' B' n limit e c ee b ee' b' p p',
  train_main G GE C V gv B n limit e c ee b = Some p ->
  train_main G GE' C V' gv' B' n limit e c ee' b' = Some p' ->
  p_env _ _ _ _ _ p = p_env _ _ _ _ _ p' /\ p_agent _ _ _ _ _ p = p_agent _ _ _ _ _ p' /\
  map about_training (filter of_training (p_log _ _ _ _ _ p)) = map about_training (filter of_training (p_log _ _ _ _ _ p')).
Proof.
  intros G C GE V gv B GE' V' gv' B' n limit e c ee b ee' b'. unfold train_main.
  enough (X : forall p p',
    train_loop G GE C V gv B n limit (mkProgram _ _ _ _ _ e c ee b (mkCounts 0 0 0 0) []) = Some p ->
    train_loop G GE' C V' gv' B' n limit (mkProgram _ _ _ _ _ e c ee' b' (mkCounts 0 0 0 0) []) = Some p' ->
    p_env _ _ _ _ _ p = p_env _ _ _ _ _ p' /\ p_agent _ _ _ _ _ p = p_agent _ _ _ _ _ p' /\
    map about_training (filter of_training (p_log _ _ _ _ _ p)) = map about_training (filter of_training (p_log _ _ _ _ _ p')) /\
    actor_episodes (p_counter _ _ _ _ _ p) = actor_episodes (p_counter _ _ _ _ _ p') /\
    actor_steps (p_counter _ _ _ _ _ p) = actor_steps (p_counter _ _ _ _ _ p')).
  { intros p p' H H'. destruct (X p p' H H') as (? & ? & ? & _). auto. }
  induction n as [|n IH]; intros p p'.
  - cbn. intros H H'. injection H as <-. injection H' as <-. cbn. auto.
  - rewrite !loop_snoc.
    destruct (train_loop G GE C V gv B n limit _) as [[e1 c1 ee1 b1 n1 g1]|]; [|discriminate].
    destruct (train_loop G GE' C V' gv' B' n limit _) as [[e2 c2 ee2 b2 n2 g2]|]; [|discriminate].
    destruct (IH _ _ eq_refl eq_refl) as (E1 & E2 & E3 & E4 & E5). clear IH.
    cbn [p_env p_agent p_eval_env p_eval_actor p_counter p_log] in *. subst e2 c2.
    unfold train_one, run_one. cbn [p_env p_agent p_eval_env p_eval_actor p_counter p_log].
    destruct (acme_episode G C limit e1 c1) as [[[e3 c3] t]|]; [|discriminate].
    unfold evaluate_one, run_one. cbn [p_env p_agent p_eval_env p_eval_actor p_counter p_log].
    destruct (acme_episode GE _ limit ee1 _) as [[[ee3 [b3 k]] ev]|]; [|discriminate].
    destruct (acme_episode GE' _ limit ee2 _) as [[[ee4 [b4 k']] ev']|]; [|discriminate].
    intros H H'. injection H as <-. injection H' as <-.
    cbn [p_env p_agent p_eval_env p_eval_actor p_counter p_log increment actor_episodes actor_steps].
    rewrite !filter_app, !map_app, E3. cbn. rewrite E4, E5. auto.
Qed.

(** ** What the evaluating actor does *)
Section Reading.
Context (P : prng) (sample : key P -> list nat -> nat) (GE : gym_env) (inputs : nat) (flat : g_obs GE -> features).
Hypothesis sample_in : forall k l, l <> [] -> In (sample k l) l.
Notation values ps := (dqn_values inputs flat ps).
Notation B := (generic_actor P sample inputs flat).

Lemma observations_cons (o : g_obs GE) a t l :
  observations o ((a, t) :: l) = o :: observations (ts_observation t) l.
Proof. reflexivity. Qed.

Lemma live_loop per source fuel limit k e a n o e' a' n' l :
  acme_loop GE (reading (B per) source) fuel limit k e (a, n) o = Some (e', (a', n'), l) ->
  n' = (n + length l)%nat /\
  ae_params P a' = (match length l with O => ae_params P a | S m => if per then ae_params P a else source (n + m)%nat end) /\
  acts_best (fun j => values (match j with O => ae_params P a | S m => if per then ae_params P a else source (n + m)%nat end)) o l.
Proof.
  revert k e a n o e' a' n' l. induction fuel as [|fuel IH]; intros k e a n o e' a' n' l; cbn [acme_loop].
  - intro H. injection H as <- <- <- <-. cbn. split; [lia|]. split; [reflexivity|].
    intros j ob x Hj. destruct j; discriminate.
  - cbn [reading ac_select_action ac_observe ac_update fst snd generic_actor rd_select_action rd_observe rd_update].
    set (a1 := fst (actor_select_action P sample inputs flat a o)).
    set (x := snd (actor_select_action P sample inputs flat a o)).
    rewrite (surjective_pairing (actor_select_action P sample inputs flat a o)). fold a1 x.
    destruct (wrapped_step GE limit k e x) as [[e1 t]|]; [|discriminate].
    assert (P1 : ae_params P a1 = ae_params P a) by reflexivity.
    assert (X : exists z, x = Z.of_nat z /\ best (values (ae_params P a) o) z).
    { eexists. split; [reflexivity|]. apply policy_best, sample_in. }
    set (a2 := if per then a1 else mkAcmeAgent P (source n) (ae_rng P a1)).
    assert (P2 : ae_params P a2 = if per then ae_params P a else source n) by (unfold a2; destruct per; [exact P1|reflexivity]).
    destruct (ts_last t).
    + intro H. injection H as <- <- <- <-. cbn [length]. split; [lia|]. split.
      { transitivity (ae_params P a2); [reflexivity|]. rewrite P2, Nat.add_0_r. reflexivity. }
      intros j ob y Hj Hy. destruct j as [|j]; [|destruct j; discriminate].
      cbn in Hj, Hy. injection Hj as <-. injection Hy as <-. exact X.
    + destruct (acme_loop GE _ fuel limit (k + 1) e1 _ (ts_observation t)) as [[[e2 [a3 n3]] l']|] eqn:L; [|discriminate].
      intro H. injection H as <- <- <- <-. destruct (IH _ _ a2 (S n) _ _ _ _ _ L) as (N & Pa & Ab).
      cbn [length]. split; [lia|]. split.
      { rewrite Pa, P2. destruct (length l') as [|m]; [now rewrite Nat.add_0_r|].
        destruct per; [reflexivity|]. f_equal. lia. }
      intros j ob y Hj Hy. destruct j as [|j].
      * cbn in Hj, Hy. injection Hj as <-. injection Hy as <-. exact X.
      * rewrite observations_cons in Hj. cbn [nth_error map fst] in Hj, Hy.
        specialize (Ab j ob y Hj Hy). cbn beta in Ab. rewrite P2 in Ab.
        destruct j as [|j]; [now rewrite Nat.add_0_r|].
        destruct per; [exact Ab|]. now replace (n + S j)%nat with (S n + j)%nat by lia.
Qed.

(** However the variables change while it acts: the evaluating actor of the distributed
    program takes, in the whole of an episode, actions that are best by the variables it
    read when the episode began.  That of the local program reads them after every step, and
    takes the first action by what it read before the episode. *)
Theorem C100_reading : forall source limit e a n e' s' l,
  (acme_episode GE (reading (B true) source) limit e (a, n) = Some (e', s', l) ->
   exists e0 o, g_reset GE e = Some (e0, o) /\ acts_best (fun _ => values (source n)) o l) /\
  (acme_episode GE (reading (B false) source) limit e (a, n) = Some (e', s', l) ->
   exists e0 o, g_reset GE e = Some (e0, o) /\
     acts_best (fun k => values (match k with O => ae_params P a | S _ => source (n + k)%nat end)) o l).
Proof.
  intros source limit e a n e' s' l. unfold acme_episode.
  destruct (g_reset GE e) as [[e0 o]|]; [|split; discriminate].
  cbn [reading ac_observe_first fst snd generic_actor rd_observe_first].
  destruct s' as [a' n']. split; intro H; exists e0, o; (split; [reflexivity|]);
    [apply (live_loop true) in H|apply (live_loop false source _ _ _ _ a (S n)) in H]; destruct H as (_ & _ & H).
  - intros k ob x Hk Hx. specialize (H k ob x Hk Hx). destruct k; exact H.
  - intros k ob x Hk Hx. specialize (H k ob x Hk Hx). destruct k as [|k]; [exact H|].
    now replace (n + S k)%nat with (S n + k)%nat by lia.
Qed.

(** In the training program every action of an evaluation should be best by the variables
    of the agent as trained so far.  All but the first are; the first is best by those of
    the agent one round before (in the first round: by those of the new actor). *)
Theorem C100_evaluated : forall (G : gym_env) (C : actor (g_obs G)) get_variables limit e c ee b l e' c' ee' b',
  (0 < limit)%Z ->
  rounds G GE C network_params get_variables (B false) limit e c ee b l e' c' ee' b' ->
  forall i r, nth_error l i = Some r ->
    acts_best (fun k => values (match k with
                                | S _ => get_variables (learned r)
                                | O => match i with
                                       | O => ae_params P b
                                       | S j => match nth_error l j with
                                                | Some before => get_variables (learned before)
                                                | None => ae_params P b
                                                end
                                       end
                                end)) (first_seen r) (evaluation r).
Proof.
  intros G C gv limit e c ee b l e' c' ee' b' Hl R.
  enough (X : ae_params P b' = match length l with
                               | O => ae_params P b
                               | S j => match nth_error l j with Some before => gv (learned before) | None => ae_params P b end
                               end /\
     forall i r, nth_error l i = Some r ->
      acts_best (fun k => values (match k with
                                | S _ => gv (learned r)
                                | O => match i with
                                       | O => ae_params P b
                                       | S j => match nth_error l j with
                                                | Some before => gv (learned before)
                                                | None => ae_params P b
                                                end
                                       end
                                end)) (first_seen r) (evaluation r)) by apply X.
  induction R as [|l e1 c1 ee1 b1 e2 c2 t es o ee2 b2 k ev R [IHb IH] Et Rs Ee].
  - split; [reflexivity|]. intros i r Hi. destruct i; discriminate.
  - assert (Len : (0 < length ev)%nat).
    { pose proof Ee as En. unfold acme_episode in En. rewrite Rs in En.
      destruct (ac_observe_first _ _ o) as [s0|]; [|discriminate].
      assert (Q1 : (0 < Z.to_nat limit)%nat) by lia. assert (Q2 : (limit = 0 + Z.of_nat (Z.to_nat limit))%Z) by lia.
      destruct (loop_ends GE _ _ _ _ _ _ _ _ _ _ Q1 Q2 En) as ((l0 & x & t0 & -> & _) & _). rewrite app_length. cbn. lia. }
    unfold acme_episode in Ee. rewrite Rs in Ee.
    cbn [reading ac_observe_first fst snd generic_actor rd_observe_first] in Ee.
    apply (live_loop false (fun _ => gv c2) _ _ _ _ b1 1%nat) in Ee. destruct Ee as (_ & Pb & Ab).
    destruct (length ev) as [|m] eqn:Em; [lia|]. split.
    + rewrite app_length. cbn [length]. rewrite Nat.add_1_r, nth_error_app2, Nat.sub_diag by lia. exact Pb.
    + intros i r Hi. destruct (Nat.lt_ge_cases i (length l)) as [Hn|Hn].
      * rewrite nth_error_app1 in Hi by assumption. specialize (IH i r Hi).
        destruct i as [|i]; [exact IH|]. rewrite nth_error_app1 by lia. exact IH.
      * rewrite nth_error_app2 in Hi by assumption.
        destruct (i - length l)%nat as [|d] eqn:D; [|destruct d; discriminate]. cbn in Hi. injection Hi as <-.
        assert (i = length l) by lia. subst i. cbn [learned first_seen evaluation].
        intros j ob x Hj Hx. specialize (Ab j ob x Hj Hx). cbn beta in Ab.
        destruct j as [|j]; [|exact Ab]. rewrite IHb in Ab.
        destruct (length l) as [|m0] eqn:El; [exact Ab|]. rewrite nth_error_app1 by lia. exact Ab.
Qed.
End Reading.

(** ** Evaluations in the evaluation environment *)
(** In the environment that create_env makes for evaluation, every evaluation that is
    written has between one and max_episode_length steps, and a return between 0 and 1. *)
Theorem C100_written_evaluations : forall P noise4d F FC draws max G C V gv B n e c ee b p,
  (0 < max)%Z ->
  train_main G (acme_eval_env P noise4d F FC draws max) C V gv B n max e c ee b = Some p ->
  Forall (fun r => lg_label r = EVALUATOR -> (1 <= lg_length r <= max)%Z /\ 0 <= lg_return r <= 1)
         (p_log _ _ _ _ _ p).
Proof.
  intros P noise4d F FC draws max G C V gv B n e c ee b p Hm. unfold train_main. revert p.
  induction n as [|n IH]; intro p.
  - cbn. intro H. injection H as <-. constructor.
  - rewrite loop_snoc. destruct (train_loop _ _ _ _ _ _ n max _) as [[e1 c1 ee1 b1 n1 g1]|]; [|discriminate].
    specialize (IH _ eq_refl). unfold train_one, run_one.
    cbn [p_env p_agent p_eval_env p_eval_actor p_counter p_log] in *.
    destruct (acme_episode G C max e1 c1) as [[[e3 c3] t]|]; [|discriminate].
    unfold evaluate_one, run_one. cbn [p_env p_agent p_eval_env p_eval_actor p_counter p_log].
    destruct (acme_episode (acme_eval_env P noise4d F FC draws max) _ max ee1 _) as [[[ee3 [b3 k]] ev]|] eqn:Ee; [|discriminate].
    intro H. injection H as <-. cbn [p_log].
    destruct (C83_evaluation_return P noise4d F FC draws max Hm _ _ _ _ _ _ Ee) as (e0 & o & bs & k0 & _ & _ & _ & _ & Ln & _ & _ & Rt).
    apply Forall_app. split.
    + apply Forall_app. split; [exact IH|]. constructor; [discriminate|constructor].
    + constructor; [|constructor]. intros _. cbn [lg_length lg_return]. split; [|exact Rt].
      split; [exact (Zlt_le_succ _ _ (proj1 Ln))|exact (proj2 Ln)].
Qed.

(** ** The two policies *)
Definition sum (l : list R) : R := fold_right Rplus 0 l.

Lemma greedy_exists values a : (a < length values)%nat ->
  existsb (Nat.eqb a) (greedy_actions values) = forallb (fun v => Rleb v (nth a values 0)) values.
Proof.
  intro Ha. unfold greedy_actions. set (f := fun a => forallb (fun v => Rleb v (nth a values 0)) values).
  change (existsb (Nat.eqb a) (filter f (seq 0 (length values))) = f a).
  destruct (f a) eqn:Fa.
  - apply existsb_exists. exists a. split; [|apply Nat.eqb_refl]. apply filter_In. split; [apply in_seq; lia|exact Fa].
  - apply not_true_is_false. intro H. apply existsb_exists in H. destruct H as (b & Hb & E).
    apply Nat.eqb_eq in E. subst b. apply filter_In in Hb. rewrite Fa in Hb. now destruct Hb.
Qed.
Lemma sum_shares f (p q : R) (l : list nat) :
  sum (map (fun a => p * (if f a : bool then q else 0) + 0) l) = p * (q * INR (length (filter f l))).
Proof.
  induction l as [|a l IH]; [cbn; lra|]. cbn [map sum fold_right filter]. fold (sum (map (fun a => p * (if f a then q else 0) + 0) l)).
  rewrite IH. destruct (f a); [|lra]. cbn [length]. rewrite S_INR. lra.
Qed.
Lemma sum_plus {A} (g : A -> R) c (l : list A) : sum (map (fun a => g a + c) l) = sum (map (fun a => g a + 0) l) + c * INR (length l).
Proof.
  induction l as [|a l IH]; [cbn; lra|]. cbn [map sum fold_right length].
  fold (sum (map (fun a => g a + c) l)). fold (sum (map (fun a => g a + 0) l)). rewrite IH, S_INR. lra.
Qed.
Lemma greedy_test values a : (a < length values)%nat ->
  (existsb (Nat.eqb a) (greedy_actions values) = true <-> best values a).
Proof.
  intro Ha. rewrite existsb_exists. split.
  - intros (b & Hb & E). apply Nat.eqb_eq in E. subst b. now apply greedy_best.
  - intro Hb. exists a. split; [now apply greedy_best|apply Nat.eqb_refl].
Qed.
Lemma epsilon_greedy_nth epsilon values a : (a < length values)%nat ->
  nth a (epsilon_greedy epsilon values) 0 =
  (1 - epsilon) * (if existsb (Nat.eqb a) (greedy_actions values) then 1 / INR (length (greedy_actions values)) else 0)
  + epsilon / INR (length values).
Proof.
  intro Ha. unfold epsilon_greedy.
  set (f := fun a => _). rewrite (nth_indep _ 0 (f 0%nat)) by now rewrite map_length, seq_length.
  rewrite map_nth, seq_nth by assumption. reflexivity.
Qed.
Lemma greedy_count values : values <> [] -> (1 <= length (greedy_actions values) <= length values)%nat.
Proof.
  intro H. split.
  - pose proof (greedy_nonempty values H). destruct (greedy_actions values); [contradiction|]. cbn. lia.
  - unfold greedy_actions. rewrite <- (seq_length (length values) 0) at 2.
    generalize (seq 0 (length values)). intro l. induction l as [|a l IH]; [apply Nat.le_refl|]. cbn [filter].
    destruct forallb; cbn [length]; lia.
Qed.
Lemma epsilon_greedy_sum epsilon values : values <> [] -> sum (epsilon_greedy epsilon values) = 1.
Proof.
  intro H. unfold epsilon_greedy. rewrite sum_plus, seq_length.
  set (f := fun a => forallb (fun v => Rleb v (nth a values 0)) values).
  replace (map _ (seq 0 (length values)))
    with (map (fun a => (1 - epsilon) * (if f a then 1 / INR (length (greedy_actions values)) else 0) + 0) (seq 0 (length values))).
  2:{ apply map_ext_in. intros a Ha. apply in_seq in Ha. rewrite greedy_exists by lia. reflexivity. }
  rewrite sum_shares. change (filter f (seq 0 (length values))) with (greedy_actions values).
  destruct (greedy_count values H) as [C1 C2].
  assert (1 <= INR (length (greedy_actions values))) by (apply (le_INR 1); lia).
  assert (1 <= INR (length values)) by (apply (le_INR 1); lia). field. lra.
Qed.

Section Policies.
Context {obs : Type} (inputs : nat) (flat : obs -> features).
Notation values := (dqn_values inputs flat).
Notation behavior := (behavior_probabilities inputs flat).
Notation eval := (eval_probabilities inputs flat).

(** In training with exploration rate epsilon the probabilities of the three actions sum up
    to one; an action that is not best has the probability epsilon/3, one that is best at
    least 1/3, and two that are best the same.  In evaluation, whatever the rate, only best
    actions are taken, all with the same probability. *)
Theorem C100_policies : forall ps o epsilon, 0 <= epsilon <= 1 ->
  length (behavior ps o epsilon) = 3%nat /\ length (eval ps o epsilon) = 3%nat /\
  sum (behavior ps o epsilon) = 1 /\ sum (eval ps o epsilon) = 1 /\
  (forall a, (a < 3)%nat ->
     (best (values ps o) a -> 1 / 3 <= nth a (behavior ps o epsilon) 0 /\ 1 / 3 <= nth a (eval ps o epsilon) 0) /\
     (~ best (values ps o) a -> nth a (behavior ps o epsilon) 0 = epsilon / 3 /\ nth a (eval ps o epsilon) 0 = 0)) /\
  (forall a b, best (values ps o) a -> best (values ps o) b ->
     nth a (behavior ps o epsilon) 0 = nth b (behavior ps o epsilon) 0 /\
     nth a (eval ps o epsilon) 0 = nth b (eval ps o epsilon) 0).
Proof.
  intros ps o epsilon He. unfold behavior_probabilities, eval_probabilities.
  assert (L3 : length (values ps o) = 3%nat) by reflexivity.
  assert (NE : values ps o <> []) by discriminate.
  set (v := values ps o) in *. clearbody v.
  assert (LE : forall d, length (epsilon_greedy d v) = 3%nat).
  { intro d. unfold epsilon_greedy. now rewrite map_length, seq_length. }
  split; [apply LE|]. split; [apply LE|].
  split; [now apply epsilon_greedy_sum|]. split; [now apply epsilon_greedy_sum|].
  destruct (greedy_count v NE) as [C1 C2]. rewrite L3 in C2.
  assert (I3 : INR 3 = 3) by (cbn; lra).
  set (m := INR (length (greedy_actions v))).
  assert (M : 1 <= m <= 3).
  { split; [apply (le_INR 1); lia|]. rewrite <- I3. now apply le_INR. }
  assert (Hm : 1 / 3 <= 1 / m).
  { apply Rmult_le_compat_l; [lra|]. apply Rinv_le_contravar; lra. }
  assert (Nth : forall d a, (a < 3)%nat -> nth a (epsilon_greedy d v) 0 =
            (1 - d) * (if existsb (Nat.eqb a) (greedy_actions v) then 1 / m else 0) + d / 3).
  { intros d a Ha. rewrite (epsilon_greedy_nth d v a) by lia. rewrite L3, I3. reflexivity. }
  split.
  - intros a Ha. rewrite !Nth by assumption. pose proof (greedy_test v a ltac:(lia)) as T. split; intro Hb.
    + apply T in Hb. rewrite Hb. split; [|lra].
      assert (0 <= (1 - epsilon) * (1 / m - 1 / 3)) by (apply Rmult_le_pos; lra). lra.
    + destruct existsb; [exfalso; now apply Hb, T|]. lra.
  - intros a b Ha Hb. pose proof (proj1 Ha) as La. pose proof (proj1 Hb) as Lb. rewrite L3 in La, Lb.
    rewrite !Nth by assumption. apply greedy_test in Ha; [|lia]. apply greedy_test in Hb; [|lia].
    rewrite Ha, Hb. split; reflexivity.
Qed.
End Policies.

(** ** Making actors *)
(** Exploration is only for training: whether it is asked for or not, the actor made for
    evaluation (without an adder) is that of the original builder, and without exploration so
    is that for training.  With it, an actor made for training explores in its first episode
    with probability 0.8, by the schedule of C83. *)
Theorem C100_make_actor : forall (G : gym_env) (Adder : Type) (P : prng) (A : agent_class (g_obs G)) walk seed
    (make : option Adder -> made (g_obs G)),
  (forall use, dqn_make_actor P A walk seed use make None = make None) /\
  (forall adder, dqn_make_actor P A walk seed false make adder = make adder) /\
  (forall a limit e e' s' l,
     let explorer := dqn_make_actor P A walk seed true make (Some a) in
     acme_episode G (projT1 explorer) limit e (projT2 explorer) = Some (e', s', l) ->
     let original := make (Some a) in
     exists e0 o c0 c' first_agent last_agent ignored sl,
       g_reset G e = Some (e0, o) /\ ac_observe_first (projT1 original) (projT2 original) o = Some c0 /\
  ag_begin_episode A walk o = Some (first_agent, ignored) /\
  coached (projT1 original) c0 o l sl c' /\ length sl = length l /\
  let exploring := Rleb (uniform P (split P (prng_key P seed) 2 0) 0 1) (8 / 10) in
       scheduled A (fun n => exploring && explores n) 1 first_agent
         (map (fun os => (0, fst os, snd os)) (List.combine (observations o l) sl))
       = Some (last_agent, map fst l)).
Proof.
  intros G Adder P A walk seed make. split; [intros [|]; reflexivity|]. split; [reflexivity|].
  intros a limit e e' s' l. cbv zeta.
  cbn [dqn_make_actor]. unfold marco_polo_actor. cbn [projT1 projT2].
  change (ac_state (combined_actor (projT1 (make (Some a))) P A)) with (ac_state (projT1 (make (Some a))) * marco_polo P A)%type in s'.
  destruct s' as [c' m']. intro H.
  destruct (C83_exploration G (projT1 (make (Some a))) P A _ _ _ _ _ _ _ _ H) as (e0 & o & c0 & fa & ig & sl & H1 & H2 & H3 & H4 & H5 & H6).
  cbv zeta in H6. cbn [exploratory_agent exploratory_episode_probability mp_rng new_marco_polo] in H3, H6.
  exists e0, o, c0, c', fa, (exploratory_agent P A m'), ig, sl.
  repeat (split; [assumption|]). replace (8 / 10) with 0.8 by lra. exact H6.
Qed.

(** ** An example *)
(** An environment in which nothing happens, except that it gets one step older and ends
    an episode every fifth step; a learner whose variables are the number of its updates. *)
Definition toy_env : gym_env :=
  mkGymEnv Z Z (fun s z => Some s) (fun s => Some (s, s))
    (fun s a => Some ((s + 1)%Z, ((s + 1)%Z, IZR a, ((s + 1) mod 5 =? 0)%Z, mkInfoDict (Some false) (Some false) (Some false))))
    (fun _ => None) (fun _ => 50000).
Definition toy_learner : actor Z :=
  mkActor Z nat (fun c o => Some (c, 2%Z)) (fun c o => Some c) (fun c a t => Some c) (fun c => Some (S c)).
Definition wants (action : nat) : network_params :=
  prefers (fun a => if Nat.eqb a action then 1 else 0) (mkDense (fun _ _ => 0) (fun _ => 0)).
(** Before its first update the learner prefers the first action, then the second. *)
Definition toy_variables (updates : nat) : network_params := wants (match updates with O => 0 | S _ => 1 end)%nat.
Lemma wants_best action inputs (flat : Z -> features) o b : (action < 3)%nat ->
  (best (dqn_values inputs flat (wants action) o) b <-> b = action).
Proof.
  intro H. unfold wants. rewrite prefers_values. split.
  - intros [Hb M]. cbn in Hb. specialize (M action H).
    destruct b as [|[|[|b]]]; destruct action as [|[|[|action]]]; cbn in M; try reflexivity; try lia; lra.
  - intros ->. split; [exact H|]. intros c Hc. cbn in Hc.
    destruct c as [|[|[|c]]]; destruct action as [|[|[|action]]]; cbn; try lia; lra.
Qed.

Lemma toy_step (P : prng) sample inputs flat source fuel limit k e (a : acme_agent P) n o :
  exists (a1 : acme_agent P) x r d, acme_loop toy_env (reading (generic_actor P sample inputs flat false) source) (S fuel) limit k e (a, n) o =
    let last := (((e + 1) mod 5 =? 0) || (limit <=? k + 1))%Z in
    if last then Some ((e + 1)%Z, (a1, S n), [(x, mkTimestep last r d (e + 1)%Z)])
    else match acme_loop toy_env (reading (generic_actor P sample inputs flat false) source) fuel limit (k + 1) (e + 1)%Z (a1, S n) (e + 1)%Z with
         | None => None
         | Some (e2, c2, l) => Some (e2, c2, (x, mkTimestep last r d (e + 1)%Z) :: l)
         end.
Proof. do 4 eexists. reflexivity. Qed.
Lemma toy_episodes (P : prng) sample inputs flat source (a : acme_agent P) :
  (exists (a' : acme_agent P) n ts, acme_episode toy_env (reading (generic_actor P sample inputs flat false) source) 1 7%Z (a, O)
     = Some (8%Z, (a', n), ts) /\ length ts = 1%nat) /\
  (exists (a' : acme_agent P) n ts, acme_episode toy_env (reading (generic_actor P sample inputs flat false) source) 4 7%Z (a, O)
     = Some (10%Z, (a', n), ts) /\ length ts = 3%nat) /\
  (exists (a' : acme_agent P) n ts, acme_episode toy_env (reading (generic_actor P sample inputs flat false) source) 4 10%Z (a, O)
     = Some (14%Z, (a', n), ts) /\ length ts = 4%nat).
Proof.
  assert (U : forall limit e, acme_episode toy_env (reading (generic_actor P sample inputs flat false) source) limit e (a, O) =
    acme_loop toy_env (reading (generic_actor P sample inputs flat false) source) (Z.to_nat limit) limit 0 e (a, 1%nat) e) by reflexivity.
  rewrite !U. change (Z.to_nat 1) with 1%nat. change (Z.to_nat 4) with 4%nat.
  split; [|split].
  - destruct (toy_step P sample inputs flat source 0 1 0 7%Z a 1 7%Z) as (a1 & x1 & r1 & d1 & ->).
    cbn. do 3 eexists. split; reflexivity.
  - destruct (toy_step P sample inputs flat source 3 4 0 7%Z a 1 7%Z) as (a1 & x1 & r1 & d1 & ->).
    destruct (toy_step P sample inputs flat source 2 4 1 8%Z a1 2 8%Z) as (a2 & x2 & r2 & d2 & E2).
    destruct (toy_step P sample inputs flat source 1 4 2 9%Z a2 3 9%Z) as (a3 & x3 & r3 & d3 & E3).
    change (7 + 1)%Z with 8%Z. change (0 + 1)%Z with 1%Z. rewrite E2.
    change (8 + 1)%Z with 9%Z. change (1 + 1)%Z with 2%Z. rewrite E3.
    cbn. do 3 eexists. split; reflexivity.
  - destruct (toy_step P sample inputs flat source 3 4 0 10%Z a 1 10%Z) as (a1 & x1 & r1 & d1 & ->).
    destruct (toy_step P sample inputs flat source 2 4 1 11%Z a1 2 11%Z) as (a2 & x2 & r2 & d2 & E2).
    destruct (toy_step P sample inputs flat source 1 4 2 12%Z a2 3 12%Z) as (a3 & x3 & r3 & d3 & E3).
    destruct (toy_step P sample inputs flat source 0 4 3 13%Z a3 4 13%Z) as (a4 & x4 & r4 & d4 & E4).
    change (10 + 1)%Z with 11%Z. change (0 + 1)%Z with 1%Z. rewrite E2.
    change (11 + 1)%Z with 12%Z. change (1 + 1)%Z with 2%Z. rewrite E3.
    change (12 + 1)%Z with 13%Z. change (2 + 1)%Z with 3%Z. rewrite E4.
    cbn. do 3 eexists. split; reflexivity.
Qed.

(** Two rounds of at most four steps; the episode that starts with the age of four is over
    after one step. *)
Example C100_witness : forall (P : prng) sample inputs flat (b : acme_agent P), exists p,
  train_main toy_env toy_env toy_learner network_params toy_variables (generic_actor P sample inputs flat false)
    2 4 0%Z O 7%Z b = Some p /\
  map (fun r => (lg_label r, lg_length r, lg_counts r)) (p_log _ _ _ _ _ p) =
    [(ACTOR, 4%Z, mkCounts 1 4 0 0); (EVALUATOR, 3%Z, mkCounts 1 4 1 3);
     (ACTOR, 1%Z, mkCounts 2 5 1 3); (EVALUATOR, 4%Z, mkCounts 2 5 2 7)] /\
  p_agent _ _ _ _ _ p = 5%nat.
Proof.
  intros P sample inputs flat b.
  assert (T1 : acme_episode toy_env toy_learner 4 0%Z O =
    Some (4%Z, 4%nat, [(2%Z, mkTimestep false 2 1 1%Z); (2%Z, mkTimestep false 2 1 2%Z);
                       (2%Z, mkTimestep false 2 1 3%Z); (2%Z, mkTimestep true 2 1 4%Z)])) by reflexivity.
  assert (T2 : acme_episode toy_env toy_learner 4 4%Z 4%nat =
    Some (5%Z, 5%nat, [(2%Z, mkTimestep true 2 0 5%Z)])) by reflexivity.
  destruct (toy_episodes P sample inputs flat (fun _ => toy_variables 4) b) as (_ & (b1 & k1 & ts1 & E1 & L1) & _).
  destruct (toy_episodes P sample inputs flat (fun _ => toy_variables 5) b1) as (_ & _ & (b2 & k2 & ts2 & E2 & L2)).
  eexists. unfold train_main. cbn [train_loop]. unfold train_one, evaluate_one, run_one.
  cbn [p_env p_agent p_eval_env p_eval_actor p_counter p_log]. rewrite T1.
  cbn [p_env p_agent p_eval_env p_eval_actor p_counter p_log].
  rewrite (E1 : acme_episode toy_env (reading (generic_actor P sample inputs flat false) (fun _ => toy_variables 4)) 4 7%Z
             (@pair (rd_state (generic_actor P sample inputs flat false)) nat b O) = _).
  cbn [p_env p_agent p_eval_env p_eval_actor p_counter p_log]. rewrite T2.
  cbn [p_env p_agent p_eval_env p_eval_actor p_counter p_log].
  rewrite (E2 : acme_episode toy_env (reading (generic_actor P sample inputs flat false) (fun _ => toy_variables 5)) 4 10%Z
             (@pair (rd_state (generic_actor P sample inputs flat false)) nat b1 O) = _).
  split; [reflexivity|]. cbn [p_log p_agent app map lg_label lg_length lg_counts]. rewrite L1, L2. split; reflexivity.
Qed.

(** Every action of an evaluation should be best by the variables of the agent as trained
    so far.  The first need not be. *)
Lemma toy_round : forall (P : prng) sample inputs flat (b : acme_agent P), exists l e' c' ee' b' r,
  rounds toy_env toy_env toy_learner network_params toy_variables (generic_actor P sample inputs flat false)
    1 0%Z O 7%Z b l e' c' ee' b' /\ nth_error l 0 = Some r /\ learned r = 1%nat /\ length (evaluation r) = 1%nat.
Proof.
  intros P sample inputs flat b.
  destruct (toy_episodes P sample inputs flat (fun _ => toy_variables 1) b) as ((b1 & k1 & ts1 & E1 & L1) & _ & _).
  exists [mkRound (G := toy_env) (GE := toy_env) (C := toy_learner) [(2%Z, mkTimestep true 2 1 1%Z)] 1%nat 7%Z ts1].
  exists 1%Z, 1%nat, 8%Z, b1. eexists. split; [|split; [reflexivity|split; [reflexivity|exact L1]]].
  eapply (one_more _ _ _ _ _ _ _ _ _ _ _ []); [constructor|reflexivity|reflexivity|exact E1].
Qed.
Theorem C100_first_action_refuted :
  exists (P : prng) sample (G GE : gym_env) inputs (flat : g_obs GE -> features) (C : actor (g_obs G)) get_variables
    limit e c ee b l e' c' ee' b' r,
  (forall k l, l <> [] -> In (sample k l) l) /\ (0 < limit)%Z /\ ae_params P b = get_variables c /\
  rounds G GE C network_params get_variables (generic_actor P sample inputs flat false) limit e c ee b l e' c' ee' b' /\
  nth_error l 0 = Some r /\
  ~ acts_best (fun _ => dqn_values inputs flat (get_variables (learned r))) (first_seen r) (evaluation r).
Proof.
  destruct (toy_round counting by_index 1 (fun o => fun _ => IZR o) (new_acme_agent counting (toy_variables 0)))
    as (l & e' & c' & ee' & b' & r & R & Nr & Hu & L1).
  exists counting, by_index, toy_env, toy_env, 1%nat, (fun o => fun _ => IZR o), toy_learner, toy_variables.
  exists 1%Z, 0%Z, O, 7%Z, (new_acme_agent counting (toy_variables 0)), l, e', c', ee', b', r.
  split; [exact C90_sampler|]. split; [lia|]. split; [reflexivity|]. split; [exact R|]. split; [exact Nr|].
  pose proof (C100_evaluated counting by_index toy_env 1 (fun o => fun _ => IZR o) C90_sampler
                toy_env toy_learner toy_variables _ _ _ _ _ _ _ _ _ _ (eq_refl : (0 < 1)%Z) R 0%nat r Nr) as A.
  clear R Nr. intro X. rewrite Hu in X.
  destruct (evaluation r) as [|[a t] ev]; [discriminate L1|].
  destruct (A 0%nat _ _ eq_refl eq_refl) as (z & Hz & Bz). destruct (X 0%nat _ _ eq_refl eq_refl) as (z' & Hz' & Bz').
  cbn [new_acme_agent ae_params] in Bz. unfold toy_variables in Bz, Bz'.
  apply wants_best in Bz; [|lia]. apply wants_best in Bz'; [|lia]. lia.
Qed.

Print Assumptions C100_program.
Print Assumptions C100_training_unchanged.
Print Assumptions C100_reading.
Print Assumptions C100_evaluated.
Print Assumptions C100_written_evaluations.
Print Assumptions C100_policies.
Print Assumptions C100_make_actor.
Print Assumptions C100_first_action_refuted.
