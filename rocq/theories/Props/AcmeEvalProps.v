(** Property C90: the agent that evaluates Acme checkpoints. *)
From Coq Require Import ZArith Reals String List Bool Lia Lra Ascii.
From Verif Require Import Model.Num Model.Prng Model.Vae Model.Mlp Model.Balloon Model.Agents Model.Eval.
From Verif Require Import Model.WindField Model.Atmosphere Model.Env.
From Verif Require Model.PyString Spec.EvalSpec Spec.Episodes Props.EvalOrderProps.
From Verif Require Import Model.AcmeEval Spec.AcmeEvalSpec Proofs.NumR Proofs.PathProofs.
Import ListNotations.
Open Scope R_scope.

Lemma fold_max (l : list R) : l <> [] -> exists a, (a < length l)%nat /\ forall b, (b < length l)%nat -> nth b l 0 <= nth a l 0.
Proof.
  induction l as [|v l IH]; [easy|]. intros _. destruct l as [|w l].
  - exists 0%nat. split; [cbn; lia|]. intros [|b] Hb; cbn in *; [lra|lia].
  - destruct (IH ltac:(discriminate)) as (a & Ha & M). destruct (Rle_dec v (nth a (w :: l) 0)) as [L|L].
    + exists (S a). split; [cbn in *; lia|]. intros [|b] Hb; [exact L|]. apply M. cbn in *; lia.
    + exists 0%nat. split; [cbn; lia|]. intros [|b] Hb; [cbn; lra|].
      assert (nth b (w :: l) 0 <= nth a (w :: l) 0) by (apply M; cbn in *; lia). cbn [nth] in *. lra.
Qed.
Lemma greedy_best values a : In a (greedy_actions values) <-> best values a.
Proof.
  unfold greedy_actions, best. rewrite filter_In, in_seq, forallb_forall. split.
  - intros [H M]. split; [lia|]. intros b Hb. apply Rleb_iff, M, nth_In, Hb.
  - intros [H M]. split; [lia|]. intros v Hv. apply Rleb_iff. destruct (In_nth _ _ 0 Hv) as (b & Hb & <-). now apply M.
Qed.
Lemma greedy_nonempty values : values <> [] -> greedy_actions values <> [].
Proof.
  intros H E. destruct (fold_max values H) as (a & Ha). assert (I : In a (greedy_actions values)) by now apply greedy_best.
  rewrite E in I. destruct I.
Qed.

Section Eval.
Context (P : prng) (sample : key P -> list nat -> nat) {obs : Type} (inputs : nat) (flat : obs -> features).
Hypothesis sample_in : forall k l, l <> [] -> In (sample k l) l.
Notation values ps o := (dqn_values inputs flat ps o).
Notation ask := (ask P sample inputs flat).
Notation after := (after P sample inputs flat).
Notation answers := (answers P sample inputs flat).
Notation new := (new_acme_agent P).

Lemma policy_best ps k o : best (values ps o) (eval_policy P sample inputs flat ps k o).
Proof. apply greedy_best, sample_in, greedy_nonempty. unfold dqn_values. discriminate. Qed.
Lemma policy_unique ps k o : no_tie (values ps o) -> forall b, best (values ps o) b -> eval_policy P sample inputs flat ps k o = b.
Proof. intros (a & _ & U) b Hb. rewrite (U b Hb). apply U, policy_best. Qed.

Lemma after_app a h h' : after a (h ++ h') = after (after a h) h'.
Proof. revert a. induction h as [|q h IH]; intro a; [reflexivity|]. cbn. apply IH. Qed.

Lemma load_finds d c n (a : acme_agent P) : keeps d c ->
  acme_load_checkpoint P a c n =
  match saved_as d c n with Some ps => (mkAcmeAgent P ps (prng_key P 0), true) | None => (a, false) end.
Proof.
  intros [(d0 & x & -> & Hx) K]. unfold acme_load_checkpoint, saved_as.
  destruct (latest_checkpoint c) as [p|] eqn:E; [|reflexivity].
  destruct (K p eq_refl) as (k & ->). unfold checkpoint_file.
  change ("/ckpt-" ++ decimal k)%string with (String "/" ("ckpt-" ++ decimal k))%string.
  rewrite dirname_file; [|exact Hx|].
  2:{ apply no_slash_app; [repeat split; discriminate|apply no_slash_int]. }
  rewrite join_proper; [|exact Hx|reflexivity]. reflexivity.
Qed.
Lemma in_use_params initial h ps : in_use initial h ps -> ae_params P (after (new initial) h) = ps.
Proof.
  induction 1 as [|h d c n ps K S|h ps d c n _ IH K S|h ps q _ IH Q]; [reflexivity| | |]; rewrite after_app; cbn [AcmeEvalSpec.after].
  - cbn [AcmeEvalSpec.ask]. rewrite (load_finds d c n _ K), S. reflexivity.
  - cbn [AcmeEvalSpec.ask]. rewrite (load_finds d c n _ K), S. exact IH.
  - destruct q as [o|r o|r t|m|c n]; try exact IH; [now destruct m|]. now destruct (Q c n).
Qed.

(** Whatever was done with the agent before: it takes an action that is best according to
    the network of the checkpoint last loaded; the value of an action is the mean of its
    quantiles. *)
Theorem C90_best : forall initial h ps o r, in_use initial h ps ->
  (exists z, snd (ask (after (new initial) h) (Begin o)) = Action (Z.of_nat z) /\ best (values ps o) z) /\
  (exists z, snd (ask (after (new initial) h) (Step r o)) = Action (Z.of_nat z) /\ best (values ps o) z) /\
  length (values ps o) = 3%nat /\
  forall a, (a < 3)%nat ->
    mean_of 51 (fun i => apply_network ps inputs 600 (flat o) (a * 51 + i)%nat) (nth a (values ps o) 0).
Proof.
  intros initial h ps o r U. apply in_use_params in U. rewrite <- U. split; [|split; [|split; [reflexivity|]]].
  - eexists. split; [reflexivity|apply policy_best].
  - eexists. split; [reflexivity|apply policy_best].
  - intros a Ha. unfold mean_of.
    assert (nth a (values (ae_params P (after (new initial) h)) o) 0 =
            quantile_q_values (ae_params P (after (new initial) h)) inputs 600 51 (flat o) a) as ->
      by (destruct a as [|[|[|a]]]; [reflexivity..|lia]).
    unfold quantile_q_values. set (f := quantile_logits _ _ _ _ _ _).
    assert (INR 51 <> 0) by (apply not_0_INR; discriminate).
    transitivity (sumn 51 f); [field; assumption|].
    assert (G : forall n, sumn n f = fold_right Rplus 0 (map f (seq 0 n))).
    { clear. induction n as [|n IH]; [reflexivity|]. cbn [sumn]. rewrite IH, seq_S, map_app. cbn [map plus].
      clear IH. induction (map f (seq 0 n)) as [|v l IH]; cbn in *; lra. }
    apply G.
Qed.

(** Loading a checkpoint that is not there raises and changes nothing; after loading one
    that is, the agent goes on like any other that has loaded it, whatever was done with
    either before. *)
Theorem C90_load : forall initial h d c n, keeps d c ->
  (saved_as d c n = None ->
     ask (after (new initial) h) (Load c n) = (after (new initial) h, Raised)) /\
  (saved_as d c n <> None ->
     snd (ask (after (new initial) h) (Load c n)) = Done /\
     forall initial' h' later,
       answers (after (new initial) (h ++ [Load c n])) later =
       answers (after (new initial') (h' ++ [Load c n])) later).
Proof.
  intros initial h d c n K. split.
  - intro E. cbn [AcmeEvalSpec.ask]. now rewrite (load_finds d c n _ K), E.
  - destruct (saved_as d c n) as [ps|] eqn:E; [|easy]. intros _. split.
    + cbn [AcmeEvalSpec.ask]. now rewrite (load_finds d c n _ K), E.
    + intros. rewrite !after_app. cbn [AcmeEvalSpec.after AcmeEvalSpec.ask]. now rewrite !(load_finds d c n _ K), E.
Qed.

(** The agent is for evaluation only: asking for training is refused at any time, asking
    for evaluation is accepted, and neither changes anything. *)
Theorem C90_modes : forall initial h,
  ask (after (new initial) h) (Mode TRAIN) = (after (new initial) h, Raised) /\
  ask (after (new initial) h) (Mode EVAL) = (after (new initial) h, Done).
Proof. intros. split; reflexivity. Qed.

(** Where no two actions are equally good, what the agent answers depends on the
    observation and on the checkpoint, not on what it was used for before. *)
Theorem C90_no_memory : forall initial initial' h h' ps (qs : list request),
  in_use initial h ps -> in_use initial' h' ps ->
  (forall q, In q qs -> forall c n, q <> Load c n) ->
  (forall q o, In q qs -> shown q = Some o -> no_tie (values ps o)) ->
  answers (after (new initial) h) qs = answers (after (new initial') h') qs.
Proof.
  intros initial initial' h h' ps qs U U'. apply in_use_params in U, U'.
  revert U U'. generalize (after (new initial) h), (after (new initial') h'). clear initial initial' h h'.
  induction qs as [|q qs IH]; intros a a' U U' L T; [reflexivity|]. cbn [AcmeEvalSpec.answers].
  assert (E : snd (ask a q) = snd (ask a' q) /\ ae_params P (fst (ask a q)) = ps /\ ae_params P (fst (ask a' q)) = ps).
  { assert (M : forall o k k', no_tie (values ps o) ->
      eval_policy P sample inputs flat (ae_params P a) k o = eval_policy P sample inputs flat (ae_params P a') k' o).
    { intros o k k' N. rewrite U, U'. apply policy_unique; [exact N|apply policy_best]. }
    destruct q as [o|r o|r t|m|c n]; cbn [AcmeEvalSpec.ask acme_begin_episode acme_step acme_end_episode actor_select_action fst snd].
    - rewrite (M o _ (Prng.split P (ae_rng P a') 2 1)); [auto|]. eapply T; [now left|reflexivity].
    - rewrite (M o _ (Prng.split P (ae_rng P a') 2 1)); [auto|]. eapply T; [now left|reflexivity].
    - auto.
    - destruct m; auto.
    - destruct (L (Load c n) (or_introl eq_refl) c n eq_refl). }
  destruct E as (E1 & E2 & E3). rewrite E1. f_equal. apply IH; try assumption; intros; [apply L|eapply T]; try (right; eassumption); eassumption.
Qed.
End Eval.

(** ** Evaluations *)
Section Evaluation.
Context (P : prng) (sample : key P -> list nat -> nat) (G : gym_env) (inputs : nat) (flat : g_obs G -> features).
Hypothesis sample_in : forall k l, l <> [] -> In (sample k l) l.
Context (rp : Z) (fp : bool) (ps : network_params) (rule : g_obs G -> option Z).
Hypothesis rule_best : names_the_best (dqn_values inputs flat ps) rule.
Notation A := (acme_class P sample inputs flat).
Notation B := (by_rule rule).

Lemma rule_policy o z k : rule o = Some z -> Z.of_nat (eval_policy P sample inputs flat ps k o) = z.
Proof. intro E. destruct (rule_best o z E) as (a & -> & _ & U). f_equal. apply U. now apply policy_best. Qed.

Definition copy (l : locals G B) (k : key P) : locals G A :=
  mkLocals G A (l_env G B l) (mkAcmeAgent P ps k) (l_action G B l) (l_reward G B l) (l_is_done G B l)
    (l_total_reward G B l) (l_steps_within_radius G B l) (l_flight_path G B l) (l_step_count G B l)
    (l_out_of_power G B l) (l_envelope_burst G B l) (l_zeropressure G B l).
Lemma iteration_copy l k l' : iteration G B rp fp l = Some l' ->
  exists k', iteration G A rp fp (copy l k) = Some (copy l' k').
Proof.
  unfold iteration. intro H. cbn [copy l_env l_action].
  destruct (g_step G (l_env G B l) (l_action G B l)) as [[e [[[o r] d] i]]|]; [|discriminate].
  cbn [ag_step by_rule] in H. destruct (rule o) as [z|] eqn:E; [|discriminate]. cbn [option_map] in H.
  cbn [ag_step acme_class acme_step actor_select_action l_agent copy].
  cbn [ae_params ae_rng]. rewrite (rule_policy o z _ E).
  destruct (g_balloon G e) as [b|]; [|discriminate]. destruct (rp =? 0)%Z; [discriminate|].
  destruct l. destruct d; injection H as <-; eexists; reflexivity.
Qed.
Lemma loop_copy max fuel : forall l k l', loop G B rp fp fuel max l = Some l' ->
  exists k', loop G A rp fp fuel max (copy l k) = Some (copy l' k').
Proof.
  induction fuel as [|fuel IH]; cbn [loop]; intros l k l' H; [injection H as <-; eauto|].
  cbn [copy l_step_count]. destruct (_ <? max)%Z; [|injection H as <-; eauto].
  destruct (iteration G B rp fp l) as [l1|] eqn:E; [|discriminate].
  destruct (iteration_copy l k l1 E) as (k1 & E1). fold (copy l k). rewrite E1. cbn [copy l_is_done].
  destruct (l_is_done G B l1); [injection H as <-; eauto|]. fold (copy l1 k1). now apply IH.
Qed.
Lemma eval_seed_copy max z e u k r e' u' : eval_seed G B rp fp max z e u = Some (r, e', u') ->
  exists k', eval_seed G A rp fp max z e (mkAcmeAgent P ps k) = Some (r, e', mkAcmeAgent P ps k').
Proof.
  unfold eval_seed. destruct (g_seed G e z) as [e0|]; [|discriminate]. destruct (g_reset G e0) as [[e1 o]|]; [|discriminate].
  cbn [ag_begin_episode by_rule]. destruct (rule o) as [y|] eqn:E; [|discriminate]. cbn [option_map].
  cbn [ag_begin_episode acme_class acme_begin_episode actor_select_action ae_params ae_rng]. rewrite (rule_policy o y _ E).
  intro H. destruct (loop G B rp fp _ _ _) as [l|] eqn:L; [|discriminate].
  destruct (loop_copy _ _ _ (Prng.split P k 2 0) _ L) as (k1 & L1). unfold copy at 1 in L1.
  cbn [l_env l_action l_reward l_is_done l_total_reward l_steps_within_radius l_flight_path l_step_count l_out_of_power l_envelope_burst l_zeropressure] in L1.
  rewrite L1. cbn [ag_end_episode by_rule] in H. cbn [ag_end_episode acme_class acme_end_episode copy l_agent].
  injection H as <- <- <-. eexists. reflexivity.
Qed.
Lemma eval_seeds_copy max zs : forall e u k rs e' u', eval_seeds G B rp fp max zs e u = Some (rs, e', u') ->
  exists k', eval_seeds G A rp fp max zs e (mkAcmeAgent P ps k) = Some (rs, e', mkAcmeAgent P ps k').
Proof.
  induction zs as [|z zs IH]; cbn [eval_seeds]; intros e u k rs e' u' H; [injection H as <- <- <-; eauto|].
  destruct (eval_seed G B rp fp max z e u) as [[[r e1] u1]|] eqn:E; [|discriminate].
  destruct (eval_seed_copy _ _ _ _ k _ _ _ E) as (k1 & E1). rewrite E1.
  destruct (eval_seeds G B rp fp max zs e1 u1) as [[[rs1 e2] u2]|] eqn:E2; [|discriminate].
  destruct (IH _ _ k1 _ _ _ E2) as (k2 & E3). rewrite E3. injection H as <- <- <-. eauto.
Qed.

(** If a rule names the best action for every observation that is met (and so no two
    actions are equally good there), evaluating the Acme agent returns what evaluating the
    rule does, whatever the agent was used for before. *)
Theorem C90_evaluation : forall initial h e s rs e', in_use initial h ps ->
  eval_agent G B rp fp tt e s = Some (rs, e', tt) ->
  exists a', eval_agent G A rp fp (after P sample inputs flat (new_acme_agent P initial) h) e s = Some (rs, e', a').
Proof.
  intros initial h e s rs e' U H. apply (in_use_params P sample inputs flat) in U. unfold eval_agent in *.
  destruct (0 <? _)%Z; [|discriminate]. cbn [ag_set_mode acme_class].
  destruct (after _ _ _ _ _ _) as [ps' k]. cbn [ae_params] in U. subst ps'.
  destruct (eval_seeds_copy _ _ _ _ k _ _ _ H) as (k' & E). eauto.
Qed.
End Evaluation.

(** On the balloon environment, the results are then those of the parts of the suite,
    evaluated by agents and in environments with histories of their own. *)
Section Parts.
Context (P : prng) (noise4d : Z -> R -> R -> R -> R -> R) (F : forecaster P) (FC : feature_class P F).
Context (reward_fn : wind_field P F -> atmosphere -> R * R -> bstate R -> option R) (draws : nat).
Notation G := (balloon_gym P noise4d F FC reward_fn draws).
Notation usable := (Episodes.usable P noise4d F FC reward_fn draws).
Notation radius := (e_radius P F FC).
Context (sample : key P -> list nat -> nat) (inputs : nat) (flat : g_obs G -> features).
Hypothesis sample_in : forall k l, l <> [] -> In (sample k l) l.
Context (rp : Z) (fp : bool).
Notation agent initial h := (after P sample inputs flat (new_acme_agent P initial) h).
Notation evaluate a e zs max := (eval_agent G (acme_class P sample inputs flat) rp fp a e (mkSuite zs max)).
Theorem C90_parts : forall ps rule (e e1 e2 : g_state G) zs1 zs2 max rs e' initial initial1 initial2 h h1 h2,
  names_the_best (dqn_values inputs flat ps) rule ->
  usable e -> usable e1 -> usable e2 -> radius e1 = radius e -> radius e2 = radius e ->
  in_use initial h ps -> in_use initial1 h1 ps -> in_use initial2 h2 ps ->
  eval_agent G (by_rule rule) rp fp tt e (mkSuite (zs1 ++ zs2)%list max) = Some (rs, e', tt) ->
  exists rs1 rs2 a' e1' a1' e2' a2', rs = (rs1 ++ rs2)%list /\
    evaluate (agent initial h) e (zs1 ++ zs2)%list max = Some (rs, e', a') /\
    evaluate (agent initial1 h1) e1 zs1 max = Some (rs1, e1', a1') /\
    evaluate (agent initial2 h2) e2 zs2 max = Some (rs2, e2', a2').
Proof.
  intros ps rule e e1 e2 zs1 zs2 max rs e' i0 i1 i2 h h1 h2 B U U1 U2 R1 R2 H H1 H2 E.
  assert (SA : EvalSpec.starts_afresh (by_rule rule)).
  { exists (fun _ _ => True). cbn. split; [|split].
    - intros _ _ o. destruct (rule o); cbn; auto.
    - intros _ _ _ o _. destruct (rule o); cbn; auto.
    - intros. split; discriminate. }
  destruct (proj1 (EvalOrderProps.C64_parts P noise4d F FC reward_fn draws (by_rule rule) rp fp max zs1 zs2 tt e tt e1 tt e2
    SA U U1 U2 R1 R2 rs)) as (rs1 & rs2 & e1' & u1 & e2' & u2 & -> & E1 & E2); [eauto|]. destruct u1, u2.
  destruct (C90_evaluation P sample G inputs flat sample_in rp fp ps rule B i0 h _ _ _ _ H E) as (a' & K).
  destruct (C90_evaluation P sample G inputs flat sample_in rp fp ps rule B i1 h1 _ _ _ _ H1 E1) as (a1' & K1).
  destruct (C90_evaluation P sample G inputs flat sample_in rp fp ps rule B i2 h2 _ _ _ _ H2 E2) as (a2' & K2).
  exists rs1, rs2, a', e1', a1', e2', a2'. repeat split; assumption.
Qed.
End Parts.

(** ** Networks for the examples: seven hidden layers, whatever their parameters, and a last
    layer whose values do not depend on its inputs. *)
Definition prefers (value : nat -> R) (hidden : dense) : network_params :=
  mkNetwork (repeat hidden 7) (mkDense (fun _ _ => 0) (fun j => value (j / 51)%nat)).
Lemma sumn_zero n f : (forall i, f i = 0) -> sumn n f = 0.
Proof. intro H. induction n as [|n IH]; [reflexivity|]. cbn [sumn]. rewrite IH, H. lra. Qed.
Lemma forward_constant hs b inputs width (x : features) j :
  forward hs (mkDense (fun _ _ => 0) b) inputs width x j = b j.
Proof.
  revert inputs x. induction hs as [|d hs IH]; intros inputs x; [|apply IH]. cbn [forward]. unfold apply_dense.
  cbn [kernel bias]. rewrite sumn_zero; [lra|]. intros; lra.
Qed.
Lemma prefers_values {obs} inputs (flat : obs -> features) value hidden o :
  dqn_values inputs flat (prefers value hidden) o = [value 0%nat; value 1%nat; value 2%nat].
Proof.
  assert (H : forall a, quantile_q_values (prefers value hidden) inputs 600 51 (flat o) a = value a).
  { intro a. unfold quantile_q_values, quantile_logits, apply_network. cbn [prefers hidden_params final_params].
    assert (E : forall n, (n <= 51)%nat ->
      sumn n (fun i => forward (repeat hidden 7) (mkDense (fun _ _ => 0) (fun j => value (j / 51)%nat)) inputs 600 (flat o) (a * 51 + i)%nat)
      = INR n * value a).
    { induction n as [|n IH]; intro Hn; [cbn; lra|]. rewrite S_INR. cbn [sumn]. rewrite IH by lia.
      rewrite forward_constant. replace ((a * 51 + n) / 51)%nat with a; [lra|].
      rewrite Nat.add_comm, Nat.div_add, Nat.div_small by lia. reflexivity. }
    rewrite E by lia. assert (INR 51 <> 0) by (apply not_0_INR; discriminate). field. assumption. }
  unfold dqn_values. cbn [seq map]. now rewrite !H.
Qed.

(** Keys for the examples: numbers; and a sampler that takes the action at that index. *)
Definition counting : prng := mkPrng Z (fun z => z) (fun k _ i => (2 * k + 1 + Z.of_nat i)%Z) (fun _ _ => 0%Z)
  (fun _ _ _ => 0) (fun _ _ _ => 0) (fun _ _ _ => 0) (fun _ _ _ => 0) (fun _ => 0) (fun _ => 0).
Definition by_index (k : key counting) (l : list nat) : nat := nth (Z.to_nat (k mod Z.of_nat (length l))) l 0%nat.
Example C90_sampler : forall k l, l <> [] -> In (by_index k l) l.
Proof.
  intros k l H. apply nth_In. assert (0 < Z.of_nat (length l))%Z by (destruct l; [easy|cbn; lia]).
  pose proof (Z.mod_pos_bound k (Z.of_nat (length l)) ltac:(lia)). lia.
Qed.

(** The hypotheses are met: an agent that has loaded a checkpoint, failed to load another
    and been used for a while, with a network that prefers staying. *)
Definition staying (hidden : dense) : network_params := prefers (fun a => if Nat.eqb a 1 then 1 else 0) hidden.
Definition example_checkpoints (hidden : dense) : acme_checkpoints :=
  mkAcmeCheckpoints (Some "/run/learner/ckpt-30"%string)
    (fun p => if String.eqb p "/run/learner/ckpt-12" then Some (staying hidden) else None).
Example C90_witness : forall (hidden : dense) (o : features) initial,
  keeps "/run/learner" (example_checkpoints hidden) /\
  in_use initial [Begin o; Load (example_checkpoints hidden) 12; Step 0 o; Load (example_checkpoints hidden) 31; End 0 true]
    (staying hidden) /\
  no_tie (dqn_values 1099 (fun x => x) (staying hidden) o) /\
  names_the_best (dqn_values 1099 (fun x => x) (staying hidden)) (fun _ => Some 1%Z).
Proof.
  intros hidden o initial.
  assert (K : keeps "/run/learner" (example_checkpoints hidden)).
  { split; [exists "/run/learne"%string, "r"%char; split; [reflexivity|discriminate]|].
    intros p [= <-]. exists 30%Z. reflexivity. }
  assert (B : forall x : features, best (dqn_values 1099 (fun x => x) (staying hidden) x) 1 /\
    forall b, best (dqn_values 1099 (fun x => x) (staying hidden) x) b -> b = 1%nat).
  { intro x. unfold staying. rewrite prefers_values. cbn [Nat.eqb]. split.
    - split; [cbn; lia|]. intros [|[|[|b]]] Hb; cbn in *; lra || lia.
    - intros b [Hb M]. specialize (M 1%nat ltac:(cbn; lia)). destruct b as [|[|[|b]]]; cbn in *; lra || lia. }
  split; [exact K|]. split; [|split].
  - apply (other _ [Begin o; Load _ 12; Step 0 o; Load _ 31] _ (End 0 true)); [|discriminate].
    apply (failed_load _ [Begin o; Load _ 12; Step 0 o] _ "/run/learner"); [|exact K|reflexivity].
    apply (other _ [Begin o; Load _ 12] _ (Step 0 o)); [|discriminate].
    apply (from_checkpoint _ [Begin o] "/run/learner"); [exact K|reflexivity].
  - exists 1%nat. apply B.
  - intros x z [= <-]. exists 1%nat. split; [reflexivity|apply B].
Qed.

(** Where two actions are equally good, the answers to the same observation should be the
    same in evaluation; they need not be: they are drawn. *)
Theorem C90_ties_refuted : exists (P : prng) (sample : key P -> list nat -> nat) ps (o : features),
  (forall k l, l <> [] -> In (sample k l) l) /\
  answers P sample 1099 (fun x => x) (new_acme_agent P ps) [Begin o; Begin o] = [Action 2; Action 1].
Proof.
  exists counting, by_index, (prefers (fun _ => 0) (mkDense (fun _ _ => 0) (fun _ => 0))), (fun _ => 0).
  split; [exact C90_sampler|].
  cbn [answers ask acme_begin_episode actor_select_action fst snd new_acme_agent ae_params ae_rng].
  assert (G : greedy_actions (dqn_values 1099 (fun x => x) (prefers (fun _ => 0) (mkDense (fun _ _ => 0) (fun _ => 0))) (fun _ => 0))
              = [0; 1; 2]%nat).
  { rewrite prefers_values. unfold greedy_actions. cbn [length seq filter nth forallb].
    destruct (Rleb_spec 0 0) as [_|N]; [reflexivity|]. destruct N; lra. }
  unfold eval_policy. rewrite G. reflexivity.
Qed.
Print Assumptions C90_best.
Print Assumptions C90_load.
Print Assumptions C90_modes.
Print Assumptions C90_no_memory.
Print Assumptions C90_evaluation.
Print Assumptions C90_ties_refuted.
Print Assumptions C90_parts.
