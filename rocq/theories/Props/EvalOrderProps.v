(** Property C64: results do not depend on the order of the seeds, on the other
    seeds, or on how the suite is sharded. *)
From Coq Require Import ZArith Reals List Bool Lia String Sorting.Permutation Sorting.Sorted.
From Verif Require Import Model.Num Model.Prng Model.Safety Model.Balloon Model.WindField
  Model.Atmosphere Model.Env Model.Agents Model.Eval.
From Verif Require Import Spec.Episodes Spec.EvalSpec.
From Verif Require Import Proofs.EnvProofs Proofs.EvalOrderProofs Proofs.ShardProofs Proofs.CombineProofs
  Proofs.StringProofs Props.ShardProps Props.EvalProps.
Import ListNotations.
Open Scope Z_scope.

#[local] Opaque initialize_balloon Sampling.sample_time atmosphere_reset simulate_step world_of
  U_HARMONICS V_HARMONICS.

Lemma filter_all {B} (f : B -> bool) l : (forall b, In b l -> f b = true) -> filter f l = l.
Proof. induction l as [|b l IH]; intro H; [reflexivity|]. cbn. rewrite (H b) by now left. f_equal. apply IH. intros. apply H. now right. Qed.
Lemma filter_none {B} (f : B -> bool) l : (forall b, In b l -> f b = false) -> filter f l = [].
Proof. induction l as [|b l IH]; intro H; [reflexivity|]. cbn. rewrite (H b) by now left. apply IH. intros. apply H. now right. Qed.

Section OrderProps.
(** BalloonEnv with any libraries, feature constructor and reward, and an agent that
    starts every episode afresh. *)
Context (P : prng) (noise4d : Z -> R -> R -> R -> R -> R) (F : forecaster P).
Context (FC : feature_class P F).
Context (reward_fn : wind_field P F -> atmosphere -> R * R -> bstate R -> option R).
Context (draws : nat).
Notation G := (balloon_gym P noise4d F FC reward_fn draws).
Notation usable := (usable P noise4d F FC reward_fn draws).
Notation radius := (e_radius P F FC).
Context (A : agent_class (g_obs G)).
Context (rp : Z) (fp : bool).
Notation eval_agent := (eval_agent G A rp fp).

Lemma eval_agent_alone r a e (s : suite) (e0 : g_state G) a0 :
  starts_afresh A -> in_use P noise4d F FC reward_fn draws r e -> in_use P noise4d F FC reward_fn draws r e0 ->
  results (eval_agent a e s) =
    if 0 <? max_episode_length s
    then all_some (map (alone G A rp fp (max_episode_length s) e0 a0) (seeds s)) else None.
Proof.
  intros (Rel & R1 & R2 & R3) He He0. unfold Eval.eval_agent. destruct (0 <? _); [|reflexivity].
  eapply (eval_seeds_alone G A rp fp (in_use P noise4d F FC reward_fn draws r)
           (apart P noise4d F FC reward_fn draws)); eauto.
  - intros. eapply gym_reset; eauto.
  - intros. now apply gym_step.
  - intros. now apply gym_balloon.
  - intros. eapply gym_reset_U; eauto.
  - intros. eapply gym_step_U; eauto.
Qed.
Lemma usable_in_use e : usable e -> in_use P noise4d F FC reward_fn draws (radius e) e.
Proof. intro H. split; [eapply usable_tables; eauto|reflexivity]. Qed.

Lemma all_some_seed max (e0 : g_state G) a0 zs rs :
  all_some (map (alone G A rp fp max e0 a0) zs) = Some rs ->
  forall r, In r rs -> alone G A rp fp max e0 a0 (r_seed r) = Some r.
Proof.
  revert rs. induction zs as [|z zs IH]; cbn [map all_some]; intros rs E r I.
  - injection E as <-. destruct I.
  - destruct (alone G A rp fp max e0 a0 z) as [r0|] eqn:E0; [|discriminate].
    destruct (all_some _) as [rs0|]; [|discriminate]. injection E as <-.
    destruct I as [<-|I]; [|eapply IH; eauto].
    assert (Ez : r_seed r0 = z).
    { unfold alone, eval_seed in E0.
      destruct (g_seed G e0 z) as [e1|]; [|discriminate]. destruct (g_reset G e1) as [[e2 o]|]; [|discriminate].
      destruct (ag_begin_episode A a0 o) as [[a1 act]|]; [|discriminate].
      destruct (loop _ _ _ _ _ _ _) as [l|]; [|discriminate].
      destruct (ag_end_episode _ _ _ _); [|discriminate]. now injection E0 as <-. }
    now rewrite Ez.
Qed.

(** ** C64 *)
(** The result for a seed is the same in every evaluation. *)
Theorem C64_same_result : forall a e s rs e1 a1 a' e' s' rs' e1' a1',
  starts_afresh A -> usable e -> usable e' -> radius e = radius e' ->
  max_episode_length s = max_episode_length s' ->
  eval_agent a e s = Some (rs, e1, a1) -> eval_agent a' e' s' = Some (rs', e1', a1') ->
  forall r r', In r rs -> In r' rs' -> r_seed r = r_seed r' -> r = r'.
Proof.
  intros a e s rs e1 a1 a' e' s' rs' e1' a1' HA He He' Hr Hm E E' r r' I I' Es.
  pose proof (eval_agent_alone (radius e) a e s e a HA (usable_in_use _ He) (usable_in_use _ He)) as H.
  assert (Hu : in_use P noise4d F FC reward_fn draws (radius e) e') by (rewrite Hr; now apply usable_in_use).
  pose proof (eval_agent_alone (radius e) a' e' s' e a HA Hu (usable_in_use _ He)) as H'.
  rewrite E in H. rewrite E' in H'. cbn [results] in H, H'. rewrite <- Hm in H'.
  destruct (0 <? _); [|discriminate].
  symmetry in H, H'. pose proof (all_some_seed _ _ _ _ _ H _ I) as K. pose proof (all_some_seed _ _ _ _ _ H' _ I') as K'.
  rewrite Es, K' in K. now injection K as ->.
Qed.

(** Evaluating a suite in two parts, with different objects, gives the results of
    evaluating it in one go. *)
Theorem C64_parts : forall max zs1 zs2 a e a1 e1 a2 e2,
  starts_afresh A -> usable e -> usable e1 -> usable e2 -> radius e1 = radius e -> radius e2 = radius e ->
  forall rs,
  (exists e' a', eval_agent a e (mkSuite (zs1 ++ zs2) max) = Some (rs, e', a')) <->
  (exists rs1 rs2 e1' a1' e2' a2', rs = (rs1 ++ rs2)%list /\
     eval_agent a1 e1 (mkSuite zs1 max) = Some (rs1, e1', a1') /\
     eval_agent a2 e2 (mkSuite zs2 max) = Some (rs2, e2', a2')).
Proof.
  intros max zs1 zs2 a e a1 e1 a2 e2 HA He He1 He2 Hr1 Hr2 rs.
  pose proof (usable_in_use _ He) as Ue.
  assert (U1 : in_use P noise4d F FC reward_fn draws (radius e) e1) by (rewrite <- Hr1; now apply usable_in_use).
  assert (U2 : in_use P noise4d F FC reward_fn draws (radius e) e2) by (rewrite <- Hr2; now apply usable_in_use).
  pose proof (eval_agent_alone _ a e (mkSuite (zs1 ++ zs2) max) e a HA Ue Ue) as H.
  pose proof (eval_agent_alone _ a1 e1 (mkSuite zs1 max) e a HA U1 Ue) as H1.
  pose proof (eval_agent_alone _ a2 e2 (mkSuite zs2 max) e a HA U2 Ue) as H2.
  cbn [seeds max_episode_length] in H, H1, H2. rewrite map_app, all_some_app in H.
  assert (H' : results (eval_agent a e (mkSuite (zs1 ++ zs2) max)) =
    match results (eval_agent a1 e1 (mkSuite zs1 max)), results (eval_agent a2 e2 (mkSuite zs2 max)) with
    | Some rs1, Some rs2 => Some (rs1 ++ rs2)%list | _, _ => None end).
  { rewrite H, H1, H2. destruct (0 <? max); reflexivity. }
  clear H H1 H2.
  destruct (eval_agent a e _) as [[[q e'] a']|]; destruct (eval_agent a1 e1 _) as [[[q1 e1'] a1']|];
    destruct (eval_agent a2 e2 _) as [[[q2 e2'] a2']|]; cbn [results] in H'; try discriminate H'.
  2-4: split; [intros (x & y & Q); discriminate Q
              |intros (x1 & x2 & y1 & y2 & y3 & y4 & _ & Q1 & Q2); first [discriminate Q1|discriminate Q2]].
  injection H' as ->. split.
  - intros (x & y & [= <- _ _]). exists q1, q2, e1', a1', e2', a2'. auto.
  - intros (x1 & x2 & y1 & y2 & y3 & y4 & -> & [= <- _ _] & [= <- _ _]). eauto.
Qed.

Lemma all_some_concat {B} (ls : list (list (option B))) (bss : list (list B)) :
  Forall2 (fun l bs => all_some l = Some bs) ls bss -> all_some (List.concat ls) = Some (List.concat bss).
Proof.
  induction 1 as [|l bs ls bss H _ IH]; [reflexivity|]. cbn [List.concat].
  rewrite all_some_app, H, IH. reflexivity.
Qed.

(** The whole way: every shard is evaluated in a process of its own, the result
    files are written to a directory in which no other file is called name_*.json,
    and they are combined.  The combined file is what one evaluation of the whole
    suite returns (without the flight paths, unless asked for). *)
Theorem C64_sharded : forall (s : suite) num a e (ai : Z -> ag_state A) (ei : Z -> g_state G)
    (ri : Z -> list eval_result) name rest with_paths order d,
  starts_afresh A -> usable e -> (forall i, usable (ei i) /\ radius (ei i) = radius e) ->
  1 < num -> Z.of_nat (List.length (seeds s)) < 2 ^ 53 -> StronglySorted Z.lt (seeds s) ->
  0 < max_episode_length s ->
  (forall i, 0 <= i < num -> exists e' a', eval_agent (ai i) (ei i) (shard s num i) = Some (ri i, e', a')) ->
  Permutation d (map (fun i => (name ++ "_" ++ str_of_int i ++ ".json", Some (ri i)))%string
                     (shard_numbers num) ++ rest) ->
  (forall f mid, In f rest -> fst f <> name ++ "_" ++ mid ++ ".json")%string ->
  Permutation (order d) d ->
  exists rs e' a' d',
    eval_agent a e s = Some (rs, e', a') /\
    combine with_paths order d name = Some d' /\
    forall c, In (name ++ ".json", c)%string d' <->
      c = Some (if with_paths then rs else map without_path rs).
Proof.
  intros s num a e ai ei ri name rest wp order d HA He Hei Hn Hl Hs Hm Hri Hd Hrest Ho.
  pose proof (usable_in_use _ He) as Ue.
  set (one := alone G A rp fp (max_episode_length s) e a).
  assert (K : forall i, 0 <= i < num -> all_some (map one (seeds (shard s num i))) = Some (ri i)).
  { intros i Hi. destruct (Hri i Hi) as (e' & a' & E).
    assert (Ui : in_use P noise4d F FC reward_fn draws (radius e) (ei i)).
    { destruct (Hei i) as [H1 <-]. now apply usable_in_use. }
    pose proof (eval_agent_alone _ (ai i) (ei i) (shard s num i) e a HA Ui Ue) as H.
    rewrite E in H. cbn [results] in H. rewrite C40_episode_length in H.
    destruct (0 <? max_episode_length s); [|discriminate]. now symmetry. }
  assert (W : all_some (map one (seeds s)) = Some (List.concat (map ri (shard_numbers num)))).
  { rewrite <- (C40_partition s num) by lia. rewrite concat_map. apply all_some_concat.
    rewrite map_map.
    assert (Hin : forall i, In i (shard_numbers num) -> 0 <= i < num).
    { intros i I. unfold shard_numbers in I. apply in_map_iff in I. destruct I as (k & <- & I).
      apply in_seq in I. lia. }
    revert Hin. generalize (shard_numbers num). induction l as [|i l IH]; intro Hin; [constructor|].
    cbn [map]. constructor; [apply K; apply Hin; now left|]. apply IH. intros. apply Hin. now right. }
  set (rs := List.concat (map ri (shard_numbers num))) in *.
  pose proof (eval_agent_alone _ a e s e a HA Ue Ue) as H. fold one in H. rewrite W in H.
  destruct (0 <? max_episode_length s) eqn:Em; [|apply Z.ltb_ge in Em; lia].
  destruct (eval_agent a e s) as [[[rs' e'] a']|] eqn:E; [|discriminate]. injection H as ->.
  assert (Hseeds : map r_seed rs = seeds s).
  { destruct (C38_results G A rp fp _ _ _ _ _ _ E) as [Q _]. exact Q. }
  assert (Hread : forall mid c, In (name ++ "_" ++ mid ++ ".json", c)%string d -> c <> None).
  { intros mid c I. apply (Permutation_in _ Hd) in I. apply in_app_or in I. destruct I as [I|I].
    - apply in_map_iff in I. destruct I as (i & [= _ <-] & _). discriminate.
    - exfalso. exact (Hrest _ mid I eq_refl). }
  pose proof (C41_returns wp order d name Ho Hread) as Hret.
  destruct (combine wp order d name) as [d'|] eqn:Ec; [|contradiction].
  destruct (C41_union _ _ _ _ _ Ho Ec) as (files & rest' & data & Hp & Hf & Hr & Hdata & Hsort & Hw & _).
  assert (Hfiles : Permutation files
     (map (fun i => (name ++ "_" ++ str_of_int i ++ ".json", Some (ri i)))%string (shard_numbers num))).
  { set (ms := map _ _) in *.
    assert (F1 : filter (fun f => matches name (fst f)) (files ++ rest') = files).
    { rewrite filter_app, (filter_all _ files), (filter_none _ rest'); [apply app_nil_r| |].
      - intros f I. destruct (matches name (fst f)) eqn:Em'; [|reflexivity]. apply matches_iff in Em'.
        destruct Em' as (mid & Em'). exfalso. exact (Hr f mid I Em').
      - intros f I. destruct (Hf f I) as (mid & c & ->). apply matches_iff. exists mid. reflexivity. }
    assert (F2 : filter (fun f => matches name (fst f)) (ms ++ rest) = ms).
    { rewrite filter_app, (filter_all _ ms), (filter_none _ rest); [apply app_nil_r| |].
      - intros f I. destruct (matches name (fst f)) eqn:Em'; [|reflexivity]. apply matches_iff in Em'.
        destruct Em' as (mid & Em'). exfalso. exact (Hrest f mid I Em').
      - intros f I. unfold ms in I. apply in_map_iff in I. destruct I as (i & <- & _).
        apply matches_iff. exists (str_of_int i). reflexivity. }
    rewrite <- F1, <- F2. apply filter_perm. rewrite <- Hp. exact Hd. }
  assert (data = rs).
  { apply sorted_unique; [|assumption| |].
    - rewrite Hdata, Hfiles. unfold rs. clear. induction (shard_numbers num) as [|i l IH]; [constructor|].
      cbn [map flat_map List.concat snd]. now apply Permutation_app_head.
    - clear - Hs Hseeds. revert Hs. rewrite <- Hseeds. clear Hseeds. induction rs as [|r l IH]; [constructor|].
      cbn [map]. intro H. apply StronglySorted_inv in H. destruct H as [H1 H2]. constructor; [|auto].
      intros q Iq. rewrite Forall_forall in H2. specialize (H2 (r_seed q) (in_map _ _ _ Iq)). lia.
    - assert (Pr : Permutation data rs).
      { rewrite Hdata, Hfiles. unfold rs. clear. induction (shard_numbers num) as [|i l IH]; [constructor|].
        cbn [map flat_map List.concat snd]. now apply Permutation_app_head. }
      apply (Permutation_NoDup (Permutation_sym (Permutation_map r_seed Pr))).
      rewrite Hseeds. clear - Hs. induction Hs as [|z l H1 IH H2]; constructor; [|assumption].
      intro I. rewrite Forall_forall in H2. specialize (H2 _ I). lia. }
  subst data. exists rs, e', a', d'. auto.
Qed.
End OrderProps.

Print Assumptions C64_same_result.
Print Assumptions C64_parts.
Print Assumptions C64_sharded.

(** An agent that starts afresh: one whose action is a function of the observation,
    such as StationSeeker. *)
Definition policy {obs} (f : obs -> Z) : agent_class obs := {|
  ag_state := unit;
  ag_set_mode a _ := a;
  ag_begin_episode a o := Some (a, f o);
  ag_step a _ o := Some (a, f o);
  ag_end_episode a _ _ := Some a
|}.
Example C64_witness : forall obs (f : obs -> Z), starts_afresh (policy f).
Proof.
  intros obs f. exists (fun _ _ => True). cbn. repeat split; auto; intros K; discriminate K.
Qed.
(** One that does not: it remembers how many episodes it has been through. *)
Example C64_not_afresh : forall obs, obs -> ~ starts_afresh {|
  ag_state := Z;
  ag_set_mode a _ := a;
  ag_begin_episode n (_ : obs) := Some ((n + 1)%Z, (n mod 3)%Z);
  ag_step n _ _ := Some (n, 1);
  ag_end_episode n _ _ := Some n
|}.
Proof. intros obs o (Rel & H & _). destruct (H 0 1 o) as [_ E]. discriminate E. Qed.
