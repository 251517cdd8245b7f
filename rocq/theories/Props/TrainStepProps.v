(** Property C89: when the agents built on Dopamine learn, and from what. *)
From Coq Require Import ZArith Reals Lra Lia Bool List.
From Verif Require Import Model.Num Model.Agents Model.Exploration Model.TrainStep.
From Verif Require Import Spec.ScheduleSpec.
Import ListNotations.
Open Scope R_scope.

(** ** The contract of the replay buffer: it counts what it is given. *)
Definition counts {obs} (D : dopamine obs) : Prop :=
  (forall b o a r t b', d_add D b o a r t = Some b' -> d_add_count D b' = (d_add_count D b + 1)%Z) /\
  (forall b b' x, d_sample D b = Some (b', x) -> d_add_count D b' = d_add_count D b) /\
  (forall b i p b', d_set_priority D b i p = Some b' -> d_add_count D b' = d_add_count D b).

(** A gradient step on some batch. *)
Definition gradient_step {obs} (D : dopamine obs) (target p p' : d_params D) : Prop :=
  exists opt batch opt' losses, d_train D p target opt batch = (opt', p', losses).

Section Schedule.
Context {obs : Type} (D : dopamine obs) (S : settings) (HD : counts D).
Notation learning := (learning D).

(** The loss of an update is reported at these steps. *)
Definition reports (k : Z) : bool :=
  (has_writer S && (0 <? k)%Z && (k mod summary_writing_frequency S =? 0)%Z)%bool.

Lemma update_facts s s' : update_q D S s = Some s' ->
  gradient_step D (target_network_params D s) (online_params D s) (online_params D s') /\
  target_network_params D s' = target_network_params D s /\
  training_steps D s' = training_steps D s /\
  d_add_count D (replay D s') = d_add_count D (replay D s) /\
  rng D s' = rng D s /\ observation D s' = observation D s /\
  map fst (summaries D s') = map fst (summaries D s) ++
    (if reports (training_steps D s) then [training_steps D s] else []).
Proof.
  destruct HD as (_ & H2 & H3). unfold update_q, reports.
  destruct (d_sample D (replay D s)) as [[b x]|] eqn:E; [|discriminate]. apply H2 in E.
  destruct (d_train D _ _ _ x) as [[opt p] [loss m]] eqn:T.
  assert (G : gradient_step D (target_network_params D s) (online_params D s) p) by (do 4 eexists; exact T).
  set (o := if prioritized S then _ else _).
  assert (O : forall b' m', o = Some (b', m') -> d_add_count D b' = d_add_count D (replay D s)).
  { intros b' m'. unfold o. destruct (prioritized S).
    - destruct (loss_weights _); [|discriminate]. destruct (d_set_priority D b _ _) as [b2|] eqn:P; [|discriminate].
      intros [= <- <-]. apply H3 in P. congruence.
    - intros [= <- <-]. exact E. }
  destruct o as [[b' m']|]; [|discriminate]. specialize (O b' m' eq_refl).
  destruct (has_writer S && _)%bool.
  - destruct (_ =? 0)%Z; [discriminate|]. intros [= <-]. cbn. repeat (split; [assumption || reflexivity|]).
    destruct (_ =? 0)%Z; [rewrite map_app; reflexivity|symmetry; apply app_nil_r].
  - intros [= <-]. cbn. repeat (split; [assumption || reflexivity|]). symmetry. apply app_nil_r.
Qed.

(** One training step. *)
Lemma train_step_facts s s' : train_step D S s = Some s' ->
  let k := training_steps D s in
  let n := d_add_count D (replay D s) in
  training_steps D s' = (k + 1)%Z /\ d_add_count D (replay D s') = n /\
  rng D s' = rng D s /\ observation D s' = observation D s /\
  ((min_replay_history S < n)%Z /\ (update_period S | k)%Z ->
     gradient_step D (target_network_params D s) (online_params D s) (online_params D s')) /\
  (~ ((min_replay_history S < n)%Z /\ (update_period S | k)%Z) -> online_params D s' = online_params D s) /\
  ((min_replay_history S < n)%Z /\ (target_update_period S | k)%Z -> target_network_params D s' = online_params D s') /\
  (~ ((min_replay_history S < n)%Z /\ (target_update_period S | k)%Z) ->
     target_network_params D s' = target_network_params D s) /\
  map fst (summaries D s') = map fst (summaries D s) ++
    (if ((min_replay_history S <? n)%Z && (k mod update_period S =? 0)%Z && reports k)%bool then [k] else []).
Proof.
  intros E k n. unfold train_step in E. fold n k in E.
  destruct (Z.gtb_spec n (min_replay_history S)) as [Hn|Hn].
  2:{ injection E as <-. cbn. repeat (split; [reflexivity|]).
      split; [intros [C _]; lia|]. split; [reflexivity|]. split; [intros [C _]; lia|]. split; [reflexivity|].
      destruct (Z.ltb_spec (min_replay_history S) n); [lia|]. symmetry. apply app_nil_r. }
  destruct (Z.eqb_spec (update_period S) 0) as [|Hu]; [discriminate|].
  assert (Du : (k mod update_period S = 0)%Z <-> (update_period S | k)%Z) by now apply Z.mod_divide.
  set (o := if (k mod update_period S =? 0)%Z then _ else _) in E.
  destruct o as [s1|] eqn:Eo; [|discriminate].
  assert (F : ((update_period S | k)%Z -> gradient_step D (target_network_params D s) (online_params D s) (online_params D s1)) /\
     (~ (update_period S | k)%Z -> online_params D s1 = online_params D s) /\
     target_network_params D s1 = target_network_params D s /\ training_steps D s1 = k /\
     d_add_count D (replay D s1) = n /\ rng D s1 = rng D s /\ observation D s1 = observation D s /\
     map fst (summaries D s1) = map fst (summaries D s) ++
       (if ((k mod update_period S =? 0)%Z && reports k)%bool then [k] else [])).
  { unfold o in Eo. destruct (Z.eqb_spec (k mod update_period S) 0) as [Z0|Z0].
    - destruct (update_facts _ _ Eo) as (G & A1 & A2 & A3 & A4 & A5 & A6).
      split; [auto|]. split; [intro N; destruct N; now apply Du|]. auto 10.
    - injection Eo as <-. split; [intro N; destruct Z0; now apply Du|]. cbn [andb]. rewrite app_nil_r. auto 10. }
  clear Eo o. destruct F as (F1 & F2 & F3 & F4 & F5 & F6 & F7 & F8).
  assert (Hb : (min_replay_history S <? n)%Z = true) by (apply Z.ltb_lt; lia). rewrite Hb. cbn [andb].
  destruct (Z.eqb_spec (target_update_period S) 0) as [|Ht]; [discriminate|].
  assert (Dt : (k mod target_update_period S = 0)%Z <-> (target_update_period S | k)%Z) by now apply Z.mod_divide.
  rewrite F4 in E. injection E as <-.
  destruct (Z.eqb_spec (k mod target_update_period S) 0) as [Z0|Z0]; cbn.
  - rewrite ?F4. repeat (split; [assumption || reflexivity|]). split; [tauto|].
    split; [intro N; apply F2; intro; apply N; split; [lia|assumption]|].
    split; [reflexivity|]. split; [intro N; destruct N; split; [lia|now apply Dt]|exact F8].
  - rewrite ?F4. repeat (split; [assumption || reflexivity|]). split; [tauto|].
    split; [intro N; apply F2; intro; apply N; split; [lia|assumption]|].
    split; [intros [_ N]; destruct Z0; now apply Dt|]. split; [intros _; exact F3|exact F8].
Qed.

Lemma store_facts s o a r t s' : store D s o a r t = Some s' ->
  online_params D s' = online_params D s /\ target_network_params D s' = target_network_params D s /\
  training_steps D s' = training_steps D s /\ d_add_count D (replay D s') = (d_add_count D (replay D s) + 1)%Z /\
  observation D s' = observation D s /\ summaries D s' = summaries D s.
Proof.
  destruct HD as (H1 & _). unfold store. destruct o as [o|]; [|discriminate].
  destruct (d_add D _ _ _ _ _) as [b|] eqn:E; [|discriminate]. apply H1 in E. intros [= <-]. cbn. auto 10.
Qed.

(** ** The two agents *)
Context (X : explorer obs).
Notation agent := (quantile_agent (dopamine_learner D S) X).
Notation state := (quantile (dopamine_learner D S) X).
Notation inside q := (q_learner (dopamine_learner D S) X q).
Notation training q := (negb (q_eval_mode (dopamine_learner D S) X q)).
Definition both (l : learning) : d_params D * d_params D := (online_params D l, target_network_params D l).

(** C89: the parameters and the targets of the quantile agent follow the schedule,
    whatever it is asked, whatever explores and whatever the batches. *)
Lemma schedule : forall l (q q' : state) al, asked agent q l = Some (q', al) ->
  let occ := occasions (training q) (training_steps D (inside q)) (d_add_count D (replay D (inside q))) l in
  follows (gradient_step D) (min_replay_history S) (update_period S) (target_update_period S) occ
    (both (inside q)) (both (inside q')) /\
  training_steps D (inside q') = (training_steps D (inside q) + Z.of_nat (length occ))%Z /\
  d_add_count D (replay D (inside q')) = received (training q) (d_add_count D (replay D (inside q))) l /\
  training q' = mode_after (training q) l /\
  map fst (summaries D (inside q')) = map fst (summaries D (inside q)) ++
    map fst (filter (fun o => (min_replay_history S <? snd o)%Z && (fst o mod update_period S =? 0)%Z && reports (fst o))%bool occ).
Proof.
  induction l as [|c l IH]; intros q q' al; cbn [asked].
  - intros [= <- <-]. cbn. split; [destruct (inside q); constructor|]. split; [lia|]. rewrite app_nil_r. auto.
  - set (o := match c with Begin _ => _ | _ => _ end). destruct o as [[q1 a1]|] eqn:Eo; [|discriminate].
    destruct (asked agent q1 l) as [[q2 a2]|] eqn:El; [|discriminate]. intros [= <- <-].
    specialize (IH _ _ _ El). cbv zeta in IH. destruct IH as (IH1 & IH2 & IH3 & IH4 & IH5).
    destruct q as [li xs ac ev]. cbn [q_learner q_eval_mode] in *.
    destruct c as [ob|r ob|r t|m]; unfold o in Eo; clear o; cbn [ag_begin_episode ag_step ag_end_episode ag_set_mode quantile_agent] in Eo.
    + unfold q_begin_episode in Eo. cbn [l_begin_episode dopamine_learner q_learner q_eval_mode q_explorer] in Eo.
      unfold jax_begin_episode in Eo. destruct ev; cbn [negb occasions] in *.
      * destruct (choose D (record_observation D li ob) true ob) as [l1 a] eqn:Ec. injection Eo as <- <-. cbn [q_learner q_eval_mode negb] in *.
        unfold choose in Ec. destruct (d_select_action D _ _ _ _). injection Ec as <- <-. cbn in IH1, IH2, IH3, IH4, IH5 |- *. auto.
      * destruct (train_step D S (record_observation D li ob)) as [l0|] eqn:Et; [|discriminate].
        destruct (choose D l0 false ob) as [l1 a] eqn:Ec. destruct (x_begin_episode X xs ob a) as [[x1 a']|]; [|discriminate].
        injection Eo as <- <-. cbn [q_learner q_eval_mode negb] in *.
        unfold choose in Ec. destruct (d_select_action D _ _ _ _). injection Ec as <- <-. cbn in IH1, IH2, IH3, IH4, IH5 |- *.
        destruct (train_step_facts _ _ Et) as (T1 & T2 & _ & _ & T3 & T4 & T5 & T6 & T7).
        cbn in T1, T2, T3, T4, T5, T6, T7. rewrite T1, T2 in *.
        split; [eapply occasion; [exact T3|exact T4|exact T5|exact T6|exact IH1]|].
        split; [rewrite IH2; cbn [length]; lia|]. split; [exact IH3|]. split; [exact IH4|].
        rewrite IH5, T7, <- app_assoc. f_equal.
        destruct (_ && _ && _)%bool; reflexivity.
    + unfold q_step in Eo. cbn [l_step dopamine_learner q_learner q_eval_mode q_explorer q_action] in Eo.
      unfold jax_step in Eo. destruct ev; cbn [negb occasions] in *.
      * destruct (choose D (record_observation D li ob) true ob) as [l1 a] eqn:Ec. injection Eo as <- <-. cbn [q_learner q_eval_mode negb] in *.
        unfold choose in Ec. destruct (d_select_action D _ _ _ _). injection Ec as <- <-. cbn in IH1, IH2, IH3, IH4, IH5 |- *. auto.
      * destruct (store D (record_observation D li ob) _ _ _ _) as [ls|] eqn:Es; [|discriminate].
        destruct (train_step D S ls) as [l0|] eqn:Et; [|discriminate].
        destruct (choose D l0 false ob) as [l1 a] eqn:Ec. destruct (x_step X xs r ob a) as [[x1 a']|]; [|discriminate].
        injection Eo as <- <-. cbn [q_learner q_eval_mode negb] in *.
        unfold choose in Ec. destruct (d_select_action D _ _ _ _). injection Ec as <- <-. cbn in IH1, IH2, IH3, IH4, IH5 |- *.
        destruct (store_facts _ _ _ _ _ _ Es) as (S1 & S2 & S3 & S4 & _ & S5). cbn in S1, S2, S3, S4, S5.
        destruct (train_step_facts _ _ Et) as (T1 & T2 & _ & _ & T3 & T4 & T5 & T6 & T7).
        cbn in T1, T2, T3, T4, T5, T6, T7. rewrite ?S1, ?S2, ?S3, ?S4, ?S5 in *. rewrite T1, T2 in *.
        split; [eapply occasion; [exact T3|exact T4|exact T5|exact T6|exact IH1]|].
        split; [rewrite IH2; cbn [length]; lia|]. split; [exact IH3|]. split; [exact IH4|].
        rewrite IH5, T7, <- app_assoc. f_equal.
        destruct (_ && _ && _)%bool; reflexivity.
    + unfold q_end_episode in Eo. cbn [l_end_episode dopamine_learner q_learner q_eval_mode q_action q_explorer] in Eo.
      unfold jax_end_episode in Eo. destruct ev; cbn [negb occasions] in *.
      * injection Eo as <- <-. cbn in IH1, IH2, IH3, IH4, IH5 |- *. auto.
      * destruct (store D li _ _ _ _) as [ls|] eqn:Es; [|discriminate]. injection Eo as <- <-.
        destruct (store_facts _ _ _ _ _ _ Es) as (S1 & S2 & S3 & S4 & _ & S5). cbn in IH1, IH2, IH3, IH4, IH5 |- *.
        unfold both in *. rewrite S1, S2, S3, S4, S5 in *. auto.
    + injection Eo as <- <-. destruct m; cbn in IH1, IH2, IH3, IH4, IH5 |- *; auto.
Qed.
Theorem C89_schedule : forall l (q q' : state) al, asked agent q l = Some (q', al) ->
  let occ := occasions (training q) (training_steps D (inside q)) (d_add_count D (replay D (inside q))) l in
  follows (gradient_step D) (min_replay_history S) (update_period S) (target_update_period S) occ
    (both (inside q)) (both (inside q')) /\
  training_steps D (inside q') = (training_steps D (inside q) + Z.of_nat (length occ))%Z /\
  d_add_count D (replay D (inside q')) = received (training q) (d_add_count D (replay D (inside q))) l /\
  training q' = mode_after (training q) l /\
  map fst (summaries D (inside q')) = map fst (summaries D (inside q)) ++
    map fst (filter (fun o => (min_replay_history S <? snd o)%Z && (fst o mod update_period S =? 0)%Z && reports (fst o))%bool occ).
Proof. exact schedule. Qed.

(** ** In evaluation nothing is learnt, stored or reported, and nobody explores. *)
Theorem C89_evaluation : forall l (q q' : state) al, asked agent q l = Some (q', al) ->
  training q = false -> Forall (fun c => match c with Mode TRAIN => False | _ => True end) l ->
  both (inside q') = both (inside q) /\ optimizer_state D (inside q') = optimizer_state D (inside q) /\
  replay D (inside q') = replay D (inside q) /\ training_steps D (inside q') = training_steps D (inside q) /\
  summaries D (inside q') = summaries D (inside q) /\ q_explorer _ _ q' = q_explorer _ _ q.
Proof.
  induction l as [|c l IH]; intros q q' al; cbn [asked].
  - intros [= <- <-] _ _. auto 10.
  - set (o := match c with Begin _ => _ | _ => _ end). destruct o as [[q1 a1]|] eqn:Eo; [|discriminate].
    destruct (asked agent q1 l) as [[q2 a2]|] eqn:El; [|discriminate]. intros [= <- <-] Hq Hl.
    apply Forall_cons_iff in Hl. destruct Hl as [Hc Hl].
    destruct q as [li xs ac ev]. cbn [q_eval_mode negb] in Hq. destruct ev; [|discriminate].
    assert (F : training q1 = false /\ both (inside q1) = both li /\ optimizer_state D (inside q1) = optimizer_state D li /\
      replay D (inside q1) = replay D li /\ training_steps D (inside q1) = training_steps D li /\
      summaries D (inside q1) = summaries D li /\ q_explorer _ _ q1 = xs).
    { destruct c as [ob|r ob|r t|[]]; [| | |contradiction|]; unfold o in Eo; clear o.
      - cbn in Eo. unfold q_begin_episode in Eo. cbn in Eo. unfold choose in Eo.
        destruct (d_select_action D _ _ _ _). injection Eo as <- <-. cbn. auto 10.
      - cbn in Eo. unfold q_step in Eo. cbn in Eo. unfold choose in Eo.
        destruct (d_select_action D _ _ _ _). injection Eo as <- <-. cbn. auto 10.
      - cbn in Eo. injection Eo as <- <-. cbn. auto 10.
      - cbn in Eo. injection Eo as <- <-. cbn. auto 10. }
    destruct F as (F0 & F1 & F2 & F3 & F4 & F5 & F6). destruct (IH _ _ _ El F0 Hl) as (G1 & G2 & G3 & G4 & G5 & G6).
    cbn [q_learner q_explorer]. repeat split; congruence.
Qed.

(** ** Where the targets come from *)
Lemma occasions_split training k n c l : @occasions obs training k n (c :: l) =
  occasions training k n [c] ++
  occasions (mode_after training [c]) (k + Z.of_nat (length (occasions training k n [c]))) (received training n [c]) l.
Proof.
  destruct c as [ob|r ob|r t|[]]; destruct training; cbn -[Z.add]; rewrite ?Z.add_0_r; reflexivity.
Qed.
Lemma occasions_range training k n (l : list (ask obs)) :
  forall i, (0 <= i < Z.of_nat (length (occasions training k n l)))%Z -> exists n', In (k + i, n')%Z (occasions training k n l).
Proof.
  revert training k n. induction l as [|c l IH]; intros tr k n i Hi; [cbn in Hi; lia|].
  rewrite occasions_split in *. rewrite app_length in Hi.
  set (one := occasions tr k n [c]) in *.
  assert (O : one = [] \/ exists n1, one = [(k, n1)]).
  { unfold one. destruct c as [ob|r ob|r t|[]]; destruct tr; cbn; eauto. }
  destruct O as [O|[n1 O]]; rewrite O in *; cbn [length app Nat.add] in *.
  - rewrite Z.add_0_r in *. now apply IH.
  - destruct (Z.eq_dec i 0) as [->|]; [exists n1; left; f_equal; lia|].
    destruct (IH (mode_after tr [c]) (k + Z.of_nat 1)%Z (received tr n [c]) (i - 1)%Z) as [n' I]; [lia|].
    exists n'. right. replace (k + i)%Z with (k + Z.of_nat 1 + (i - 1))%Z by lia. exact I.
Qed.
Lemma received_more training n (l : list (ask obs)) : (n <= received training n l)%Z.
Proof.
  revert training n. induction l as [|c l IH]; intros tr n; cbn; [lia|].
  assert (L : (n <= if tr then n + 1 else n)%Z) by (destruct tr; lia).
  destruct c as [ob|r ob|r t|[]]; try apply IH; exact (Z.le_trans _ _ _ L (IH _ _)).
Qed.
Lemma occasions_more training k n (l : list (ask obs)) o : In o (occasions training k n l) -> (n <= snd o)%Z.
Proof.
  revert training k n. induction l as [|c l IH]; intros tr k n; [contradiction|].
  rewrite occasions_split, in_app_iff. intros [I|I].
  - destruct c as [ob|r ob|r t|[]]; destruct tr; cbn in I; try contradiction; destruct I as [<-|[]]; cbn; lia.
  - apply IH in I. pose proof (received_more tr n [c]). lia.
Qed.

Definition occ (q : state) (l : list (ask obs)) : list (Z * Z) :=
  occasions (training q) (training_steps D (inside q)) (d_add_count D (replay D (inside q))) l.
Lemma asked_cons q c l q' al : asked agent q (c :: l) = Some (q', al) ->
  exists q1 a1 a2, asked agent q [c] = Some (q1, a1) /\ asked agent q1 l = Some (q', a2) /\ al = a1 ++ a2.
Proof.
  cbn [asked]. set (o := match c with Begin _ => _ | _ => _ end). destruct o as [[q1 a1]|]; [|discriminate].
  destruct (asked agent q1 l) as [[q2 a2]|] eqn:E; [|discriminate]. intros [= <- <-].
  exists q1, a1, a2. rewrite app_nil_r. auto.
Qed.
Lemma asked_cons_back q c l q1 a1 q' a2 : asked agent q [c] = Some (q1, a1) -> asked agent q1 l = Some (q', a2) ->
  asked agent q (c :: l) = Some (q', a1 ++ a2).
Proof.
  cbn [asked]. set (o := match c with Begin _ => _ | _ => _ end). destruct o as [[q0 a0]|]; [|discriminate].
  intros [= -> E]. intros ->. rewrite app_nil_r in E. now rewrite E.
Qed.
Lemma occ_cons q c l q1 a1 : asked agent q [c] = Some (q1, a1) -> occ q (c :: l) = occ q [c] ++ occ q1 l.
Proof.
  intro E. destruct (schedule _ _ _ _ E) as (_ & K & N & M & _). unfold occ at 1. rewrite occasions_split.
  unfold occ. rewrite K, N, M. reflexivity.
Qed.

Lemma target_from l : forall q q' al, asked agent q l = Some (q', al) ->
  (min_replay_history S < d_add_count D (replay D (inside q)))%Z ->
  (target_network_params D (inside q') = target_network_params D (inside q) /\
   forall o, In o (occ q l) -> ~ (target_update_period S | fst o)%Z) \/
  exists l3 l4 q3 a3 a4, l = l3 ++ l4 /\ asked agent q l3 = Some (q3, a3) /\ asked agent q3 l4 = Some (q', a4) /\
    target_network_params D (inside q') = online_params D (inside q3) /\
    forall o, In o (occ q3 l4) -> ~ (target_update_period S | fst o)%Z.
Proof.
  induction l as [|c l IH]; intros q q' al E Hn.
  - injection E as <- <-. left. split; [reflexivity|]. intros o [].
  - destruct (asked_cons _ _ _ _ _ E) as (q1 & a1 & a2 & E1 & E2 & _).
    destruct (schedule _ _ _ _ E1) as (Fo & K & N & M & _).
    assert (Hn1 : (min_replay_history S < d_add_count D (replay D (inside q1)))%Z).
    { rewrite N. pose proof (received_more (training q) (d_add_count D (replay D (inside q))) [c]). lia. }
    destruct (IH _ _ _ E2 Hn1) as [[T No]|(l3 & l4 & q3 & a3 & a4 & -> & L3 & L4 & T & No)].
    + fold (occ q [c]) in Fo.
      assert (O : occ q [c] = [] \/ exists o, occ q [c] = [o] /\ (min_replay_history S < snd o)%Z).
      { assert (Len : occ q [c] = [] \/ exists o, occ q [c] = [o]).
        { unfold occ. destruct c as [ob|r ob|r t|[]]; destruct (training q); cbn; eauto. }
        destruct Len as [|[o Len]]; [auto|]. right. exists o. split; [assumption|].
        assert (In o (occ q [c])) by (rewrite Len; now left).
        apply occasions_more in H. lia. }
      unfold both in Fo. destruct O as [O|[[k n] [O Hk]]]; rewrite O in Fo.
      * left. inversion Fo as [p t Q1 Q2|]; subst. split; [congruence|].
        intros o I. rewrite (occ_cons _ _ _ _ _ E1), O in I. now apply No.
      * inversion Fo as [|k' n' l' p t p' t' fin G1 G2 G3 G4 Fr]; subst. inversion Fr; subst. cbn [snd] in Hk.
        destruct (Znumtheory.Zdivide_dec (target_update_period S) k) as [Dv|Dv].
        -- right. exists [c], l, q1, a1, a2. split; [reflexivity|]. split; [exact E1|]. split; [exact E2|].
           split; [rewrite T; apply G3; auto|exact No].
        -- left. split; [rewrite T; apply G4; tauto|]. intros o I. rewrite (occ_cons _ _ _ _ _ E1), O in I.
           destruct I as [<-|I]; [exact Dv|now apply No].
    + right. exists (c :: l3), l4, q3, (a1 ++ a3), a4. split; [reflexivity|].
      split; [eapply asked_cons_back; eassumption|]. auto.
Qed.

Lemma multiple_among t k : (0 < t)%Z -> exists i, (0 <= i < t)%Z /\ (t | k + i)%Z.
Proof.
  intro Ht. exists ((- k) mod t)%Z. split; [apply Z.mod_pos_bound; lia|].
  exists (- ((- k) / t))%Z. pose proof (Z.div_mod (- k) t). lia.
Qed.
(** Once learning has begun, after a target period of occasions the targets are the parameters
    the agent had at some moment since, fewer occasions ago than the period. *)
Theorem C89_targets : forall l (q q' : state) al, asked agent q l = Some (q', al) ->
  (min_replay_history S < d_add_count D (replay D (inside q)))%Z -> (0 < target_update_period S)%Z ->
  (target_update_period S <= training_steps D (inside q') - training_steps D (inside q))%Z ->
  exists before since q3 a3 a4, l = before ++ since /\
    asked agent q before = Some (q3, a3) /\ asked agent q3 since = Some (q', a4) /\
    target_network_params D (inside q') = online_params D (inside q3) /\
    (training_steps D (inside q') - training_steps D (inside q3) < target_update_period S)%Z.
Proof.
  intros l q q' al E Hn Ht Hl.
  destruct (target_from l q q' al E Hn) as [[_ No]|(l3 & l4 & q3 & a3 & a4 & L & L3 & L4 & T & No)].
  - exfalso. destruct (schedule _ _ _ _ E) as (_ & K & _). fold (occ q l) in K.
    destruct (multiple_among (target_update_period S) (training_steps D (inside q)) Ht) as (i & Hi & Dv).
    destruct (occasions_range (training q) (training_steps D (inside q)) (d_add_count D (replay D (inside q))) l i) as [n' I].
    { fold (occ q l). lia. }
    apply (No _ I). exact Dv.
  - exists l3, l4, q3, a3, a4. repeat (split; [assumption|]).
    destruct (schedule _ _ _ _ L4) as (_ & K & _). fold (occ q3 l4) in K.
    destruct (Z.lt_ge_cases (training_steps D (inside q') - training_steps D (inside q3)) (target_update_period S)) as [|Ge]; [assumption|].
    exfalso. destruct (multiple_among (target_update_period S) (training_steps D (inside q3)) Ht) as (i & Hi & Dv).
    destruct (occasions_range (training q3) (training_steps D (inside q3)) (d_add_count D (replay D (inside q3))) l4 i) as [n' I].
    { fold (occ q3 l4). lia. }
    apply (No _ I). exact Dv.
Qed.

(** ** How much is learnt in complete episodes *)
Lemma follows_descends h u t l : forall a b, follows (gradient_step D) h u t l a b ->
  forall c p0, descends (gradient_step D) c p0 (fst a) ->
  descends (gradient_step D)
    (c + length (filter (fun o => (h <? snd o)%Z && (if Znumtheory.Zdivide_dec u (fst o) then true else false))%bool l)) p0 (fst b).
Proof.
  induction 1 as [p target|k n l p target p' target' final G1 G2 G3 G4 Fr IH]; intros c p0 Hd; cbn [filter length fst snd] in *.
  - now rewrite Nat.add_0_r.
  - destruct (Z.ltb_spec h n) as [Lt|Ge]; cbn [andb].
    + destruct (Znumtheory.Zdivide_dec u k) as [Dv|Dv].
      * cbn [length]. rewrite <- plus_n_Sm. apply (IH (Datatypes.S c)). eapply one_more; [exact Hd|]. apply G1. auto.
      * apply IH. rewrite G2 by tauto. exact Hd.
    + apply IH. rewrite G2 by (intros [? ?]; lia). exact Hd.
Qed.
(** The occasions of complete episodes: the k-th comes with k rewards. *)
Fixpoint from (k : Z) (m : nat) : list (Z * Z) := match m with O => [] | Datatypes.S m => (k, k) :: from (k + 1) m end.
Lemma from_app k a b : from k (a + b) = from k a ++ from (k + Z.of_nat a) b.
Proof.
  revert k. induction a as [|a IH]; intro k; cbn [from Nat.add app]; [now rewrite Z.add_0_r|].
  rewrite IH. do 3 f_equal. lia.
Qed.
Lemma episode_occasions k (o : obs) steps r t l :
  occasions true k k (episode_asks o steps r t ++ l) =
  from k (Datatypes.S (length steps)) ++ occasions true (k + Z.of_nat (Datatypes.S (length steps))) (k + Z.of_nat (Datatypes.S (length steps))) l.
Proof.
  unfold episode_asks. cbn [app occasions from]. f_equal.
  assert (G : forall steps k, occasions true (k + 1) k ((map (fun p => Reward (fst p) (snd p)) steps ++ [End r t]) ++ l) =
    from (k + 1) (length steps) ++ occasions true (k + Z.of_nat (Datatypes.S (length steps))) (k + Z.of_nat (Datatypes.S (length steps))) l).
  { clear. induction steps as [|p steps IH]; intro k; cbn [map app occasions length from].
    - reflexivity.
    - f_equal. rewrite IH. do 2 f_equal; lia. }
  apply G.
Qed.
Definition episodes (eps : list (obs * list (R * obs) * R * bool)) : list (ask obs) :=
  flat_map (fun '(o, steps, r, t) => episode_asks o steps r t) eps.
Definition answers_in (eps : list (obs * list (R * obs) * R * bool)) : nat :=
  fold_right (fun '(o, steps, r, t) n => Datatypes.S (length steps) + n)%nat O eps.
Lemma episodes_occasions eps : forall k, occasions true k k (episodes eps) = from k (answers_in eps).
Proof.
  induction eps as [|[[[o steps] r] t] eps IH]; intro k; [reflexivity|].
  cbn [episodes flat_map answers_in fold_right]. fold (episodes eps). fold (answers_in eps).
  rewrite episode_occasions, IH, <- from_app. reflexivity.
Qed.
Lemma multiples h u m : forall k, (0 <= h)%Z -> (0 < u)%Z -> (0 < k)%Z ->
  Z.of_nat (length (filter (fun o => (h <? snd o)%Z && (if Znumtheory.Zdivide_dec u (fst o) then true else false))%bool (from k m)))
  = (Z.max h (k + Z.of_nat m - 1) / u - Z.max h (k - 1) / u)%Z.
Proof.
  induction m as [|m IH]; intros k Hh Hu Hk.
  - cbn [from filter length]. replace (k + Z.of_nat 0 - 1)%Z with (k - 1)%Z by lia. lia.
  - cbn [from filter fst snd]. specialize (IH (k + 1)%Z Hh Hu ltac:(lia)).
    replace (k + 1 + Z.of_nat m - 1)%Z with (k + Z.of_nat (Datatypes.S m) - 1)%Z in IH by lia.
    replace (k + 1 - 1)%Z with k in IH by lia.
    destruct (Z.ltb_spec h k) as [Lt|Ge]; cbn [andb].
    + rewrite (Z.max_r h k) in IH by lia. rewrite (Z.max_r h (k - 1)) by lia.
      pose proof (Z.div_mod k u ltac:(lia)) as E1. pose proof (Z.mod_pos_bound k u Hu) as B1.
      destruct (Znumtheory.Zdivide_dec u k) as [Dv|Dv].
      * apply Z.mod_divide in Dv; [|lia].
        assert (Q : ((k - 1) / u = k / u - 1)%Z) by (symmetry; apply Z.div_unique with (u - 1)%Z; lia).
        cbn [length]. rewrite Nat2Z.inj_succ, IH, Q. lia.
      * assert (k mod u <> 0)%Z by (intro; apply Dv; apply Z.mod_divide; lia).
        assert (Q : ((k - 1) / u = k / u)%Z) by (symmetry; apply Z.div_unique with (k mod u - 1)%Z; lia).
        rewrite IH, Q. lia.
    + rewrite IH. rewrite (Z.max_l h (k - 1)) by lia. rewrite (Z.max_l h k) by lia. reflexivity.
Qed.

(** From a fresh agent, over any complete training episodes with M answers in all: the
    parameters result from exactly as many gradient steps as there are multiples of the update
    period between the minimal history (excluded) and M - 1. *)
Theorem C89_amount : forall eps (q q' : state) al, asked agent q (episodes eps) = Some (q', al) ->
  training q = true -> training_steps D (inside q) = 0%Z -> d_add_count D (replay D (inside q)) = 0%Z ->
  (0 <= min_replay_history S)%Z -> (0 < update_period S)%Z ->
  exists c, descends (gradient_step D) c (online_params D (inside q)) (online_params D (inside q')) /\
    Z.of_nat c = (Z.max (min_replay_history S) (Z.of_nat (answers_in eps) - 1) / update_period S
                  - min_replay_history S / update_period S)%Z /\
    training_steps D (inside q') = Z.of_nat (answers_in eps).
Proof.
  intros eps q q' al E Ht K N Hh Hu. destruct (schedule _ _ _ _ E) as (Fo & Q & _).
  rewrite Ht, K, N, episodes_occasions in *.
  pose proof (follows_descends _ _ _ _ _ _ Fo 0%nat _ (at_start _ _)) as De. cbn [fst both Nat.add] in De.
  eexists. split; [exact De|]. split.
  - destruct (answers_in eps) as [|m] eqn:Em.
    + cbn [from filter length]. rewrite Z.max_l by lia. cbn. lia.
    + cbn [from filter fst snd]. destruct (Z.ltb_spec (min_replay_history S) 0); [lia|]. cbn [andb].
      rewrite multiples by lia. rewrite (Z.max_l (min_replay_history S) (0 + 1 - 1)) by lia.
      do 2 f_equal. lia.
  - rewrite Q. assert (L : forall m k, length (from k m) = m) by (clear; induction m; intro; cbn; auto).
    now rewrite L.
Qed.
End Schedule.

(** With the published configuration: nothing is learnt before the 501st reward, then a gradient
    step at every fourth occasion and new targets at every hundredth; every update after the
    first occasion is reported if there is a writer. *)
Theorem C89_published : forall {obs} (D : dopamine obs) (X : explorer obs) p w, counts D ->
  forall l (q q' : quantile (dopamine_learner D (gin_settings p w)) X) al,
  asked (quantile_agent (dopamine_learner D (gin_settings p w)) X) q l = Some (q', al) ->
  let s := q_learner _ _ q in let s' := q_learner _ _ q' in
  let occ := occasions (negb (q_eval_mode _ _ q)) (training_steps D s) (d_add_count D (replay D s)) l in
  follows (gradient_step D) 500 4 100 occ
    (online_params D s, target_network_params D s) (online_params D s', target_network_params D s') /\
  map fst (summaries D s') = map fst (summaries D s) ++
    (if w then map fst (filter (fun o => (500 <? snd o)%Z && (fst o mod 4 =? 0)%Z && (0 <? fst o)%Z)%bool occ) else []).
Proof.
  intros obs D X p w HC l q q' al E. destruct (C89_schedule D (gin_settings p w) HC X _ _ _ _ E) as (F & _ & _ & _ & R).
  cbn in F, R |- *. split; [exact F|]. rewrite R. f_equal. destruct w; [|].
  - f_equal. apply filter_ext. intros [k n]. cbn -[Z.modulo]. unfold reports. cbn -[Z.modulo]. now rewrite Z.mod_1_r, Z.eqb_refl, !Bool.andb_true_r.
  - clear R F E. match goal with |- map fst (filter _ ?occ) = [] => induction occ as [|[k n] t IH] end; [reflexivity|].
    cbn [filter]. unfold reports at 1. cbn [has_writer gin_settings andb]. rewrite Bool.andb_false_r. exact IH.
Qed.

(** ** The importance weights *)
Lemma fold_max l : forall x, x <= fold_left Rmax l x /\ (forall y, In y l -> y <= fold_left Rmax l x) /\
  (fold_left Rmax l x = x \/ In (fold_left Rmax l x) l).
Proof.
  induction l as [|a l IH]; intro x; cbn [fold_left]; [split; [lra|split; [intros y []|auto]]|].
  destruct (IH (Rmax x a)) as (A & B & C). pose proof (Rmax_l x a). pose proof (Rmax_r x a).
  split; [lra|]. split.
  - intros y [->|I]; [lra|auto].
  - destruct C as [C|C]; [|right; now right]. rewrite C. unfold Rmax. destruct (Rle_dec x a); [right; now left|auto].
Qed.
(** They lie above 0 and up to 1, 1 is one of them, and the more probable element has the
    smaller weight. *)
Theorem C89_weights : forall probs w, Forall (fun p => 0 <= p) probs -> loss_weights probs = Some w ->
  length w = length probs /\ Forall (fun x => 0 < x <= 1) w /\ In 1 w /\
  (forall i j pi pj wi wj, nth_error probs i = Some pi -> nth_error probs j = Some pj ->
     nth_error w i = Some wi -> nth_error w j = Some wj -> pi < pj -> wj < wi) /\
  (forall i j pi pj wi wj, nth_error probs i = Some pi -> nth_error probs j = Some pj ->
     nth_error w i = Some wi -> nth_error w j = Some wj ->
     wi * sqrt (pi + 0.0000000001) = wj * sqrt (pj + 0.0000000001)).
Proof.
  intros probs w Hp. unfold loss_weights. set (f := fun p => 1 / sqrt (p + 1 / 10 ^ 10)).
  assert (Ec : 1 / 10 ^ 10 = 0.0000000001) by (cbn [pow]; lra).
  assert (Sq : forall p, 0 <= p -> 0 < sqrt (p + 1 / 10 ^ 10)) by (intros p Q; apply sqrt_lt_R0; rewrite Ec; lra).
  assert (Pf : forall p, 0 <= p -> 0 < f p) by (intros p Q; unfold f; apply Rdiv_lt_0_compat; [lra|auto]).
  unfold maximum. destruct (map f probs) as [|x l] eqn:Em; [discriminate|]. intro Ew.
  set (m := fold_left Rmax l x) in *. assert (Ew' : w = map (fun y => y / m) (x :: l)) by (injection Ew as <-; reflexivity).
  clear Ew. subst w. destruct (fold_max l x) as (A & B & C). fold m in A, B, C.
  assert (Fp : Forall (fun y => 0 < y) (x :: l)).
  { rewrite <- Em. apply Forall_map. eapply Forall_impl; [|exact Hp]. exact Pf. }
  assert (Hm : 0 < m) by (apply Forall_inv in Fp; lra).
  assert (El : map (fun y => y / m) (x :: l) = map (fun p => f p / m) probs) by (rewrite <- Em, map_map; reflexivity).
  assert (Nth : forall i p w', nth_error probs i = Some p -> nth_error (map (fun y => y / m) (x :: l)) i = Some w' ->
    0 <= p /\ w' = f p / m).
  { intros i p w' E1 E2. rewrite El in E2. rewrite nth_error_map, E1 in E2. injection E2 as <-.
    split; [|reflexivity]. rewrite Forall_forall in Hp. apply Hp. eapply nth_error_In, E1. }
  split; [rewrite El, map_length; reflexivity|].
  split.
  { apply Forall_map, Forall_forall. intros y I. rewrite Forall_forall in Fp. pose proof (Fp y I) as Py.
    assert (y <= m) by (destruct I as [<-|I]; auto).
    split; [now apply Rdiv_lt_0_compat|]. apply Rmult_le_reg_r with m; [lra|]. unfold Rdiv. rewrite Rmult_assoc, Rinv_l by lra. lra. }
  split.
  { apply in_map_iff. exists m. split; [unfold Rdiv; apply Rinv_r; lra|]. destruct C as [->|C]; [now left|now right]. }
  split.
  - intros i j pi pj wi wj E1 E2 E3 E4 L. destruct (Nth _ _ _ E1 E3) as [P1 ->]. destruct (Nth _ _ _ E2 E4) as [P2 ->].
    apply Rmult_lt_compat_r; [now apply Rinv_0_lt_compat|].
    assert (Inv : forall a b, 0 < a -> a < b -> 1 / b < 1 / a).
    { intros a b Ha Hb. unfold Rdiv. rewrite !Rmult_1_l. apply Rinv_lt_contravar; [apply Rmult_lt_0_compat; lra|exact Hb]. }
    apply Inv; [auto|]. apply sqrt_lt_1; rewrite ?Ec; lra.
  - intros i j pi pj wi wj E1 E2 E3 E4. destruct (Nth _ _ _ E1 E3) as [P1 ->]. destruct (Nth _ _ _ E2 E4) as [P2 ->].
    unfold f. rewrite <- Ec. pose proof (Sq _ P1). pose proof (Sq _ P2).
    set (a := sqrt (pi + 1 / 10 ^ 10)) in *. set (b := sqrt (pj + 1 / 10 ^ 10)) in *. clearbody a b m. field. lra.
Qed.

(** They should weigh the gradient; they do not: the parameters learnt, the targets and the
    optimizer state are those of unweighted learning on the same batch. *)
Theorem C89_weighted_update_refuted : forall {obs} (D : dopamine obs) h u t f writer (s s1 : learning D),
  update_q D (mkSettings h u t f true writer) s = Some s1 ->
  exists s2, update_q D (mkSettings h u t f false writer) s = Some s2 /\
    online_params D s1 = online_params D s2 /\ target_network_params D s1 = target_network_params D s2 /\
    optimizer_state D s1 = optimizer_state D s2.
Proof.
  intros obs D h u t f writer s s1. unfold update_q. cbn [prioritized has_writer summary_writing_frequency].
  destruct (d_sample D (replay D s)) as [[b x]|]; [|discriminate].
  destruct (d_train D _ _ _ x) as [[opt p] [loss m]].
  destruct (loss_weights _); [|discriminate]. destruct (d_set_priority D b _ _); [|discriminate].
  destruct (writer && _)%bool.
  - destruct (f =? 0)%Z; [discriminate|]. intros [= <-]. eexists. split; [reflexivity|]. cbn. auto.
  - intros [= <-]. eexists. split; [reflexivity|]. cbn. auto.
Qed.

(** ** The DQN agent is the quantile agent without exploration. *)
Theorem C89_dqn : forall {obs} (D : dopamine obs) S l (d : dqn D) (x : unit),
  match asked (dqn_class D S) d l,
        asked (quantile_agent (dopamine_learner D S) (no_exploration obs))
          (mkQuantile (dopamine_learner D S) (no_exploration obs) (dqn_learning D d) x (dqn_action D d) (dqn_eval_mode D d)) l with
  | Some (d', al), Some (q', al') =>
      al = al' /\ q_learner _ _ q' = dqn_learning D d' /\ q_eval_mode _ _ q' = dqn_eval_mode D d'
  | None, None => True
  | _, _ => False
  end.
Proof.
  intros obs D S. induction l as [|c l IH]; intros [li ac ev] x; [cbn; auto|].
  cbn [asked dqn_learning dqn_action dqn_eval_mode]. destruct c as [ob|r ob|r t|[]].
  - cbn [ag_begin_episode dqn_class quantile_agent]. unfold dqn_begin_episode, q_begin_episode.
    cbn [dqn_learning dqn_action dqn_eval_mode q_learner q_eval_mode q_explorer l_begin_episode dopamine_learner x_begin_episode no_exploration].
    destruct (jax_begin_episode D S li ev ob) as [[l1 a]|]; [|exact I].
    destruct ev; match goal with |- context [asked (dqn_class D S) ?d l] => specialize (IH d x) end;
      cbn [dqn_learning dqn_action dqn_eval_mode] in IH;
      destruct (asked (dqn_class D S) _ l) as [[d' al]|]; destruct (asked _ _ l) as [[q' al']|]; try contradiction; auto;
      destruct IH as (-> & ? & ?); auto.
  - cbn [ag_step dqn_class quantile_agent]. unfold dqn_step, q_step.
    cbn [dqn_learning dqn_action dqn_eval_mode q_learner q_eval_mode q_action q_explorer l_step dopamine_learner x_step no_exploration].
    destruct (jax_step D S li ev ac r ob) as [[l1 a]|]; [|exact I].
    destruct ev; match goal with |- context [asked (dqn_class D S) ?d l] => specialize (IH d x) end;
      cbn [dqn_learning dqn_action dqn_eval_mode] in IH;
      destruct (asked (dqn_class D S) _ l) as [[d' al]|]; destruct (asked _ _ l) as [[q' al']|]; try contradiction; auto;
      destruct IH as (-> & ? & ?); auto.
  - cbn [ag_end_episode dqn_class quantile_agent]. unfold dqn_end_episode, q_end_episode.
    cbn [dqn_learning dqn_action dqn_eval_mode q_learner q_eval_mode q_action q_explorer l_end_episode dopamine_learner].
    destruct (jax_end_episode D li ev ac r t) as [l1|]; [|exact I].
    match goal with |- context [asked (dqn_class D S) ?d l] => specialize (IH d x) end.
    cbn [dqn_learning dqn_action dqn_eval_mode] in IH.
    destruct (asked (dqn_class D S) _ l) as [[d' al]|]; destruct (asked _ _ l) as [[q' al']|]; try contradiction; auto.
  - cbn [ag_set_mode dqn_class quantile_agent dqn_set_mode dqn_learning dqn_action dqn_eval_mode]. unfold q_set_mode.
    cbn [q_learner q_explorer q_action].
    specialize (IH (mkDqn D li ac false) x). cbn [dqn_learning dqn_action dqn_eval_mode] in IH.
    destruct (asked (dqn_class D S) _ l) as [[d' al]|]; destruct (asked _ _ l) as [[q' al']|]; try contradiction; auto.
  - cbn [ag_set_mode dqn_class quantile_agent dqn_set_mode dqn_learning dqn_action dqn_eval_mode]. unfold q_set_mode.
    cbn [q_learner q_explorer q_action].
    specialize (IH (mkDqn D li ac true) x). cbn [dqn_learning dqn_action dqn_eval_mode] in IH.
    destruct (asked (dqn_class D S) _ l) as [[d' al]|]; destruct (asked _ _ l) as [[q' al']|]; try contradiction; auto.
Qed.

(** ** What is remembered *)
(** A replay buffer whose contents are what it is given, in order. *)
Definition keeps {obs} (D : dopamine obs) (contents : d_replay D -> list (obs * Z * R * bool)) : Prop :=
  (forall b o a r t b', d_add D b o a r t = Some b' -> contents b' = contents b ++ [(o, a, r, t)]) /\
  (forall b b' x, d_sample D b = Some (b', x) -> contents b' = contents b) /\
  (forall b i p b', d_set_priority D b i p = Some b' -> contents b' = contents b).

Section Memory.
Context {obs : Type} (D : dopamine obs) (S : settings) (X : explorer obs).
Context (contents : d_replay D -> list (obs * Z * R * bool)) (HK : keeps D contents).
Notation agent := (quantile_agent (dopamine_learner D S) X).
Notation inside q := (q_learner (dopamine_learner D S) X q).

Lemma train_step_keeps s s' : train_step D S s = Some s' ->
  contents (replay D s') = contents (replay D s) /\ observation D s' = observation D s.
Proof.
  destruct HK as (_ & K2 & K3). unfold train_step.
  destruct (_ >? _)%Z; [|intros [= <-]; auto]. destruct (update_period S =? 0)%Z; [discriminate|].
  set (o := if (_ mod update_period S =? 0)%Z then _ else _). destruct o as [s1|] eqn:Eo; [|discriminate].
  assert (F : contents (replay D s1) = contents (replay D s) /\ observation D s1 = observation D s).
  { unfold o in Eo. destruct (_ =? 0)%Z; [|injection Eo as <-; auto]. unfold update_q in Eo.
    destruct (d_sample D _) as [[b x]|] eqn:E; [|discriminate]. apply K2 in E.
    destruct (d_train D _ _ _ x) as [[opt p] [loss m]].
    set (o2 := if prioritized S then _ else _) in Eo.
    assert (O : forall b' m', o2 = Some (b', m') -> contents b' = contents (replay D s)).
    { intros b' m'. unfold o2. destruct (prioritized S).
      - destruct (loss_weights _); [|discriminate]. destruct (d_set_priority D b _ _) as [b2|] eqn:P; [|discriminate].
        intros [= <- <-]. apply K3 in P. congruence.
      - intros [= <- <-]. exact E. }
    destruct o2 as [[b' m']|]; [|discriminate]. specialize (O b' m' eq_refl).
    destruct (has_writer S && _)%bool.
    - destruct (_ =? 0)%Z; [discriminate|]. injection Eo as <-. auto.
    - injection Eo as <-. auto. }
  clear Eo o. destruct (target_update_period S =? 0)%Z; [discriminate|]. intros [= <-].
  destruct (_ =? 0)%Z; exact F.
Qed.
Lemma store_keeps s o a r t s' : store D s o a r t = Some s' ->
  observation D s' = observation D s /\ exists ob, o = Some ob /\ contents (replay D s') = contents (replay D s) ++ [(ob, a, r, t)].
Proof.
  destruct HK as (K1 & _). unfold store. destruct o as [ob|]; [|discriminate].
  destruct (d_add D _ _ _ _ _) as [b|] eqn:E; [|discriminate]. apply K1 in E. intros [= <-]. cbn. eauto.
Qed.

Definition last_of (q : quantile (dopamine_learner D S) X) : option (obs * Z) :=
  match observation D (inside q) with Some o => Some (o, q_action _ _ q) | None => None end.
(** The buffer is told every reward received while training, with the observation last answered
    and the action that was answered, explored or not; and nothing else. *)
Theorem C89_transitions : forall l (q q' : quantile (dopamine_learner D S) X) al, asked agent q l = Some (q', al) ->
  contents (replay D (inside q')) =
  contents (replay D (inside q)) ++ experience (negb (q_eval_mode _ _ q)) (last_of q) l al.
Proof.
  induction l as [|c l IH]; intros q q' al; cbn [asked].
  - intros [= <- <-]. cbn. now rewrite app_nil_r.
  - set (o := match c with Begin _ => _ | _ => _ end). destruct o as [[q1 a1]|] eqn:Eo; [|discriminate].
    destruct (asked agent q1 l) as [[q2 a2]|] eqn:El; [|discriminate]. intros [= <- <-].
    specialize (IH _ _ _ El). rewrite IH. clear IH El q2.
    destruct q as [li xs ac ev]. cbn [q_learner q_eval_mode q_action] in *. unfold last_of. cbn [q_learner q_action].
    destruct c as [ob|r ob|r t|m]; unfold o in Eo; clear o; cbn [ag_begin_episode ag_step ag_end_episode ag_set_mode quantile_agent] in Eo.
    + unfold q_begin_episode in Eo. cbn [l_begin_episode dopamine_learner q_learner q_eval_mode q_explorer] in Eo.
      unfold jax_begin_episode in Eo. destruct ev; cbn [negb] in *.
      * destruct (choose D (record_observation D li ob) true ob) as [l1 a] eqn:Ec. injection Eo as <- <-.
        unfold choose in Ec. destruct (d_select_action D _ _ _ _). injection Ec as <- <-. reflexivity.
      * destruct (train_step D S (record_observation D li ob)) as [l0|] eqn:Et; [|discriminate].
        destruct (choose D l0 false ob) as [l1 a] eqn:Ec. destruct (x_begin_episode X xs ob a) as [[x1 a']|]; [|discriminate].
        injection Eo as <- <-. unfold choose in Ec. destruct (d_select_action D _ _ _ _). injection Ec as <- <-.
        destruct (train_step_keeps _ _ Et) as [T1 T2]. cbn in T1, T2. cbn -[experience]. rewrite T1, T2. reflexivity.
    + unfold q_step in Eo. cbn [l_step dopamine_learner q_learner q_eval_mode q_explorer q_action] in Eo.
      unfold jax_step in Eo. destruct ev; cbn [negb] in *.
      * destruct (choose D (record_observation D li ob) true ob) as [l1 a] eqn:Ec. injection Eo as <- <-.
        unfold choose in Ec. destruct (d_select_action D _ _ _ _). injection Ec as <- <-. reflexivity.
      * destruct (store D (record_observation D li ob) _ _ _ _) as [ls|] eqn:Es; [|discriminate].
        destruct (train_step D S ls) as [l0|] eqn:Et; [|discriminate].
        destruct (choose D l0 false ob) as [l1 a] eqn:Ec. destruct (x_step X xs r ob a) as [[x1 a']|]; [|discriminate].
        injection Eo as <- <-. unfold choose in Ec. destruct (d_select_action D _ _ _ _). injection Ec as <- <-.
        destruct (store_keeps _ _ _ _ _ _ Es) as (S1 & o & S2 & S3). cbn in S1, S2, S3.
        destruct (train_step_keeps _ _ Et) as [T1 T2]. cbn -[experience]. rewrite T1, T2, S1, S2, S3, <- app_assoc. reflexivity.
    + unfold q_end_episode in Eo. cbn [l_end_episode dopamine_learner q_learner q_eval_mode q_action q_explorer] in Eo.
      unfold jax_end_episode in Eo. destruct ev; cbn [negb] in *.
      * injection Eo as <- <-. reflexivity.
      * destruct (store D li _ _ _ _) as [ls|] eqn:Es; [|discriminate]. injection Eo as <- <-.
        destruct (store_keeps _ _ _ _ _ _ Es) as (S1 & o & S2 & S3). cbn -[experience]. rewrite S1, S2, S3, <- app_assoc. reflexivity.
    + injection Eo as <- <-. destruct m; reflexivity.
Qed.
End Memory.

(** ** One update: the priorities it sets and the loss it reports. *)
Theorem C89_priorities : forall {obs} (D : dopamine obs) S (s s' : learning D), update_q D S s = Some s' ->
  exists buffer batch losses mean_loss,
    d_sample D (replay D s) = Some (buffer, batch) /\
    d_train D (online_params D s) (target_network_params D s) (optimizer_state D s) batch =
      (optimizer_state D s', online_params D s', (losses, mean_loss)) /\
    (prioritized S = false -> replay D s' = buffer) /\
    (prioritized S = true ->
       d_set_priority D buffer (d_indices D batch) (map (fun l => sqrt (l + 0.0000000001)) losses) = Some (replay D s')) /\
    (forall k v, In (k, v) (summaries D s') -> In (k, v) (summaries D s) \/
       k = training_steps D s /\
       (prioritized S = false -> v = mean_loss) /\
       (prioritized S = true -> exists w, loss_weights (d_sampling_probabilities D batch) = Some w /\
          v = fold_right Rplus 0 (map (fun p => fst p * snd p) (combine w losses)) / INR (length (combine w losses)))).
Proof.
  intros obs D S s s'. unfold update_q. destruct (d_sample D (replay D s)) as [[b x]|]; [|discriminate].
  destruct (d_train D _ _ _ x) as [[opt p] [loss m]] eqn:T.
  assert (Ec : 1 / 10 ^ 10 = 0.0000000001) by (cbn [pow]; lra).
  set (o := if prioritized S then _ else _).
  assert (O : forall b' m', o = Some (b', m') ->
    (prioritized S = false -> b' = b /\ m' = m) /\
    (prioritized S = true -> d_set_priority D b (d_indices D x) (map (fun l => sqrt (l + 0.0000000001)) loss) = Some b' /\
       exists w, loss_weights (d_sampling_probabilities D x) = Some w /\
         m' = fold_right Rplus 0 (map (fun p => fst p * snd p) (combine w loss)) / INR (length (combine w loss)))).
  { intros b' m'. unfold o. clear o. destruct (prioritized S).
    - destruct (loss_weights _) as [w|]; [|discriminate]. rewrite Ec.
      destruct (d_set_priority D b _ _) as [b2|] eqn:P; [|discriminate].
      intro Es. assert (b2 = b') as -> by congruence. assert (mean (products w loss) = m') as <- by congruence. clear Es.
      split; [discriminate|]. intros _. split; [reflexivity|]. exists w. split; [reflexivity|].
      unfold mean, products. rewrite map_length. f_equal.
      rewrite fold_symmetric; [reflexivity| |]; intros; ring.
    - intros [= <- <-]. split; [auto|discriminate]. }
  destruct o as [[b' m']|]; [|discriminate]. destruct (O b' m' eq_refl) as [O1 O2]. clear O.
  intro E. assert (F : optimizer_state D s' = opt /\ online_params D s' = p /\ replay D s' = b' /\
    (summaries D s' = summaries D s \/ summaries D s' = summaries D s ++ [(training_steps D s, m')])).
  { destruct (has_writer S && _)%bool.
    - destruct (_ =? 0)%Z; [discriminate|]. injection E as <-. cbn. destruct (_ =? 0)%Z; auto.
    - injection E as <-. cbn. auto. }
  destruct F as (-> & -> & -> & Su). exists b, x, loss, m. split; [reflexivity|]. split; [exact T|].
  split; [apply O1|]. split; [apply O2|].
  intros k v I. destruct Su as [Su|Su]; rewrite Su in I; [auto|]. apply in_app_iff in I.
  destruct I as [I|[[= <- <-]|[]]]; [auto|]. right. split; [reflexivity|]. split; [apply O1|apply O2].
Qed.

(** ** A library that counts its gradient steps, with the settings of the gin files: after any
    complete episodes with M answers, [max 500 (M - 1) / 4 - 125] of them. *)
Definition counting : dopamine unit :=
  mkDopamine unit Z unit Z unit unit (fun b => b) (fun b _ _ _ _ => Some (b + 1)%Z) (fun b => Some (b, tt))
    (fun _ => [1; 1 / 2]) (fun _ => [0%nat; 1%nat]) (fun b _ _ => Some b)
    (fun p _ _ _ => (tt, (p + 1)%Z, ([1; 2], 3 / 2))) (fun _ _ _ _ => (tt, 1%Z)).
Lemma counting_counts : counts counting.
Proof.
  split; [intros b o a r t b' [= <-]; reflexivity|]. split; [intros b b' x [= <- <-]; reflexivity|].
  intros b i p b' [= <-]. reflexivity.
Qed.
Lemma counting_trains p w s : exists s', train_step counting (gin_settings p w) s = Some s' /\ observation _ s' = observation _ s.
Proof.
  unfold train_step. cbn [min_replay_history update_period target_update_period gin_settings d_add_count counting].
  destruct (_ >? _)%Z; [|eexists; split; reflexivity]. change (4 =? 0)%Z with false. change (100 =? 0)%Z with false. cbv iota.
  assert (U : exists s', (if (training_steps counting s mod 4 =? 0)%Z then update_q counting (gin_settings p w) s else Some s) = Some s' /\
    observation _ s' = observation _ s).
  { destruct (_ =? 0)%Z; [|eauto]. unfold update_q. cbn [d_sample d_train counting prioritized has_writer gin_settings summary_writing_frequency].
    change (1 =? 0)%Z with false. destruct p; cbn [loss_weights maximum map d_sampling_probabilities counting d_set_priority];
      destruct (w && _)%bool; eexists; split; reflexivity. }
  destruct U as (s' & -> & O). eexists. split; [reflexivity|]. cbn. destruct (_ =? 0)%Z; exact O.
Qed.
Notation counting_agent p w := (quantile_agent (dopamine_learner counting (gin_settings p w)) (no_exploration unit)).
Lemma counting_answers p w l : forall q : quantile (dopamine_learner counting (gin_settings p w)) (no_exploration unit),
  observation _ (q_learner _ _ q) <> None -> exists q' al, asked (counting_agent p w) q l = Some (q', al).
Proof.
  induction l as [|c l IH]; intros [li x ac ev] Ho; [cbn; eauto|]. cbn [q_learner] in Ho. cbn [asked].
  assert (K : exists q1 a1, match c with
     | Begin o => match ag_begin_episode (counting_agent p w) (mkQuantile _ (no_exploration unit) li x ac ev) o with None => None | Some (s, a) => Some (s, [a]) end
     | Reward r o => match ag_step (counting_agent p w) (mkQuantile _ (no_exploration unit) li x ac ev) r o with None => None | Some (s, a) => Some (s, [a]) end
     | End r t => match ag_end_episode (counting_agent p w) (mkQuantile _ (no_exploration unit) li x ac ev) r t with None => None | Some s => Some (s, []) end
     | Mode m => Some (ag_set_mode (counting_agent p w) (mkQuantile _ (no_exploration unit) li x ac ev) m, [])
     end = Some (q1, a1) /\ observation _ (q_learner _ _ q1) <> None).
  { destruct c as [ob|r ob|r t|m].
    - cbn. unfold q_begin_episode. cbn. unfold jax_begin_episode. destruct ev.
      + cbn. do 2 eexists. split; [reflexivity|]. cbn. discriminate.
      + destruct (counting_trains p w (record_observation counting li ob)) as (s' & -> & O). cbn in O |- *.
        do 2 eexists. split; [reflexivity|]. cbn. rewrite O. discriminate.
    - cbn. unfold q_step. cbn. unfold jax_step. destruct ev.
      + cbn. do 2 eexists. split; [reflexivity|]. cbn. discriminate.
      + destruct (observation _ li) as [o|] eqn:Eo; [|congruence]. cbv zeta. unfold store.
        cbn [d_add counting].
        match goal with |- context [train_step _ _ ?s] => destruct (counting_trains p w s) as (s' & -> & O) end. cbn in O |- *.
        do 2 eexists. split; [reflexivity|]. cbn. rewrite O. discriminate.
    - cbn. unfold q_end_episode. cbn. unfold jax_end_episode. destruct ev.
      + do 2 eexists. split; [reflexivity|]. exact Ho.
      + destruct (observation _ li) as [o|] eqn:Eo; [|congruence]. cbn.
        do 2 eexists. split; [reflexivity|]. cbn. rewrite Eo. discriminate.
    - cbn. do 2 eexists. split; [reflexivity|]. exact Ho. }
  destruct K as (q1 & a1 & -> & O1). destruct (IH q1 O1) as (q' & al & ->). eauto.
Qed.
Definition counting_start p w : quantile (dopamine_learner counting (gin_settings p w)) (no_exploration unit) :=
  mkQuantile (dopamine_learner counting (gin_settings p w)) (no_exploration unit)
    (mkLearning counting 0%Z 0%Z tt 0%Z 0%Z tt (Some tt) []) tt 0%Z false.
Example C89_witness : forall p w eps, exists q' al,
  asked (counting_agent p w) (counting_start p w) (episodes eps) = Some (q', al) /\
  online_params _ (q_learner _ _ q') = (Z.max 500 (Z.of_nat (answers_in eps) - 1) / 4 - 125)%Z.
Proof.
  intros p w eps. destruct (counting_answers p w (episodes eps) (counting_start p w)) as (q' & al & E); [discriminate|].
  exists q', al. split; [exact E|].
  destruct (C89_amount counting (gin_settings p w) counting_counts (no_exploration unit) eps _ _ _ E) as (c & De & Ec & _);
    [reflexivity|reflexivity|reflexivity|cbn; lia|cbn; lia|].
  assert (G : forall c (a b : Z), descends (gradient_step counting) c a b -> b = (a + Z.of_nat c)%Z).
  { clear. induction 1 as [a|c t a b b' D IH G]; [lia|]. destruct G as (o & x & o' & l & G). cbn in G. injection G as _ <- _. lia. }
  apply G in De. rewrite De. cbn in Ec |- *. rewrite Ec. cbn. lia.
Qed.
(** Two nights and days without an accident: 961 answers, 115 gradient steps. *)
Example C89_one_episode : (Z.max 500 (Z.of_nat (answers_in [(tt, repeat (0%R, tt) 960, 0%R, false)]) - 1) / 4 - 125)%Z = 115%Z.
Proof. cbn [answers_in fold_right]. rewrite repeat_length. reflexivity. Qed.

(** A buffer that keeps everything: an episode of three answers, and then one in evaluation. *)
Definition remembering : dopamine Z :=
  mkDopamine Z Z unit (list (Z * Z * R * bool)) unit unit (fun b => Z.of_nat (length b))
    (fun b o a r t => Some (b ++ [(o, a, r, t)])) (fun b => Some (b, tt))
    (fun _ => [1]) (fun _ => [0%nat]) (fun b _ _ => Some b)
    (fun p _ _ _ => (tt, p, ([1], 1))) (fun _ _ _ o => (tt, (o mod 3)%Z)).
Example C89_memory : forall r1 r2 r3 r4 : R,
  keeps remembering (fun b => b) /\
  exists q' al,
    asked (quantile_agent (dopamine_learner remembering (gin_settings true false)) (no_exploration Z))
      (mkQuantile (dopamine_learner remembering (gin_settings true false)) (no_exploration Z)
        (mkLearning remembering 0%Z 0%Z tt [] 0%Z tt None []) tt 0%Z false)
      [Begin 11%Z; Reward r1 12%Z; Reward r2 13%Z; End r3 false; Mode EVAL; Begin 14%Z; End r4 true] = Some (q', al) /\
    replay remembering (q_learner _ _ q') = [(11, 2, r1, false); (12, 0, r2, false); (13, 1, r3, false)]%Z.
Proof.
  intros. split.
  - split; [intros b o a r t b' [= <-]; reflexivity|]. split; [intros b b' x [= <- <-]; reflexivity|].
    intros b i p b' [= <-]. reflexivity.
  - match goal with |- exists q' al, ?x = Some (q', al) /\ _ =>
      assert (H : match x with Some (q', _) => replay remembering (q_learner _ _ q') = [(11, 2, r1, false); (12, 0, r2, false); (13, 1, r3, false)]%Z | None => False end)
      by (lazy; reflexivity); destruct x as [[q' al]|]; [exists q', al; auto|destruct H] end.
Qed.

Print Assumptions C89_schedule.
Print Assumptions C89_evaluation.
Print Assumptions C89_targets.
Print Assumptions C89_amount.
Print Assumptions C89_weights.
Print Assumptions C89_weighted_update_refuted.
Print Assumptions C89_dqn.
Print Assumptions C89_transitions.
Print Assumptions C89_priorities.
Print Assumptions C89_published.
