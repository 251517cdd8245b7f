(** Property C53: the evaluation suites. *)
From Coq Require Import ZArith List String Bool Lia Sorting.Sorted.
From Verif Require Import Model.StrataSeeds Model.Suites.
From Verif Require Import Spec.SuitesSpec.
Import ListNotations.
Open Scope Z_scope.

Lemma range_first n : 0 <= n -> first_seeds n (range n).
Proof.
  intro H. unfold first_seeds, range. rewrite map_length, seq_length. split; [lia|].
  intros i Hi. rewrite nth_error_map, (nth_error_nth' _ O) by (rewrite seq_length; lia).
  rewrite seq_nth by lia. cbn. f_equal. lia.
Qed.

#[local] Opaque range hardest hard mid easy easiest.

Lemma update_length {B} (l : list B) i b : List.length (update l i b) = List.length l.
Proof.
  unfold update. rewrite app_length. rewrite <- (firstn_skipn i l) at 3. rewrite app_length. f_equal.
  destruct (skipn i l); reflexivity.
Qed.
Lemma nth_error_update_ne {B} (l : list B) i j b : i <> j -> nth_error (update l i b) j = nth_error l j.
Proof.
  revert i j. induction l as [|c l IH]; intros i j N; [unfold update; destruct i; reflexivity|].
  destruct i as [|i], j as [|j]; try reflexivity; [contradiction|]. apply (IH i j). lia.
Qed.
Lemma nth_error_update_eq {B} (l : list B) i b c : nth_error (update l i b) i = Some c -> c = b.
Proof.
  revert i. induction l as [|d l IH]; intros i H; [unfold update in H; destruct i; discriminate|].
  destruct i as [|i]; [now injection H as ->|]. apply (IH i). exact H.
Qed.

(** What callers never reach. *)
Definition intact (w : world) : Prop :=
  (11 <= List.length (lists (mem w)))%nat /\
  (forall i, (i < 11)%nat -> nth_error (lists (mem w)) i = nth_error module_lists i) /\
  (forall i, (i < 11)%nat -> nth_error (suite_objects (mem w)) i = Some (i, 960)) /\
  (forall a s, (11 <= a)%nat -> nth_error (suite_objects (mem w)) a = Some s -> (11 <= fst s)%nat) /\
  (forall v a, nth_error (vars w) v = Some a -> (11 <= a)%nat).

Lemma nth_error_in {B} (l : list B) i b : nth_error l i = Some b -> (i < List.length l)%nat.
Proof. intro H. apply nth_error_Some. congruence. Qed.
Lemma find_lt name i : find name suite_names = Some i -> (i < 11)%nat.
Proof.
  assert (H : forall ns k, find name ns = Some k -> (k < List.length ns)%nat).
  { induction ns as [|n ns IH]; intros k E; cbn in E; [discriminate|].
    destruct (name =? n)%string; [injection E as <-; cbn; lia|].
    destruct (find name ns) as [j|]; [|discriminate]. injection E as <-. specialize (IH j eq_refl). cbn. lia. }
  exact (H suite_names i).
Qed.

(** What get_eval_suite does to the memory, and returns. *)
Lemma get_spec w name i : intact w -> find name suite_names = Some i ->
  exists l, nth_error module_lists i = Some l /\
  get_eval_suite (mem w) name =
    (mkMemory (lists (mem w) ++ [l]) (suite_objects (mem w) ++ [(List.length (lists (mem w)), 960)]),
     Some (List.length (suite_objects (mem w)))).
Proof.
  intros (L & Hl & Hs & _) E. pose proof (find_lt _ _ E) as Hi. unfold get_eval_suite. rewrite E.
  rewrite (nth_error_nth _ _ _ (Hs i Hi)).
  assert (exists l, nth_error (lists (mem w)) i = Some l) as (l & El).
  { destruct (nth_error (lists (mem w)) i) eqn:X; [eauto|]. apply nth_error_None in X. lia. }
  exists l. split; [now rewrite <- Hl|]. rewrite (nth_error_nth _ _ _ El). reflexivity.
Qed.

Lemma suites_length w : intact w -> (11 <= List.length (suite_objects (mem w)))%nat.
Proof. intros (_ & _ & Hs & _). specialize (Hs 10%nat ltac:(lia)). apply nth_error_in in Hs. lia. Qed.

Lemma suite_of_spec w v a s : intact w -> suite_of w v = Some (a, s) ->
  (11 <= a)%nat /\ (11 <= fst s)%nat /\ nth_error (suite_objects (mem w)) a = Some s.
Proof.
  intros (_ & _ & _ & H4 & H5). unfold suite_of.
  destruct (nth_error (vars w) v) as [b|] eqn:E; [|discriminate].
  destruct (nth_error (suite_objects (mem w)) b) as [t|] eqn:E'; [|discriminate].
  intros [= -> ->]. repeat split; eauto.
Qed.
Lemma with_suite_intact w a s : intact w -> (11 <= a)%nat -> (11 <= fst s)%nat -> intact (with_suite w a s).
Proof.
  intros (L & Hl & Hs & H4 & H5) Ha Hf. unfold with_suite, intact. cbn [mem vars lists suite_objects].
  split; [assumption|]. split; [assumption|]. split; [|split; [|assumption]].
  - intros i Hi. rewrite nth_error_update_ne by lia. auto.
  - intros b t Hb Et. destruct (Nat.eq_dec a b) as [->|N].
    + apply nth_error_update_eq in Et. now subst.
    + rewrite nth_error_update_ne in Et by assumption. eauto.
Qed.
Lemma act_intact w x : intact w -> intact (act w x).
Proof.
  intros H. destruct x as [name|v edit|v u|v l|v n]; cbn [act].
  - destruct (find name suite_names) as [i|] eqn:E.
    + destruct (get_spec w name i H E) as (l & _ & ->). pose proof (suites_length w H) as L2.
      destruct H as (L & Hl & Hs & H4 & H5). unfold intact. cbn [mem vars lists suite_objects].
      rewrite app_length. split; [lia|]. split; [|split; [|split]].
      * intros j Hj. rewrite nth_error_app1 by lia. auto.
      * intros j Hj. rewrite nth_error_app1 by lia. auto.
      * intros a s Ha Es. destruct (Nat.lt_ge_cases a (List.length (suite_objects (mem w)))) as [C|C].
        -- rewrite nth_error_app1 in Es by assumption. eauto.
        -- rewrite nth_error_app2 in Es by assumption.
           destruct (a - List.length (suite_objects (mem w)))%nat as [|k]; cbn in Es.
           ++ injection Es as <-. cbn. lia.
           ++ destruct k; discriminate.
      * intros v a Ea. destruct (Nat.lt_ge_cases v (List.length (vars w))) as [C|C].
        -- rewrite nth_error_app1 in Ea by assumption. eauto.
        -- rewrite nth_error_app2 in Ea by assumption.
           destruct (v - List.length (vars w))%nat as [|k]; cbn in Ea; [injection Ea as <-; lia|].
           destruct k; discriminate.
    + unfold get_eval_suite. rewrite E. destruct w. exact H.
  - destruct (suite_of w v) as [[a [l n]]|] eqn:E; [|exact H].
    destruct (suite_of_spec _ _ _ _ H E) as (_ & Hf & _). cbn [fst] in Hf.
    destruct H as (L & Hl & Hs & H4 & H5). unfold intact. cbn [mem vars lists suite_objects].
    rewrite update_length. split; [assumption|]. split; [|auto].
    intros i Hi. rewrite nth_error_update_ne by lia. auto.
  - destruct (suite_of w v) as [[a [l n]]|] eqn:E; [|exact H].
    destruct (suite_of w u) as [[a' [l' n']]|] eqn:E'; [|exact H].
    destruct (suite_of_spec _ _ _ _ H E) as (Ha & _). destruct (suite_of_spec _ _ _ _ H E') as (_ & Hf & _).
    now apply with_suite_intact.
  - destruct (suite_of w v) as [[a [l' n]]|] eqn:E; [|exact H].
    destruct (suite_of_spec _ _ _ _ H E) as (Ha & _). cbn [alloc_list].
    pose proof H as (L & _). apply with_suite_intact; [|assumption|exact L].
    destruct H as (_ & Hl & Hs & H4 & H5). unfold intact. cbn [mem vars lists suite_objects].
    rewrite app_length. split; [lia|]. split; [|auto].
    intros i Hi. rewrite nth_error_app1 by lia. auto.
  - destruct (suite_of w v) as [[a [l n']]|] eqn:E; [|exact H].
    destruct (suite_of_spec _ _ _ _ H E) as (Ha & Hf & _). now apply with_suite_intact.
Qed.
Lemma history_intact xs : intact (history xs).
Proof.
  unfold history.
  assert (H : intact (mkWorld imported [])).
  { unfold intact. cbn [mem vars]. split; [cbn; lia|]. split; [reflexivity|]. split; [|split].
    - intros i Hi. cbn [suite_objects imported]. do 11 (destruct i as [|i]; [reflexivity|]). lia.
    - intros a s Ha E. apply nth_error_in in E. cbn in E. lia.
    - intros v a E. destruct v; discriminate. }
  revert H. generalize (mkWorld imported []). induction xs as [|x xs IH]; intros w H; [exact H|].
  cbn [fold_left]. apply IH. now apply act_intact.
Qed.

Lemma module_documented name i l : find name suite_names = Some i -> nth_error module_lists i = Some l ->
  documented name l.
Proof.
  intros E El.
  assert (K : nth_error suite_names i = Some name).
  { clear El. revert i E. generalize suite_names. induction l0 as [|n ns IH]; intros i E; cbn in E; [discriminate|].
    destruct (String.eqb_spec name n) as [->|_]; [now injection E as <-|].
    destruct (find name ns) as [j|]; [|discriminate]. injection E as <-. cbn. now apply IH. }
  pose proof (find_lt _ _ E) as Hi. clear E.
  destruct i as [|[|[|[|[|[|[|[|[|[|[|i]]]]]]]]]]]; try lia; injection K as <-; injection El as <-; cbn [app].
  - apply doc_big. now apply range_first.
  - apply doc_medium. now apply range_first.
  - apply doc_small. now apply range_first.
  - apply doc_tiny. now apply range_first.
  - apply doc_micro.
  - apply (doc_stratum "hardest"). now left.
  - apply (doc_stratum "hard"). right. now left.
  - apply (doc_stratum "mid"). right. right. now left.
  - apply (doc_stratum "easy"). do 3 right. now left.
  - apply (doc_stratum "easiest"). do 4 right. now left.
  - apply doc_all.
Qed.
Lemma find_none name ns : find name ns = None <-> ~ In name ns.
Proof.
  induction ns as [|n ns IH]; cbn; [tauto|].
  destruct (String.eqb_spec name n) as [->|N].
  - split; [discriminate|]. intro H. exfalso. apply H. now left.
  - destruct (find name ns) as [j|]; cbn; split; try discriminate.
    + intro H. exfalso. assert (Some j = None) by (apply IH; intro; apply H; now right). discriminate.
    + intros _ [->|I]; [contradiction|]. now apply (proj1 IH).
    + reflexivity.
Qed.

(** ** C53 *)
(** Whatever callers did before with the suites they were given: the documented seeds
    and 960 steps for the eleven names, and a ValueError for any other. *)
Theorem C53_documented : forall xs name,
  match get_eval_suite (mem (history xs)) name with
  | (m, Some s) =>
      In name available_suites /\
      exists l seeds, nth_error (suite_objects m) s = Some (l, 960) /\
        nth_error (lists m) l = Some seeds /\ documented name seeds
  | (m, None) => ~ In name available_suites
  end.
Proof.
  intros xs name. pose proof (history_intact xs) as H. unfold available_suites.
  destruct (find name suite_names) as [i|] eqn:E.
  - destruct (get_spec _ name i H E) as (l & El & ->). split.
    + destruct (in_dec string_dec name suite_names) as [|N]; [assumption|].
      apply find_none in N. congruence.
    + exists (List.length (lists (mem (history xs)))), l.
      cbn [suite_objects lists]. rewrite !nth_error_app2, !Nat.sub_diag by lia. cbn [nth_error].
      split; [reflexivity|]. split; [reflexivity|]. eapply module_documented; eauto.
  - unfold get_eval_suite. rewrite E. now apply find_none.
Qed.

(** The suites a caller holds are its own: asking for another one changes none of
    them. *)
Theorem C53_independent : forall xs name v a s l,
  nth_error (vars (history xs)) v = Some a ->
  nth_error (suite_objects (mem (history xs))) a = Some s ->
  nth_error (lists (mem (history xs))) (fst s) = Some l ->
  let w := act (history xs) (Get name) in
  nth_error (vars w) v = Some a /\ nth_error (suite_objects (mem w)) a = Some s /\
  nth_error (lists (mem w)) (fst s) = Some l.
Proof.
  intros xs name v a s l Ev Ea El. cbn [act]. pose proof (history_intact xs) as H.
  destruct (find name suite_names) as [i|] eqn:E.
  - destruct (get_spec _ name i H E) as (l' & _ & ->). cbn [mem vars lists suite_objects].
    rewrite !nth_error_app1; eauto using nth_error_in.
  - unfold get_eval_suite. rewrite E. cbn [mem vars]. auto.
Qed.

(** ** The strata *)
Fixpoint increasing (l : list Z) : bool :=
  match l with
  | a :: ((b :: _) as l') => (a <? b) && increasing l'
  | _ => true
  end.
(** No common element of two increasing lists. *)
Fixpoint disjoint (fuel : nat) (l l' : list Z) : bool :=
  match fuel with
  | O => false
  | S fuel =>
      match l, l' with
      | [], _ | _, [] => true
      | a :: r, b :: r' =>
          if a <? b then disjoint fuel r l' else if b <? a then disjoint fuel l r' else false
      end
  end.
#[local] Transparent hardest hard mid easy easiest.
Lemma strata_increasing :
  forallb (fun s => increasing (snd s)) STRATA_SEEDS = true.
Proof. vm_compute. reflexivity. Qed.
Lemma strata_disjoint :
  forallb (fun p => disjoint (Z.to_nat 5000) (fst p) (snd p))
    [(hardest, hard); (hardest, mid); (hardest, easy); (hardest, easiest); (hard, mid); (hard, easy);
     (hard, easiest); (mid, easy); (mid, easiest); (easy, easiest)] = true.
Proof. vm_compute. reflexivity. Qed.
Lemma strata_length : forallb (fun s => Z.of_nat (List.length (snd s)) =? 2000) STRATA_SEEDS = true.
Proof. vm_compute. reflexivity. Qed.

Lemma increasing_sorted l : increasing l = true -> StronglySorted Z.lt l.
Proof.
  induction l as [|a [|b l] IH]; intro H; [constructor|constructor; constructor|].
  cbn [increasing] in H. apply andb_prop in H. destruct H as [H1 H2]. apply Z.ltb_lt in H1.
  specialize (IH H2). constructor; [assumption|]. constructor; [assumption|].
  apply StronglySorted_inv in IH. destruct IH as [_ IH]. rewrite Forall_forall in *.
  intros x Hx. specialize (IH x Hx). lia.
Qed.
Lemma sorted_head a l x : StronglySorted Z.lt (a :: l) -> In x (a :: l) -> a <= x.
Proof.
  intros H [<-|I]; [lia|]. apply StronglySorted_inv in H. destruct H as [_ H].
  rewrite Forall_forall in H. specialize (H x I). lia.
Qed.
Lemma disjoint_spec fuel : forall l l', StronglySorted Z.lt l -> StronglySorted Z.lt l' ->
  disjoint fuel l l' = true -> forall x, In x l -> In x l' -> False.
Proof.
  induction fuel as [|fuel IH]; intros l l' H H' D x I I'; [discriminate|].
  destruct l as [|a r]; [contradiction|]. destruct l' as [|b r']; [contradiction|]. cbn [disjoint] in D.
  pose proof (sorted_head _ _ _ H I) as Ka. pose proof (sorted_head _ _ _ H' I') as Kb.
  destruct (Z.ltb_spec a b) as [L|L].
  - apply StronglySorted_inv in H. destruct H as [H _]. apply (IH _ _ H H' D x); [|assumption].
    destruct I as [<-|I]; [lia|assumption].
  - destruct (Z.ltb_spec b a) as [L2|L2]; [|discriminate].
    apply StronglySorted_inv in H'. destruct H' as [H' _]. apply (IH _ _ H H' D x); [assumption|].
    destruct I' as [<-|I']; [lia|assumption].
Qed.

(** 2000 seeds in each stratum, in increasing order, and none in two of them. *)
Theorem C53_strata :
  (forall name l, In (name, l) STRATA_SEEDS ->
     Z.of_nat (List.length l) = 2000 /\ StronglySorted Z.lt l) /\
  (forall name l name' l' seed, In (name, l) STRATA_SEEDS -> In (name', l') STRATA_SEEDS ->
     In seed l -> In seed l' -> name = name').
Proof.
  pose proof strata_increasing as Hi. pose proof strata_length as Hl. pose proof strata_disjoint as Hd.
  rewrite forallb_forall in Hi, Hl, Hd.
  assert (S : forall name l, In (name, l) STRATA_SEEDS -> StronglySorted Z.lt l).
  { intros name l I. apply increasing_sorted. exact (Hi _ I). }
  split.
  - intros name l I. split; [|eauto]. apply Z.eqb_eq. exact (Hl _ I).
  - assert (D : forall l l', In (l, l') [(hardest, hard); (hardest, mid); (hardest, easy); (hardest, easiest);
       (hard, mid); (hard, easy); (hard, easiest); (mid, easy); (mid, easiest); (easy, easiest)] ->
       StronglySorted Z.lt l -> StronglySorted Z.lt l' -> forall x, In x l -> In x l' -> False).
    { intros l l' I Sl Sl'. apply (disjoint_spec (Z.to_nat 5000)); auto. exact (Hd _ I). }
    clear Hi Hl Hd.
    intros name l name' l' seed I I' K K'. pose proof (S _ _ I) as Sl. pose proof (S _ _ I') as Sl'.
    pose proof (fun J => D _ _ J Sl Sl' seed K K') as D1. pose proof (fun J => D _ _ J Sl' Sl seed K' K) as D2.
    clear D S Sl Sl' K K'. revert I I' D1 D2. unfold STRATA_SEEDS.
    generalize hardest, hard, mid, easy, easiest. clear.
    intros l1 l2 l3 l4 l5 I I' D1 D2. cbn [In] in I, I', D1, D2.
    repeat (destruct I as [[= <- <-]|I]); try contradiction;
      repeat (destruct I' as [[= <- <-]|I']); try contradiction; try reflexivity;
      exfalso; first [apply D1; tauto|apply D2; tauto].
Qed.
Print Assumptions C53_documented.
Print Assumptions C53_independent.
Print Assumptions C53_strata.

(** A caller shuffles the suite it was given and empties another one: *)
Example C53_witness :
  vars (history [Get "micro_eval"; Get "tiny_eval"; EditSeeds 1 (@rev Z); ShareSeeds 0 1; Get "nonsense"])
    = [11%nat; 12%nat] /\
  lists (mem (history [Get "micro_eval"; Get "tiny_eval"; EditSeeds 1 (@rev Z); ShareSeeds 0 1]))
    = module_lists ++ [[0]; rev (range 10)].
Proof. split; reflexivity. Qed.
