(** Proofs about combining shards. *)
From Coq Require Import ZArith Reals List Bool Lia String Sorting.Permutation.
From Verif Require Import Model.Eval.
From Verif Require Import Spec.EvalSpec.
From Verif Require Import Proofs.StringProofs.
Import ListNotations.
Open Scope string_scope.

Lemma ends_with_iff suf s : ends_with suf s = true <-> exists r, s = r ++ suf.
Proof.
  unfold ends_with. split.
  - intro H. apply andb_prop in H. destruct H as [L E]. apply Nat.leb_le in L. apply String.eqb_eq in E.
    exists (substring 0 (String.length s - String.length suf) s).
    rewrite <- E at 2. apply substring_split. lia.
  - intros (r & ->). rewrite append_length.
    replace (String.length r + String.length suf - String.length suf)%nat with (String.length r) by lia.
    rewrite substring_tail by reflexivity. rewrite String.eqb_refl, andb_true_r. apply Nat.leb_le. lia.
Qed.
Lemma matches_iff model name : matches model name = true <-> exists mid, name = model ++ "_" ++ mid ++ ".json".
Proof.
  unfold matches. split.
  - intro H. apply andb_prop in H. destruct H as [H1 H2]. apply prefix_split in H1. destruct H1 as (r & ->).
    rewrite (append_length (model ++ "_") r) in H2.
    replace (String.length (model ++ "_") + String.length r - String.length (model ++ "_"))%nat
      with (String.length r) in H2 by lia.
    rewrite substring_tail in H2 by reflexivity. apply ends_with_iff in H2. destruct H2 as (m & ->).
    exists m. now rewrite append_assoc.
  - intros (m & ->). rewrite <- append_assoc. rewrite prefix_append, (append_length (model ++ "_")). cbn [andb].
    replace (String.length (model ++ "_") + String.length (m ++ ".json") - String.length (model ++ "_"))%nat
      with (String.length (m ++ ".json")) by lia.
    rewrite substring_tail by reflexivity. apply ends_with_iff. eauto.
Qed.

Lemma insert_perm r l : Permutation (insert_result r l) (r :: l).
Proof.
  induction l as [|q l IH]; cbn; [constructor; constructor|].
  destruct (r_seed r <=? r_seed q)%Z; [reflexivity|].
  rewrite IH. apply perm_swap.
Qed.
Lemma sort_perm l : Permutation (sort_results l) l.
Proof. induction l as [|r l IH]; cbn; [constructor|]. rewrite insert_perm. now constructor. Qed.
Lemma insert_sorted r l : sorted_by_seed l -> sorted_by_seed (insert_result r l).
Proof.
  induction 1 as [|q l Hq Hl IH]; cbn; [constructor; [intros ? []|constructor]|].
  destruct (Z.leb_spec (r_seed r) (r_seed q)) as [L|L].
  - constructor; [|constructor; assumption]. intros p [<-|I]; [assumption|]. specialize (Hq _ I). lia.
  - constructor; [|assumption]. intros p I.
    apply (Permutation_in _ (insert_perm r l)) in I. destruct I as [<-|I]; [lia|auto].
Qed.
Lemma sort_sorted l : sorted_by_seed (sort_results l).
Proof. induction l as [|r l IH]; cbn; [constructor|]. now apply insert_sorted. Qed.

(** A strictly increasing list of seeds has only one sorted arrangement. *)
Lemma sorted_unique l l' : Permutation l l' -> sorted_by_seed l -> sorted_by_seed l' ->
  NoDup (map r_seed l) -> l = l'.
Proof.
  intros Hp H. revert l' Hp. induction H as [|r l Hr Hl IH]; intros l' Hp H' Hn.
  - apply Permutation_nil in Hp. now subst.
  - destruct H' as [|r' l' Hr' Hl'].
    { apply Permutation_sym, Permutation_nil_cons in Hp. contradiction. }
    assert (E : r = r').
    { assert (I : In r' (r :: l)) by (apply (Permutation_in _ (Permutation_sym Hp)); now left).
      assert (I' : In r (r' :: l')) by (apply (Permutation_in _ Hp); now left).
      destruct I as [|I]; [assumption|]. destruct I' as [|I']; [congruence|].
      specialize (Hr _ I). specialize (Hr' _ I'). inversion Hn as [|? ? N _]; subst.
      exfalso. apply N. replace (r_seed r) with (r_seed r') by lia. now apply in_map. }
    subst r'. f_equal. apply IH; [|assumption|now inversion Hn].
    now apply Permutation_cons_inv in Hp.
Qed.

Definition content (f : string * option (list eval_result)) : list eval_result :=
  match snd f with Some rs => rs | None => [] end.
Lemma read_all_content fs data : read_all fs = Some data ->
  data = flat_map content fs /\ (forall f, In f fs -> snd f <> None).
Proof.
  revert data. induction fs as [|[n [c|]] fs IH]; cbn; intros data E; [injection E as <-; split; [reflexivity|intros ? []]| |discriminate].
  destruct (read_all fs) as [rs|]; [|discriminate]. injection E as <-.
  destruct (IH _ eq_refl) as [-> H]. split; [reflexivity|].
  intros f [<-|I]; [discriminate|auto].
Qed.
Lemma read_all_defined fs : (forall f, In f fs -> snd f <> None) -> read_all fs = Some (flat_map content fs).
Proof.
  induction fs as [|[n [c|]] fs IH]; intro H; cbn; [reflexivity| |].
  - rewrite IH by (intros; apply H; now right). reflexivity.
  - exfalso. apply (H (n, None)); [now left|reflexivity].
Qed.
Lemma filter_perm {B} (f : B -> bool) l l' : Permutation l l' -> Permutation (filter f l) (filter f l').
Proof.
  induction 1 as [|x l l' H IH|x y l|l l' l'' H IH H' IH']; cbn.
  - constructor.
  - destruct (f x); [now constructor|assumption].
  - destruct (f x), (f y); try reflexivity. apply perm_swap.
  - now rewrite IH.
Qed.
