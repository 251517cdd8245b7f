(** Lemmas on strings. *)
From Coq Require Import ZArith List Bool Lia String Ascii DecimalString Decimal DecimalZ DecimalFacts.
Import ListNotations.
Open Scope string_scope.

Lemma append_assoc a b c : (a ++ b) ++ c = a ++ (b ++ c).
Proof. induction a as [|x a IH]; [reflexivity|]. cbn. now rewrite IH. Qed.
Lemma append_length a b : String.length (a ++ b) = (String.length a + String.length b)%nat.
Proof. induction a as [|x a IH]; [reflexivity|]. cbn. now rewrite IH. Qed.
Lemma append_inj_l a b c : a ++ b = a ++ c -> b = c.
Proof. induction a as [|x a IH]; [auto|]. cbn. intros [= E]. auto. Qed.
Lemma append_inj a b c d : String.length a = String.length c -> a ++ b = c ++ d -> a = c /\ b = d.
Proof.
  revert c. induction a as [|x a IH]; intros [|z c]; cbn; try discriminate; [auto|].
  intros [= L] [= -> E]. destruct (IH _ L E) as [-> ->]. auto.
Qed.
Lemma append_inj_r a b c : a ++ c = b ++ c -> a = b.
Proof.
  intro E. apply (append_inj a c b c); [|assumption].
  apply (f_equal String.length) in E. rewrite !append_length in E. lia.
Qed.

Lemma prefix_append p s : String.prefix p (p ++ s) = true.
Proof. induction p as [|x p IH]; cbn; [destruct s; reflexivity|]. destruct (ascii_dec x x); [assumption|contradiction]. Qed.
Lemma prefix_split p s : String.prefix p s = true -> exists r, s = p ++ r.
Proof.
  revert s. induction p as [|x p IH]; intros [|y s]; cbn; intro H; try discriminate; eauto.
  destruct (ascii_dec x y) as [->|]; [|discriminate]. destruct (IH _ H) as (r & ->). eauto.
Qed.
Lemma substring_0 s n : String.length s = n -> substring 0 n s = s.
Proof. intros <-. induction s as [|x s IH]; [reflexivity|]. cbn. now rewrite IH. Qed.
Lemma substring_tail p s n : String.length p = n -> substring n (String.length s) (p ++ s) = s.
Proof. intros <-. induction p as [|x p IH]; cbn; [now apply substring_0|assumption]. Qed.
Lemma substring_split s k m : (k + m = String.length s)%nat -> s = substring 0 k s ++ substring k m s.
Proof.
  revert k. induction s as [|x s IH]; intros k H.
  - cbn in H. replace k with 0%nat by lia. replace m with 0%nat by lia. reflexivity.
  - destruct k as [|k].
    + cbn in H. cbn. destruct m as [|m]; [discriminate|]. f_equal.
      symmetry. apply substring_0. lia.
    + cbn. f_equal. apply IH. cbn in H. lia.
Qed.


(** ** Decimal numbers *)
Lemma to_int_nonnil z : Z.to_int z <> Decimal.Pos Nil /\ Z.to_int z <> Decimal.Neg Nil.
Proof.
  split; intro E; pose proof (DecimalZ.of_to z) as H; rewrite E in H; cbn in H; subst z; discriminate E.
Qed.
Lemma string_of_int_back z :
  NilZero.int_of_string (NilZero.string_of_int (Z.to_int z)) = Some (Z.to_int z).
Proof. destruct (to_int_nonnil z). now apply NilZero.isi. Qed.
Lemma string_of_int_inj a b :
  NilZero.string_of_int (Z.to_int a) = NilZero.string_of_int (Z.to_int b) -> a = b.
Proof.
  intro E. pose proof (string_of_int_back a) as H. rewrite E, string_of_int_back in H.
  injection H as H. rewrite <- (DecimalZ.of_to a), <- (DecimalZ.of_to b). now rewrite H.
Qed.
