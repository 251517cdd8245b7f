(** Lemmas on paths. *)
From Coq Require Import ZArith List Bool Ascii String Lia DecimalString Decimal.
From Verif Require Import Model.PyString Proofs.StringProofs.
Open Scope string_scope.

Fixpoint no_slash (s : string) : Prop :=
  match s with EmptyString => True | String c r => c <> "/"%char /\ no_slash r end.
Lemma no_slash_app a b : no_slash a -> no_slash b -> no_slash (a ++ b).
Proof. induction a as [|c a IH]; cbn; [easy|]. intros [H1 H2] Hb. auto. Qed.
Lemma no_slash_uint u : no_slash (NilEmpty.string_of_uint u).
Proof. induction u; cbn; try exact I; split; try assumption; discriminate. Qed.
Lemma no_slash_int n : no_slash (NilZero.string_of_int (Z.to_int n)).
Proof.
  unfold NilZero.string_of_int, NilZero.string_of_uint.
  destruct (Z.to_int n) as [u|u]; destruct u; cbn; repeat split; try discriminate; apply no_slash_uint.
Qed.
Lemma rfind_none s : no_slash s -> rfind "/" s = None.
Proof.
  induction s as [|c s IH]; [reflexivity|]. intros [H1 H2]. cbn [rfind]. rewrite (IH H2). cbn [prefix].
  destruct (ascii_dec "/" c) as [E|E]; [congruence|reflexivity].
Qed.
Lemma rfind_slash d s : no_slash s -> rfind "/" (d ++ String "/" s) = Some (String.length d).
Proof.
  intro H. induction d as [|c d IH].
  - cbn [append rfind String.length]. rewrite (rfind_none s H). cbn [prefix]. now destruct s.
  - cbn [append rfind String.length]. now rewrite IH.
Qed.
Lemma take_app a b : take (String.length a) (a ++ b) = a.
Proof. unfold take. induction a as [|c a IH]; cbn; [now destruct b|]. now rewrite IH. Qed.
Lemma rstrip_proper d c : c <> "/"%char -> rstrip_slash (d ++ String c "") = d ++ String c "".
Proof.
  intro H. induction d as [|x d IH]; cbn [append rstrip_slash].
  - destruct (Ascii.eqb_spec c "/"); [contradiction|reflexivity].
  - rewrite IH. destruct d; reflexivity.
Qed.
Lemma rstrip_slash_end s : rstrip_slash (s ++ "/") = rstrip_slash s.
Proof. induction s as [|x s IH]; [reflexivity|]. cbn [append rstrip_slash]. now rewrite IH. Qed.
Lemma dirname_file d0 c s : c <> "/"%char -> no_slash s ->
  dirname ((d0 ++ String c "") ++ String "/" s) = d0 ++ String c "".
Proof.
  intros Hc Hs. unfold dirname. rewrite (rfind_slash _ s Hs). set (d := d0 ++ String c "").
  assert (take (S (String.length d)) (d ++ String "/" s) = d ++ "/") as ->.
  { replace (S (String.length d)) with (String.length (d ++ "/")) by (rewrite append_length; cbn; lia).
    replace (d ++ String "/" s) with ((d ++ "/") ++ s) by (rewrite append_assoc; reflexivity).
    apply take_app. }
  rewrite rstrip_slash_end. unfold d. rewrite (rstrip_proper d0 c Hc).
  destruct (d0 ++ String c "") eqn:E; [|reflexivity]. destruct d0; discriminate.
Qed.
Lemma ends_with_slash_proper d0 c : c <> "/"%char -> ends_with_slash (d0 ++ String c "") = false.
Proof.
  intro H. induction d0 as [|x d0 IH]; cbn [append ends_with_slash].
  - now apply Ascii.eqb_neq.
  - destruct (d0 ++ String c "") eqn:E; [destruct d0; discriminate|exact IH].
Qed.
Lemma join_proper d0 c s : c <> "/"%char -> starts_with_slash s = false ->
  path_join (d0 ++ String c "") s = (d0 ++ String c "") ++ "/" ++ s.
Proof.
  intros Hc Hs. unfold path_join. rewrite Hs, (ends_with_slash_proper d0 c Hc).
  destruct (d0 ++ String c "") eqn:E; [destruct d0; discriminate|reflexivity].
Qed.
