(** int(s) as modelled is int(s) as specified. *)
From Coq Require Import ZArith List Bool String Ascii Lia.
From Verif Require Import Model.PyString Spec.CheckpointSpec Spec.IntSpec.
Import ListNotations.
Open Scope string_scope.

Lemma app_assoc_s (a b c : string) : (a ++ b) ++ c = a ++ b ++ c.
Proof. induction a as [|x a IH]; cbn; [reflexivity|]. now rewrite IH. Qed.
Lemma app_nil_s (a : string) : a ++ "" = a.
Proof. induction a as [|x a IH]; cbn; [reflexivity|]. now rewrite IH. Qed.

Lemma is_space_white c : is_space c = true <-> In c white.
Proof.
  split.
  - destruct c as [[] [] [] [] [] [] [] []]; cbv; intro H; try discriminate H; tauto.
  - intro H. cbn in H. repeat (destruct H as [<-|H]; [reflexivity|]). contradiction.
Qed.
Lemma digit_iff c d : digit c = Some d <-> (0 <= digit_value c <= 9)%Z /\ d = digit_value c.
Proof.
  unfold digit, digit_value. set (n := nat_of_ascii c).
  destruct (Nat.leb_spec 48 n), (Nat.leb_spec n 57); cbn [andb]; split; intro H1; try discriminate; try lia.
  - injection H1 as <-. lia.
  - destruct H1 as [_ ->]. reflexivity.
Qed.
Lemma digit_underscore : digit "_" = None. Proof. reflexivity. Qed.
Lemma digit_value_underscore : ~ (0 <= digit_value "_" <= 9)%Z. Proof. cbv. intros [_ H]. now apply H. Qed.

(** Occurrences in a string with one more character in front. *)
Lemma inside_cons x c r : (exists l t, String c r = l ++ x ++ t) <->
  (exists t, String c r = x ++ t) \/ (exists l t, r = l ++ x ++ t).
Proof.
  split.
  - intros ([|c' l] & t & E); cbn in E; [left; eauto|]. injection E as <- E. right. eauto.
  - intros [(t & E)|(l & t & E)]; [exists "", t; exact E|]. exists (String c l), t. cbn. now rewrite <- E.
Qed.
Lemma ends_cons c r : (exists l, String c r = l ++ "_") <-> (r = "" /\ c = "_"%char) \/ (exists l, r = l ++ "_").
Proof.
  split.
  - intros ([|c' l] & E); cbn in E.
    + injection E as -> ->. now left.
    + injection E as <- E. right. eauto.
  - intros [[-> ->]|(l & E)]; [now exists ""|]. exists (String c l). cbn. now rewrite <- E.
Qed.

Definition closed (s : string) : Prop :=
  all_digits (plain s) /\ (~ exists l, s = l ++ "_") /\ (~ exists l r, s = l ++ "__" ++ r).

Lemma parse_digits_false c r acc k :
  parse_digits (String c r) acc false = Some k <-> c <> "_"%char /\ parse_digits (String c r) acc true = Some k.
Proof.
  cbn [parse_digits]. destruct (digit c) as [d|] eqn:D.
  - split; [|tauto]. intro H. split; [|exact H]. intros ->. discriminate.
  - rewrite andb_false_r, andb_true_r. split; [discriminate|]. intros [N H].
    destruct (Ascii.eqb_spec c "_"); [contradiction|discriminate].
Qed.
Lemma parse_digits_true s : forall acc k,
  parse_digits s acc true = Some k <-> closed s /\ k = value_from acc (plain s).
Proof.
  induction s as [|c r IH]; intros acc k.
  - cbn. split.
    + intro E. injection E as <-. split; [|reflexivity]. split; [exact I|]. split.
      * intros (l & E). destruct l; discriminate.
      * intros (l & t & E). destruct l; discriminate.
    + now intros [_ ->].
  - cbn [parse_digits]. destruct (digit c) as [d|] eqn:D.
    + apply digit_iff in D. destruct D as [Hd ->]. rewrite IH.
      assert (N : c <> "_"%char) by (intros ->; now apply digit_value_underscore).
      unfold closed. cbn [plain]. destruct (Ascii.eqb_spec c "_") as [|_]; [contradiction|]. cbn [all_digits value_from].
      rewrite ends_cons, inside_cons.
      assert (F : ~ exists t, String c r = "__" ++ t) by (intros (t & E); now injection E).
      tauto.
    + rewrite andb_true_r. destruct (Ascii.eqb_spec c "_") as [->|N].
      * unfold closed. cbn [plain]. change (Ascii.eqb "_" "_") with true. cbn iota.
        rewrite ends_cons, inside_cons. destruct r as [|c' r].
        { cbn. split; [discriminate|]. intros [(_ & H & _) _]. exfalso. apply H. left. auto. }
        rewrite parse_digits_false, IH. unfold closed.
        assert (F : (exists t, String "_" (String c' r) = "__" ++ t) <-> c' = "_"%char).
        { split; [intros (t & E); now injection E|]. intros ->. exists r. reflexivity. }
        rewrite F. assert (String c' r <> "") by discriminate. tauto.
      * split; [discriminate|]. intros [(H & _) _]. cbn [plain] in H.
        destruct (Ascii.eqb_spec c "_"); [contradiction|]. cbn [all_digits] in H. destruct H as [H _].
        assert (digit c = Some (digit_value c)) by (apply digit_iff; auto). congruence.
Qed.
Lemma parse_digits_numeral s k : parse_digits s 0 false = Some k <-> numeral s /\ k = value_from 0 (plain s).
Proof.
  unfold numeral. destruct s as [|c r].
  - cbn. split; [discriminate|]. intros [(H & _) _]. now contradict H.
  - rewrite parse_digits_false, parse_digits_true. unfold closed.
    assert (F : (exists t, String c r = "_" ++ t) <-> c = "_"%char).
    { split; [intros (t & E); now injection E|]. intros ->. exists r. reflexivity. }
    rewrite F. assert (String c r <> "") by discriminate. tauto.
Qed.

(** ** Stripping *)
Lemma lstrip_split s : exists l, s = l ++ lstrip s /\ spaces l.
Proof.
  induction s as [|c r (l & E & H)]; [now exists ""|]. cbn. destruct (is_space c) eqn:S.
  - exists (String c l). cbn. rewrite <- E. split; [reflexivity|]. split; [now apply is_space_white|exact H].
  - exists "". split; [reflexivity|exact I].
Qed.
Lemma rstrip_split s : exists l, s = rstrip s ++ l /\ spaces l.
Proof.
  induction s as [|c r (l & E & H)]; [now exists ""|]. cbn [rstrip].
  destruct (String.eqb_spec (rstrip r) "") as [Z|Z]; cbn [andb].
  - destruct (is_space c) eqn:S.
    + exists (String c r). split; [reflexivity|]. split; [now apply is_space_white|]. rewrite Z in E. cbn in E. now subst.
    + exists l. cbn. rewrite <- E. auto.
  - exists l. cbn. rewrite <- E. auto.
Qed.
Lemma lstrip_spaces l s : spaces l -> lstrip (l ++ s) = lstrip s.
Proof.
  induction l as [|c l IH]; [reflexivity|]. intros [H1 H2]. cbn. apply is_space_white in H1. rewrite H1. auto.
Qed.
Lemma rstrip_spaces l : spaces l -> rstrip l = "".
Proof.
  induction l as [|c l IH]; [reflexivity|]. intros [H1 H2]. cbn. rewrite IH by exact H2.
  apply is_space_white in H1. now rewrite H1.
Qed.
Lemma rstrip_app m l : spaces l -> rstrip m = m -> rstrip (m ++ l) = m.
Proof.
  intros H. induction m as [|c m IH]; [intros _; now apply rstrip_spaces|]. cbn. intro E.
  destruct (String.eqb_spec (rstrip m) "") as [Z|Z]; cbn [andb] in E.
  - destruct (is_space c) eqn:S; [discriminate|]. injection E as E.
    rewrite (IH E), andb_false_r. reflexivity.
  - injection E as E. rewrite (IH E). rewrite E in Z. destruct (String.eqb_spec m ""); [contradiction|reflexivity].
Qed.

Definition solid (c : ascii) : Prop := is_space c = false.
Lemma digit_solid c : (0 <= digit_value c <= 9)%Z -> solid c.
Proof.
  intro H. unfold solid. destruct (is_space c) eqn:S; [|reflexivity]. apply is_space_white in S. cbn in S.
  repeat (destruct S as [<-|S]; [exfalso; unfold digit_value in H; cbn in H; lia|]). contradiction.
Qed.
Fixpoint all_solid (s : string) : Prop := match s with "" => True | String c r => solid c /\ all_solid r end.
Lemma plain_solid s : all_digits (plain s) -> all_solid s.
Proof.
  induction s as [|c r IH]; [trivial|]. cbn [plain]. destruct (Ascii.eqb_spec c "_") as [->|_].
  - intro H. split; [reflexivity|auto].
  - cbn [all_digits]. intros [H1 H2]. split; [now apply digit_solid|auto].
Qed.
Lemma rstrip_solid s : all_solid s -> rstrip s = s.
Proof.
  induction s as [|c r IH]; [reflexivity|]. intros [H1 H2]. cbn. rewrite (IH H2), H1, andb_false_r. reflexivity.
Qed.
Lemma lstrip_solid s : all_solid s -> forall t, s <> "" -> lstrip (s ++ t) = s ++ t.
Proof. destruct s as [|c r]; [contradiction|]. intros [H1 _] t _. cbn. now rewrite H1. Qed.

Lemma parse_int_cases s : parse_int s =
  match rstrip (lstrip s) with
  | "" => None
  | String c r =>
      if Ascii.eqb c "-" then option_map Z.opp (parse_digits r 0 false)
      else if Ascii.eqb c "+" then parse_digits r 0 false
      else parse_digits (String c r) 0 false
  end.
Proof.
  unfold parse_int. destruct (rstrip (lstrip s)) as [|[[] [] [] [] [] [] [] []] r]; reflexivity.
Qed.

Lemma numeral_head c r : numeral (String c r) -> c <> "-"%char /\ c <> "+"%char.
Proof.
  intros (_ & D & H & _). split; intros ->; cbn in D; destruct D as [D _]; unfold digit_value in D; cbn in D; lia.
Qed.
Lemma int_spec s k : parse_int s = Some k <-> int_of s k.
Proof.
  rewrite parse_int_cases. split.
  - destruct (lstrip_split s) as (l & El & Hl). destruct (rstrip_split (lstrip s)) as (r & Er & Hr).
    destruct (rstrip (lstrip s)) as [|c m]; [discriminate|]. rewrite Er in El. clear Er.
    destruct (Ascii.eqb_spec c "-") as [->|N1]; [|destruct (Ascii.eqb_spec c "+") as [->|N2]].
    + destruct (parse_digits m 0 false) as [n|] eqn:E; [|discriminate]. intro Ek. injection Ek as <-.
      apply parse_digits_numeral in E. destruct E as [Hm ->].
      exists l, "-", m, r. auto 10.
    + intro E. apply parse_digits_numeral in E. destruct E as [Hm ->]. exists l, "+", m, r. auto 10.
    + intro E. apply parse_digits_numeral in E. destruct E as [Hm ->]. exists l, "", (String c m), r. auto 10.
  - intros (l & sign & m & r & -> & Hl & Hr & Hm & Hk). rewrite lstrip_spaces by exact Hl.
    pose proof (plain_solid m (proj1 (proj2 Hm))) as Sm. pose proof (proj1 Hm) as Nm.
    assert (Hs : all_solid (sign ++ m) /\ sign ++ m <> "").
    { destruct Hk as [[[-> | ->] _]|[-> _]]; cbn; (split; [|try discriminate; try exact Nm]); try split; try exact Sm; reflexivity. }
    destruct Hs as [Ss Ns].
    replace (sign ++ m ++ r) with ((sign ++ m) ++ r) by apply app_assoc_s.
    rewrite lstrip_solid by assumption. rewrite rstrip_app by (exact Hr || now apply rstrip_solid).
    destruct Hk as [[[-> | ->] ->]|[-> ->]]; cbn [append].
    + destruct m as [|c m]; [now contradict Nm|]. destruct (numeral_head c m Hm) as [N1 N2].
      destruct (Ascii.eqb_spec c "-"); [contradiction|]. destruct (Ascii.eqb_spec c "+"); [contradiction|].
      apply parse_digits_numeral. auto.
    + change (Ascii.eqb "+" "-") with false. change (Ascii.eqb "+" "+") with true. cbn iota.
      apply parse_digits_numeral. auto.
    + change (Ascii.eqb "-" "-") with true. cbn iota.
      assert (E : parse_digits m 0 false = Some (value_from 0 (plain m))) by (apply parse_digits_numeral; auto).
      rewrite E. reflexivity.
Qed.
