(** Reading what json.dump writes. *)
From Coq Require Import ZArith Reals Bool String Ascii List Lia.
From Verif Require Import Model.Num Model.PyString Model.Eval Model.Json Spec.JsonSpec
  Spec.CheckpointSpec Proofs.StringProofs Proofs.CheckpointProofs.
From Coq Require Import Decimal DecimalString.
Import ListNotations.
Open Scope string_scope.

Lemma app_nil (a : string) : a ++ "" = a.
Proof. induction a; cbn; congruence. Qed.
Lemma app_ass (a b c : string) : (a ++ b) ++ c = a ++ (b ++ c).
Proof. induction a; cbn; congruence. Qed.
Lemma app_len (a b : string) : String.length (a ++ b) = (String.length a + String.length b)%nat.
Proof. induction a; cbn; congruence. Qed.
Lemma app_empty (a b : string) : a ++ b = "" -> a = "" /\ b = "".
Proof. destruct a; cbn; [auto|discriminate]. Qed.

(** ** Induction on values *)
Section Induction.
Context (Q : json -> Prop).
Context (HN : Q Null) (HB : forall b, Q (Bool b)) (HI : forall z, Q (Int z)) (HF : forall x, Q (Float x))
  (HS : forall s, Q (Str s)) (HA : forall l, Forall Q l -> Q (Arr l))
  (HO : forall l, Forall (fun kv => Q (snd kv)) l -> Q (Obj l)).
Fixpoint json_rect' (v : json) : Q v :=
  match v with
  | Null => HN | Bool b => HB b | Int z => HI z | Float x => HF x | Str s => HS s
  | Arr l => HA l ((fix go l : Forall Q l :=
      match l with [] => Forall_nil _ | v :: l => Forall_cons v (json_rect' v) (go l) end) l)
  | Obj l => HO l ((fix go l : Forall (fun kv => Q (snd kv)) l :=
      match l with [] => Forall_nil _ | kv :: l => Forall_cons kv (json_rect' (snd kv)) (go l) end) l)
  end.
End Induction.

(** ** Blanks and single characters *)
Lemma skip_shorter s : (String.length (skip s) <= String.length s)%nat.
Proof. induction s; cbn; [lia|]. destruct (is_blank a); cbn; lia. Qed.
Lemma expect_spec c s r : expect c s = Some r <-> s = String c r.
Proof.
  destruct s as [|c' s]; cbn; [split; discriminate|]. destruct (Ascii.eqb_spec c' c) as [->|N]; split; intro H; try congruence.
Qed.
Lemma expect_other c c' r : c' <> c -> expect c (String c' r) = None.
Proof. intro N. cbn. destruct (Ascii.eqb_spec c' c); [contradiction|reflexivity]. Qed.
Lemma expect_same c r : expect c (String c r) = Some r.
Proof. cbn. now rewrite Ascii.eqb_refl. Qed.
Lemma skip_solid c r : is_blank c = false -> skip (String c r) = String c r.
Proof. intro H. cbn. now rewrite H. Qed.
Lemma skip_spaces n s : skip (spaces n ++ s) = skip s.
Proof. induction n; [reflexivity|exact IHn]. Qed.
Lemma skip_opening pretty level s : skip (opening pretty level ++ s) = skip s.
Proof. destruct pretty; [|reflexivity]. cbn. apply skip_spaces. Qed.
Lemma skip_app s t : skip s <> "" -> skip (s ++ t) = skip s ++ t.
Proof. induction s; cbn; [congruence|]. destruct (is_blank a); auto. Qed.
Lemma skip_idem s : skip (skip s) = skip s.
Proof. induction s; [reflexivity|]. cbn. destruct (is_blank a) eqn:E; [exact IHs|]. cbn. now rewrite E. Qed.
Lemma expect_app c s t r : expect c s = Some r -> expect c (s ++ t) = Some (r ++ t).
Proof. intro H. apply expect_spec in H. subst. apply expect_same. Qed.
Lemma expect_app_none c s t : s <> "" -> expect c s = None -> expect c (s ++ t) = None.
Proof. destruct s; cbn; [congruence|]. destruct (Ascii.eqb _ _); [discriminate|reflexivity]. Qed.
Lemma expect_shorter c s r : expect c s = Some r -> String.length s = S (String.length r).
Proof. intro H. apply expect_spec in H. now subst. Qed.

(** ** Strings *)
Lemma scan_string_shorter s t r : scan_string s = Some (t, r) -> (String.length r < String.length s)%nat.
Proof.
  revert t r. induction s as [|c s IH]; cbn; [discriminate|]. intros t r.
  destruct (Ascii.eqb c """"); [intros [= _ <-]; lia|]. destruct (_ || _); [discriminate|].
  destruct (scan_string s) as [[t' r']|]; [|discriminate]. intros [= _ <-]. specialize (IH _ _ eq_refl). lia.
Qed.
Lemma scan_string_app s t r q : scan_string s = Some (t, r) -> scan_string (s ++ q) = Some (t, r ++ q).
Proof.
  revert t r. induction s as [|c s IH]; cbn; [discriminate|]. intros t r.
  destruct (Ascii.eqb c """"); [now intros [= <- <-]|]. destruct (_ || _); [discriminate|].
  destruct (scan_string s) as [[t' r']|]; [|discriminate]. intros [= <- <-]. now rewrite (IH _ _ eq_refl).
Qed.
(** Strings that need no escaping. *)
Definition plain_char (c : ascii) : bool :=
  negb (Ascii.eqb c """" || (nat_of_ascii c <? 32)%nat || Ascii.eqb c "\").
Definition plain_text (s : string) : bool := forallb plain_char (list_ascii_of_string s).
Lemma scan_quote s r : plain_text s = true -> scan_string (s ++ String """" r) = Some (s, r).
Proof.
  induction s as [|c s IH]; [reflexivity|]. unfold plain_text. cbn [append scan_string list_ascii_of_string forallb]. intro H. apply andb_prop in H. destruct H as [H1 H2].
  unfold plain_char in H1. apply negb_true_iff in H1. apply orb_false_iff in H1. destruct H1 as [H1 H3]. apply orb_false_iff in H1.
  destruct H1 as [-> H1]. rewrite H1, H3. cbn [orb]. now rewrite (IH H2).
Qed.

(** ** Words *)
Lemma drop_app p s : drop (String.length p) (p ++ s) = s.
Proof.
  unfold drop. rewrite app_len. replace (_ + _ - _)%nat with (String.length s) by lia.
  induction p as [|c p IH]; [|exact IH]. cbn. induction s as [|c s IH]; cbn; [reflexivity|congruence].
Qed.
Lemma scan_word_spec w v s x : scan_word w v s = Some x <-> exists r, s = w ++ r /\ x = (v, r).
Proof.
  unfold scan_word. split.
  - destruct (prefix w s) eqn:E; [|discriminate]. apply prefix_split in E. destruct E as [r ->]. rewrite drop_app.
    intros [= <-]. eauto.
  - intros (r & -> & ->). rewrite prefix_append, drop_app. reflexivity.
Qed.

(** ** Numbers *)
Definition starts_with (f : ascii -> bool) (s : string) : bool := match s with String c _ => f c | "" => false end.
Definition all_digit (s : string) : bool := forallb is_digit (list_ascii_of_string s).
Lemma digits_all d r : all_digit d = true -> starts_with is_digit r = false -> digits (d ++ r) = (d, r).
Proof.
  unfold all_digit. induction d as [|c d IH]; intros A S.
  - destruct r as [|c r]; [reflexivity|]. cbn in *. now rewrite S.
  - cbn in *. apply andb_prop in A. destruct A as [-> A]. now rewrite IH.
Qed.
Lemma digits_spec s d r : digits s = (d, r) -> s = d ++ r /\ all_digit d = true /\ starts_with is_digit r = false.
Proof.
  revert d r. induction s as [|c s IH]; cbn; intros d r.
  - intros [= <- <-]. auto.
  - destruct (is_digit c) eqn:E.
    + destruct (digits s) as [d' r']. intros [= <- <-]. destruct (IH _ _ eq_refl) as (-> & A & B).
      split; [reflexivity|]. split; [|exact B]. unfold all_digit in *. cbn. now rewrite E.
    + intros [= <- <-]. cbn. auto.
Qed.
Lemma digits_app s d r q : digits s = (d, r) -> r <> "" -> digits (s ++ q) = (d, r ++ q).
Proof.
  intros H N. apply digits_spec in H. destruct H as (-> & A & B). rewrite app_ass. apply digits_all; [exact A|].
  destruct r; [congruence|exact B].
Qed.
Lemma numerals_iff t : numerals t <-> t <> "" /\ all_digit t = true.
Proof.
  unfold numerals, all_digit. split; intros [N H]; (split; [exact N|]).
  - apply forallb_forall. intros c Hc. specialize (H c Hc). cbn in H.
    repeat (destruct H as [<-|H]; [reflexivity|]). contradiction.
  - intros c Hc. rewrite forallb_forall in H. specialize (H c Hc). unfold is_digit in H.
    destruct (digit c) eqn:E; [|discriminate]. clear - E.
    destruct c as [[] [] [] [] [] [] [] []]; cbn in E; try discriminate E; cbn; tauto.
Qed.

(** What may follow a number. *)
Definition stop (c : ascii) : bool :=
  is_blank c || Ascii.eqb c "," || Ascii.eqb c "]" || Ascii.eqb c "}".
Definition stopped (r : string) : Prop := r = "" \/ starts_with stop r = true.
Lemma stop_cases c : stop c = true -> is_digit c = false /\ c <> "."%char /\ c <> "e"%char /\ c <> "E"%char /\ c <> "-"%char /\ c <> "+"%char.
Proof.
  unfold stop, is_blank. intro H. repeat (apply orb_prop in H; destruct H as [H|H]);
    apply Ascii.eqb_eq in H; subst c; repeat split; try discriminate; reflexivity.
Qed.
Lemma stopped_digit r : stopped r -> starts_with is_digit r = false.
Proof. intros [->|H]; [reflexivity|]. destruct r; [reflexivity|]. cbn in *. now apply stop_cases in H. Qed.
Lemma stopped_fraction r : stopped r -> scan_fraction r = ("", r).
Proof.
  intros [->|H]; [reflexivity|]. destruct r; [reflexivity|]. apply stop_cases in H. unfold scan_fraction.
  rewrite expect_other; tauto.
Qed.
Lemma stopped_exponent r : stopped r -> scan_exponent r = ("", r).
Proof.
  intros [->|H]; [reflexivity|]. destruct r as [|c r]; [reflexivity|]. apply stop_cases in H. unfold scan_exponent.
  destruct H as (_ & _ & H1 & H2 & _). destruct (Ascii.eqb_spec c "e"); [contradiction|].
  destruct (Ascii.eqb_spec c "E"); [contradiction|reflexivity].
Qed.

Section Text.
Context (repr : R -> string) (float_of : string -> R).
Notation dump := (Json.dump repr).
Notation parse := (Json.parse float_of).
Notation parse_items := (Json.parse_items float_of).
Notation parse_members := (Json.parse_members float_of).
Notation scan_number := (Json.scan_number float_of).
Notation load := (Json.load float_of).

Lemma sign_minus b r : scan_sign b ("-" ++ r) = ("-", r).
Proof. unfold scan_sign. cbn. reflexivity. Qed.
Lemma sign_none b r : starts_with is_digit r = true -> scan_sign b r = ("", r).
Proof.
  destruct r as [|c r]; [discriminate|]. intro H. unfold scan_sign. rewrite !expect_other; [reflexivity| |]; intros ->; discriminate H.
Qed.
Lemma digit_start d r : all_digit d = true -> d <> "" -> starts_with is_digit (d ++ r) = true.
Proof. destruct d; [congruence|]. unfold all_digit. cbn. intros H _. now apply andb_prop in H. Qed.
Lemma integer_start i r : integer_part i -> starts_with is_digit (i ++ r) = true.
Proof.
  intros [->|[H _]]; [reflexivity|]. apply numerals_iff in H. apply digit_start; tauto.
Qed.
Lemma scan_unsigned sign i r : In sign [""; "-"] -> integer_part i -> starts_with is_digit r = false ->
  scan_integer (sign ++ i ++ r) = Some (sign ++ i, r).
Proof.
  intros S I D. unfold scan_integer.
  assert (E : scan_sign false (sign ++ i ++ r) = (sign, i ++ r)).
  { destruct S as [<-|[<-|[]]]; [|apply sign_minus]. apply sign_none. now apply integer_start. }
  rewrite E. destruct I as [->|[N Z]]; [reflexivity|]. apply numerals_iff in N. destruct N as [N A].
  destruct i as [|c i]; [congruence|]. cbn [append]. rewrite expect_other.
  2:{ intros ->. apply (Z i). reflexivity. }
  change (String c (i ++ r)) with (String c i ++ r). rewrite digits_all by assumption. reflexivity.
Qed.

Lemma scan_float t r : float_literal t -> stopped r -> scan_number (t ++ r) = Some (Float (float_of t), r).
Proof.
  intros (sign & i & f & e & -> & S & I & F & E & NE) R. unfold Json.scan_number.
  assert (De : starts_with is_digit (e ++ r) = false).
  { destruct E as [->|(mark & s & d & M & _ & _ & ->)]; [now apply stopped_digit|].
    destruct M as [<-|[<-|[]]]; reflexivity. }
  assert (Df : starts_with is_digit (f ++ e ++ r) = false).
  { destruct F as [->|(d & _ & ->)]; [exact De|reflexivity]. }
  rewrite !app_ass. rewrite scan_unsigned by assumption.
  assert (Ef : scan_fraction (f ++ e ++ r) = (f, e ++ r)).
  { destruct F as [->|(d & D & ->)].
    - cbn [append]. destruct E as [->|(mark & s & d & M & _ & _ & ->)]; [now apply stopped_fraction|].
      unfold scan_fraction. destruct M as [<-|[<-|[]]]; reflexivity.
    - apply numerals_iff in D. destruct D as [N A]. unfold scan_fraction. cbn [append]. rewrite expect_same.
      rewrite digits_all by assumption. destruct (String.eqb_spec d ""); [contradiction|reflexivity]. }
  rewrite Ef.
  assert (Ee : scan_exponent (e ++ r) = (e, r)).
  { destruct E as [->|(mark & s & d & M & S' & D & ->)]; [now apply stopped_exponent|].
    apply numerals_iff in D. destruct D as [N A]. rewrite !app_ass.
    assert (X : forall c, (c = "e" \/ c = "E")%char -> scan_exponent (String c (s ++ d ++ r)) = (String c (s ++ d), r)).
    { intros c C. cbn [scan_exponent]. replace (Ascii.eqb c "e" || Ascii.eqb c "E") with true by (destruct C as [->| ->]; reflexivity).
      assert (Es : scan_sign true (s ++ d ++ r) = (s, d ++ r)).
      { destruct S' as [<-|[<-|[<-|[]]]]; [|reflexivity|reflexivity]. apply sign_none. now apply digit_start. }
      rewrite Es, digits_all by (assumption || now apply stopped_digit).
      destruct (String.eqb_spec d ""); [contradiction|reflexivity]. }
    destruct M as [<-|[<-|[]]]; apply X; tauto. }
  rewrite Ee.
  assert (B : (f =? "") && (e =? "") = false).
  { destruct (String.eqb_spec f ""); [|reflexivity]. destruct (String.eqb_spec e ""); [|reflexivity]. tauto. }
  rewrite B. now rewrite !app_ass.
Qed.

(** ** Integers *)
Lemma all_digits_bool s : all_digits s -> all_digit s = true.
Proof.
  induction s as [|c s IH]; [reflexivity|]. intros [Hc H]. unfold all_digit in *. cbn [list_ascii_of_string forallb].
  rewrite (IH H). unfold is_digit. now rewrite (digit_spec c Hc).
Qed.
Lemma int_text z : exists sign i, PyString.str_of_int z = sign ++ i /\ In sign [""; "-"] /\ integer_part i.
Proof.
  destruct (Z_lt_le_dec z 0) as [L|L].
  - destruct z as [|p|p]; try lia. destruct (to_int_nonneg (Z.pos p) ltac:(lia)) as (d & E & N & V & H).
    exists "-", (NilZero.string_of_uint d). unfold PyString.str_of_int. cbn in E. injection E as <-.
    split; [reflexivity|]. split; [cbn; tauto|]. right. rewrite (nilzero _ N). split.
    + apply numerals_iff. split; [|apply all_digits_bool, string_digits]. destruct (Pos.to_uint p); [congruence|discriminate..].
    + intros r E. destruct (Pos.to_uint p) eqn:Ep; try discriminate E. apply (H ltac:(lia) _ eq_refl).
  - destruct (to_int_nonneg z L) as (d & E & N & V & H). exists "", (NilZero.string_of_uint d).
    unfold PyString.str_of_int. rewrite E. split; [reflexivity|]. split; [cbn; tauto|].
    destruct (Z.eq_dec z 0) as [->|Z]; [left; cbn in E; injection E as <-; reflexivity|].
    right. rewrite (nilzero _ N). split.
    + apply numerals_iff. split; [|apply all_digits_bool, string_digits]. destruct d; [congruence|discriminate..].
    + intros r E'. destruct d; try discriminate E'. apply (H Z _ eq_refl).
Qed.
Lemma int_back z : parse_int (PyString.str_of_int z) = Some z.
Proof.
  destruct (Z_lt_le_dec z 0) as [L|L].
  - destruct z as [|p|p]; try lia. destruct (to_int_nonneg (Z.pos p) ltac:(lia)) as (d & E & N & V & H).
    unfold PyString.str_of_int. cbn in E. injection E as <-. cbn [Z.to_int NilZero.string_of_int].
    rewrite (nilzero _ N). pose proof (string_digits (Pos.to_uint p)) as D. unfold parse_int.
    set (t := NilEmpty.string_of_uint (Pos.to_uint p)) in *.
    assert (T : t <> "") by (subst t; destruct (Pos.to_uint p); [congruence|discriminate..]).
    change (lstrip (String "-" t)) with (String "-" t). cbn [rstrip]. rewrite (rstrip_digits t D).
    destruct (String.eqb_spec t ""); [contradiction|]. cbn [andb].
    rewrite (parse_digits_value t 0 false D (or_introl T)). unfold t. rewrite string_value, V. reflexivity.
  - destruct (to_int_nonneg z L) as (d & E & N & V & H). unfold PyString.str_of_int. rewrite E.
    cbn [NilZero.string_of_int]. rewrite (nilzero _ N). rewrite parse_int_digits.
    + now rewrite string_value, V.
    + apply string_digits.
    + destruct d; [congruence|discriminate..].
Qed.
Lemma scan_int z r : stopped r -> scan_number (PyString.str_of_int z ++ r) = Some (Int z, r).
Proof.
  intro R. destruct (int_text z) as (sign & i & E & S & I). unfold Json.scan_number. rewrite E, app_ass.
  rewrite scan_unsigned by (assumption || now apply stopped_digit).
  rewrite (stopped_fraction r R), (stopped_exponent r R). cbn [String.eqb andb]. now rewrite <- E, int_back.
Qed.

(** ** One step of the reader *)
Lemma parse_eq f c r : parse (S f) (String c r) =
  if Ascii.eqb c """" then match scan_string r with Some (t, r) => Some (Str t, r) | None => None end
  else if Ascii.eqb c "[" then
    match expect "]" (skip r) with
    | Some r => Some (Arr [], r)
    | None => match parse_items f (skip r) with Some (l, r) => Some (Arr l, r) | None => None end
    end
  else if Ascii.eqb c "{" then
    match expect "}" (skip r) with
    | Some r => Some (Obj [], r)
    | None => match parse_members f (skip r) with Some (l, r) => Some (Obj (dict_of l), r) | None => None end
    end
  else if Ascii.eqb c "n" then scan_word "null" Null (String c r)
  else if Ascii.eqb c "t" then scan_word "true" (Bool true) (String c r)
  else if Ascii.eqb c "f" then scan_word "false" (Bool false) (String c r)
  else scan_number (String c r).
Proof. reflexivity. Qed.
Lemma items_eq f s : parse_items (S f) s =
  match parse f s with
  | None => None
  | Some (v, r) =>
      match expect "]" (skip r), expect "," (skip r) with
      | Some r, _ => Some ([v], r)
      | None, Some r => match parse_items f (skip r) with Some (l, r) => Some (v :: l, r) | None => None end
      | None, None => None
      end
  end.
Proof. reflexivity. Qed.
Lemma members_eq f s : parse_members (S f) s =
  match expect """" s with
  | None => None
  | Some r =>
      match scan_string r with
      | None => None
      | Some (k, r) =>
          match expect ":" (skip r) with
          | None => None
          | Some r =>
              match parse f (skip r) with
              | None => None
              | Some (v, r) =>
                  match expect "}" (skip r), expect "," (skip r) with
                  | Some r, _ => Some ([(k, v)], r)
                  | None, Some r => match parse_members f (skip r) with Some (l, r) => Some ((k, v) :: l, r) | None => None end
                  | None, None => None
                  end
              end
          end
      end
  end.
Proof. reflexivity. Qed.

(** A value that begins like a number is one. *)
Definition number_start (c : ascii) : bool := is_digit c || Ascii.eqb c "-".
Lemma number_dispatch f c r : number_start c = true -> parse (S f) (String c r) = scan_number (String c r).
Proof.
  intro H. rewrite parse_eq.
  assert (X : forall c', number_start c' = false -> Ascii.eqb c c' = false).
  { intros c' H'. destruct (Ascii.eqb_spec c c'); [congruence|reflexivity]. }
  rewrite !X by reflexivity. reflexivity.
Qed.
Lemma literal_start sign i r : In sign [""; "-"] -> integer_part i ->
  exists c r', sign ++ i ++ r = String c r' /\ number_start c = true.
Proof.
  intros S I. pose proof (integer_start i r I) as H. destruct S as [<-|[<-|[]]].
  - cbn. destruct (i ++ r); [discriminate|]. eexists _, _. split; [reflexivity|]. unfold number_start. cbn in H. now rewrite H.
  - eexists _, _. split; reflexivity.
Qed.

(** ** Fuel *)
Lemma scan_number_shorter s v r : scan_number s = Some (v, r) -> (String.length r < String.length s)%nat.
Proof.
  unfold Json.scan_number, scan_integer. destruct (scan_sign false s) as [sign s1] eqn:Es.
  assert (L1 : (String.length s1 <= String.length s)%nat).
  { unfold scan_sign in Es. destruct (expect "-" s) eqn:E1; [apply expect_shorter in E1; injection Es as <- <-; lia|].
    destruct (expect "+" s); injection Es as <- <-; lia. }
  assert (G : forall i r1, (String.length r1 < String.length s)%nat ->
    (let '(f, r) := scan_fraction r1 in let '(e, r) := scan_exponent r in
      if (f =? "") && (e =? "") then option_map (fun z => (Int z, r)) (parse_int i)
      else Some (Float (float_of (i ++ f ++ e)), r)) = Some (v, r) -> (String.length r < String.length s)%nat).
  { intros i r1 L. destruct (scan_fraction r1) as [f r2] eqn:Ef. destruct (scan_exponent r2) as [e r3] eqn:Ee.
    assert (L2 : (String.length r2 <= String.length r1)%nat).
    { unfold scan_fraction in Ef. destruct (expect "." r1) as [q|] eqn:E1; [|injection Ef as <- <-; lia].
      apply expect_shorter in E1. destruct (digits q) as [d q'] eqn:D. apply digits_spec in D. destruct D as (-> & _).
      rewrite app_len in E1. destruct (d =? ""); injection Ef as <- <-; lia. }
    assert (L3 : (String.length r3 <= String.length r2)%nat).
    { unfold scan_exponent in Ee. destruct r2 as [|c q]; [injection Ee as <- <-; lia|].
      destruct (_ || _); [|injection Ee as <- <-; lia].
      destruct (scan_sign true q) as [sg q1] eqn:Eq.
      assert (Lq : (String.length q1 <= String.length q)%nat).
      { unfold scan_sign in Eq. destruct (expect "-" q) eqn:E1; [apply expect_shorter in E1; injection Eq as <- <-; lia|].
        destruct (expect "+" q) eqn:E2; injection Eq as <- <-; [apply expect_shorter in E2|]; lia. }
      destruct (digits q1) as [d q'] eqn:D. apply digits_spec in D. destruct D as (-> & _).
      rewrite app_len in Lq. destruct (d =? ""); injection Ee as <- <-; cbn; lia. }
    destruct (_ && _).
    - destruct (parse_int i); [|discriminate]. cbn. intros [= _ <-]. lia.
    - intros [= _ <-]. lia. }
  destruct (expect "0" s1) as [q|] eqn:E0.
  - apply expect_shorter in E0. apply G. lia.
  - destruct (digits s1) as [d q] eqn:D. apply digits_spec in D. destruct D as (-> & _).
    destruct (String.eqb_spec d ""); [discriminate|]. apply G. rewrite app_len in L1.
    destruct d; [congruence|]. cbn in L1. lia.
Qed.

Lemma adequate f :
  (forall s v r, parse f s = Some (v, r) -> (String.length r < String.length s)%nat /\
     forall g, (2 * String.length s + 1 <= g)%nat -> parse g s = Some (v, r)) /\
  (forall s l r, parse_items f s = Some (l, r) -> (String.length r < String.length s)%nat /\
     forall g, (2 * String.length s + 2 <= g)%nat -> parse_items g s = Some (l, r)) /\
  (forall s l r, parse_members f s = Some (l, r) -> (String.length r < String.length s)%nat /\
     forall g, (2 * String.length s + 2 <= g)%nat -> parse_members g s = Some (l, r)).
Proof.
  induction f as [|f (IHv & IHi & IHm)]; [repeat split; discriminate|]. split; [|split].
  - intros s v r H. destruct s as [|c s]; [discriminate H|]. rewrite parse_eq in H.
    assert (W : forall w v0, (0 < String.length w)%nat -> scan_word w v0 (String c s) = Some (v, r) ->
      (String.length r < String.length (String c s))%nat).
    { intros w v0 Lw Hw. apply scan_word_spec in Hw. destruct Hw as (q & Eq & [= _ ->]). rewrite Eq, app_len. lia. }
    assert (G : forall g, (2 * String.length (String c s) + 1 <= g)%nat -> exists g', g = S g' /\ (2 * String.length s + 2 <= g')%nat).
    { intros g L. cbn in L. exists (Nat.pred g). lia. }
    pose proof (skip_shorter s) as Sk.
    destruct (Ascii.eqb c """") eqn:C1.
    { destruct (scan_string s) as [[t q]|] eqn:E; [|discriminate]. injection H as <- <-.
      split; [apply scan_string_shorter in E; cbn; lia|].
      intros g L. destruct (G g L) as (g' & -> & _). rewrite parse_eq. now rewrite C1, E. }
    destruct (Ascii.eqb c "[") eqn:C2.
    { destruct (expect "]" (skip s)) as [q|] eqn:E.
      - injection H as <- <-. split; [apply expect_shorter in E; cbn; lia|].
        intros g L. destruct (G g L) as (g' & -> & _). rewrite parse_eq. now rewrite C1, C2, E.
      - destruct (parse_items f (skip s)) as [[l q]|] eqn:Ei; [|discriminate]. injection H as <- <-.
        apply IHi in Ei. destruct Ei as [L1 A]. split; [cbn; lia|].
        intros g L. destruct (G g L) as (g' & -> & L'). rewrite parse_eq. rewrite C1, C2, E, A; [reflexivity|lia]. }
    destruct (Ascii.eqb c "{") eqn:C3.
    { destruct (expect "}" (skip s)) as [q|] eqn:E.
      - injection H as <- <-. split; [apply expect_shorter in E; cbn; lia|].
        intros g L. destruct (G g L) as (g' & -> & _). rewrite parse_eq. now rewrite C1, C2, C3, E.
      - destruct (parse_members f (skip s)) as [[l q]|] eqn:Ei; [|discriminate]. injection H as <- <-.
        apply IHm in Ei. destruct Ei as [L1 A]. split; [cbn; lia|].
        intros g L. destruct (G g L) as (g' & -> & L'). rewrite parse_eq. rewrite C1, C2, C3, E, A; [reflexivity|lia]. }
    split.
    { destruct (Ascii.eqb c "n"); [eapply W; [|exact H]; cbn; lia|].
      destruct (Ascii.eqb c "t"); [eapply W; [|exact H]; cbn; lia|].
      destruct (Ascii.eqb c "f"); [eapply W; [|exact H]; cbn; lia|]. eapply scan_number_shorter; eassumption. }
    intros g L. destruct (G g L) as (g' & -> & _). rewrite parse_eq. now rewrite C1, C2, C3.
  - intros s l r H. rewrite items_eq in H. destruct (parse f s) as [[v q]|] eqn:E; [|discriminate].
    apply IHv in E. destruct E as [L1 A]. pose proof (skip_shorter q) as Sk.
    assert (G : forall g, (2 * String.length s + 2 <= g)%nat -> exists g', g = S g' /\ (2 * String.length s + 1 <= g')%nat).
    { intros g L. exists (Nat.pred g). lia. }
    destruct (expect "]" (skip q)) as [q1|] eqn:E1.
    + injection H as <- <-. split; [apply expect_shorter in E1; lia|].
      intros g L. destruct (G g L) as (g' & -> & L'). rewrite items_eq. now rewrite (A g' L'), E1.
    + destruct (expect "," (skip q)) as [q1|] eqn:E2; [|discriminate].
      destruct (parse_items f (skip q1)) as [[l' q2]|] eqn:E3; [|discriminate]. injection H as <- <-.
      apply IHi in E3. destruct E3 as [L3 A3]. pose proof (skip_shorter q1). apply expect_shorter in E2 as E2'.
      split; [lia|]. intros g L. destruct (G g L) as (g' & -> & L'). rewrite items_eq.
      rewrite (A g' L'), E1, E2, A3; [reflexivity|lia].
  - intros s l r H. rewrite members_eq in H. destruct (expect """" s) as [s1|] eqn:E0; [|discriminate].
    destruct (scan_string s1) as [[k s2]|] eqn:Ek; [|discriminate].
    destruct (expect ":" (skip s2)) as [s3|] eqn:Ec; [|discriminate].
    destruct (parse f (skip s3)) as [[v q]|] eqn:E; [|discriminate].
    apply IHv in E. destruct E as [L1 A]. pose proof (skip_shorter q) as Sk.
    apply expect_shorter in E0 as E0'. apply scan_string_shorter in Ek as Ek'. apply expect_shorter in Ec as Ec'.
    pose proof (skip_shorter s2). pose proof (skip_shorter s3).
    assert (G : forall g, (2 * String.length s + 2 <= g)%nat -> exists g', g = S g' /\ (2 * String.length s + 1 <= g')%nat).
    { intros g L. exists (Nat.pred g). lia. }
    destruct (expect "}" (skip q)) as [q1|] eqn:E1.
    + injection H as <- <-. split; [apply expect_shorter in E1; lia|].
      intros g L. destruct (G g L) as (g' & -> & L'). rewrite members_eq. rewrite E0, Ek, Ec, A, E1; [reflexivity|lia].
    + destruct (expect "," (skip q)) as [q1|] eqn:E2; [|discriminate].
      destruct (parse_members f (skip q1)) as [[l' q2]|] eqn:E3; [|discriminate]. injection H as <- <-.
      apply IHm in E3. destruct E3 as [L3 A3]. pose proof (skip_shorter q1). apply expect_shorter in E2 as E2'.
      split; [lia|]. intros g L. destruct (G g L) as (g' & -> & L'). rewrite members_eq.
      rewrite E0, Ek, Ec, A, E1, E2, A3; [reflexivity|lia|lia].
Qed.

(** ** More text after a value *)
Definition is_number (v : json) : bool := match v with Int _ | Float _ => true | _ => false end.
Lemma scan_number_app s v r t : scan_number s = Some (v, r) -> starts_with stop r = true ->
  scan_number (s ++ t) = Some (v, r ++ t).
Proof.
  intros H St. assert (R : forall q, starts_with stop q = true -> q <> "") by (intros [|c q] ?; discriminate).
  unfold Json.scan_number in *.
  destruct (scan_integer s) as [[i r1]|] eqn:Ei; [|discriminate].
  destruct (scan_fraction r1) as [f r2] eqn:Ef. destruct (scan_exponent r2) as [e r3] eqn:Ee.
  assert (E3 : r3 = r).
  { destruct (_ && _); [|now injection H]. destruct (parse_int i); [|discriminate]. now injection H. }
  subst r3.
  assert (N2 : r2 <> "") by (intros ->; injection Ee as <- <-; now apply (R "")).
  assert (Ee' : scan_exponent (r2 ++ t) = (e, r ++ t)).
  { destruct r2 as [|c q]; [congruence|]. unfold scan_exponent in *. cbn [append].
    destruct (_ || _) eqn:C.
    2:{ injection Ee as <- <-. reflexivity. }
    assert (X : forall q', scan_sign true q = q' -> True) by trivial.
    destruct (scan_sign true q) as [sg q1] eqn:Eq. destruct (digits q1) as [d q'] eqn:D.
    destruct (String.eqb_spec d "") as [->|Nd].
    { injection Ee as <- <-. cbn in St. unfold stop in St. apply orb_prop in C. destruct C as [C|C]; apply Ascii.eqb_eq in C; subst c; discriminate. }
    injection Ee as <- <-.
    assert (Eq' : scan_sign true (q ++ t) = (sg, q1 ++ t)).
    { unfold scan_sign in *. destruct (expect "-" q) as [q2|] eqn:E1.
      - injection Eq as <- <-. now rewrite (expect_app _ _ t _ E1).
      - assert (Nq : q <> ""). { intros ->. cbn in Eq. injection Eq as <- <-. cbn in D. injection D as <- <-. congruence. }
        rewrite (expect_app_none _ _ t Nq E1). destruct (expect "+" q) as [q2|] eqn:E2.
        + injection Eq as <- <-. now rewrite (expect_app _ _ t _ E2).
        + injection Eq as <- <-. now rewrite (expect_app_none _ _ t Nq E2). }
    rewrite Eq'. rewrite (digits_app _ _ _ t D (R _ St)). destruct (String.eqb_spec d ""); [contradiction|reflexivity]. }
  assert (N1 : r1 <> "") by (intros ->; cbn in Ef; injection Ef as <- <-; congruence).
  assert (Ef' : scan_fraction (r1 ++ t) = (f, r2 ++ t)).
  { unfold scan_fraction in *. destruct (expect "." r1) as [q|] eqn:E1.
    - rewrite (expect_app _ _ t _ E1). destruct (digits q) as [d q'] eqn:D.
      destruct (String.eqb_spec d "") as [->|Nd].
      + injection Ef as <- <-. apply expect_spec in E1. subst r1. cbn in Ee. injection Ee as <- <-. discriminate St.
      + injection Ef as <- <-. rewrite (digits_app _ _ _ t D N2). destruct (String.eqb_spec d ""); [contradiction|reflexivity].
    - injection Ef as <- <-. now rewrite (expect_app_none _ _ t N1 E1). }
  assert (Ei' : scan_integer (s ++ t) = Some (i, r1 ++ t)).
  { unfold scan_integer in *. destruct (scan_sign false s) as [sg s1] eqn:Es.
    assert (Es' : scan_sign false (s ++ t) = (sg, s1 ++ t)).
    { unfold scan_sign in *. destruct (expect "-" s) as [q2|] eqn:E1.
      - injection Es as <- <-. now rewrite (expect_app _ _ t _ E1).
      - assert (Nq : s <> ""). { intros ->. cbn in Es. injection Es as <- <-. cbn in Ei. discriminate. }
        rewrite (expect_app_none _ _ t Nq E1). destruct (expect "+" s) as [q2|] eqn:E2.
        + injection Es as <- <-. now rewrite (expect_app _ _ t _ E2).
        + injection Es as <- <-. now rewrite (expect_app_none _ _ t Nq E2). }
    rewrite Es'. destruct (expect "0" s1) as [q|] eqn:E0.
    - injection Ei as <- <-. now rewrite (expect_app _ _ t _ E0).
    - destruct (digits s1) as [d q] eqn:D. destruct (String.eqb_spec d "") as [|Nd]; [discriminate|].
      injection Ei as <- <-. rewrite (digits_app _ _ _ t D N1).
      assert (Ns : s1 <> "") by (intros ->; cbn in D; injection D as <- <-; congruence).
      rewrite (expect_app_none _ _ t Ns E0). destruct (String.eqb_spec d ""); [contradiction|reflexivity]. }
  rewrite Ei', Ef', Ee'. destruct (_ && _); [|now injection H as <-].
  destruct (parse_int i); [|discriminate]. now injection H as <-.
Qed.

Lemma skip_nonempty s c r : expect c (skip s) = Some r -> skip s <> "".
Proof. intros H E. rewrite E in H. discriminate. Qed.
Lemma skip_stop s c r : expect c (skip s) = Some r -> stop c = true -> starts_with stop s = true.
Proof.
  destruct s as [|c' s]; [discriminate|]. cbn. destruct (is_blank c') eqn:E.
  - intros _ _. unfold stop. now rewrite E.
  - cbn. destruct (Ascii.eqb_spec c' c); [subst; auto|discriminate].
Qed.
Lemma more_text f t :
  (forall s v r, parse f s = Some (v, r) -> is_number v = false \/ starts_with stop r = true ->
     parse f (s ++ t) = Some (v, r ++ t)) /\
  (forall s l r, parse_items f s = Some (l, r) -> parse_items f (s ++ t) = Some (l, r ++ t)) /\
  (forall s l r, parse_members f s = Some (l, r) -> parse_members f (s ++ t) = Some (l, r ++ t)).
Proof.
  induction f as [|f (IHv & IHi & IHm)]; [repeat split; discriminate|]. split; [|split].
  - intros s v r H Hn. destruct s as [|c s]; [discriminate H|]. cbn [append]. rewrite ?parse_eq in *.
    destruct (Ascii.eqb c """").
    { destruct (scan_string s) as [[x q]|] eqn:E; [|discriminate]. injection H as <- <-.
      now rewrite (scan_string_app _ _ _ t E). }
    destruct (Ascii.eqb c "[").
    { destruct (expect "]" (skip s)) as [q|] eqn:E.
      - injection H as <- <-. rewrite skip_app by now apply skip_nonempty in E. now rewrite (expect_app _ _ t _ E).
      - destruct (parse_items f (skip s)) as [[l q]|] eqn:Ei; [|discriminate]. injection H as <- <-.
        assert (N : skip s <> "").
        { intro X. rewrite X in Ei. destruct f as [|[|f0]]; discriminate Ei. }
        rewrite skip_app by assumption. rewrite (expect_app_none _ _ t N E). now rewrite (IHi _ _ _ Ei). }
    destruct (Ascii.eqb c "{").
    { destruct (expect "}" (skip s)) as [q|] eqn:E.
      - injection H as <- <-. rewrite skip_app by now apply skip_nonempty in E. now rewrite (expect_app _ _ t _ E).
      - destruct (parse_members f (skip s)) as [[l q]|] eqn:Ei; [|discriminate]. injection H as <- <-.
        assert (N : skip s <> "").
        { intro X. rewrite X in Ei. destruct f as [|f0]; discriminate Ei. }
        rewrite skip_app by assumption. rewrite (expect_app_none _ _ t N E). now rewrite (IHm _ _ _ Ei). }
    assert (W : forall w v0, scan_word w v0 (String c s) = Some (v, r) -> scan_word w v0 (String c s ++ t) = Some (v, r ++ t)).
    { intros w v0 Hw. apply scan_word_spec in Hw. destruct Hw as (q & Eq & [= -> ->]). apply scan_word_spec. exists (q ++ t).
      split; [|reflexivity]. now rewrite Eq, app_ass. }
    destruct (Ascii.eqb c "n"); [now apply (W _ _ H)|]. destruct (Ascii.eqb c "t"); [now apply (W _ _ H)|].
    destruct (Ascii.eqb c "f"); [now apply (W _ _ H)|].
    destruct Hn as [Hn|Hn]; [|exact (scan_number_app (String c s) v r t H Hn)].
    exfalso. unfold Json.scan_number in H. destruct (scan_integer _) as [[i r1]|]; [|discriminate].
    destruct (scan_fraction r1) as [x r2]. destruct (scan_exponent r2) as [e r3]. destruct (_ && _).
    + destruct (parse_int i); [|discriminate]. injection H as <- <-. discriminate Hn.
    + injection H as <- <-. discriminate Hn.
  - intros s l r H. rewrite ?items_eq in *. destruct (parse f s) as [[v q]|] eqn:E; [|discriminate].
    destruct (expect "]" (skip q)) as [q1|] eqn:E1.
    + rewrite (IHv _ _ _ E (or_intror (skip_stop _ _ _ E1 eq_refl))). injection H as <- <-.
      rewrite skip_app by now apply skip_nonempty in E1. now rewrite (expect_app _ _ t _ E1).
    + destruct (expect "," (skip q)) as [q1|] eqn:E2; [|discriminate].
      rewrite (IHv _ _ _ E (or_intror (skip_stop _ _ _ E2 eq_refl))).
      destruct (parse_items f (skip q1)) as [[l' q2]|] eqn:E3; [|discriminate]. injection H as <- <-.
      pose proof (skip_nonempty _ _ _ E2) as N. rewrite skip_app by assumption.
      rewrite (expect_app_none _ _ t N E1), (expect_app _ _ t _ E2).
      assert (N1 : skip q1 <> ""). { intro X. rewrite X in E3. destruct f as [|[|f0]]; discriminate E3. }
      rewrite skip_app by assumption. now rewrite (IHi _ _ _ E3).
  - intros s l r H. rewrite ?members_eq in *. destruct (expect """" s) as [s1|] eqn:E0; [|discriminate].
    rewrite (expect_app _ _ t _ E0).
    destruct (scan_string s1) as [[k s2]|] eqn:Ek; [|discriminate]. rewrite (scan_string_app _ _ _ t Ek).
    destruct (expect ":" (skip s2)) as [s3|] eqn:Ec; [|discriminate].
    rewrite skip_app by now apply skip_nonempty in Ec. rewrite (expect_app _ _ t _ Ec).
    destruct (parse f (skip s3)) as [[v q]|] eqn:E; [|discriminate].
    assert (N3 : skip s3 <> ""). { intro X. rewrite X in E. destruct f as [|f0]; discriminate E. }
    rewrite (skip_app s3 t N3).
    destruct (expect "}" (skip q)) as [q1|] eqn:E1.
    + rewrite (IHv _ _ _ E (or_intror (skip_stop _ _ _ E1 eq_refl))). injection H as <- <-.
      rewrite skip_app by now apply skip_nonempty in E1. now rewrite (expect_app _ _ t _ E1).
    + destruct (expect "," (skip q)) as [q1|] eqn:E2; [|discriminate].
      rewrite (IHv _ _ _ E (or_intror (skip_stop _ _ _ E2 eq_refl))).
      destruct (parse_members f (skip q1)) as [[l' q2]|] eqn:E3; [|discriminate]. injection H as <- <-.
      pose proof (skip_nonempty _ _ _ E2) as N. rewrite (skip_app q t N).
      rewrite (expect_app_none _ _ t N E1), (expect_app _ _ t _ E2).
      assert (N1 : skip q1 <> ""). { intro X. rewrite X in E3. destruct f as [|f0]; discriminate E3. }
      rewrite skip_app by assumption. now rewrite (IHm _ _ _ E3).
Qed.


(** ** Reading back *)
Lemma fuel_value s v r : (exists f, parse f s = Some (v, r)) -> forall g, (2 * String.length s + 1 <= g)%nat -> parse g s = Some (v, r).
Proof. intros [f H]. now apply (proj1 (adequate f)). Qed.
Lemma fuel_items s v r : (exists f, parse_items f s = Some (v, r)) -> forall g, (2 * String.length s + 2 <= g)%nat -> parse_items g s = Some (v, r).
Proof. intros [f H]. now apply (proj1 (proj2 (adequate f))). Qed.
Lemma fuel_members s v r : (exists f, parse_members f s = Some (v, r)) -> forall g, (2 * String.length s + 2 <= g)%nat -> parse_members g s = Some (v, r).
Proof. intros [f H]. now apply (proj2 (proj2 (adequate f))). Qed.

Fixpoint items_text (pretty : bool) (level : nat) (vs : list json) : string :=
  match vs with [] => "" | v :: vs => separator pretty level ++ dump pretty level v ++ items_text pretty level vs end.
Fixpoint members_text (pretty : bool) (level : nat) (kvs : list (string * json)) : string :=
  match kvs with
  | [] => ""
  | (k, v) :: kvs => separator pretty level ++ quote k ++ ": " ++ dump pretty level v ++ members_text pretty level kvs
  end.
Lemma dump_arr pretty level v vs : dump pretty level (Arr (v :: vs)) =
  "[" ++ opening pretty (S level) ++ dump pretty (S level) v ++ items_text pretty (S level) vs ++ opening pretty level ++ "]".
Proof.
  cbn [Json.dump]. do 3 f_equal. f_equal.
  all: try (induction vs as [|w vs IH]; [reflexivity|]; cbn [items_text]; now rewrite <- IH).
Qed.
Lemma dump_obj pretty level k v vs : dump pretty level (Obj ((k, v) :: vs)) =
  "{" ++ opening pretty (S level) ++ quote k ++ ": " ++ dump pretty (S level) v ++ members_text pretty (S level) vs ++ opening pretty level ++ "}".
Proof.
  cbn [Json.dump]. do 5 f_equal. f_equal.
  all: try (induction vs as [|[j w] vs IH]; [reflexivity|]; cbn [members_text]; now rewrite <- IH).
Qed.

(** What a value becomes when it is written and read. *)
Context (nearest : R -> R).
Hypothesis F : python_floats repr float_of nearest.
Fixpoint rounded (v : json) : json :=
  match v with
  | Float x => Float (nearest x)
  | Arr l => Arr (map rounded l)
  | Obj l => Obj (map (fun kv => (fst kv, rounded (snd kv))) l)
  | _ => v
  end.
(** Values whose texts need no escapes and whose dicts are dicts. *)
Inductive clean : json -> Prop :=
| clean_null : clean Null
| clean_bool b : clean (Bool b)
| clean_int z : clean (Int z)
| clean_float x : clean (Float x)
| clean_str s : plain_text s = true -> clean (Str s)
| clean_arr l : Forall clean l -> clean (Arr l)
| clean_obj l : NoDup (map fst l) -> Forall (fun kv => plain_text (fst kv) = true /\ clean (snd kv)) l -> clean (Obj l).

Definition solid (c : ascii) : bool := negb (is_blank c || Ascii.eqb c "]" || Ascii.eqb c "}").
Lemma number_solid c : number_start c = true -> solid c = true.
Proof.
  intro H. unfold solid, is_blank.
  assert (X : forall c', number_start c' = false -> Ascii.eqb c c' = false).
  { intros c' H'. destruct (Ascii.eqb_spec c c'); [congruence|reflexivity]. }
  rewrite !X by reflexivity. reflexivity.
Qed.
Lemma dump_start pretty level v q : exists c r, dump pretty level v ++ q = String c r /\ solid c = true.
Proof.
  destruct v as [|b|z|x|s|[|v l]|[|[k v] l]]; try (eexists _, _; split; reflexivity).
  - destruct b; eexists _, _; split; reflexivity.
  - cbn [Json.dump]. destruct (int_text z) as (sign & i & -> & S & I). rewrite app_ass.
    destruct (literal_start sign i q S I) as (c & r & -> & H). exists c, r. auto using number_solid.
  - cbn [Json.dump]. destruct (literal _ _ _ F x) as (sign & i & f & e & -> & S & I & _). rewrite !app_ass.
    destruct (literal_start sign i (f ++ e ++ q) S I) as (c & r & -> & H). exists c, r. auto using number_solid.
Qed.
Lemma solid_skip c r : solid c = true -> skip (String c r) = String c r /\ expect "]" (String c r) = None /\ expect "}" (String c r) = None.
Proof.
  unfold solid. intro H. apply negb_true_iff in H. apply orb_false_iff in H. destruct H as [H H2]. apply orb_false_iff in H.
  destruct H as [H H1]. rewrite (skip_solid _ _ H). cbn [expect]. now rewrite H1, H2.
Qed.

Lemma sep_stop pretty level r : stopped (separator pretty level ++ r).
Proof. right. destruct pretty; reflexivity. Qed.
Lemma close_stop pretty level c r : stop c = true -> stopped (opening pretty level ++ String c r).
Proof. intro H. right. destruct pretty; [reflexivity|exact H]. Qed.
Lemma after_item pretty level l vs c r : stop c = true -> stopped (items_text pretty l vs ++ opening pretty level ++ String c r).
Proof. intro H. destruct vs; [now apply close_stop|]. cbn [items_text]. rewrite app_ass. apply sep_stop. Qed.
Lemma after_member pretty level l vs c r : stop c = true -> stopped (members_text pretty l vs ++ opening pretty level ++ String c r).
Proof. intro H. destruct vs as [|[k v] vs]; [now apply close_stop|]. cbn [members_text]. rewrite app_ass. apply sep_stop. Qed.
Lemma skip_separator pretty level r : exists q, skip (separator pretty level ++ r) = String "," q /\ skip q = skip r.
Proof.
  destruct pretty.
  - exists (newline level ++ r). split; [reflexivity|]. exact (skip_opening true level r).
  - exists (String " " r). split; reflexivity.
Qed.
Lemma sum_len (a b : nat) : (a <= b)%nat -> (2 * a + 2 <= 2 * b + 2)%nat. Proof. lia. Qed.

Definition reads (v : json) : Prop := forall pretty level rest, stopped rest ->
  exists f, parse f (dump pretty level v ++ rest) = Some (rounded v, rest).

Lemma reads_items pretty level base vs : Forall reads vs -> forall v rest, reads v ->
  exists f, parse_items f (dump pretty level v ++ items_text pretty level vs ++ opening pretty base ++ String "]" rest)
    = Some (map rounded (v :: vs), rest).
Proof.
  induction 1 as [|w vs Hw Hvs IH]; intros v rest Hv.
  - destruct (Hv pretty level (opening pretty base ++ String "]" rest)) as [f Hf].
    { now apply close_stop. }
    exists (S f). rewrite items_eq. cbn [items_text append]. rewrite Hf.
    rewrite skip_opening, skip_solid, expect_same by reflexivity. reflexivity.
  - set (tail := items_text pretty level vs ++ opening pretty base ++ String "]" rest) in *.
    destruct (Hv pretty level (separator pretty level ++ dump pretty level w ++ tail)) as [f Hf].
    { apply sep_stop. }
    destruct (IH w rest Hw) as [g Hg]. fold tail in Hg.
    destruct (skip_separator pretty level (dump pretty level w ++ tail)) as (q & Eq & Sq).
    destruct (dump_start pretty level w tail) as (c & r & Ec & Sc).
    assert (Sk : skip q = dump pretty level w ++ tail).
    { rewrite Sq, Ec. now apply solid_skip. }
    set (text := dump pretty level v ++ items_text pretty level (w :: vs) ++ opening pretty base ++ String "]" rest).
    assert (Et : text = dump pretty level v ++ separator pretty level ++ dump pretty level w ++ tail).
    { unfold text, tail. cbn [items_text]. now rewrite !app_ass. }
    exists (S (2 * String.length text + 2)). rewrite items_eq. rewrite Et at 2.
    rewrite (fuel_value _ _ _ (ex_intro _ f Hf)) by (rewrite Et; lia). rewrite Eq.
    rewrite (expect_other "]") by discriminate. rewrite expect_same, Sk.
    rewrite (fuel_items _ _ _ (ex_intro _ g Hg)); [reflexivity|].
    apply sum_len. rewrite Et, !app_len. lia.
Qed.
Lemma reads_members pretty level base vs :
  Forall (fun kv => plain_text (fst kv) = true /\ reads (snd kv)) vs -> forall k v rest, plain_text k = true -> reads v ->
  exists f, parse_members f (quote k ++ ": " ++ dump pretty level v ++ members_text pretty level vs ++ opening pretty base ++ String "}" rest)
    = Some (map (fun kv => (fst kv, rounded (snd kv))) ((k, v) :: vs), rest).
Proof.
  assert (Q : forall k r, expect """" (quote k ++ r) = Some (k ++ String """" r)).
  { intros k r. unfold quote. cbn [append]. rewrite app_ass. apply expect_same. }
  assert (K : forall v r, skip (": " ++ r) = ": " ++ r /\ expect ":" (": " ++ r) = Some (String " " r) /\
    skip (String " " (dump pretty level v ++ r)) = dump pretty level v ++ r).
  { intros v r. repeat split. destruct (dump_start pretty level v r) as (c & q & -> & Sc).
    change (skip (String c q) = String c q). now apply solid_skip. }
  induction 1 as [|[k' w] vs [Hk' Hw] Hvs IH]; intros k v rest Hk Hv.
  - destruct (Hv pretty level (opening pretty base ++ String "}" rest)) as [f Hf].
    { now apply close_stop. }
    exists (S f). rewrite members_eq, Q, scan_quote by assumption. cbn [members_text].
    match goal with |- context [dump pretty level v ++ ?r] => destruct (K v r) as (K1 & K2 & K3) end.
    change ("" ++ opening pretty base ++ String "}" rest) with (opening pretty base ++ String "}" rest) in *.
    destruct (K v (opening pretty base ++ String "}" rest)) as (_ & _ & K4).
    rewrite (proj1 (K v _)), (proj1 (proj2 (K v _))), K4, Hf.
    rewrite skip_opening, skip_solid, expect_same by reflexivity. reflexivity.
  - set (tail := members_text pretty level vs ++ opening pretty base ++ String "}" rest) in *.
    destruct (Hv pretty level (separator pretty level ++ quote k' ++ ": " ++ dump pretty level w ++ tail)) as [f Hf].
    { apply sep_stop. }
    destruct (IH k' w rest Hk' Hw) as [g Hg]. fold tail in Hg.
    destruct (skip_separator pretty level (quote k' ++ ": " ++ dump pretty level w ++ tail)) as (q & Eq & Sq).
    assert (Sk : skip q = quote k' ++ ": " ++ dump pretty level w ++ tail).
    { rewrite Sq. reflexivity. }
    set (text := quote k ++ ": " ++ dump pretty level v ++ members_text pretty level ((k', w) :: vs) ++ opening pretty base ++ String "}" rest).
    assert (Et : text = quote k ++ ": " ++ dump pretty level v ++ separator pretty level ++ quote k' ++ ": " ++ dump pretty level w ++ tail).
    { unfold text, tail. cbn [members_text]. now rewrite !app_ass. }
    exists (S (2 * String.length text + 2)). rewrite members_eq. rewrite Et at 1.
    rewrite Q, scan_quote by assumption. rewrite (proj1 (K v _)), (proj1 (proj2 (K v _))), (proj2 (proj2 (K v _))).
    rewrite (fuel_value _ _ _ (ex_intro _ f Hf)).
    2:{ rewrite Et, !app_len. lia. }
    rewrite Eq. rewrite (expect_other "}") by discriminate. rewrite expect_same, Sk.
    rewrite (fuel_members _ _ _ (ex_intro _ g Hg)); [reflexivity|].
    apply sum_len. rewrite Et, !app_len. lia.
Qed.

Lemma dict_set_new {V} k (v : V) d : ~ In k (map fst d) -> dict_set k v d = (d ++ [(k, v)])%list.
Proof.
  induction d as [|[k' v'] d IH]; [reflexivity|]. cbn. intro N. destruct (String.eqb_spec k' k); [tauto|].
  rewrite IH; tauto.
Qed.
Lemma dict_of_id {V} (l : list (string * V)) : NoDup (map fst l) -> dict_of l = l.
Proof.
  unfold dict_of. change l with ([] ++ l)%list at 1 3. generalize (@nil (string * V)) as d. induction l as [|[k v] l IH]; intros d N.
  - now rewrite List.app_nil_r.
  - cbn [fold_left fst snd]. rewrite map_app in N. cbn in N. rewrite dict_set_new.
    + rewrite IH; [now rewrite <- List.app_assoc|]. rewrite <- List.app_assoc, map_app. exact N.
    + intro I. apply NoDup_remove_2 in N. apply N, in_or_app. now left.
Qed.

Lemma reads_clean v : clean v -> reads v.
Proof.
  induction v as [|b|z|x|s|l IH|l IH] using json_rect'; intros C pretty level rest R.
  - exists 1%nat. cbn [Json.dump append]. rewrite parse_eq. apply (proj2 (scan_word_spec "null" _ _ _)). now exists rest.
  - exists 1%nat. destruct b; cbn [Json.dump append]; rewrite parse_eq.
    + apply (proj2 (scan_word_spec "true" _ _ _)). now exists rest.
    + apply (proj2 (scan_word_spec "false" _ _ _)). now exists rest.
  - exists 1%nat. cbn [Json.dump rounded]. destruct (int_text z) as (sign & i & E & S & I).
    destruct (literal_start sign i rest S I) as (c & r & Ec & H). rewrite E, app_ass, Ec, (number_dispatch _ _ _ H), <- Ec, <- app_ass, <- E.
    now apply scan_int.
  - exists 1%nat. cbn [Json.dump rounded]. pose proof (literal _ _ _ F x) as L. pose proof L as (sign & i & f & e & E & S & I & _).
    destruct (literal_start sign i (f ++ e ++ rest) S I) as (c & r & Ec & H).
    assert (E' : repr x ++ rest = String c r) by (rewrite E, !app_ass; exact Ec).
    rewrite E', (number_dispatch _ _ _ H), <- E', (scan_float _ _ L R). now rewrite (read_back _ _ _ F).
  - exists 1%nat. inversion C as [| | | |s' P| |]; subst. cbn [Json.dump rounded quote append]. rewrite parse_eq, app_ass.
    cbn [Ascii.eqb Bool.eqb append]. now rewrite (scan_quote _ _ P).
  - inversion C as [| | | | |l' Cl|]; subst. destruct l as [|v vs]; [exists 1%nat; reflexivity|].
    assert (Rl : Forall reads (v :: vs)). { rewrite Forall_forall in *. auto. }
    inversion Rl as [|? ? Rv Rvs]; subst.
    destruct (reads_items pretty (S level) level vs Rvs v rest Rv) as [f Hf]. exists (S f).
    rewrite dump_arr. rewrite !app_ass. cbn [append]. rewrite parse_eq. cbn [Ascii.eqb Bool.eqb]. rewrite skip_opening.
    match type of Hf with Json.parse_items _ _ (dump _ _ _ ++ ?t) = _ => destruct (dump_start pretty (S level) v t) as (c & r & Ec & Sc) end.
    rewrite Ec in *. destruct (solid_skip c r Sc) as (-> & -> & _). rewrite Hf. reflexivity.
  - inversion C as [| | | | | |l' N Cl]; subst. destruct l as [|[k v] vs]; [exists 1%nat; reflexivity|].
    assert (Rl : Forall (fun kv => plain_text (fst kv) = true /\ reads (snd kv)) ((k, v) :: vs)).
    { rewrite Forall_forall in *. intros kv I. destruct (Cl kv I). split; [assumption|]. now apply (IH kv I). }
    inversion Rl as [|? ? [Hk Rv] Rvs]; subst. cbn [fst snd] in *.
    destruct (reads_members pretty (S level) level vs Rvs k v rest Hk Rv) as [f Hf]. exists (S f).
    rewrite dump_obj. rewrite !app_ass. cbn [append]. rewrite parse_eq. cbn [Ascii.eqb Bool.eqb]. rewrite skip_opening.
    cbn [append] in Hf.
    change (skip (quote k ++ ?t)) with (quote k ++ t). 
    match goal with |- context [expect "}" ?t] => replace (expect "}" t) with (@None string) by reflexivity end.
    rewrite Hf. rewrite dict_of_id; [reflexivity|]. rewrite map_map. exact N.
Qed.

Lemma load_dump pretty v : clean v -> load (dump pretty 0 v) = Some (rounded v).
Proof.
  intro C. unfold Json.load. destruct (dump_start pretty 0 v "") as (c & r & E & Sc). rewrite app_nil in E.
  assert (Sk : skip (dump pretty 0 v) = dump pretty 0 v) by (rewrite E; now apply solid_skip). rewrite Sk.
  destruct (reads_clean v C pretty 0%nat "" (or_introl eq_refl)) as [f Hf]. rewrite app_nil in Hf.
  rewrite (fuel_value _ _ _ (ex_intro _ f Hf)) by lia. reflexivity.
Qed.
(** A list that is not complete is refused. *)
Lemma load_cut pretty l p q : clean (Arr l) -> dump pretty 0 (Arr l) = p ++ q -> q <> "" -> load p = None.
Proof.
  intros C E N. unfold Json.load. destruct (parse _ (skip p)) as [[v r]|] eqn:Ep; [|reflexivity].
  destruct (String.eqb_spec (skip r) "") as [Er|]; [exfalso|reflexivity].
  assert (H : exists d, dump pretty 0 (Arr l) = String "[" d).
  { destruct l; [eexists; reflexivity|]. rewrite dump_arr. eexists; reflexivity. }
  destruct H as [d Ed]. destruct p as [|c p]; [discriminate Ep|].
  assert (c = "["%char) by (rewrite Ed in E; now injection E). subst c.
  change (skip (String "[" p)) with (String "[" p) in Ep.
  destruct (2 * String.length (String "[" p) + 2)%nat as [|f] eqn:Ef; [discriminate|].
  assert (Nv : is_number v = false).
  { rewrite parse_eq in Ep. cbn [Ascii.eqb Bool.eqb] in Ep. destruct (expect "]" (skip p)); [now injection Ep as <-|].
    destruct (parse_items f (skip p)) as [[l' r']|]; [|discriminate]. now injection Ep as <-. }
  pose proof (proj1 (more_text (S f) q) _ _ _ Ep (or_introl Nv)) as M. rewrite <- E in M.
  destruct (reads_clean _ C pretty 0%nat "" (or_introl eq_refl)) as [g Hg]. rewrite app_nil in Hg.
  pose proof (fuel_value _ _ _ (ex_intro _ _ M) _ (le_n _)) as M1.
  pose proof (fuel_value _ _ _ (ex_intro _ _ Hg) _ (le_n _)) as M2. rewrite M1 in M2. injection M2 as _ M2.
  symmetry in M2. apply eq_sym, app_empty in M2. tauto.
Qed.

(** ** Results *)
Lemma clean_state s : clean (encode_state s).
Proof.
  apply clean_obj.
  - cbn. repeat constructor; cbn; intuition discriminate.
  - repeat constructor.
Qed.
Lemma clean_result r : clean (encode_result r).
Proof.
  apply clean_obj.
  - cbn. repeat constructor; cbn; intuition discriminate.
  - repeat (apply Forall_cons; [split; [reflexivity|]|]); try constructor; cbn.
    apply Forall_forall. intros v I. apply in_map_iff in I. destruct I as (s & <- & _). apply clean_state.
Qed.
Lemma clean_results rs : clean (Arr (map encode_result rs)).
Proof. apply clean_arr, Forall_forall. intros v I. apply in_map_iff in I. destruct I as (r & <- & _). apply clean_result. Qed.
Lemma rounded_result r : rounded (encode_result r) = result_record nearest true r.
Proof. unfold encode_result, result_record. cbn [rounded map fst snd]. rewrite map_map. reflexivity. Qed.
Lemma load_results pretty rs : load (result_text repr pretty rs) = Some (Arr (map (result_record nearest true) rs)).
Proof.
  unfold result_text. rewrite load_dump by apply clean_results. cbn [rounded]. rewrite map_map.
  do 2 f_equal. apply map_ext, rounded_result.
Qed.
Lemma rounded_record b r : rounded (result_record nearest b r) = result_record nearest b r.
Proof.
  unfold result_record. cbn [rounded map fst snd]. rewrite !(is_float _ _ _ F). destruct b; [|reflexivity].
  rewrite map_map.
  rewrite (map_ext (fun s => rounded (place_record nearest s)) (place_record nearest)); [reflexivity|].
  intro s. unfold place_record. cbn [rounded map fst snd]. now rewrite !(is_float _ _ _ F).
Qed.
Lemma clean_record b r : clean (result_record nearest b r).
Proof.
  apply clean_obj.
  - cbn. repeat constructor; cbn; intuition discriminate.
  - repeat (apply Forall_cons; [split; [reflexivity|]|]); try constructor; cbn.
    destruct b; [|constructor]. apply Forall_forall. intros v I. apply in_map_iff in I. destruct I as (s & <- & _).
    apply clean_obj; [|repeat constructor]. cbn. repeat constructor; cbn; intuition discriminate.
Qed.
Lemma clean_records b rs : clean (Arr (map (result_record nearest b) rs)).
Proof. apply clean_arr, Forall_forall. intros v I. apply in_map_iff in I. destruct I as (r & <- & _). apply clean_record. Qed.
Lemma load_records pretty b rs :
  load (dump pretty 0 (Arr (map (result_record nearest b) rs))) = Some (Arr (map (result_record nearest b) rs)).
Proof.
  rewrite load_dump by apply clean_records. cbn [rounded]. rewrite map_map. do 2 f_equal. apply map_ext, rounded_record.
Qed.

(** ** Combining *)
Lemma load_all_results fs gs :
  Forall2 (fun f g => exists pretty, snd f = result_text repr pretty g) fs gs -> forall data,
  load_all float_of data fs = Some (data ++ map (result_record nearest true) (concat gs))%list.
Proof.
  induction 1 as [|[n t] g fs gs [pretty H] _ IH]; intro data; [cbn; now rewrite List.app_nil_r|].
  cbn [load_all]. cbn [snd] in H. subst t. rewrite load_results. cbn [extend]. rewrite IH. cbn [concat].
  now rewrite map_app, List.app_assoc.
Qed.
Lemma load_all_refused fs n t : In (n, t) fs -> load t = None -> forall data, load_all float_of data fs = None.
Proof.
  induction fs as [|[n' t'] fs IH]; [contradiction|]. intros [[= -> ->]|I] L data; cbn [load_all].
  - now rewrite L.
  - destruct (load t'); [|reflexivity]. destruct (extend data j); [|reflexivity]. now apply IH.
Qed.
Lemma keyed_records b rs : keyed (map (result_record nearest b) rs) = Some (map (fun r => (r_seed r, result_record nearest b r)) rs).
Proof. induction rs as [|r rs IH]; [reflexivity|]. cbn [map keyed]. rewrite IH. reflexivity. Qed.
Lemma insert_keyed_map (f : eval_result -> json) r l :
  insert_keyed (r_seed r, f r) (map (fun r => (r_seed r, f r)) l) = map (fun r => (r_seed r, f r)) (insert_result r l).
Proof. induction l as [|q l IH]; [reflexivity|]. cbn. destruct (_ <=? _)%Z; [reflexivity|]. cbn. now rewrite IH. Qed.
Lemma sorted_by_key_map (f : eval_result -> json) l :
  sorted_by_key (map (fun r => (r_seed r, f r)) l) = map f (sort_results l).
Proof.
  unfold sorted_by_key, sort_results. transitivity (map snd (map (fun r => (r_seed r, f r)) (fold_right insert_result [] l))).
  - f_equal. induction l as [|r l IH]; [reflexivity|]. cbn [map fold_right]. now rewrite IH, insert_keyed_map.
  - now rewrite map_map.
Qed.
Lemma drop_path_record r : drop_path (result_record nearest true r) = result_record nearest false r.
Proof. reflexivity. Qed.

End Text.
