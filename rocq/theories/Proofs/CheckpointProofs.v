(** Names of checkpoints. *)
From Coq Require Import ZArith List Bool Lia String Ascii DecimalString Decimal DecimalZ DecimalFacts
  DecimalPos DecimalN.
From Verif Require Import Model.PyString Model.Checkpoints Spec.CheckpointSpec Proofs.StringProofs.
Import ListNotations.
Open Scope string_scope.

(** ** Decimal strings *)
Fixpoint uint_value (acc : Z) (d : uint) : Z :=
  match d with
  | Nil => acc
  | D0 d => uint_value (10 * acc) d | D1 d => uint_value (10 * acc + 1) d
  | D2 d => uint_value (10 * acc + 2) d | D3 d => uint_value (10 * acc + 3) d
  | D4 d => uint_value (10 * acc + 4) d | D5 d => uint_value (10 * acc + 5) d
  | D6 d => uint_value (10 * acc + 6) d | D7 d => uint_value (10 * acc + 7) d
  | D8 d => uint_value (10 * acc + 8) d | D9 d => uint_value (10 * acc + 9) d
  end%Z.
Lemma of_uint_acc_value d : forall p, Z.pos (Pos.of_uint_acc d p) = uint_value (Z.pos p) d.
Proof.
  induction d; intro p; cbn [Pos.of_uint_acc uint_value]; rewrite ?IHd; [reflexivity|..];
    f_equal; lia.
Qed.
Lemma of_uint_value d : Z.of_uint d = uint_value 0 d.
Proof.
  unfold Z.of_uint. induction d; cbn [Pos.of_uint uint_value Z.of_N]; try (rewrite of_uint_acc_value; f_equal; lia); auto.
Qed.
Lemma string_value d : forall acc, value_from acc (NilEmpty.string_of_uint d) = uint_value acc d.
Proof.
  induction d; intro acc; cbn [NilEmpty.string_of_uint value_from uint_value]; [reflexivity|..];
    rewrite IHd; f_equal; unfold digit_value; cbn; lia.
Qed.
Lemma string_digits d : all_digits (NilEmpty.string_of_uint d).
Proof. induction d; cbn; auto; split; auto; unfold digit_value; cbn; lia. Qed.
Lemma nilzero d : d <> Nil -> NilZero.string_of_uint d = NilEmpty.string_of_uint d.
Proof. destruct d; [contradiction|reflexivity..]. Qed.

Lemma to_int_nonneg n : (0 <= n)%Z -> exists d, Z.to_int n = Decimal.Pos d /\ d <> Nil /\ uint_value 0 d = n /\
  (n <> 0 -> forall d', d <> D0 d')%Z.
Proof.
  intro H. destruct n as [|p|p]; [|  |lia].
  - exists (D0 Nil). repeat split; try discriminate. intros; lia.
  - exists (Pos.to_uint p). split; [reflexivity|]. split; [apply DecimalPos.Unsigned.to_uint_nonnil|].
    split. { rewrite <- of_uint_value. unfold Z.of_uint. rewrite DecimalPos.Unsigned.of_to. reflexivity. }
    intros _ d' E. pose proof (DecimalN.Unsigned.to_of (N.to_uint (N.pos p))) as K.
    rewrite DecimalN.Unsigned.of_to in K. cbn [N.to_uint] in K.
    pose proof (DecimalPos.Unsigned.of_to p) as V. rewrite E in K, V. unfold unorm in K. cbn [nzhead] in K.
    destruct (nzhead d') as [|u|u|u|u|u|u|u|u|u|u] eqn:Z; try discriminate K.
    + injection K as ->. discriminate V.
    + exact (nzhead_nonzero _ _ Z).
Qed.

Lemma value_bounds s : forall acc, all_digits s ->
  (acc * 10 ^ Z.of_nat (String.length s) <= value_from acc s < (acc + 1) * 10 ^ Z.of_nat (String.length s))%Z.
Proof.
  induction s as [|c s IH]; intros acc H; [cbn; lia|]. destruct H as [Hc H].
  specialize (IH (10 * acc + digit_value c)%Z H). cbn [value_from String.length].
  rewrite Nat2Z.inj_succ, Z.pow_succ_r by lia.
  assert (0 < 10 ^ Z.of_nat (String.length s))%Z by (apply Z.pow_pos_nonneg; lia). nia.
Qed.
Lemma digit_value_inj c c' : digit_value c = digit_value c' -> c = c'.
Proof.
  unfold digit_value. intro H. rewrite <- (ascii_nat_embedding c), <- (ascii_nat_embedding c').
  f_equal. lia.
Qed.
Lemma value_inj s : forall s' acc acc', String.length s = String.length s' -> all_digits s -> all_digits s' ->
  value_from acc s = value_from acc' s' -> acc = acc' /\ s = s'.
Proof.
  induction s as [|c s IH]; intros [|c' s'] acc acc' L H H' E; try discriminate; [auto|].
  destruct H as [Hc H], H' as [Hc' H']. cbn in L. injection L as L.
  destruct (IH s' _ _ L H H' E) as [A ->]. assert (acc = acc') by lia. subst acc'. split; [reflexivity|].
  f_equal. apply digit_value_inj. lia.
Qed.
Lemma written_unique n s s' : written n s -> written n s' -> s = s'.
Proof.
  assert (K : forall s s', written n s -> written n s' -> (String.length s < String.length s')%nat -> False).
  { clear. intros s s' (D & V & L & _) (D' & V' & L' & N') Hl.
    destruct N' as (c & r & -> & P); [lia|]. destruct D' as [Hc D'].
    pose proof (value_bounds s 0 D) as B. cbn [value_from] in V'.
    pose proof (value_bounds r (10 * 0 + digit_value c) D') as B'. cbn [String.length] in Hl.
    assert (10 ^ Z.of_nat (String.length s) <= 10 ^ Z.of_nat (String.length r))%Z by (apply Z.pow_le_mono_r; lia).
    nia. }
  intros W W'. destruct (Nat.lt_trichotomy (String.length s) (String.length s')) as [H|[H|H]].
  - destruct (K _ _ W W' H).
  - destruct W as (D & V & _), W' as (D' & V' & _).
    apply (value_inj s s' 0 0 H D D'). congruence.
  - destruct (K _ _ W' W H).
Qed.

Lemma zeros_length k : String.length (zeros k) = k.
Proof. induction k; cbn; congruence. Qed.
Lemma zeros_digits k s : all_digits s -> all_digits (zeros k ++ s).
Proof. intro H. induction k; cbn; auto. split; [unfold digit_value; cbn; lia|assumption]. Qed.
Lemma zeros_value k s : value_from 0 (zeros k ++ s) = value_from 0 s.
Proof. induction k; cbn; auto. Qed.
Lemma format_written n : (0 <= n)%Z -> written n (format_05d n).
Proof.
  intro H. destruct (Z.eq_dec n 0) as [->|N0].
  { repeat split; try (unfold digit_value; cbn; lia). }
  unfold format_05d. destruct (Z.ltb_spec n 0); [lia|]. rewrite Z.abs_eq by assumption.
  unfold str_of_int. destruct (to_int_nonneg n H) as (d & -> & Hd & Hv & Hz).
  cbn [NilZero.string_of_int]. rewrite nilzero by assumption.
  set (s := NilEmpty.string_of_uint d).
  assert (Ds : all_digits s) by apply string_digits.
  assert (Vs : value_from 0 s = n) by (unfold s; now rewrite string_value).
  split; [now apply zeros_digits|]. split; [now rewrite zeros_value|].
  rewrite append_length, zeros_length. split; [lia|].
  intro L. replace (5 - String.length s)%nat with 0%nat by lia. cbn [zeros append].
  destruct s as [|c r] eqn:Es; [cbn in L; lia|]. exists c, r. split; [reflexivity|].
  destruct d; try discriminate Es; cbn in Es; injection Es as <- <-; try (unfold digit_value; cbn; lia).
  destruct (Hz N0 d eq_refl).
Qed.
Lemma format_negative n : (n < 0)%Z -> exists s, format_05d n = "-" ++ s /\
  all_digits s /\ value_from 0 s = (- n)%Z /\ (4 <= String.length s)%nat /\
  (String.length s > 4 -> exists c r, s = String c r /\ (0 < digit_value c)%Z)%nat.
Proof.
  intro H. unfold format_05d. destruct (Z.ltb_spec n 0); [|lia]. rewrite Z.abs_neq by lia.
  unfold str_of_int. destruct (to_int_nonneg (- n) ltac:(lia)) as (d & -> & Hd & Hv & Hz).
  cbn [NilZero.string_of_int]. rewrite nilzero by assumption.
  set (s := NilEmpty.string_of_uint d).
  assert (Ds : all_digits s) by apply string_digits.
  assert (Vs : value_from 0 s = (- n)%Z) by (unfold s; now rewrite string_value).
  eexists. split; [reflexivity|].
  split; [now apply zeros_digits|]. split; [now rewrite zeros_value|].
  rewrite append_length, zeros_length. split; [lia|].
  intro L. replace (4 - String.length s)%nat with 0%nat by lia. cbn [zeros append].
  destruct s as [|c r] eqn:Es; [cbn in L; lia|]. exists c, r. split; [reflexivity|].
  destruct d; try discriminate Es; cbn in Es; injection Es as <- <-; try (unfold digit_value; cbn; lia).
  destruct (Hz ltac:(lia) d eq_refl).
Qed.

(** ** int() *)
Lemma digit_spec c : (0 <= digit_value c <= 9)%Z -> digit c = Some (digit_value c).
Proof.
  unfold digit, digit_value. intro H.
  destruct (Nat.leb_spec 48 (nat_of_ascii c)), (Nat.leb_spec (nat_of_ascii c) 57); cbn; try reflexivity; lia.
Qed.
Lemma digit_not_space c : (0 <= digit_value c <= 9)%Z -> is_space c = false.
Proof.
  unfold is_space, digit_value. intro H.
  destruct (Nat.eqb_spec (nat_of_ascii c) 32), (Nat.leb_spec 9 (nat_of_ascii c)), (Nat.leb_spec (nat_of_ascii c) 13),
    (Nat.leb_spec 28 (nat_of_ascii c)), (Nat.leb_spec (nat_of_ascii c) 31); cbn; try reflexivity; lia.
Qed.
Lemma parse_digits_value s : forall acc b, all_digits s -> s <> "" \/ b = true ->
  parse_digits s acc b = Some (value_from acc s).
Proof.
  induction s as [|c s IH]; intros acc b H [N| ->]; try contradiction; try reflexivity;
    destruct H as [Hc H]; cbn [parse_digits value_from]; rewrite (digit_spec c Hc); auto.
Qed.
Lemma rstrip_digits s : all_digits s -> rstrip s = s.
Proof.
  induction s as [|c s IH]; [reflexivity|]. intros [Hc H]. cbn. rewrite (IH H), (digit_not_space c Hc).
  now rewrite andb_false_r.
Qed.
Lemma lstrip_digits s : all_digits s -> lstrip s = s.
Proof. destruct s as [|c s]; [reflexivity|]. intros [Hc H]. cbn. now rewrite (digit_not_space c Hc). Qed.
Lemma parse_int_digits s : all_digits s -> s <> "" -> parse_int s = Some (value_from 0 s).
Proof.
  intros H N. unfold parse_int. rewrite (lstrip_digits s H), (rstrip_digits s H).
  destruct s as [|c s]; [contradiction|].
  rewrite <- (parse_digits_value (String c s) 0 false H) by (left; discriminate). destruct H as [Hc H].
  destruct c as [[] [] [] [] [] [] [] []]; try reflexivity; unfold digit_value in Hc; cbn in Hc; lia.
Qed.
Lemma parse_int_written n s : written n s -> parse_int s = Some n.
Proof.
  intros (D & <- & L & _). apply parse_int_digits; [assumption|]. intros ->. cbn in L. lia.
Qed.

(** ** glob *)
Lemma drop_append p s : drop (String.length p) (p ++ s) = s.
Proof.
  unfold drop. rewrite append_length. replace (_ - _)%nat with (String.length s) by lia.
  now apply substring_tail.
Qed.
Lemma take_append p s : take (String.length p) (p ++ s) = p.
Proof. unfold take. induction p as [|c p IH]; cbn; [destruct s; reflexivity|]. now rewrite IH. Qed.
Lemma take_drop n s : (n <= String.length s)%nat -> s = take n s ++ drop n s.
Proof. intro H. unfold take, drop. apply substring_split. lia. Qed.

Lemma globbed_iff name : globbed name = true <-> exists s, name = "checkpoint_" ++ s ++ ".pkl".
Proof.
  unfold globbed. rewrite !andb_true_iff, Nat.leb_le, String.eqb_eq. split.
  - intros (H1 & H2 & H3). destruct (prefix_split _ _ H1) as (r & ->).
    rewrite drop_append in H2, H3. exists (take (String.length r - 4) r). rewrite <- H3, <- take_drop by lia. reflexivity.
  - intros (s & ->). split; [apply prefix_append|]. rewrite drop_append, append_length. cbn [String.length].
    split; [lia|]. replace (_ + 4 - 4)%nat with (String.length s) by lia. apply drop_append.
Qed.
Definition no_char (c : ascii) : string -> Prop :=
  fix go s := match s with "" => True | String d r => d <> c /\ go r end.
Lemma no_char_app c a b : no_char c (a ++ b) <-> no_char c a /\ no_char c b.
Proof. induction a as [|d a IH]; cbn; tauto. Qed.
Lemma rfind_none c sub s : no_char c s -> rfind (String c sub) s = None.
Proof.
  induction s as [|d s IH]; intro H; [reflexivity|]. destruct H as [N H]. cbn [rfind]. rewrite (IH H).
  cbn [prefix]. destruct (ascii_dec c d) as [->|]; [contradiction|reflexivity].
Qed.
Lemma digits_no_char c s : all_digits s -> ~ (0 <= digit_value c <= 9)%Z -> no_char c s.
Proof.
  induction s as [|d s IH]; intros H N; [exact I|]. destruct H as [Hd H]. cbn. split; [|auto].
  intros ->. contradiction.
Qed.
Lemma rfind_checkpoint s : all_digits s -> rfind "checkpoint_" ("checkpoint_" ++ s ++ ".pkl") = Some 0%nat.
Proof.
  intro H. assert (N : rfind "checkpoint_" (s ++ ".pkl") = None).
  { apply rfind_none, no_char_app. split; [|cbn; repeat split; discriminate].
    apply digits_no_char; [assumption|]. unfold digit_value. cbn. lia. }
  cbn [append]. cbn [rfind]. rewrite N. destruct s; reflexivity.
Qed.
Lemma substring_mid p s q : substring (String.length p) (String.length s) (p ++ s ++ q) = s.
Proof.
  induction p as [|c p IH]; cbn [append String.length]; [|exact IH].
  induction s as [|d s IH]; cbn; [destruct q; reflexivity|]. now rewrite IH.
Qed.
Lemma extract_written n s : written n s -> extract_episode ("checkpoint_" ++ s ++ ".pkl") = Some n.
Proof.
  intro W. pose proof W as (D & _). unfold extract_episode. rewrite (rfind_checkpoint s D).
  rewrite !append_length. change (String.length "checkpoint_") with 11%nat. change (String.length ".pkl") with 4%nat.
  replace (11 + (String.length s + 4) - 4 - (0 + 11))%nat with (String.length s) by lia.
  change (0 + 11)%nat with (String.length "checkpoint_"). rewrite substring_mid. now apply parse_int_written.
Qed.
Lemma checkpoint_of_iff n name : (0 <= n)%Z -> is_checkpoint_of n name <-> name = checkpoint_name n.
Proof.
  intro H. split.
  - intros (s & W & ->). unfold checkpoint_name. now rewrite (written_unique n s (format_05d n) W (format_written n H)).
  - intros ->. exists (format_05d n). split; [now apply format_written|reflexivity].
Qed.
Lemma written_nonneg n s : written n s -> (0 <= n)%Z.
Proof.
  intros (D & <- & _). pose proof (value_bounds s 0 D). lia.
Qed.

Lemma max_episode_spec l : (forall n, In n l -> exists k, extract_episode n = Some k) -> l <> [] ->
  exists m, max_episode l = Some m /\ (exists n, In n l /\ extract_episode n = Some m) /\
    forall n k, In n l -> extract_episode n = Some k -> (k <= m)%Z.
Proof.
  induction l as [|a l IH]; [contradiction|]. intros H _.
  destruct (H a (or_introl eq_refl)) as (ka & Ea).
  destruct l as [|b l].
  - exists ka. split; [exact Ea|]. split; [exists a; split; [now left|assumption]|].
    intros n k [<-|[]] E. rewrite Ea in E. injection E as ->. lia.
  - destruct IH as (m & Em & (n & In_n & En) & Hm); [intros; apply H; now right|discriminate|].
    exists (Z.max ka m). change (max_episode (a :: b :: l)) with
      (match extract_episode a, max_episode (b :: l) with Some x, Some y => Some (Z.max x y) | _, _ => None end).
    rewrite Ea, Em. split; [reflexivity|]. split.
    + destruct (Z.max_spec ka m) as [[_ ->]|[_ ->]]; [exists n|exists a]; (split; [|assumption]); [now right|now left].
    + intros n' k [<-|I] E; [rewrite Ea in E; injection E as ->; lia|]. specialize (Hm n' k I E). lia.
Qed.
Lemma max_episode_none l n : In n l -> extract_episode n = None -> max_episode l = None.
Proof.
  induction l as [|a l IH]; [contradiction|]. intros I E. destruct l as [|b l].
  - destruct I as [<-|[]]. exact E.
  - change (max_episode (a :: b :: l)) with
      (match extract_episode a, max_episode (b :: l) with Some x, Some y => Some (Z.max x y) | _, _ => None end).
    destruct I as [<-|I]; [now rewrite E|]. rewrite (IH I E). now destruct (extract_episode a).
Qed.

(** ** _is_checkpoint_name *)
Lemma rfind_dot a : rfind "." (a ++ ".pkl") = Some (String.length a).
Proof. induction a as [|c a IH]; [reflexivity|]. cbn [append rfind String.length]. now rewrite IH. Qed.
Lemma dot_pkl a : a <> "" -> dot (a ++ ".pkl") = Some (String.length a).
Proof.
  intro N. unfold dot. rewrite rfind_dot, append_length. change (String.length ".pkl") with 4%nat.
  destruct (Nat.ltb_spec 0 (String.length a)) as [H|H].
  - destruct (Nat.ltb_spec (String.length a) (String.length a + 4 - 1)); [reflexivity|lia].
  - destruct a; [contradiction|cbn in H; lia].
Qed.
Lemma suffix_pkl name : suffix name = ".pkl" <-> exists a, a <> "" /\ name = a ++ ".pkl".
Proof.
  split.
  - unfold suffix, dot. destruct (rfind "." name) as [i|] eqn:E; [|discriminate].
    destruct (Nat.ltb_spec 0 i) as [Hi|]; [|discriminate].
    destruct (Nat.ltb_spec i (String.length name - 1)) as [Hi2|]; [|discriminate].
    cbn [andb]. intro D. exists (take i name). rewrite <- D, <- take_drop by lia. split; [|reflexivity].
    destruct name; [cbn in Hi2; lia|]. destruct i; [lia|]. discriminate.
  - intros (a & N & ->). unfold suffix. rewrite (dot_pkl a N). apply drop_append.
Qed.
Lemma stem_pkl a : a <> "" -> stem (a ++ ".pkl") = a.
Proof. intro N. unfold stem. rewrite (dot_pkl a N). apply take_append. Qed.
Lemma split_nonempty c s : split c s <> [].
Proof. destruct s as [|d s]; cbn; [discriminate|]. destruct (d =? c)%char; [discriminate|]. destruct (split c s); discriminate. Qed.
Lemma split_none c s : split c s = [s] <-> no_char c s.
Proof.
  induction s as [|d s IH]; cbn; [tauto|]. destruct (Ascii.eqb_spec d c) as [->|N].
  - split; [intros [= E]; destruct (split_nonempty c s E)|tauto].
  - destruct (split c s) as [|h t] eqn:E; [destruct (split_nonempty c s E)|]. split.
    + intros [= -> ->]. split; [assumption|]. now apply IH.
    + intros [_ H]. apply IH in H. injection H as -> ->. reflexivity.
Qed.
Lemma split_one c s h : split c s = [h] -> s = h /\ no_char c s.
Proof.
  revert h. induction s as [|d s IH]; intros h; cbn; [intros [= <-]; auto|]. destruct (Ascii.eqb_spec d c) as [->|N].
  - intros [= _ E]. destruct (split_nonempty c s E).
  - destruct (split c s) as [|h' t] eqn:E; [destruct (split_nonempty c s E)|]. intros [= <- ->].
    destruct (IH h' eq_refl) as [<- H]. auto.
Qed.
Lemma split_two c s a b : split c s = [a; b] <-> s = a ++ String c b /\ no_char c a /\ no_char c b.
Proof.
  revert a. induction s as [|d s IH]; intros a; cbn.
  - split; [discriminate|]. intros [E _]. destruct a; discriminate.
  - destruct (Ascii.eqb_spec d c) as [->|N].
    + split.
      * intros [= <- E]. destruct (split_one _ _ _ E) as [<- H]. cbn. auto.
      * intros (E & Ha & Hb). destruct a as [|x a]; cbn in E; [injection E as E2|injection E as E1 E2].
        -- subst s. f_equal. now apply split_none.
        -- subst x. destruct Ha as [Ha _]. contradiction.
    + split.
      * destruct (split c s) as [|h t] eqn:E; [destruct (split_nonempty c s E)|]. intros [= <- ->].
        destruct (proj1 (IH h) eq_refl) as (-> & Hh & Hb). cbn. auto.
      * intros (E & Ha & Hb). destruct a as [|x a]; cbn in E; injection E as E1 E2; [contradiction|].
        subst x s. destruct Ha as [_ Ha]. rewrite (proj2 (IH a)) by auto. reflexivity.
Qed.
Lemma is_checkpoint_name_iff name : is_checkpoint_name name = true <->
  exists mid, name = "checkpoint_" ++ mid ++ ".pkl" /\ String.length mid = 5%nat /\ no_char "_" mid.
Proof.
  unfold is_checkpoint_name. destruct (suffix name =? ".pkl") eqn:E; cbn [negb].
  - apply String.eqb_eq, suffix_pkl in E. destruct E as (a & N & ->). rewrite (stem_pkl a N). split.
    + destruct (split "_" a) as [|x [|y [|z r]]] eqn:S; try discriminate. intro H.
      apply andb_prop in H. destruct H as [H1 H2]. apply String.eqb_eq in H1. apply Nat.eqb_eq in H2. subst x.
      apply split_two in S. destruct S as (-> & _ & Hy). exists y. rewrite append_assoc. auto.
    + intros (mid & E & L & Hm).
      assert (a = "checkpoint" ++ String "_" mid) as ->.
      { apply (append_inj_r _ _ ".pkl"). rewrite E. reflexivity. }
      assert (S : split "_" ("checkpoint" ++ String "_" mid) = ["checkpoint"; mid]).
      { apply split_two. split; [reflexivity|]. split; [cbn; repeat split; discriminate|assumption]. }
      rewrite S, L. reflexivity.
  - split; [discriminate|]. intros (mid & -> & _). apply not_true_iff_false in E. destruct E.
    apply String.eqb_eq, suffix_pkl. exists ("checkpoint_" ++ mid). split; [discriminate|]. now rewrite append_assoc.
Qed.
Lemma iteration_of_name mid : no_char "_" mid -> get_checkpoint_iteration ("checkpoint_" ++ mid ++ ".pkl") = parse_int mid.
Proof.
  intro H. unfold get_checkpoint_iteration. rewrite <- append_assoc, stem_pkl by discriminate.
  assert (S : split "_" ("checkpoint_" ++ mid) = ["checkpoint"; mid]).
  { apply split_two. split; [reflexivity|]. split; [cbn; repeat split; discriminate|assumption]. }
  now rewrite S.
Qed.
