(** Properties C42 (the latest checkpoint) and C43 (which checkpoints are removed). *)
From Coq Require Import ZArith List Bool Lia String Ascii Sorting.Permutation.
From Verif Require Import Model.PyString Model.Checkpoints Spec.CheckpointSpec Spec.IntSpec.
From Verif Require Import Proofs.StringProofs Proofs.CheckpointProofs Proofs.IntProofs.
Import ListNotations.
Open Scope string_scope.

(** ** C42 *)
(** Every iteration has its own file name, with its number in at least five digits. *)
Theorem C42_names : forall n name, (0 <= n)%Z ->
  name = checkpoint_name n <-> is_checkpoint_of n name.
Proof. intros n name H. symmetry. now apply checkpoint_of_iff. Qed.

(** A negative number, which the training loop never uses, is written with its sign and at
    least four digits. *)
Theorem C42_negative : forall n, (n < 0)%Z -> exists s, checkpoint_name n = "checkpoint_-" ++ s ++ ".pkl" /\
  all_digits s /\ value_from 0 s = (- n)%Z /\ (4 <= String.length s)%nat /\
  (String.length s > 4 -> exists c r, s = String c r /\ (0 < digit_value c)%Z)%nat.
Proof.
  intros n H. destruct (format_negative n H) as (s & E & K). exists s. split; [|exact K].
  unfold checkpoint_name. rewrite E. reflexivity.
Qed.

Theorem C42_distinct : forall n m,
  (0 <= n)%Z -> (0 <= m)%Z -> checkpoint_name n = checkpoint_name m -> n = m.
Proof.
  intros n m Hn Hm E. unfold checkpoint_name in E. apply append_inj_l, append_inj_r in E.
  pose proof (parse_int_written _ _ (format_written n Hn)) as P.
  rewrite E, (parse_int_written _ _ (format_written m Hm)) in P. now injection P as ->.
Qed.

(** The latest of the checkpoints in the directory, among any other files. *)
Theorem C42_latest : forall names,
  (forall name, In name names -> foreign name \/ exists n, is_checkpoint_of n name) ->
  let latest := get_latest_checkpoint names in
  (forall n name, In name names -> is_checkpoint_of n name -> (n <= latest)%Z) /\
  (exists name, In name names /\ is_checkpoint_of latest name) \/
  (forall n name, In name names -> ~ is_checkpoint_of n name) /\ latest = (-1)%Z.
Proof.
  intros names H latest. unfold latest, get_latest_checkpoint.
  assert (G : forall name, In name (filter globbed names) ->
            exists n s, written n s /\ name = "checkpoint_" ++ s ++ ".pkl" /\ extract_episode name = Some n).
  { intros name I. apply filter_In in I. destruct I as [I1 I2]. apply globbed_iff in I2.
    destruct (H name I1) as [F|(n & s & W & ->)]; [contradiction|]. exists n, s. repeat split; try apply W.
    now apply extract_written. }
  assert (K : forall n name, In name names -> is_checkpoint_of n name -> In name (filter globbed names) /\ extract_episode name = Some n).
  { intros n name I (s & W & ->). split; [apply filter_In; split; [assumption|apply globbed_iff; eauto]|now apply extract_written]. }
  destruct (filter globbed names) as [|a l] eqn:E.
  - right. split; [|reflexivity]. intros n name I C. destruct (K n name I C) as [[] _].
  - left. destruct (max_episode_spec (a :: l)) as (m & -> & (name & I & Em) & Hm).
    + intros n I. destruct (G n I) as (k & s & _ & _ & Ek). eauto.
    + discriminate.
    + split.
      * intros n nm I1 C. destruct (K n nm I1 C). eauto.
      * destruct (G name I) as (k & s & W & En & Ek). assert (k = m) by congruence. subst k.
        exists name. split; [|exists s; auto]. rewrite <- E in I. now apply filter_In in I.
Qed.

(** It should ignore files that it did not write; it does not: with one such file
    named like a checkpoint, no checkpoint is found at all. *)
Theorem C42_other_file_refuted : forall names s,
  In ("checkpoint_" ++ s ++ ".pkl") names -> extract_episode ("checkpoint_" ++ s ++ ".pkl") = None ->
  get_latest_checkpoint names = (-1)%Z.
Proof.
  intros names s I E. unfold get_latest_checkpoint.
  rewrite (max_episode_none _ _ (proj2 (filter_In _ _ _) (conj I (proj2 (globbed_iff _) (ex_intro _ s eq_refl)))) E).
  reflexivity.
Qed.

Example C42_witness :
  get_latest_checkpoint ["checkpoint_00007.pkl"; "events.log"; "checkpoint_123456.pkl"; "checkpoint_00199.pkl"]
    = 123456%Z /\
  is_checkpoint_of 123456 "checkpoint_123456.pkl" /\ is_checkpoint_of 7 "checkpoint_00007.pkl" /\
  get_latest_checkpoint ["checkpoint_00007.pkl"; "checkpoint_best.pkl"] = (-1)%Z.
Proof.
  split; [reflexivity|]. split; [|split; [|reflexivity]]; (apply checkpoint_of_iff; [lia|reflexivity]).
Qed.

(** ** C43 *)
Section CleanUp.
Context {B : Type}.
Implicit Types d : directory B.

Lemma in_remove d name f : In f (remove d name) <-> In f d /\ fst f <> name.
Proof.
  unfold remove. rewrite filter_In, negb_true_iff, <- not_true_iff_false, String.eqb_eq. tauto.
Qed.
(** What it leaves: the last directory. *)
Definition left_by listing n duration d := last (fst (clean_up listing n duration d)) d.
Definition stale n duration name : Prop :=
  is_checkpoint_name name = true /\
  exists k, get_checkpoint_iteration name = Some k /\ (k < n - duration)%Z.

Lemma clean_up_spec listing n duration : forall d,
  snd (clean_up listing n duration d) = false ->
  forall f, In f (left_by listing n duration d) <->
    In f d /\ ~ (In (fst f) listing /\ stale n duration (fst f)).
Proof.
  unfold left_by. induction listing as [|a l IH]; intros d H f; [cbn; tauto|].
  cbn [clean_up] in *.
  assert (Skip : (stale n duration a -> False) ->
    (In f d /\ ~ (In (fst f) l /\ stale n duration (fst f))) <->
    (In f d /\ ~ (In (fst f) (a :: l) /\ stale n duration (fst f)))).
  { intro N. split; intros [I K]; (split; [assumption|]); intros [J S]; apply K; (split; [|assumption]).
    - destruct J as [J|J]; [rewrite <- J in S; contradiction|assumption].
    - now right. }
  destruct (is_checkpoint_name a) eqn:Ea.
  - destruct (get_checkpoint_iteration a) as [k|] eqn:Ek; [|discriminate].
    destruct (Z.ltb_spec k (n - duration)) as [L|L].
    + destruct (clean_up l n duration (remove d a)) as [ds r] eqn:Ec.
      assert (Q : last (fst (remove d a :: ds, r)) d = last ds (remove d a)).
      { cbn [fst]. clear. revert d a. generalize (remove (B:=B)). intros g d a. 
        destruct ds as [|x ds]; [reflexivity|]. change (last (x :: ds) d = last (x :: ds) (g d a)).
        generalize x. induction ds as [|y ds IH]; intro z; [reflexivity|]. exact (IH y). }
      rewrite Q. specialize (IH (remove d a)). rewrite Ec in IH. cbn [fst snd] in IH, H.
      rewrite (IH H f), in_remove. split.
      * intros [[I1 I2] K]. split; [assumption|]. intros [[J|J] S]; [congruence|]. apply K. auto.
      * intros [I K]. assert (fst f <> a).
        { intro Ef. apply K. rewrite Ef. split; [now left|]. split; eauto. }
        split; [auto|]. intros [J S]. apply K. split; [now right|assumption].
    + rewrite (IH d H f). apply Skip. intros (_ & k' & E' & L'). rewrite Ek in E'. injection E' as <-. lia.
  - rewrite (IH d H f). apply Skip. intros (E' & _). congruence.
Qed.

(** A name with five characters in place of the number, none an underscore. *)
Definition five (name mid : string) : Prop :=
  name = "checkpoint_" ++ mid ++ ".pkl" /\ String.length mid = 5%nat /\ no_char "_" mid.

(** Exactly the files of such a name are removed whose number, read by int(), is
    below the limit; whatever the order of the listing. *)
Theorem C43_exact : forall d listing n duration,
  Permutation listing (names d) -> snd (clean_up listing n duration d) = false ->
  forall f, In f (left_by listing n duration d) <->
    In f d /\ ~ exists mid k, five (fst f) mid /\ int_of mid k /\ (k < n - duration)%Z.
Proof.
  intros d listing n duration P H f. rewrite (clean_up_spec listing n duration d H f).
  split; intros [I K]; (split; [assumption|]).
  - intros (mid & k & (E & L & N) & Pk & Lt). apply int_spec in Pk. apply K. split.
    + apply (Permutation_in _ (Permutation_sym P)). now apply in_map.
    + split; [apply is_checkpoint_name_iff; eauto|]. exists k. rewrite E, iteration_of_name by assumption. auto.
  - intros [_ (E & k & Ek & Lt)]. apply is_checkpoint_name_iff in E. destruct E as (mid & E & L & N).
    apply K. exists mid, k. rewrite E, iteration_of_name in Ek by assumption. apply int_spec in Ek. repeat split; assumption.
Qed.

(** In terms of iterations: of the checkpoints with a number below 100000, those
    older than n - duration are removed and the others are kept, and all other files
    are kept. *)
Theorem C43_retention : forall d listing n duration,
  Permutation listing (names d) ->
  (forall f, In f d -> foreign (fst f) \/ exists k, is_checkpoint_of k (fst f)) ->
  snd (clean_up listing n duration d) = false /\
  forall f, In f (left_by listing n duration d) <->
    In f d /\ ~ exists k, (k < 100000)%Z /\ is_checkpoint_of k (fst f) /\ (k < n - duration)%Z.
Proof.
  intros d listing n duration P F.
  assert (NC : forall s, all_digits s -> no_char "_" s).
  { intros s D. apply digits_no_char; [assumption|]. unfold digit_value. cbn. lia. }
  assert (R : snd (clean_up listing n duration d) = false).
  { assert (L : forall name, In name listing -> foreign name \/ exists k, is_checkpoint_of k name).
    { intros name I. apply (Permutation_in _ P) in I. apply in_map_iff in I. destruct I as (f & <- & I). auto. }
    clear P F. revert d L. induction listing as [|a l IH]; intros d L; [reflexivity|]. cbn [clean_up].
    assert (IH' : forall d, snd (clean_up l n duration d) = false) by (intro; apply IH; intros; apply L; now right).
    destruct (is_checkpoint_name a) eqn:E; [|apply IH'].
    apply is_checkpoint_name_iff in E. destruct E as (mid & -> & Lm & Nm).
    rewrite iteration_of_name by assumption.
    destruct (L _ (or_introl eq_refl)) as [Q|(k & s & W & Es)]; [destruct Q; eauto|].
    apply append_inj_l, append_inj_r in Es. subst s. rewrite (parse_int_written _ _ W).
    destruct (k <? n - duration)%Z; [|apply IH'].
    pose proof (IH' (remove d ("checkpoint_" ++ mid ++ ".pkl"))) as Q.
    destruct (clean_up l n duration (remove d ("checkpoint_" ++ mid ++ ".pkl"))). exact Q. }
  split; [exact R|]. intro f. rewrite (C43_exact d listing n duration P R f).
  split; intros [I K]; (split; [assumption|]).
  - intros (k & Lk & (s & W & E) & Lt). apply K. exists s, k. pose proof W as (D & V & L5 & L6).
    split; [split; [exact E|split; [|now apply NC]]|split; [now apply int_spec, parse_int_written|assumption]].
    destruct (Nat.eq_dec (String.length s) 5) as [|N]; [assumption|]. exfalso.
    destruct (L6 ltac:(lia)) as (c & r & -> & Pc). destruct D as [_ D]. cbn [value_from] in V.
    pose proof (value_bounds r (10 * 0 + digit_value c) D) as Bd. cbn [String.length] in L5, N.
    assert (10 ^ 5 <= 10 ^ Z.of_nat (String.length r))%Z by (apply Z.pow_le_mono_r; lia). lia.
  - intros (mid & k & (E & L & N) & Pk & Lt). apply K.
    destruct (F f I) as [Q|(k' & s & W & Es)]; [destruct Q; eauto|].
    rewrite E in Es. apply append_inj_l, append_inj_r in Es. subst s.
    apply int_spec in Pk. rewrite (parse_int_written _ _ W) in Pk. injection Pk as ->. exists k. split; [|split; [exists mid; auto|assumption]].
    destruct W as (D & V & _). pose proof (value_bounds mid 0 D) as Bd. rewrite L in Bd. cbn in Bd. lia.
Qed.

(** The latest is never removed by a clean-up after it has been saved. *)
Theorem C43_latest_kept : forall d listing n duration c,
  Permutation listing (names d) ->
  (forall f, In f d -> foreign (fst f) \/ exists k, is_checkpoint_of k (fst f)) ->
  (0 <= duration)%Z -> (0 <= n)%Z -> In (checkpoint_name n, c) d ->
  In (checkpoint_name n, c) (left_by listing n duration d).
Proof.
  intros d listing n duration c P F Hd Hn I. apply (C43_retention d listing n duration P F).
  split; [assumption|]. intros (k & _ & C & Lt). cbn [fst] in C.
  apply checkpoint_of_iff in C; [|destruct C as (s & W & _); now apply written_nonneg in W].
  assert (k = n); [|lia]. symmetry. destruct (Z.le_gt_cases 0 k) as [Hk|Hk]; [now apply C42_distinct|].
  exfalso. unfold checkpoint_name in C. apply append_inj_l, append_inj_r in C.
  unfold format_05d in C. destruct (Z.ltb_spec k 0); [|lia].
  pose proof (format_written n Hn) as (D & _). unfold format_05d in D. rewrite C in D. destruct D as [D _].
  unfold digit_value in D. cbn in D. lia.
Qed.

(** It should remove every old checkpoint; it does not: iterations from 100000 on
    are never removed. *)
Theorem C43_never_removed_refuted : forall d listing n duration k f,
  Permutation listing (names d) -> (100000 <= k)%Z -> is_checkpoint_of k (fst f) ->
  snd (clean_up listing n duration d) = false -> In f d -> In f (left_by listing n duration d).
Proof.
  intros d listing n duration k f P Hk (s & W & E) H I. apply (C43_exact d listing n duration P H).
  split; [assumption|]. intros (mid & k' & (E' & L & N) & _).
  rewrite E in E'. apply append_inj_l, append_inj_r in E'. subst mid.
  destruct W as (D & V & _). pose proof (value_bounds s 0 D) as Bd. rewrite L in Bd. cbn in Bd. lia.
Qed.

(** A file named like a checkpoint, with five characters that are not a number,
    makes it raise, which ends the training. *)
Theorem C43_other_file_refuted : forall d listing n duration mid,
  Permutation listing (names d) -> In ("checkpoint_" ++ mid ++ ".pkl") (names d) ->
  String.length mid = 5%nat -> no_char "_" mid -> (forall k, ~ int_of mid k) ->
  snd (clean_up listing n duration d) = true.
Proof.
  intros d listing n duration mid P I L N E0.
  assert (E : parse_int mid = None).
  { destruct (parse_int mid) as [k|] eqn:E; [|reflexivity]. now apply int_spec, E0 in E. }
  clear E0.
  apply (Permutation_in _ (Permutation_sym P)) in I. clear P. revert d.
  induction listing as [|a l IH]; [contradiction|]. intro d. cbn [clean_up].
  destruct I as [->|I].
  - rewrite (proj2 (is_checkpoint_name_iff _)) by eauto. rewrite iteration_of_name, E by assumption. reflexivity.
  - destruct (is_checkpoint_name a); [|now apply IH]. destruct (get_checkpoint_iteration a) as [k|]; [|reflexivity].
    destruct (k <? n - duration)%Z; [|now apply IH]. specialize (IH I (remove d a)).
    destruct (clean_up l n duration (remove d a)). exact IH.
Qed.
End CleanUp.

(** Fifty iterations are kept: after iteration 60, numbers 10 to 60. *)
Example C43_witness :
  let d := map (fun k => (checkpoint_name k, Some tt)) [60; 9; 10; 100000]%Z in
  names (left_by (names d) 60 50 d) = map checkpoint_name [60; 10; 100000]%Z /\
  parse_int "final" = None.
Proof. split; reflexivity. Qed.
Print Assumptions C42_names.
Print Assumptions C42_negative.
Print Assumptions C42_distinct.
Print Assumptions C42_latest.
Print Assumptions C42_other_file_refuted.
Print Assumptions C43_exact.
Print Assumptions C43_retention.
Print Assumptions C43_latest_kept.
Print Assumptions C43_never_removed_refuted.
Print Assumptions C43_other_file_refuted.
