(** Property C58, first part: how the dataset of wind fields is put together from the files
    of a directory. *)
From Coq Require Import ZArith List Bool String Lia.
From Verif Require Import Model.Loading Model.PyString Model.Dataset.
From Verif Require Import Spec.CheckpointSpec Proofs.StringProofs Proofs.CheckpointProofs.
Import ListNotations.
Open Scope string_scope.

(** The file of shard [i] of the directory [data]: batch0000.pickle, batch0001.pickle, ... *)
Definition is_shard (data : string) (i : nat) (name : string) : Prop :=
  exists digits, all_digits digits /\ value_from 0 digits = Z.of_nat i /\ String.length digits = 4%nat /\
    name = data ++ "/batch" ++ digits ++ ".pickle".

Lemma format_04d_digits n : (0 <= n < 10000)%Z ->
  all_digits (format_04d n) /\ value_from 0 (format_04d n) = n /\ String.length (format_04d n) = 4%nat.
Proof.
  intros [H B]. unfold format_04d, str_of_int.
  destruct (Z.eq_dec n 0) as [->|N0]; [repeat split; try (unfold digit_value; cbn; lia)|].
  destruct (to_int_nonneg n H) as (d & -> & Hd & Hv & Hz).
  cbn [DecimalString.NilZero.string_of_int]. rewrite nilzero by assumption.
  set (s := DecimalString.NilEmpty.string_of_uint d).
  assert (Ds : all_digits s) by apply string_digits.
  assert (Vs : value_from 0 s = n) by (unfold s; now rewrite string_value).
  split; [now apply zeros_digits|]. split; [now rewrite zeros_value|].
  rewrite append_length, zeros_length.
  enough (String.length s <= 4)%nat by lia.
  destruct s as [|c r] eqn:Es; [cbn; lia|].
  assert (P : (0 < digit_value c)%Z).
  { destruct d; try discriminate Es; cbn in Es; injection Es as <- <-; try (unfold digit_value; cbn; lia).
    destruct (Hz N0 d eq_refl). }
  destruct Ds as [_ Dr]. cbn [value_from] in Vs. pose proof (value_bounds r (10 * 0 + digit_value c)%Z Dr) as K. rewrite Vs in K.
  cbn [String.length]. destruct (Nat.le_gt_cases (String.length r) 3) as [|G]; [lia|].
  assert (10 ^ 4 <= 10 ^ Z.of_nat (String.length r))%Z by (apply Z.pow_le_mono_r; lia). nia.
Qed.

Lemma shard_file_is data i name : (Z.of_nat i < 10000)%Z -> is_shard data i name <-> name = shard_file data i.
Proof.
  intro H. destruct (format_04d_digits (Z.of_nat i) ltac:(lia)) as (D & V & L). split.
  - intros (s & Ds & Vs & Ls & ->). unfold shard_file.
    destruct (value_inj s (format_04d (Z.of_nat i)) 0 0 ltac:(congruence) Ds D ltac:(congruence)) as [_ ->]. reflexivity.
  - intros ->. exists (format_04d (Z.of_nat i)). now repeat split.
Qed.

Section Shards.
Context {field : Type} (unpickle : string -> outcome (list field)) (data : string).

Lemma load_returns count : forall i shards, load_shards unpickle data i count = Returns shards ->
  List.length shards = count /\
  forall j, (j < count)%nat -> exists rows, nth_error shards j = Some rows /\
    unpickle (shard_file data (i + j)) = Returns rows.
Proof.
  induction count as [|count IH]; intros i shards; cbn [load_shards].
  - intros [= <-]. split; [reflexivity|]. lia.
  - destruct (unpickle (shard_file data i)) as [rows|e] eqn:E; [|discriminate].
    destruct (load_shards unpickle data (S i) count) as [rest|e] eqn:R; [|discriminate].
    intros [= <-]. destruct (IH _ _ R) as [L K]. split; [cbn; congruence|].
    intros [|j] Hj; [exists rows; split; [reflexivity|]; now rewrite Nat.add_0_r|].
    replace (i + S j)%nat with (S i + j)%nat by lia. apply K. lia.
Qed.
Lemma load_raises count : forall i e, load_shards unpickle data i count = Raises e ->
  exists j, (j < count)%nat /\ unpickle (shard_file data (i + j)) = Raises e /\
    forall k, (k < j)%nat -> exists rows, unpickle (shard_file data (i + k)) = Returns rows.
Proof.
  induction count as [|count IH]; intros i e; cbn [load_shards]; [discriminate|].
  destruct (unpickle (shard_file data i)) as [rows|e'] eqn:E.
  - destruct (load_shards unpickle data (S i) count) as [rest|e'] eqn:R; [discriminate|].
    intros [= <-]. destruct (IH _ _ R) as (j & Hj & U & K). exists (S j). split; [lia|].
    replace (i + S j)%nat with (S i + j)%nat by lia. split; [exact U|].
    intros [|k] Hk; [exists rows; now rewrite Nat.add_0_r|].
    replace (i + S k)%nat with (S i + k)%nat by lia. apply K. lia.
  - intros [= <-]. exists 0%nat. split; [lia|]. rewrite Nat.add_0_r. split; [exact E|lia].
Qed.
End Shards.

(** A directory gives the reservoir of the rows of its files batch0000.pickle to
    batch0199.pickle, in this order, with nothing left out; if some of them cannot be
    loaded, the exception of the first of those is raised. *)
Theorem C58_directory : forall key field (prng_key : Z -> key) (unpickle : string -> outcome (list field))
    data held seed,
  (forall r, open_reservoir prng_key unpickle data held seed = Returns r ->
     eval_batch_size r = held /\ rng r = prng_key seed /\
     exists shards, List.length shards = 200%nat /\ dataset r = List.concat shards /\
       forall i name, (i < 200)%nat -> is_shard data i name ->
         exists rows, nth_error shards i = Some rows /\ unpickle name = Returns rows) /\
  (forall e, open_reservoir prng_key unpickle data held seed = Raises e <->
     exists i name, (i < 200)%nat /\ is_shard data i name /\ unpickle name = Raises e /\
       forall j name', (j < i)%nat -> is_shard data j name' -> exists rows, unpickle name' = Returns rows).
Proof.
  intros key field prng_key unpickle data held seed. unfold open_reservoir. split.
  - intro r. destruct (load_shards unpickle data 0 200) as [shards|e] eqn:E; [|discriminate].
    intros [= <-]. destruct (load_returns _ _ _ _ _ E) as [L K].
    split; [reflexivity|]. split; [reflexivity|]. exists shards. split; [exact L|]. split; [reflexivity|].
    intros i name Hi N. apply shard_file_is in N; [|lia]. subst name. exact (K i Hi).
  - intro e. split.
    + destruct (load_shards unpickle data 0 200) as [shards|e'] eqn:E; [discriminate|].
      intros [= ->]. destruct (load_raises _ _ _ _ _ E) as (j & Hj & U & K).
      exists j, (shard_file data j). split; [exact Hj|]. split; [now apply shard_file_is; [lia|]|].
      split; [exact U|]. intros k name' Hk N. apply shard_file_is in N; [|lia]. subst name'. exact (K k Hk).
    + intros (i & name & Hi & N & U & K). apply shard_file_is in N; [|lia]. subst name.
      destruct (load_shards unpickle data 0 200) as [shards|e'] eqn:E.
      * destruct (load_returns _ _ _ _ _ E) as [_ R]. destruct (R i Hi) as (rows & _ & R'). cbn [Nat.add] in R'. congruence.
      * destruct (load_raises _ _ _ _ _ E) as (j & Hj & U' & K'). cbn [Nat.add] in *.
        destruct (Nat.lt_trichotomy i j) as [H|[<-|H]].
        -- destruct (K' i H) as (rows & R). congruence.
        -- congruence.
        -- destruct (K j (shard_file data j) H) as (rows & R); [now apply shard_file_is; [lia|]|]. congruence.
Qed.

(** All shards of a directory should be used; those from the 200th on are not, whatever they
    are: only the names above are looked at. *)
Theorem C58_further_shards_refuted : forall key field (prng_key : Z -> key)
    (unpickle unpickle' : string -> outcome (list field)) data held seed,
  (forall i name, (i < 200)%nat -> is_shard data i name -> unpickle name = unpickle' name) ->
  open_reservoir prng_key unpickle data held seed = open_reservoir prng_key unpickle' data held seed.
Proof.
  intros key field prng_key unpickle unpickle' data held seed H. unfold open_reservoir.
  enough (K : forall count i, (i + count <= 200)%nat ->
            load_shards unpickle data i count = load_shards unpickle' data i count) by now rewrite K.
  induction count as [|count IH]; intros i L; cbn [load_shards]; [reflexivity|].
  rewrite (H i (shard_file data i)) by (try (apply shard_file_is; [lia|reflexivity]); lia).
  rewrite IH by lia. reflexivity.
Qed.

(** A directory of 201 files, each with its own name as its only row: the first row is from
    the first file, the last from batch0199.pickle, and batch0200.pickle is not used. *)
Example C58_directory_witness :
  exists r, open_reservoir (fun z => z) (fun name => Returns [name]) "winds" 10 7 = Returns r /\
    List.length (dataset r) = 200%nat /\ hd_error (dataset r) = Some "winds/batch0000.pickle" /\
    nth_error (dataset r) 199 = Some "winds/batch0199.pickle" /\
    nth 9 (get_eval_batch r) "" = "winds/batch0199.pickle" /\ ~ In "winds/batch0200.pickle" (dataset r) /\
    is_shard "winds" 200 "winds/batch0200.pickle".
Proof.
  eexists. split; [reflexivity|]. split; [reflexivity|]. split; [reflexivity|]. split; [reflexivity|].
  split; [reflexivity|]. split.
  - cbn -[In]. intro K. repeat (destruct K as [K|K]; [discriminate K|]). exact K.
  - exists "0200". repeat split; try (unfold digit_value; cbn; lia).
Qed.

Print Assumptions C58_directory.
Print Assumptions C58_further_shards_refuted.
