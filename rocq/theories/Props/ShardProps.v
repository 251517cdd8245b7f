(** Properties C40, C41: sharding and combining evaluation results. *)
From Coq Require Import ZArith Reals List Bool Lia Lra String Sorting.Permutation.
From Verif Require Import Model.Eval.
From Verif Require Import Spec.EvalSpec.
From Verif Require Import Proofs.ShardProofs Proofs.StringProofs Proofs.CombineProofs.
Import ListNotations.
Open Scope Z_scope.

(** ** C40 *)
(** The shard numbers 0, 1, .., num - 1. *)
Definition shard_numbers (num : Z) : list Z := map Z.of_nat (seq 0 (Z.to_nat num)).

Theorem C40_partition : forall suite num,
  1 <= num -> Z.of_nat (List.length (seeds suite)) < 2 ^ 53 ->
  List.concat (map (fun i => seeds (shard suite num i)) (shard_numbers num)) = seeds suite.
Proof.
  intros s num Hn Hl. unfold shard, shard_numbers. destruct (Z.ltb_spec 1 num) as [H|H].
  - set (len := Z.of_nat (List.length (seeds s))) in *. cbn [seeds].
    rewrite (slices (fun i => shard_bound len i num)).
    + rewrite Z2Nat.id by lia. rewrite shard_bound_all by lia. apply slice_full.
    + apply shard_bound_0. lia.
    + intros i j Hij. apply shard_bound_le; lia.
  - replace num with 1 by lia. cbn. apply app_nil_r.
Qed.

Theorem C40_episode_length : forall suite num i,
  max_episode_length (shard suite num i) = max_episode_length suite.
Proof. intros s num i. unfold shard. destruct (1 <? num); reflexivity. Qed.

(** The sizes are the average, rounded down or up. *)
Theorem C40_balanced : forall suite num i,
  1 <= num -> Z.of_nat (List.length (seeds suite)) * num < 2 ^ 53 -> 0 <= i < num ->
  let average := Z.of_nat (List.length (seeds suite)) / num in
  average <= Z.of_nat (List.length (seeds (shard suite num i))) <= average + 1.
Proof.
  intros s num i Hn Hl Hi. unfold shard. set (len := Z.of_nat (List.length (seeds s))) in *.
  assert (L0 : 0 <= len) by lia. cbv zeta.
  destruct (Z.ltb_spec 1 num) as [H|H].
  - cbn [seeds].
    assert (B : forall k, 0 <= k <= num -> 0 <= shard_bound len k num <= len).
    { intros k Hk. rewrite shard_bound_div by lia. split; [apply Z.div_pos; nia|].
      apply Z.div_le_upper_bound; nia. }
    rewrite slice_length.
    + rewrite !shard_bound_div by lia.
      pose proof (Z.div_mod len num ltac:(lia)). pose proof (Z.mod_pos_bound len num ltac:(lia)).
      pose proof (Z.div_mod (len * i) num ltac:(lia)). pose proof (Z.mod_pos_bound (len * i) num ltac:(lia)).
      pose proof (Z.div_mod (len * (i + 1)) num ltac:(lia)).
      pose proof (Z.mod_pos_bound (len * (i + 1)) num ltac:(lia)). nia.
    + split; [apply B; lia|]. apply shard_bound_le; lia.
    + apply B; lia.
  - replace num with 1 in * by lia. rewrite Z.div_1_r. fold len. lia.
Qed.

(** A shard number that is too large, which the flags do not refuse, is given no seed. *)
Theorem C40_beyond : forall suite num i,
  1 < num -> Z.of_nat (List.length (seeds suite)) < 2 ^ 53 -> num <= i ->
  seeds (shard suite num i) = [].
Proof.
  intros s num i Hn Hl Hi. unfold shard. set (len := Z.of_nat (List.length (seeds s))) in *.
  destruct (Z.ltb_spec 1 num) as [H|H]; [|lia]. cbn [seeds]. unfold slice.
  rewrite skipn_all2; [apply firstn_nil|].
  pose proof (shard_bound_le len num i num ltac:(lia) ltac:(lia) Hi) as Q.
  rewrite shard_bound_all in Q by lia. lia.
Qed.

(** The small suite in 7 shards: the last one starts at seed 85. *)
Example C40_witness :
  seeds (shard (mkSuite (map Z.of_nat (seq 0 100)) 960) 7 6) = map Z.of_nat (seq 85 15).
Proof.
  unfold shard. cbn [Z.ltb Z.compare Pos.compare Pos.compare_cont]. cbn [seeds].
  rewrite map_length, seq_length. rewrite !shard_bound_div by lia. reflexivity.
Qed.
Print Assumptions C40_partition.
Print Assumptions C40_episode_length.
Print Assumptions C40_balanced.
Print Assumptions C40_beyond.

(** ** C41 *)
Open Scope string_scope.
Definition without_path (r : eval_result) : eval_result :=
  mkEvalResult (r_seed r) (r_cumulative_reward r) (r_time_within_radius r) (r_out_of_power r)
    (r_envelope_burst r) (r_zeropressure r) (r_final_timestep r) [].

(** The files whose name is the model's name, an underscore, anything, and .json are
    read; the file written holds all their results, with multiplicity, sorted by
    seed; no other file changes.  Whatever the order in which the directory is
    listed. *)
Theorem C41_union : forall with_paths order d model d',
  Permutation (order d) d -> combine with_paths order d model = Some d' ->
  exists files rest data,
    Permutation d (files ++ rest) /\
    (forall f, In f files -> exists mid rs, f = (model ++ "_" ++ mid ++ ".json", Some rs)) /\
    (forall f mid, In f rest -> fst f <> model ++ "_" ++ mid ++ ".json") /\
    Permutation data (flat_map (fun f => match snd f with Some rs => rs | None => [] end) files) /\
    sorted_by_seed data /\
    (forall c, In (model ++ ".json", c) d' <->
       c = Some (if with_paths then data else map without_path data)) /\
    (forall name c, name <> model ++ ".json" -> (In (name, c) d' <-> In (name, c) d)).
Proof.
  intros fp order d model d' Ho. unfold combine.
  set (m := fun f : string * option (list eval_result) => matches model (fst f)).
  destruct (read_all (filter m (order d))) as [data|] eqn:E; [|discriminate].
  intros [= <-]. destruct (read_all_content _ _ E) as [Ed Hr].
  exists (filter m d), (filter (fun f => negb (m f)) d), (sort_results data).
  split. { clear. induction d as [|f d IH]; cbn; [constructor|].
    destruct (m f); cbn; [now constructor|]. rewrite IH at 1. apply Permutation_middle. }
  split. { intros f I. apply (Permutation_in _ (filter_perm m _ _ (Permutation_sym Ho))) in I.
    specialize (Hr _ I). apply filter_In in I. destruct I as [_ I]. unfold m in I. apply matches_iff in I.
    destruct I as (mid & I). destruct f as [n [c|]]; [|exfalso; now apply Hr]. cbn [fst] in I. exists mid, c. now rewrite I. }
  split. { intros f mid I Ef. apply filter_In in I. destruct I as [_ I]. unfold m in I. rewrite Ef in I.
    assert (matches model (model ++ "_" ++ mid ++ ".json") = true) as K by (apply matches_iff; eauto).
    rewrite K in I. discriminate. }
  split. { rewrite sort_perm, Ed. apply Permutation_flat_map. now apply filter_perm. }
  split. { apply sort_sorted. }
  unfold write. split.
  - intro c. split.
    + intros [[= <-]|I]; [reflexivity|]. apply filter_In in I. destruct I as [_ I]. cbn [fst] in I.
      rewrite String.eqb_refl in I. discriminate.
    + intros ->. now left.
  - intros name c N. split.
    + intros [[= E1 _]|I]; [now symmetry in E1|]. now apply filter_In in I.
    + intro I. right. apply filter_In. split; [assumption|]. cbn [fst].
      destruct (String.eqb_spec name (model ++ ".json")); [contradiction|reflexivity].
Qed.

(** It only raises if one of those files cannot be read. *)
Theorem C41_returns : forall with_paths order d model,
  Permutation (order d) d ->
  (forall mid c, In (model ++ "_" ++ mid ++ ".json", c) d -> c <> None) ->
  combine with_paths order d model <> None.
Proof.
  intros fp order d model Ho H. unfold combine. rewrite read_all_defined; [discriminate|].
  intros f I. apply filter_In in I. destruct I as [I1 I2]. apply matches_iff in I2. destruct I2 as (mid & I2).
  apply (H mid). apply (Permutation_in _ Ho). destruct f as [n c]. cbn in I2. now subst n.
Qed.

(** Which includes files that are not shards of that model: all results of every
    checkpoint of the agent of the same name, sharded or not, end up in the file
    for the agent without checkpoint. *)
Theorem C41_mixes_checkpoints_refuted : forall order d agent checkpoint num i rs d',
  Permutation (order d) d ->
  In (result_file_name None (Some checkpoint) agent num i, Some rs) d ->
  combine true order d agent = Some d' ->
  exists data, In (agent ++ ".json", Some data) d' /\ forall r, In r rs -> In r data.
Proof.
  intros order d agent k num i rs d' Ho I E.
  destruct (C41_union _ _ _ _ _ Ho E) as (files & rest & data & Hp & Hf & Hr & Hd & _ & Hw & _).
  exists data. split; [now apply Hw|]. intros r Ir.
  apply (Permutation_in _ (Permutation_sym Hd)). apply in_flat_map.
  exists (result_file_name None (Some k) agent num i, Some rs). split; [|assumption].
  apply (Permutation_in _ Hp) in I. apply in_app_or in I. destruct I as [I|I]; [assumption|].
  exfalso. unfold result_file_name in I. destruct (1 <? num)%Z.
  - eapply (Hr _ (str_of_int k ++ "_" ++ str_of_int i)); [exact I|]. cbn [fst].
    rewrite !append_assoc. reflexivity.
  - eapply (Hr _ (str_of_int k)); [exact I|]. cbn [fst]. rewrite !append_assoc. reflexivity.
Qed.

(** Shards of different numbers, or of agents or checkpoints, are written to
    different files. *)
Theorem C41_shard_files_distinct : forall name agent checkpoint num i j,
  (1 < num)%Z -> result_file_name name checkpoint agent num i = result_file_name name checkpoint agent num j ->
  i = j.
Proof.
  intros name agent ck num i j Hn E. unfold result_file_name in E.
  destruct (Z.ltb_spec 1 num); [|lia]. apply append_inj_r in E.
  set (b := match name with Some (String _ _ as n) => n | _ => _ end) in E. clearbody b.
  apply append_inj_l in E. apply append_inj_l in E. now apply string_of_int_inj.
Qed.

(** A directory with two shards (and the result of another agent): *)
Example C41_witness :
  let r z := mkEvalResult z 0 0 false false false 960 [] in
  let d := [("dqn_1.json", Some [r 2; r 3]); ("random.json", Some [r 9]); ("dqn_0.json", Some [r 0; r 1])] in
  combine false (fun d => d) d "dqn" = Some (("dqn.json", Some [r 0; r 1; r 2; r 3]) :: d).
Proof. reflexivity. Qed.
Print Assumptions C41_union.
Print Assumptions C41_returns.
Print Assumptions C41_mixes_checkpoints_refuted.
Print Assumptions C41_shard_files_distinct.
