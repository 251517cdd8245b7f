(** Property C92: result files as texts. *)
From Coq Require Import ZArith Reals Bool String Ascii List Lia Lra Sorting.Permutation.
From Verif Require Import Model.Num Model.PyString Model.Eval Model.Json.
From Verif Require Import Spec.EvalSpec Spec.JsonSpec.
From Verif Require Import Proofs.CombineProofs Proofs.CheckpointProofs Proofs.JsonProofs.
Import ListNotations.
Open Scope string_scope.

Section Files.
(** How Python prints and reads floats, and the float that stands for a number. *)
Context (repr : R -> string) (float_of : string -> R) (nearest : R -> R).
Hypothesis floats : python_floats repr float_of nearest.
Notation load := (Json.load float_of).
Notation result_text := (Json.result_text repr).
Notation combine_texts := (Json.combine_texts repr float_of).

(** What an evaluation writes is read back: every result, in order, with its seed, its
    numbers to the precision of a float, and its whole flight path in kilometres, pascals
    and seconds.  In both formats. *)
Theorem C92_reads_back : forall pretty rs,
  load (result_text pretty rs) = Some (Arr (map (result_record nearest true) rs)).
Proof. intros. now apply load_results. Qed.

(** The two formats say the same. *)
Theorem C92_pretty : forall rs, load (result_text true rs) = load (result_text false rs).
Proof. intros. now rewrite !C92_reads_back. Qed.

(** A file whose writing was cut off anywhere is refused. *)
Theorem C92_cut : forall pretty rs written missing,
  result_text pretty rs = written ++ missing -> missing <> "" -> load written = None.
Proof. intros pretty rs p q E N. eapply load_cut; eauto using clean_results. Qed.

(** Combining the files of a model, in whatever format each was written, returns.  The file
    written is read as the results of all of them, sorted by seed, with their flight paths
    if asked for and with empty ones otherwise, and with the same numbers (those that one
    reads from the files).  No other file changes.  If writing it was cut off anywhere, it
    is refused. *)
Theorem C92_combine : forall paths pretty order d model (contents : string -> list eval_result),
  Permutation (order d) d ->
  (forall mid text, In (model ++ "_" ++ mid ++ ".json", text) d ->
     exists p, text = result_text p (contents (model ++ "_" ++ mid ++ ".json"))) ->
  exists files rest rs d' text,
    combine_texts paths pretty order d model = Some d' /\
    Permutation d (files ++ rest) /\
    (forall f, In f files -> exists mid, fst f = model ++ "_" ++ mid ++ ".json") /\
    (forall f mid, In f rest -> fst f <> model ++ "_" ++ mid ++ ".json") /\
    Permutation rs (flat_map (fun f => contents (fst f)) files) /\ sorted_by_seed rs /\
    (forall t, In (model ++ ".json", t) d' <-> t = text) /\
    (forall name t, name <> model ++ ".json" -> (In (name, t) d' <-> In (name, t) d)) /\
    load text = Some (Arr (map (result_record nearest paths) rs)) /\
    (forall written missing, text = written ++ missing -> missing <> "" -> load written = None).
Proof.
  intros paths pretty order d model contents Ho H. unfold Json.combine_texts.
  set (m := fun f : string * string => matches model (fst f)).
  assert (L : load_all float_of [] (filter m (order d)) =
    Some (map (result_record nearest true) (flat_map (fun f => contents (fst f)) (filter m (order d))))).
  { rewrite flat_map_concat_map.
    rewrite (load_all_results repr float_of nearest floats _ (map (fun f => contents (fst f)) (filter m (order d)))); [reflexivity|].
    assert (A : forall f, In f (filter m (order d)) -> exists p, snd f = result_text p (contents (fst f))).
    { intros [n t] I. apply filter_In in I. destruct I as [I E]. apply matches_iff in E. destruct E as [mid E]. cbn [fst snd] in *.
      subst n. apply H. now apply (Permutation_in _ Ho). }
    induction (filter m (order d)) as [|f l IH]; [constructor|]. constructor; [apply A; now left|].
    apply IH. intros g I. apply A. now right. }
  rewrite L, keyed_records. rewrite sorted_by_key_map.
  set (all := flat_map (fun f => contents (fst f)) (filter m (order d))).
  assert (E : (if paths then map (result_record nearest true) (sort_results all)
               else map drop_path (map (result_record nearest true) (sort_results all))) =
              map (result_record nearest paths) (sort_results all)).
  { destruct paths; [reflexivity|]. rewrite map_map. apply map_ext. reflexivity. }
  rewrite E. exists (filter m d), (filter (fun f => negb (m f)) d), (sort_results all).
  eexists _, (dump repr pretty 0 (Arr (map (result_record nearest paths) (sort_results all)))). split; [reflexivity|].
  split. { clear. induction d as [|f d IH]; cbn; [constructor|].
    destruct (m f); cbn; [now constructor|]. rewrite IH at 1. apply Permutation_middle. }
  split. { intros f I. apply filter_In in I. destruct I as [_ I]. now apply matches_iff in I. }
  split. { intros f mid I Ef. apply filter_In in I. destruct I as [_ I]. unfold m in I. rewrite Ef in I.
    apply negb_true_iff in I. rewrite (proj2 (matches_iff _ _)) in I; [discriminate|]. now exists mid. }
  split. { rewrite sort_perm. unfold all. rewrite !flat_map_concat_map. clear - Ho.
    assert (P : Permutation (filter m (order d)) (filter m d)).
    { induction Ho; cbn; [constructor| | |etransitivity; eassumption]; repeat (match goal with |- context [m ?x] => destruct (m x) end); try constructor; auto using Permutation_refl. }
    rewrite <- !flat_map_concat_map. now apply Permutation_flat_map. }
  split; [apply sort_sorted|].
  split. { intro t. unfold write_text. split.
    - intros [[= <-]|I]; [reflexivity|]. apply filter_In in I. destruct I as [_ I]. cbn [fst] in I. now rewrite String.eqb_refl in I.
    - intros ->. now left. }
  split. { intros name t N. unfold write_text. split.
    - intros [[= <- _]|I]; [congruence|]. now apply filter_In in I.
    - intro I. right. apply filter_In. split; [exact I|]. cbn [fst]. destruct (String.eqb_spec name (model ++ ".json")); [contradiction|reflexivity]. }
  split; [now apply load_records|].
  intros p q Eq Nq. eapply load_cut; eauto using clean_records.
Qed.

(** If one of the files was cut off, combining raises and nothing is written. *)
Theorem C92_combine_cut : forall paths pretty order d model mid p rs written missing,
  Permutation (order d) d ->
  In (model ++ "_" ++ mid ++ ".json", written) d ->
  result_text p rs = written ++ missing -> missing <> "" ->
  combine_texts paths pretty order d model = None.
Proof.
  intros paths pretty order d model mid p rs w q Ho I E N. unfold Json.combine_texts.
  rewrite (load_all_refused float_of _ (model ++ "_" ++ mid ++ ".json") w); [reflexivity| |].
  - apply filter_In. split; [now apply (Permutation_in _ (Permutation_sym Ho))|]. apply matches_iff. now exists mid.
  - eapply C92_cut; eauto.
Qed.

(** Combining should raise if a shard is missing.  It does not, whichever are left: without
    any (or if the model's name is misspelt) it writes that there are no results. *)
Theorem C92_missing_refuted : forall paths pretty order d model (contents : string -> list eval_result) present,
  (forall d, Permutation (order d) d) ->
  (forall mid text, In (model ++ "_" ++ mid ++ ".json", text) d ->
     exists p, text = result_text p (contents (model ++ "_" ++ mid ++ ".json"))) ->
  let left := filter (fun f => present (fst f)) d in
  combine_texts paths pretty order left model <> None /\
  ((forall mid, present (model ++ "_" ++ mid ++ ".json") = false) ->
   exists d', combine_texts paths pretty order left model = Some d' /\ In (model ++ ".json", "[]") d').
Proof.
  intros paths pretty order d model contents present Ho H left. split.
  - destruct (C92_combine paths pretty order left model contents (Ho _)) as (? & ? & ? & d' & ? & -> & _); [|discriminate].
    intros mid text I. apply filter_In in I. now apply H.
  - intros Hp. unfold Json.combine_texts.
    replace (filter _ (order left)) with (@nil (string * string)).
    + eexists. split; [reflexivity|]. constructor 1. destruct paths; reflexivity.
    + symmetry. destruct (filter _ (order left)) as [|f l] eqn:E; [reflexivity|exfalso].
      assert (I : In f (f :: l)) by (constructor; reflexivity).
      rewrite <- E in I. apply filter_In in I. destruct I as [I M].
      apply (Permutation_in _ (Ho _)) in I. apply filter_In in I. destruct I as [_ I].
      apply matches_iff in M. destruct M as [mid M]. rewrite M, Hp in I. discriminate.
Qed.

(** Combining texts is combining what is read from them, to which C41 and C64 apply: it
    raises in the same cases, and the text written is read as the results written there. *)
Theorem C92_parsed : forall paths pretty order order' d (D : directory) model,
  Forall2 (fun f g => fst f = fst g /\
      (forall mid, fst f = model ++ "_" ++ mid ++ ".json" ->
         match snd g with
         | Some rs => exists p, snd f = result_text p rs
         | None => load (snd f) = None
         end)) (order d) (order' D) ->
  match combine paths order' D model with
  | None => combine_texts paths pretty order d model = None
  | Some D' => exists d', combine_texts paths pretty order d model = Some d' /\
      forall rs, In (model ++ ".json", Some rs) D' ->
      exists text, In (model ++ ".json", text) d' /\ load text = Some (Arr (map (result_record nearest true) rs))
  end.
Proof.
  intros paths pretty order order' d D model H. unfold Json.combine_texts, combine.
  set (m := fun f : string * string => matches model (fst f)).
  set (m' := fun f : string * option (list eval_result) => matches model (fst f)).
  assert (G : Forall2 (fun f g => match snd g with Some rs => exists p, snd f = result_text p rs | None => load (snd f) = None end)
    (filter m (order d)) (filter m' (order' D))).
  { induction H as [|f g l l' [E H] _ IH]; [constructor|]. cbn [filter]. unfold m at 1, m' at 1. rewrite <- E.
    destruct (matches model (fst f)) eqn:M; [|exact IH]. constructor; [|exact IH]. apply matches_iff in M. destruct M as [mid M].
    now apply (H mid). }
  clear H. destruct (read_all (filter m' (order' D))) as [data|] eqn:Er.
  - assert (L : forall acc, load_all float_of acc (filter m (order d)) = Some (acc ++ map (result_record nearest true) data)%list).
    { revert data Er. induction G as [|[n t] [n' c] l l' Hf _ IH]; intros data Er acc.
      - injection Er as <-. cbn. now rewrite List.app_nil_r.
      - cbn [read_all] in Er. cbn [snd] in Hf. destruct c as [rs|]; [|discriminate].
        destruct (read_all l') as [data'|]; [|discriminate]. injection Er as <-. destruct Hf as [p ->]. cbn [load_all].
        rewrite (load_results repr float_of nearest floats). cbn [extend]. rewrite (IH _ eq_refl).
        now rewrite map_app, List.app_assoc. }
    rewrite L. cbn [app]. rewrite keyed_records, sorted_by_key_map.
    eexists. split; [reflexivity|]. intros rs I.
    assert (E : rs = if paths then sort_results data else map (fun r => mkEvalResult (r_seed r) (r_cumulative_reward r)
        (r_time_within_radius r) (r_out_of_power r) (r_envelope_burst r) (r_zeropressure r) (r_final_timestep r) []) (sort_results data)).
    { unfold write in I. destruct I as [[= <-]|I]; [reflexivity|]. apply filter_In in I. destruct I as [_ I].
      cbn [fst] in I. now rewrite String.eqb_refl in I. }
    eexists. split; [left; reflexivity|]. rewrite E. destruct paths.
    + now apply load_records.
    + replace (map drop_path _) with (map (result_record nearest false) (sort_results data)) by (rewrite map_map; reflexivity).
      rewrite (load_records repr float_of nearest floats), map_map. reflexivity.
  - assert (B : exists n t, In (n, t) (filter m (order d)) /\ load t = None).
    { induction G as [|[n t] [n' c] l l' Hf _ IH]; [discriminate|]. cbn [read_all] in Er. cbn [snd] in Hf.
      destruct c as [rs|]; [|exists n, t; split; [now left|exact Hf]]. destruct (read_all l'); [discriminate|].
      destruct (IH eq_refl) as (n1 & t1 & I & Hl). exists n1, t1. split; [now right|exact Hl]. }
    destruct B as (n & t & I & Hl). now rewrite (load_all_refused float_of _ n t I Hl).
Qed.
End Files.

(** Floats that print and read whole numbers: *)
Definition whole_repr (x : R) : string := PyString.str_of_int (Int_part x) ++ ".0".
Definition whole_float (t : string) : R :=
  match parse_int (take (String.length t - 2) t) with Some z => IZR z | None => 0 end.
Example C92_witness_floats : python_floats whole_repr whole_float (fun x => IZR (Int_part x)).
Proof.
  assert (T : forall z, take (String.length (PyString.str_of_int z ++ ".0") - 2) (PyString.str_of_int z ++ ".0") = PyString.str_of_int z).
  { intro z. rewrite app_len. cbn [String.length]. replace (_ + 2 - 2)%nat with (String.length (PyString.str_of_int z)) by lia.
    unfold take. induction (PyString.str_of_int z) as [|c s IH]; [reflexivity|]. cbn. now rewrite IH. }
  split.
  - intro x. destruct (int_text (Int_part x)) as (sign & i & E & S & I). exists sign, i, ".0", "".
    unfold whole_repr. rewrite E, app_ass. repeat split; auto.
    + right. exists "0". split; [|reflexivity]. split; [discriminate|]. intros c [<-|[]]. now left.
    + intros [? _]; discriminate.
  - intro x. unfold whole_float, whole_repr. now rewrite T, int_back.
  - intro x. f_equal. destruct (base_Int_part (IZR (Int_part x))) as [B1 B2].
    assert (A1 : (Int_part (IZR (Int_part x)) <= Int_part x)%Z) by now apply le_IZR.
    assert (A2 : (Int_part x - 1 < Int_part (IZR (Int_part x)))%Z) by (apply lt_IZR; rewrite minus_IZR; lra). lia.
Qed.

(** Two shards, one of them pretty; the combined file of the seeds 1, 2 and 3: *)
Definition zero_repr (x : R) : string := "0.0".
Definition sample (seed : Z) : eval_result :=
  mkEvalResult seed 0 0 (seed =? 2)%Z false false 960 [mkSimple 0 0 0 0 0 0].
Example C92_witness :
  python_floats zero_repr (fun _ => 0%R) (fun _ => 0%R) /\
  let d := [("dqn_1.json", result_text zero_repr true [sample 3]); ("random.json", "");
            ("dqn_0.json", result_text zero_repr false [sample 1; sample 2])] in
  combine_texts zero_repr (fun _ => 0%R) false false (fun d => d) d "dqn" =
    Some (("dqn.json",
      "[{""seed"": 1, ""cumulative_reward"": 0.0, ""time_within_radius"": 0.0, ""out_of_power"": false, ""envelope_burst"": false, ""zeropressure"": false, ""final_timestep"": 960, ""flight_path"": []}, "
      ++ "{""seed"": 2, ""cumulative_reward"": 0.0, ""time_within_radius"": 0.0, ""out_of_power"": true, ""envelope_burst"": false, ""zeropressure"": false, ""final_timestep"": 960, ""flight_path"": []}, "
      ++ "{""seed"": 3, ""cumulative_reward"": 0.0, ""time_within_radius"": 0.0, ""out_of_power"": false, ""envelope_burst"": false, ""zeropressure"": false, ""final_timestep"": 960, ""flight_path"": []}]") :: d).
Proof.
  split.
  - split; try reflexivity. intro x. exists "", "0", ".0", "". repeat split; auto; [now left..| |intros [? _]; discriminate].
    right. exists "0". split; [|reflexivity]. split; [discriminate|]. intros c [<-|[]]. now left.
  - reflexivity.
Qed.
Print Assumptions C92_reads_back.
Print Assumptions C92_pretty.
Print Assumptions C92_cut.
Print Assumptions C92_combine.
Print Assumptions C92_combine_cut.
Print Assumptions C92_missing_refuted.
Print Assumptions C92_parsed.
