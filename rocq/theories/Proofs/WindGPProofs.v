(** Lemmas about the wind belief model. *)
From Coq Require Import ZArith Reals Lra Lia List Bool.
From Verif Require Import Model.Num Model.WindField Model.WindGP Proofs.NumR Proofs.WindProofs.
Import ListNotations.
Open Scope R_scope.

Lemma all_some_forall2 {A B} (f : A -> option B) : forall l ws,
  all_some (map f l) = Some ws <-> Forall2 (fun a b => f a = Some b) l ws.
Proof.
  induction l as [|a l IH]; intro ws; cbn [map all_some].
  - split; [intro E; injection E as <-; constructor|]. intro F. inversion F. reflexivity.
  - destruct (f a) as [b|] eqn:Ea.
    + destruct (all_some (map f l)) as [r|] eqn:Er.
      * split.
        -- intro E. injection E as <-. constructor; [exact Ea|]. apply IH. reflexivity.
        -- intro F. inversion F as [|? w0 ? ws0 H1 H2]; subst. rewrite Ea in H1.
           injection H1 as <-. apply IH in H2. injection H2 as <-. reflexivity.
      * split; [discriminate|]. intro F. inversion F as [|? w0 ? ws0 H1 H2]; subst.
        apply IH in H2. discriminate.
    + split; [discriminate|]. intro F. inversion F as [|? w0 ? ws0 H1 H2]; subst. congruence.
Qed.

Lemma same_column_spec r0 r : same_column r0 r = true <-> lx r = lx r0 /\ ly r = ly r0 /\ lt r = lt r0.
Proof.
  unfold same_column, Reqb. rewrite !andb_true_iff.
  destruct (Req_EM_T (lx r) (lx r0)), (Req_EM_T (ly r) (ly r0)), (Req_EM_T (lt r) (lt r0)); intuition congruence.
Qed.

Section GP.
Context (G : regressor) (gf : R -> R -> R -> Z -> option wind)
  (gc : R -> R -> list R -> Z -> option (list wind)).
Hypothesis Hcol : forall x y ps e, ps <> [] -> gc x y ps e = all_some (map (fun p => gf x y p e) ps).

(** The correction of one row. *)
Definition fresh_data (st : gp) (t : R) : list (loc * (R * R)) :=
  filter (fun m => Rltb (Rabs (lt (fst m) - t)) (time_horizon))
    (combine (measurement_locations st) (error_values st)).
Definition correction (st : gp) (r : loc) : option ((R * R) * R) :=
  match measurement_locations st with
  | [] => Some ((0, 0), 0)
  | _ => match fit G (fresh_data st (lt r)) with
         | None => None
         | Some m => Some (let '(mean, dev) := predict G m r in (mean, deviation dev))
         end
  end.
Definition row_answer (st : gp) (r : loc) (o : (R * R) * R) : Prop :=
  exists a b d f, correction st r = Some ((a, b), d) /\
    gf (lx r) (ly r) (lp r) (timedelta_of_seconds (lt r)) = Some f /\
    o = ((a + u f, b + v f), d).

Lemma raw_rows st rows r0 : (forall r, In r rows -> lt r = lt r0) -> rows <> [] ->
  raw_prediction G st rows r0 = all_some (map (correction st) rows).
Proof.
  intros Hr Hne. unfold raw_prediction, correction.
  destruct (measurement_locations st) as [|m0 ms] eqn:Em.
  - clear. induction rows as [|r rows IH]; cbn; [reflexivity|]. now rewrite <- IH.
  - rewrite (proj2 (forallb_forall _ _)).
    2:{ intros r Hi. unfold Reqb. destruct (Req_EM_T (lt r) (lt r0)); [reflexivity|]. elim n. auto. }
    rewrite <- Em. change (filter _ _) with (fresh_data st (lt r0)).
    destruct (fit G (fresh_data st (lt r0))) as [md|] eqn:Ef.
    + clear Hne. induction rows as [|r rows IH]; [reflexivity|]. cbn [map all_some].
      rewrite (Hr r (or_introl eq_refl)), Ef, <- IH; [reflexivity|]. intros q Hq. apply Hr. now right.
    + destruct rows as [|r rows]; [now elim Hne|]. cbn [map all_some].
      now rewrite (Hr r (or_introl eq_refl)), Ef.
Qed.

Lemma add_forecasts_rows st x y e : forall rows out fs,
  Forall2 (fun r o => correction st r = Some o) rows out ->
  Forall2 (fun r f => gf x y (lp r) e = Some f) rows fs ->
  (forall r, In r rows -> lx r = x /\ ly r = y /\ timedelta_of_seconds (lt r) = e) ->
  Forall2 (row_answer st) rows (add_forecasts out fs).
Proof.
  intros rows out fs F. revert fs. induction F as [|r [[a b] d] rows out E F IH]; intros fs F' Hr;
    inversion F' as [|? f ? fs' Ef F'']; subst; cbn [add_forecasts]; constructor.
  - destruct (Hr r (or_introl eq_refl)) as (Ex & Ey & Ee). exists a, b, d, f.
    rewrite Ex, Ey, Ee. auto.
  - apply IH; [exact F''|]. intros q Hq. apply Hr. now right.
Qed.
Lemma row_answers_split st x y e : forall rows out,
  Forall2 (row_answer st) rows out ->
  (forall r, In r rows -> lx r = x /\ ly r = y /\ timedelta_of_seconds (lt r) = e) ->
  exists raw fs, Forall2 (fun r o => correction st r = Some o) rows raw /\
    Forall2 (fun r f => gf x y (lp r) e = Some f) rows fs /\ add_forecasts raw fs = out.
Proof.
  intros rows out F. induction F as [|r o rows out A F IH]; intro Hr.
  - exists [], []. repeat split; constructor.
  - destruct IH as (raw & fs & F1 & F2 & E). { intros q Hq. apply Hr. now right. }
    destruct A as (a & b & d & f & E1 & E2 & ->).
    destruct (Hr r (or_introl eq_refl)) as (Ex & Ey & Et). rewrite Ex, Ey, Et in E2.
    exists (((a, b), d) :: raw), (f :: fs). repeat split; try (constructor; assumption).
    cbn [add_forecasts]. now rewrite E.
Qed.

Lemma query_batch_spec st rows out :
  query_batch G gc st rows = Some out <->
  rows <> [] /\
  (forall r r', In r rows -> In r' rows -> lx r = lx r' /\ ly r = ly r' /\ lt r = lt r') /\
  Forall2 (row_answer st) rows out.
Proof.
  destruct rows as [|r0 rows'].
  { cbn. split; [discriminate|]. intros [N _]. now elim N. }
  set (rows := r0 :: rows').
  assert (Hne : rows <> []) by discriminate.
  unfold query_batch. unfold rows at 1. cbv iota beta. fold rows.
  destruct (forallb (same_column r0) rows) eqn:Es.
  - assert (Hc : forall r, In r rows -> lx r = lx r0 /\ ly r = ly r0 /\ lt r = lt r0).
    { intros r Hr. rewrite forallb_forall in Es. apply same_column_spec. now apply Es. }
    assert (Hm : map lp rows <> []) by discriminate.
    rewrite raw_rows by (try exact Hne; intros r Hr; apply (Hc r Hr)).
    rewrite Hcol by exact Hm. rewrite map_map.
    set (x := lx r0) in *. set (y := ly r0) in *. set (e := timedelta_of_seconds (lt r0)).
    assert (Hc' : forall r, In r rows -> lx r = x /\ ly r = y /\ timedelta_of_seconds (lt r) = e).
    { intros r Hr. destruct (Hc r Hr) as (A & B & C). rewrite C. auto. }
    destruct (all_some (map (correction st) rows)) as [raw|] eqn:Er.
    + destruct (all_some (map (fun r => gf x y (lp r) e) rows)) as [fs|] eqn:Efs.
      * split.
        -- intro E. injection E as <-. split; [exact Hne|]. split.
           ++ intros r r' Hr Hr'. destruct (Hc r Hr) as (-> & -> & ->). destruct (Hc r' Hr') as (-> & -> & ->). auto.
           ++ apply all_some_forall2 in Er. apply (all_some_forall2 (fun r => gf x y (lp r) e)) in Efs.
              eapply add_forecasts_rows; [exact Er|exact Efs|exact Hc'].
        -- intros (_ & _ & F). destruct (row_answers_split st x y e rows out F Hc') as (raw' & fs' & F1 & F2 & E).
           apply all_some_forall2 in F1. apply (all_some_forall2 (fun r => gf x y (lp r) e)) in F2. congruence.
      * split; [discriminate|]. intros (_ & _ & F).
        destruct (row_answers_split st x y e rows out F Hc') as (raw' & fs' & F1 & F2 & E).
        apply (all_some_forall2 (fun r => gf x y (lp r) e)) in F2. congruence.
    + split; [discriminate|]. intros (_ & _ & F).
      destruct (row_answers_split st x y e rows out F Hc') as (raw' & fs' & F1 & F2 & E).
      apply all_some_forall2 in F1. congruence.
  - split.
    + destruct (raw_prediction G st rows r0); discriminate.
    + intros (_ & Hsame & _). exfalso. apply not_true_iff_false in Es. apply Es.
      apply forallb_forall. intros r Hr. apply same_column_spec.
      apply Hsame; [exact Hr|now left].
Qed.

Lemma query_spec st x y p e o :
  query G gc st x y p e = Some o <-> row_answer st (mkLoc x y p (seconds_of e)) o.
Proof.
  unfold query. split.
  - destruct (query_batch G gc st [mkLoc x y p (seconds_of e)]) as [[|r rs]|] eqn:E; try discriminate.
    intro H. injection H as ->. apply query_batch_spec in E. destruct E as (_ & _ & F).
    inversion F. assumption.
  - intro H. rewrite (proj2 (query_batch_spec st [mkLoc x y p (seconds_of e)] [o])); [reflexivity|].
    split; [discriminate|]. split.
    + intros r r' [<-|[]] [<-|[]]. auto.
    + constructor; [exact H|constructor].
Qed.
End GP.

Lemma Int_part_half z : Int_part (IZR z + 1 / 2) = z.
Proof.
  destruct (base_Int_part (IZR z + 1 / 2)) as [A B]. apply Z.le_antisymm.
  - apply Z.lt_succ_r, lt_IZR. rewrite succ_IZR. lra.
  - apply Z.lt_succ_r, lt_IZR. rewrite succ_IZR. lra.
Qed.
Lemma timedelta_roundtrip e : timedelta_of_seconds (seconds_of e) = e.
Proof.
  unfold timedelta_of_seconds, seconds_of.
  replace (IZR e / 1000000 * 1000000 + 1 / 2) with (IZR e + 1 / 2) by lra. apply Int_part_half.
Qed.
