(** Property C37 (wind belief). *)
From Coq Require Import ZArith Reals Lra Lia List Bool.
From Verif Require Import Model.Num Model.Prng Model.WindField Model.WindGP Spec.BeliefSpec
  Proofs.NumR Proofs.WindProofs Proofs.WindGPProofs.
Import ListNotations.
Open Scope R_scope.

Section Belief.
Context (G : regressor)
  (gf : R -> R -> R -> Z -> option wind)                  (* the forecast's get_forecast *)
  (gc : R -> R -> list R -> Z -> option (list wind)).     (* and get_forecast_column *)

(** Column queries agree with single ones, as C35 proves of the wind fields. *)
Definition columns_agree : Prop :=
  forall x y ps e, ps <> [] -> gc x y ps e = all_some (map (fun p => gf x y p e) ps).

(** Telling the belief object a history; an observe() that raises changes nothing. *)
Definition tell (st : gp) (ev : event) : gp :=
  match ev with
  | Reset => gp_reset
  | Observed m =>
      match observe gf st (m_x m) (m_y m) (m_p m) (m_time m) (mkWind (m_u m) (m_v m)) with
      | Some st' => st'
      | None => st
      end
  end.
Definition told (h : list event) : gp := fold_left tell h gp_reset.

(** What is learnt from a measurement: the error of the forecast there. *)
Definition lesson (m : measurement) : option (loc * (R * R)) :=
  match gf (m_x m) (m_y m) (m_p m) (m_time m) with
  | Some f => Some (mkLoc (m_x m) (m_y m) (m_p m) (IZR (m_time m) / 1000000),
                    (m_u m - u f, m_v m - v f))
  | None => None
  end.
Definition lessons (ms : list measurement) : list (loc * (R * R)) :=
  flat_map (fun m => match lesson m with Some l => [l] | None => [] end) ms.

(** [rec] are, in order, the recent ones among [ms]. *)
Inductive recent_of (t : Z) : list measurement -> list measurement -> Prop :=
| ro_nil : recent_of t [] []
| ro_keep m ms rec : recent t m -> recent_of t ms rec -> recent_of t (m :: ms) (m :: rec)
| ro_drop m ms rec : ~ recent t m -> recent_of t ms rec -> recent_of t (m :: ms) rec.

Lemma told_data : forall h st acc,
  combine (measurement_locations st) (error_values st) = lessons acc ->
  length (measurement_locations st) = length (error_values st) ->
  let st' := fold_left tell h st in
  combine (measurement_locations st') (error_values st') = lessons (since_reset h acc) /\
  length (measurement_locations st') = length (error_values st').
Proof.
  induction h as [|[m|] h IH]; intros st acc E L; cbn [fold_left since_reset].
  - split; assumption.
  - apply IH; unfold tell, observe, lessons in *.
    + rewrite flat_map_app. cbn [flat_map]. unfold lesson at 2.
      destruct (gf (m_x m) (m_y m) (m_p m) (m_time m)) as [f|]; cbn [measurement_locations error_values];
        [|rewrite !app_nil_r; exact E].
      rewrite <- E. unfold seconds_of. clear - L. revert L.
      generalize (measurement_locations st), (error_values st). cbn [u v].
      induction l as [|a l IHl]; intros [|b l0] L; try discriminate; [reflexivity|].
      cbn [combine app]. f_equal. apply IHl. now injection L.
    + destruct (gf (m_x m) (m_y m) (m_p m) (m_time m)); cbn [measurement_locations error_values]; [|exact L].
      rewrite !app_length. cbn. lia.
  - apply IH; reflexivity.
Qed.

Lemma recent_filter t : forall ms rec, recent_of t ms rec ->
  filter (fun m => Rltb (Rabs (lt (fst m) - seconds_of t)) time_horizon) (lessons ms) = lessons rec.
Proof.
  assert (D : forall m, Rltb (Rabs (IZR (m_time m) / 1000000 - seconds_of t)) time_horizon = true <-> recent t m).
  { intro m. rewrite Rltb_iff. unfold recent, seconds_of, time_horizon.
    replace (IZR (m_time m) / 1000000 - IZR t / 1000000) with (IZR (m_time m - t) / 1000000) by (rewrite minus_IZR; lra).
    unfold Rdiv. rewrite Rabs_mult, (Rabs_right (/ 1000000)) by lra. rewrite <- abs_IZR.
    change (6 * 3600 * 1000000)%Z with 21600000000%Z. split; intro H.
    - apply lt_IZR. lra.
    - apply IZR_lt in H. lra. }
  assert (LC : forall m ms, lessons (m :: ms) = match lesson m with Some l => [l] | None => [] end ++ lessons ms)
    by reflexivity.
  intros ms rec F. induction F as [|m ms rec Hr F IH|m ms rec Hr F IH]; [reflexivity| |];
    rewrite !LC; unfold lesson; destruct (gf (m_x m) (m_y m) (m_p m) (m_time m)) as [f|];
    cbn [app filter fst lt]; try exact IH.
  - rewrite (proj2 (D m) Hr). f_equal. exact IH.
  - destruct (Rltb _ time_horizon) eqn:Eb; [elim Hr; now apply D|exact IH].
Qed.

(** The belief after any history, at any place and time: if nothing was learnt
    since the last reset, the forecast with deviation zero; otherwise the
    forecast plus the error predicted by the regressor trained on exactly the
    recent lessons since the last reset. *)
Theorem C37_belief (h : list event) (x y p : R) (t : Z) (mean : R * R) (dev : R)
    (rec : list measurement) :
  columns_agree -> recent_of t (since_reset h []) rec ->
  query G gc (told h) x y p t = Some (mean, dev) <->
  exists f, gf x y p t = Some f /\
    ((lessons (since_reset h []) = [] /\ mean = (u f, v f) /\ dev = 0) \/
     (lessons (since_reset h []) <> [] /\
      exists trained eu ev su sv, fit G (lessons rec) = Some trained /\
        predict G trained (mkLoc x y p (IZR t / 1000000)) = ((eu, ev), (su, sv)) /\
        mean = (eu + u f, ev + v f) /\ dev = ((su / 3.6) ^ 2 + (sv / 3.6) ^ 2) / 2)).
Proof.
  intros Hc Hr. rewrite (query_spec G gf gc Hc). unfold row_answer, correction, fresh_data.
  destruct (told_data h gp_reset [] eq_refl eq_refl) as [Ed El]. cbv zeta in Ed, El. fold (told h) in Ed, El.
  rewrite Ed. cbn [lx ly lp lt]. rewrite timedelta_roundtrip, (recent_filter t _ _ Hr).
  assert (Hdev : forall su sv, deviation (su, sv) = ((su / 3.6) ^ 2 + (sv / 3.6) ^ 2) / 2).
  { intros. unfold deviation, SIGMA_EXP_SQUARED. cbn [fst snd]. field; lra. }
  destruct (measurement_locations (told h)) as [|m0 ms] eqn:Em.
  - cbn [combine] in Ed. rewrite <- Ed. split.
    + intros (a & b & d & f & E1 & E2 & E3). injection E1 as <- <- <-. injection E3 as -> ->.
      exists f. split; [exact E2|]. left. rewrite !Rplus_0_l. auto.
    + intros (f & E2 & [(_ & -> & ->)|(N & _)]); [|now elim N].
      exists 0, 0, 0, f. rewrite !Rplus_0_l. auto.
  - assert (N : lessons (since_reset h []) <> []).
    { rewrite <- Ed. cbn [length] in El. destruct (error_values (told h)); discriminate. }
    destruct (fit G (lessons rec)) as [tr|] eqn:Ef.
    + fold (seconds_of t). destruct (predict G tr (mkLoc x y p (seconds_of t))) as [[eu ev] [su sv]] eqn:Ep. split.
      * intros (a & b & d & f & E1 & E2 & E3). injection E1 as <- <- <-. injection E3 as -> ->.
        exists f. split; [exact E2|]. right. split; [exact N|]. exists tr, eu, ev, su, sv. auto.
      * intros (f & E2 & [(N' & _)|(_ & tr' & eu' & ev' & su' & sv' & E1 & E3 & -> & ->)]); [now elim N|].
        injection E1 as <-. rewrite Ep in E3. injection E3 as <- <- <- <-.
        exists eu, ev, (deviation (su, sv)), f. rewrite <- Hdev. auto.
    + split.
      * intros (a & b & d & f & E1 & _). discriminate.
      * intros (f & _ & [(N' & _)|(_ & tr & ? & ? & ? & ? & E1 & _)]); [now elim N|discriminate].
Qed.

(** Every measurement is either recent or not, so [rec] always exists. *)
Theorem C37_recent_exists (t : Z) (ms : list measurement) : exists rec, recent_of t ms rec.
Proof.
  induction ms as [|m ms (rec & IH)]; [exists []; constructor|].
  destruct (Z_lt_dec (Z.abs (m_time m - t)) (6 * 3600 * 1000000)).
  - exists (m :: rec). now constructor.
  - exists rec. now constructor.
Qed.

(** A batch is answered row by row: row i of the answer is the answer to row i
    alone; a batch mixing places or times, or empty, is refused. *)
Theorem C37_rows (st : gp) (rows : list (R * R * R * Z)) (out : list ((R * R) * R)) :
  columns_agree ->
  let at_row '(x, y, p, t) := mkLoc x y p (IZR t / 1000000) in
  query_batch G gc st (map at_row rows) = Some out <->
  rows <> [] /\
  (exists x y t, Forall (fun r => exists p, r = (x, y, p, t)) rows) /\
  Forall2 (fun '(x, y, p, t) o => query G gc st x y p t = Some o) rows out.
Proof.
  intros Hc at_row. rewrite (query_batch_spec G gf gc Hc).
  assert (Q : forall r o, (let '(x, y, p, t) := r in query G gc st x y p t = Some o) <->
              row_answer G gf st (at_row r) o).
  { intros [[[x y] p] t] o. apply (query_spec G gf gc Hc). }
  assert (F2 : forall l o, Forall2 (row_answer G gf st) (map at_row l) o <->
     Forall2 (fun '(x, y, p, t) o => query G gc st x y p t = Some o) l o).
  { induction l as [|r l IH]; intros [|o os]; cbn [map]; split; intro F; inversion F; subst;
      constructor; try (now apply IH).
    - destruct r as [[[x y] p] t]. now apply (Q (x, y, p, t) o).
    - destruct r as [[[x y] p] t]. now apply (Q (x, y, p, t) o). }
  rewrite F2. assert (Hn : map at_row rows <> [] <-> rows <> []) by (destruct rows; cbn; split; congruence).
  rewrite Hn. split; intros (N & Hs & F); split; [exact N| |exact N|]; split; try exact F.
  - destruct rows as [|[[[x y] p] t] rows]; [now elim N|]. exists x, y, t.
    apply Forall_forall. intros [[[x' y'] p'] t'] Hi.
    destruct (Hs (at_row (x', y', p', t')) (at_row (x, y, p, t))) as (A & B & C).
    + now apply in_map.
    + now left.
    + cbn in A, B, C. exists p'. assert (t' = t) by (apply eq_IZR; lra). now subst.
  - intros r r' Hr Hr'. destruct Hs as (x & y & t & Hs). rewrite Forall_forall in Hs.
    apply in_map_iff in Hr. destruct Hr as (q & <- & Hq). apply in_map_iff in Hr'. destruct Hr' as (q' & <- & Hq').
    destruct (Hs q Hq) as (p & ->). destruct (Hs q' Hq') as (p' & ->). cbn. auto.
Qed.

(** Refuted: the belief is not the forecast when all measurements are old; the
    regressor is fitted to no data at all, which sklearn refuses, so the query
    raises. *)
Theorem C37_forecast_when_all_old_refuted (h : list event) (x y p : R) (t : Z) :
  columns_agree -> fit G [] = None ->
  lessons (since_reset h []) <> [] ->
  (forall m, In m (since_reset h []) -> ~ recent t m) ->
  query G gc (told h) x y p t = None.
Proof.
  intros Hc Hf N Ho.
  assert (Hr : recent_of t (since_reset h []) []).
  { induction (since_reset h []) as [|m ms IH]; constructor.
    - apply Ho. now left.
    - destruct (lessons ms) eqn:E.
      + clear - Ho. assert (forall m0, In m0 ms -> ~ recent t m0) by (intros; apply Ho; now right).
        clear Ho. induction ms; constructor; [apply H; now left|apply IHms; intros; apply H; now right].
      + apply IH; [discriminate|]. intros; apply Ho. now right. }
  destruct (query G gc (told h) x y p t) as [[mean dev]|] eqn:E; [|reflexivity].
  apply (C37_belief h x y p t mean dev [] Hc Hr) in E.
  destruct E as (f & _ & [(N' & _)|(_ & tr & ? & ? & ? & ? & E1 & _)]); [now elim N|].
  unfold lessons in E1. cbn [flat_map] in E1. congruence.
Qed.
End Belief.
Print Assumptions C37_belief.
Print Assumptions C37_recent_exists.
Print Assumptions C37_rows.
Print Assumptions C37_forecast_when_all_old_refuted.

(** A regressor like sklearn's in refusing to train on nothing; the static field;
    one measurement, then queries one hour and seven hours later. *)
Definition mean_regressor : regressor :=
  mkGp (R * R)
    (fun data => match data with [] => None | (_, e) :: _ => Some e end)
    (fun m _ => (m, (3.6, 3.6))).
Definition still (x y p : R) (t : Z) : option wind := Some (static_forecast p).
Definition still_column (x y : R) (ps : list R) (t : Z) := all_some (map (fun p => still x y p t) ps).
Definition one_measurement : list event := [Reset; Observed (mkMeas 0 0 7000 0 12 1)].
Example C37_witness :
  columns_agree still still_column /\
  query mean_regressor still_column (told still one_measurement) 0 0 9000 (3600 * 1000000)
  = Some ((12 - 10 + 0, 1 - 0 + 10), ((3.6 / 3.6) ^ 2 + (3.6 / 3.6) ^ 2) / 2) /\
  query mean_regressor still_column (told still one_measurement) 0 0 9000 (7 * 3600 * 1000000) = None /\
  still 0 0 9000 (7 * 3600 * 1000000) <> None.
Proof.
  assert (Hc : columns_agree still still_column) by (intros x y ps e _; reflexivity).
  assert (N : lessons still (since_reset one_measurement []) <> []) by discriminate.
  split; [exact Hc|]. split; [|split; [|discriminate]].
  - apply (C37_belief mean_regressor still still_column one_measurement 0 0 9000 _ _ _
             [mkMeas 0 0 7000 0 12 1] Hc).
    + constructor; [unfold recent; cbn; lia|constructor].
    + exists (static_forecast 9000). split; [reflexivity|]. right. split; [exact N|].
      exists (12 - 10, 1 - 0), (12 - 10), (1 - 0), 3.6, 3.6.
      unfold static_forecast.
      destruct (Rltb_spec 9000 8000), (Rltb_spec 9000 10000); try lra. cbn [u v].
      split; [|auto]. cbn. unfold static_forecast. destruct (Rltb_spec 7000 8000); [reflexivity|lra].
  - apply (C37_forecast_when_all_old_refuted mean_regressor still still_column); try assumption; [reflexivity|].
    intros m [<-|[]]. unfold recent. cbn. lia.
Qed.
