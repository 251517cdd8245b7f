(** Property C77: the observation of the default feature constructor exists after
    every reset, and during an episode exactly when the balloon is in the domain of
    its tables. *)
From Coq Require Import ZArith Reals Lra Lia Bool List Psatz.
From RecordUpdate Require Import RecordSet.
From Verif Require Spec.Episodes Props.ObservationProps.
From Verif Require Import Model.Num Model.Prng Model.Safety Model.Balloon Model.Atmosphere
  Model.Geometry Model.Solar Model.SolarSearch Model.Thermal Model.StableInit Model.Sampling
  Model.PowerTable Model.WindField Model.WindGP Model.PressureRange Model.Env Model.Features
  Spec.PrngSpec Spec.AtmosphereSpec Spec.FeatureSpec Spec.TablesSpec
  Proofs.NumR Proofs.TablesProofs Proofs.WindGPProofs Proofs.FeatureProofs Proofs.AtmosphereProofs
  Props.AtmosphereProps Props.SamplingProps Props.WindProps Props.FeatureProps Props.SolarCycleProps
  Props.EnvProps Props.ResetProps Props.DefaultRangeProps Props.SoundStartProps.
Import ListNotations RecordSetNotations.
Open Scope R_scope.

(** ** Specification *)
(** A regressor that fits any data there is, and predicts standard deviations of at
    most the 3.6 m/s of its prior. *)
Definition regresses (G : regressor) : Prop :=
  (forall data, data <> [] -> fit G data <> None) /\
  (forall data m r mean su sv, fit G data = Some m -> predict G m r = (mean, (su, sv)) ->
     0 <= su <= 3.6 /\ 0 <= sv <= 3.6).
(** A wind field's forecast column is what its forecast says level by level (C35). *)
Definition column_of {P : prng} {F : forecaster P}
    (fcol : wind_field P F -> R -> R -> list R -> Z -> option (list wind)) : Prop :=
  forall w x y ps e, ps <> [] -> fcol w x y ps e = all_some (map (fun p => forecast P F w x y p e) ps).
(** The states of a feature constructor: some observations after its creation. *)
Inductive observing {P : prng} {F : forecaster P} : constructor -> Prop :=
| observing_new : observing new_constructor
| observing_more w c center s m : observing c -> observing (fst (constructor_observe P F w c center s m)).

Section Answers.
Context (P : prng) (F : forecaster P) (G : regressor)
  (fcol : wind_field P F -> R -> R -> list R -> Z -> option (list wind)).
Hypothesis HG : regresses G.
Hypothesis Hcol : column_of fcol.
Local Notation get_features := (get_features P F G fcol).

Lemma observing_lengths c : @observing P F c -> length (measurement_locations (windgp c)) = length (error_values (windgp c)).
Proof.
  induction 1 as [|w c center s m H IH]; [reflexivity|].
  unfold constructor_observe, WindGP.observe. destruct (forecast P F w _ _ _ _); cbn; [|exact IH].
  rewrite !app_length, IH. reflexivity.
Qed.

Lemma deviation_bound su sv : 0 <= su <= 3.6 -> 0 <= sv <= 3.6 -> 0 <= deviation (su, sv) <= 1.00001.
Proof.
  intros A B. unfold deviation, SIGMA_EXP_SQUARED. cbn [fst snd].
  assert (Q : forall z, 0 <= z <= 3.6 -> 0 <= z ^ 2 <= 12.96) by (intros z Hz; nra).
  pose proof (Q su A). pose proof (Q sv B). lra.
Qed.

Lemma combine_snoc {A B} (l : list A) (l' : list B) a b : length l = length l' ->
  combine (l ++ [a]) (l' ++ [b]) = combine l l' ++ [(a, b)].
Proof.
  revert l'. induction l as [|c l IH]; intros [|c' l'] H; try discriminate; [reflexivity|].
  cbn. rewrite IH; [reflexivity|]. now injection H.
Qed.

Lemma all_some_total {A B} (f : A -> option B) l : (forall a, In a l -> f a <> None) ->
  exists ws, all_some (map f l) = Some ws /\ length ws = length l.
Proof.
  induction l as [|a l IH]; intro H; cbn [map all_some]; [exists []; auto|].
  destruct (f a) as [b|] eqn:E; [|elim (H a (or_introl eq_refl) E)].
  destruct IH as (ws & -> & L); [intros a' Ha; apply H; now right|].
  exists (b :: ws). cbn. now rewrite L.
Qed.

Lemma batch_answers w g x y e : measurement_locations g <> [] ->
  fresh_data g (seconds_of e) <> [] ->
  (forall p, forecast P F w x y p e <> None) ->
  exists answers, query_batch G (fcol w) g
      (map (fun p => mkLoc x y p (seconds_of e)) pressure_levels) = Some answers /\
    length answers = 181%nat /\ forall o, In o answers -> 0 <= snd o <= 1.00001.
Proof.
  intros Hne Hfr Hf. set (rows := map _ pressure_levels).
  assert (Hr : forall r, In r rows -> lx r = x /\ ly r = y /\ lt r = seconds_of e).
  { intros r Hr. apply in_map_iff in Hr. destruct Hr as (p & <- & _). auto. }
  assert (Hc : forall a b ps e0, ps <> [] -> fcol w a b ps e0 = all_some (map (fun p => forecast P F w a b p e0) ps))
    by (intros; now apply Hcol).
  assert (T : forall r, In r rows -> exists o, row_answer G (forecast P F w) g r o /\ 0 <= snd o <= 1.00001).
  { intros r Hi. destruct (Hr r Hi) as (E1 & E2 & E3).
    unfold row_answer, correction. destruct (measurement_locations g) as [|l0 ls] eqn:El; [congruence|].
    rewrite E1, E2, E3, timedelta_roundtrip.
    destruct (forecast P F w x y (lp r) e) as [f|] eqn:Ef; [|elim (Hf _ Ef)].
    destruct (fit G (fresh_data g (seconds_of e))) as [m|] eqn:Em; [|elim (proj1 HG _ Hfr Em)].
    destruct (predict G m r) as [[a b] [su sv]] eqn:Ep.
    destruct (proj2 HG _ _ _ _ _ _ Em Ep) as [B1 B2].
    exists ((a + u f, b + v f), deviation (su, sv)). split; [|apply deviation_bound; assumption].
    exists a, b, (deviation (su, sv)), f. auto. }
  assert (A : forall l, (forall r, In r l -> In r rows) -> exists out, Forall2 (row_answer G (forecast P F w) g) l out /\
     length out = length l /\ forall o, In o out -> 0 <= snd o <= 1.00001).
  { induction l as [|r l IH]; intro Hl.
    - exists []. split; [constructor|]. split; [reflexivity|]. contradiction.
    - destruct IH as (out & F2 & L & B); [intros; apply Hl; now right|].
      destruct (T r (Hl r (or_introl eq_refl))) as (o & R1 & R2).
      exists (o :: out). split; [now constructor|]. split; [cbn; now rewrite L|].
      intros o' [<-|Ho]; auto. }
  destruct (A rows (fun r H => H)) as (out & F2 & L & B).
  exists out. split.
  - apply (query_batch_spec G (forecast P F w) (fcol w) Hc). split; [discriminate|]. split; [|exact F2].
    intros r r' H H'. destruct (Hr r H) as (-> & -> & ->). destruct (Hr r' H') as (-> & -> & ->). auto.
  - split; [|exact B]. rewrite L. unfold rows. now rewrite map_length, levels_length.
Qed.

(** The observation taken right after the constructor observed the balloon. *)
Theorem C77_get_features : forall w atm c c' center s m, @observing P F c ->
  constructor_observe P F w c center s m = (c', Some tt) ->
  (0 <= date_time s)%Z -> (date_time s + 86400000000 < 47541 * 86400000000)%Z ->
  (forall p, forecast P F w (x s) (y s) p (time_elapsed s) <> None) ->
  let '(lat, lng) := latlng center (x s) (y s) in
  (exists v, get_features w atm c' = Some v) <->
  (Rabs (degrees lat) < 60 /\ 0.99 <= (pressure s + Rmax (superpressure s) 0) / pressure s <= 5 /\
   exists range, get_pressure_range s lat lng atm = Some range).
Proof.
  intros w atm c c' center s m Hob Eo H0 H1 Hf.
  pose proof (get_features_spec P F G fcol w atm c') as Spec.
  assert (Hl : last_balloon_state c' = Some (center, s)).
  { revert Eo. unfold constructor_observe. destruct (WindGP.observe _ _ _ _ _ _ _); intro E; injection E as <-; try discriminate; reflexivity. }
  destruct (latlng center (x s) (y s)) as [lat lng] eqn:Ell.
  assert (Er : pressure_ratio s = (pressure s + Rmax (superpressure s) 0) / pressure s).
  { unfold pressure_ratio. cbv zeta. rewrite pymax_R. numR. reflexivity. }
  rewrite <- Er. split.
  - intros (v & Ev). apply Spec in Ev.
    destruct Ev as (center' & s' & t & power & b & an & range & ts & E & Et & _ & El & _ & _ & Erg & _).
    rewrite Hl in E. injection E as <- <-. rewrite Ell in *. cbn [fst snd] in *.
    split; [|split; [|eauto]].
    + apply Rnot_le_lt. intro L. rewrite (proj2 (C68_always_answers lat lng _ H0 H1) L) in Et. discriminate.
    + exact (lookup_in _ _ _ El).
  - intros (Hlat & Hrt & range & Erg).
    destruct (proj1 (C68_always_answers lat lng _ H0 H1) Hlat) as (t & Et & Bt).
    destruct (lookup_row (pressure_ratio s) (battery_soc s) Hrt) as (_ & _ & en & _ & _ & El & _).
    remember (TablesSpec.affordable en (battery_soc s) 0) as power eqn:Ew. clear Ew.
    set (g := windgp c').
    assert (Hg : measurement_locations g <> [] /\ fresh_data g (seconds_of (time_elapsed s)) <> []).
    { pose proof (observing_lengths c Hob) as Len. unfold g. revert Eo. unfold constructor_observe, WindGP.observe.
      destruct (forecast P F w _ _ _ _) as [f|]; intro E; injection E as <-; [|discriminate].
      cbn [windgp measurement_locations]. split; [intro E; symmetry in E; now apply app_cons_not_nil in E|].
      unfold fresh_data. cbn [measurement_locations error_values]. rewrite combine_snoc by exact Len.
      rewrite filter_app. cbn [filter fst lt]. rewrite Rltb_true; [intro E; symmetry in E; now apply app_cons_not_nil in E|].
      rewrite Rminus_eq_0, Rabs_R0. unfold time_horizon. lra. }
    destruct Hg as [Hg1 Hg2].
    destruct (batch_answers w g (x s) (y s) (time_elapsed s) Hg1 Hg2 Hf) as (an & Ean & Lan & Ban).
    destruct (C28_total_and_monotone (pressure s) (pressure s) ltac:(lra)) as (b & _ & Hb & _). apply C28_nearest_level in Hb.
    set (bs := map (bearing_of (x s) (y s)) (map fst an)). set (ms := map magnitude_of (map fst an)).
    set (tr := fun i => if Rltb (level_pressure (Z.of_nat i)) (min_pressure range) || Rltb (max_pressure range) (level_pressure (Z.of_nat i))
       then unreachable else (nth i (map snd an) 0, nth i bs 0, nth i ms 0)).
    set (ts := map tr (seq 0 181)).
    eexists. apply Spec. exists center, s, t, power, b, an, range, ts.
    rewrite Ell. cbn [fst snd]. split; [exact Hl|]. split; [exact Et|]. split; [lra|]. split; [exact El|].
    split; [exact Ean|]. split; [exact Hb|]. split; [exact Erg|].
    split; [unfold ts; now rewrite map_length, seq_length|]. split; [|reflexivity].
    intros i Hi. assert (En : nth i ts unreachable = tr i).
    { unfold ts. rewrite nth_indep with (d' := tr 0%nat) by (rewrite map_length, seq_length; lia).
      rewrite map_nth, seq_nth by lia. reflexivity. }
    rewrite En. unfold triple_ok, tr.
    destruct (Rltb (level_pressure (Z.of_nat i)) (min_pressure range) || Rltb (max_pressure range) (level_pressure (Z.of_nat i))) eqn:Ed.
    + right. split; [|reflexivity]. intro C. apply reachable_dec in C. congruence.
    + left. split; [now apply reachable_dec|]. do 3 eexists. split; [reflexivity|].
      assert (Nth : forall (l : list R), length l = 181%nat -> nth_error l i = Some (nth i l 0)).
      { intros l Hll. apply nth_error_nth'. lia. }
      split; [apply Nth; now rewrite map_length|]. split; [apply Nth; unfold bs; now rewrite !map_length|].
      split; [apply Nth; unfold ms; now rewrite !map_length|].
      assert (I : In (nth i (map snd an) 0) (map snd an)) by (apply nth_In; rewrite map_length; lia).
      apply in_map_iff in I. destruct I as (o & <- & Io). now apply Ban.
Qed.

(** For the default balloon: at the latitudes that the search for the sunrise
    supports, while the superpressure is at most four times the pressure outside. *)
Theorem C77_default_balloon : forall w alpha c c' center s m, @observing P F c ->
  constructor_observe P F w c center s m = (c', Some tt) ->
  0 <= alpha <= 1 -> default_balloon s -> before_2100 (date_time s) ->
  225 <= upwelling_infrared s <= 315 -> 0 < pressure s ->
  (forall p, forecast P F w (x s) (y s) p (time_elapsed s) <> None) ->
  let '(lat, lng) := latlng center (x s) (y s) in
  (exists v, get_features w (atmosphere_reset alpha) c' = Some v) <->
  (Rabs (degrees lat) < 60 /\ superpressure s <= 4 * pressure s).
Proof.
  intros w alpha c c' center s m Hob Eo Ha Hd Hdate Hir Hp Hf.
  unfold before_2100 in Hdate.
  pose proof (C77_get_features w (atmosphere_reset alpha) c c' center s m Hob Eo ltac:(lia) ltac:(lia) Hf) as Q.
  destruct (latlng center (x s) (y s)) as [lat lng].
  destruct (C76_whole_range alpha s lat lng Ha Hd Hdate Hir) as (fl & ce & top & _ & _ & _ & Er & _).
  rewrite Q.
  assert (M : 0.99 <= (pressure s + Rmax (superpressure s) 0) / pressure s <= 5 <-> superpressure s <= 4 * pressure s).
  { assert (E : (pressure s + Rmax (superpressure s) 0) / pressure s * pressure s = pressure s + Rmax (superpressure s) 0) by (field; lra).
    set (z := (pressure s + Rmax (superpressure s) 0) / pressure s) in *. clearbody z.
    pose proof (Rmax_l (superpressure s) 0). pose proof (Rmax_r (superpressure s) 0). split.
    - intros [_ B]. assert (z * pressure s <= 5 * pressure s) by (apply Rmult_le_compat_r; lra). lra.
    - intro B. assert (Rmax (superpressure s) 0 <= 4 * pressure s) by (apply Rmax_lub; lra).
      split; apply Rmult_le_reg_r with (pressure s); lra. }
  rewrite M. split; [intros (A & B & _); auto|]. intros (A & B). split; [exact A|]. split; [exact B|]. eauto.
Qed.

(** ** Reset *)
Context (HP : lawful P) (noise4d : Z -> R -> R -> R -> R -> R).
Hypothesis HS : sampling_ends P.
Hypothesis HF : answers F.
Local Notation FC := (perciatelli P F G fcol).

Lemma arena_reset_observes (a : arena P F FC) k :
  exists n a' o s center, a_balloon P F FC a' = Some (center, s) /\
    forall draws, (n <= draws)%nat -> arena_reset P noise4d F FC draws a k = (a', Returned o).
Proof.
  set (alpha := uniform P (split P k 3 1) 0 1).
  assert (Ha : 0 <= alpha <= 1)
    by (pose proof (uniform_range P HP (split P k 3 1) 0 1 ltac:(lra)); unfold alpha; lra).
  set (now := sample_time P (split P k 3 2) BEGIN_RANGE END_RANGE).
  pose proof (C52_default_time P HP (split P k 3 2)) as Hnow. fold now in Hnow.
  assert (Hd : before_2100 now) by (unfold before_2100, BEGIN_RANGE, END_RANGE in *; lia).
  destruct (initialize_succeeds P HP noise4d HS (split P k 3 0) alpha now Ha Hnow) as (n & center & s & Hok & Ht & Ei).
  exists n.
  enough (One : exists a' o s center, a_balloon P F FC a' = Some (center, s) /\
            arena_reset P noise4d F FC n a k = (a', Returned o)).
  { destruct One as (a' & o & s' & c' & Eb & E). exists a', o, s', c'. split; [exact Eb|].
    intros draws Hn. rewrite <- E. unfold arena_reset. fold alpha now. cbv zeta.
    rewrite (Ei draws Hn), (Ei n (le_n n)). reflexivity. }
  pose proof (Ei n (le_n n)) as E0.
  destruct (initialize_balloon_some P HP _ _ _ _ _ _ Ha E0) as
    (Hdist & Hc1 & _ & Hp & _ & Hir & _ & _ & Hdate & _).
  destruct (initialize_sound P HP _ _ _ _ _ _ Ha Hd E0) as (Hdef & Hsp & _).
  unfold arena_reset. fold alpha now. cbv zeta. rewrite E0, Hok. cbn [status_is_ok negb].
  set (w := wind_reset P F (a_wind P F FC a) (split P (split P (split P k 3 0) 6 0) 2 1) now).
  assert (Hf : forall p, forecast P F w (x s) (y s) p (time_elapsed s) <> None).
  { intro p. unfold forecast, w, wind_reset. cbn [forecast_state]. apply HF. lia. }
  cbn [fc_new perciatelli].
  unfold observe_and_get_features. cbn [a_balloon a_features a_wind a_atmosphere set].
  match goal with |- context [wind_at_balloon P noise4d F FC ?b s] => set (a1 := b) end.
  assert (Gt : exists tw, wind_at_balloon P noise4d F FC a1 s = Some tw).
  { apply (truth_defined P noise4d F HF (a_wind P F FC a) (split P (split P (split P k 3 0) 6 0) 2 1) now). lia. }
  destruct Gt as (tw & ->). fold w. cbn [fc_observe fc_get_features perciatelli].
  destruct (constructor_observe P F w new_constructor center s tw) as [c' r] eqn:Eo.
  assert (r = Some tt) as ->.
  { revert Eo. unfold constructor_observe, WindGP.observe.
    destruct (forecast P F w (x s) (y s) (pressure s) (time_elapsed s)) eqn:Ef; [|elim (Hf _ Ef)].
    intro E. now injection E as _ <-. }
  pose proof (C77_default_balloon w alpha new_constructor c' center s tw observing_new Eo Ha Hdef
    ltac:(rewrite Hdate; exact Hd) Hir ltac:(lra) Hf) as Q.
  pose proof (start_latitude center (x s) (y s)) as SL.
  destruct (latlng center (x s) (y s)) as [lat lng]. cbn [fst] in SL.
  destruct Q as [_ Q]. destruct Q as (v & Ev).
  { split; [|lra]. apply SL.
    - pose proof PI_RGT_0. apply Rabs_le. lra.
    - replace (x s * x s + y s * y s) with (x s ^ 2 + y s ^ 2) by ring. exact Hdist. }
  rewrite Ev. eexists. exists v, s, center. split; [|reflexivity]. reflexivity.
Qed.

(** Construction and every reset return an observation with the default feature
    constructor. *)
Theorem C77_reset (e : env P F FC) (seed : option Z) :
  exists n e' o i, forall draws, (n <= draws)%nat ->
    env_reset P noise4d F FC draws e seed = (e', Returned (o, i)).
Proof.
  unfold env_reset.
  set (e1 := match seed with Some z => _ | None => _ end).
  destruct (arena_reset_observes (e_arena P F FC e1) (split P (e_rng P F FC e1) 2 1))
    as (n & a' & o & s & center & Eb & E).
  exists n. eexists. exists o, (get_info s). intros draws Hn.
  cbn -[arena_reset get_info]. rewrite (E draws Hn), Eb. reflexivity.
Qed.
Theorem C77_construct (radius : R) (seed : option Z) (now1 now2 : Z) :
  exists n e, forall draws, (n <= draws)%nat ->
    new_env P noise4d F FC draws radius seed now1 now2 = Some e.
Proof.
  unfold new_env, new_arena, new_arena_from, arena_reset_from, arena_key.
  match goal with |- context [arena_reset P noise4d F FC _ ?b ?kk] => set (a0 := b); set (k0 := kk) end.
  destruct (arena_reset_observes a0 k0) as (n & a & o & s & c & _ & E).
  set (z := match seed with Some z => z | None => now2 end).
  destruct (C77_reset (mkEnv P F FC (radius * 1000) (prng_key P 0) 0 a) (Some z)) as (n' & e & o' & i & E').
  exists (Nat.max n n'), e. intros draws Hn.
  rewrite (E draws ltac:(lia)), (E' draws ltac:(lia)). reflexivity.
Qed.
End Answers.
Print Assumptions C77_get_features.
Print Assumptions C77_default_balloon.
Print Assumptions C77_reset.
Print Assumptions C77_construct.

(** The hypotheses are met: the generator of C65, the static wind field and a
    regressor with a constant deviation.  So there are first observations, to which
    C24-C27, C63 and C75 apply. *)
Definition witness_regressor : regressor := mkGp unit (fun _ => Some tt) (fun _ _ => ((0, 0), (1, 2))).
Lemma witness_regresses : regresses witness_regressor.
Proof. split; [discriminate|]. intros data m r mean su sv _ E. cbn in E. injection E as <- <- <-. lra. Qed.
Lemma witness_column P F : @column_of P F (default_forecast_column P F).
Proof. intros w x y ps e _. reflexivity. Qed.
Example C77_witness : let P := witness_prng in let F := static_field P in
  let fcol := default_forecast_column P F in
  lawful P /\ sampling_ends P /\ answers F /\ regresses witness_regressor /\ column_of fcol /\
  exists n e e' o i center s, forall draws, (n <= draws)%nat ->
    new_env P (fun _ _ _ _ _ => 0) F (perciatelli P F witness_regressor fcol) draws 50 (Some 3%Z) 0 0 = Some e /\
    env_reset P (fun _ _ _ _ _ => 0) F (perciatelli P F witness_regressor fcol) draws e None = (e', Returned (o, i)) /\
    ObservationProps.flown P (fun _ _ _ _ _ => 0) F witness_regressor fcol (fun _ _ _ _ => None) draws [s] e' o /\
    a_balloon _ _ _ (e_arena _ _ _ e') = Some (center, s) /\
    250 <= superpressure s <= 2379 /\ length o = 1099%nat.
Proof.
  intros P F fcol. destruct C65_witness as (L & S0 & _).
  split; [exact L|]. split; [exact S0|]. split; [exact (proj1 (C65_forecasts _))|]. split; [exact witness_regresses|].
  split; [apply witness_column|].
  destruct (C77_construct P F witness_regressor fcol witness_regresses (witness_column _ _) L (fun _ _ _ _ _ => 0) S0
    (proj1 (C65_forecasts _)) 50 (Some 3%Z) 0 0) as (n & e & E).
  destruct (C77_reset P F witness_regressor fcol witness_regresses (witness_column _ _) L (fun _ _ _ _ _ => 0) S0
    (proj1 (C65_forecasts _)) e None) as (n' & e' & o & i & E').
  pose proof (E' n' (le_n n')) as E1.
  destruct (C63_sound_envelope _ _ _ _ _ _ _ _ _ _ L E1) as (center & s & Hb & _ & Hs & _).
  exists (Nat.max n n'), e, e', o, i, center, s. intros draws Hn.
  assert (E2 := E' draws ltac:(lia)).
  assert (Fl : ObservationProps.flown P (fun _ _ _ _ _ => 0) F witness_regressor fcol (fun _ _ _ _ => None) draws [s] e' o).
  { eapply ObservationProps.flown_reset; [exact E2|]. exact (f_equal (fun z => match z with Some (_, b) => Some b | None => None end) Hb). }
  split; [apply E; lia|]. split; [exact E2|]. split; [exact Fl|]. split; [exact Hb|]. split; [exact Hs|].
  destruct (ObservationProps.C75_balloon _ _ _ _ _ _ _ _ _ _ Fl) as (? & ? & ? & ? & _ & _ & Len & _). exact Len.
Qed.
