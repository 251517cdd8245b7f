(** Property C65: an environment can always be constructed and reset. *)
From Coq Require Import ZArith Reals Lra Lia Bool List Psatz.
From RecordUpdate Require Import RecordSet.
From Verif Require Import Model.Num Model.Prng Model.Safety Model.Balloon Model.Atmosphere
  Model.Geometry Model.Solar Model.SolarSearch Model.Thermal Model.StableInit Model.Sampling
  Model.WindField Model.Env
  Spec.PrngSpec Spec.AtmosphereSpec Spec.WindSpec
  Proofs.NumR Proofs.AtmosphereProofs Proofs.SolarProofs Proofs.SolarSearchProofs Proofs.RealSun
  Proofs.ColdStart Proofs.WindProofs
  Props.AtmosphereProps Props.SamplingProps Props.WindProps Props.RealSunProps.
Import ListNotations RecordSetNotations.
Open Scope R_scope.

(** ** Temperatures of the air *)
Lemma profile_low alpha h : 0 <= alpha <= 1 -> 165 <= temperature_profile alpha h.
Proof.
  intro Ha. unfold temperature_profile, layers, gained. cbn [map fold_right].
  destruct (Rle_dec h 51000) as [L|L].
  - rewrite (Rmin_left h 71000), (Rmin_left h 85000), (Rmin_left h 51000) by lra.
    assert (M : forall b t, b <= t -> 0 <= Rmin h t - Rmin h b <= t - b).
    { intros b t Hbt. unfold Rmin. destruct (Rle_dec h t), (Rle_dec h b); lra. }
    pose proof (M (-610) 17000 ltac:(lra)). pose proof (M 17000 21000 ltac:(lra)).
    pose proof (M 21000 32000 ltac:(lra)). pose proof (M 32000 47000 ltac:(lra)).
    set (d1 := Rmin h 17000 - Rmin h (-610)) in *. set (d2 := Rmin h 21000 - Rmin h 17000) in *.
    set (d3 := Rmin h 32000 - Rmin h 21000) in *. set (d4 := Rmin h 47000 - Rmin h 32000) in *.
    clearbody d1 d2 d3 d4.
    assert (-0.007 * d1 <= (-0.007 + alpha * (-0.0058 - -0.007)) * d1) by nra.
    assert (0 <= (0.006 + alpha * (0.005 - 0.006)) * d2) by nra.
    assert (0 <= (0.001 + alpha * (0.001 - 0.001)) * d3) by nra.
    assert (0 <= (0.0028 + alpha * (0.0028 - 0.0028)) * d4) by nra.
    lra.
  - rewrite (Rmin_right h (-610)), (Rmin_right h 17000), (Rmin_right h 21000), (Rmin_right h 32000),
      (Rmin_right h 47000), (Rmin_right h 51000) by lra.
    assert (M : forall b t, b <= t -> 0 <= Rmin h t - Rmin h b <= t - b).
    { intros b t Hbt. unfold Rmin. destruct (Rle_dec h t), (Rle_dec h b); lra. }
    pose proof (M 71000 85000 ltac:(lra)). assert (51000 <= Rmin h 71000 <= 71000).
    { unfold Rmin. destruct (Rle_dec h 71000); lra. }
    set (d7 := Rmin h 85000 - Rmin h 71000) in *. clearbody d7. set (m := Rmin h 71000) in *. clearbody m.
    nra.
Qed.

(** ** A cold start succeeds *)
Theorem C65_cold_start (s : bstate R) lat lng alpha v : 0 <= alpha <= 1 ->
  Atmosphere.at_pressure (atmosphere_reset alpha) (pressure s) = Some v ->
  pressure s <= 101325 -> 0 < envelope_volume_base s -> 0 < envelope_mass s ->
  225 <= upwelling_infrared s <= 350 -> -1 <= julian_century (date_time s) <= 1 ->
  exists s', cold_start_to_stable_params s lat lng (atmosphere_reset alpha) = Some s' /\
    120 < internal_temperature s' <= 2500 /\ bstatus s' = bstatus s /\ time_elapsed s' = time_elapsed s.
Proof.
  intros Ha Ev Hp Hv Hm Hir Hj. unfold cold_start_to_stable_params, calculate_stable_params_for_pressure.
  rewrite Ev.
  destruct (C15_pressure_then_height alpha (pressure s) Ha) as [_ B]. destruct (B v Ev) as [Ep Eh].
  destruct (C16_values_positive alpha _ v Ha Eh) as (_ & Pp & _). rewrite Ep in Pp.
  destruct (C16_temperature_and_density alpha _ v Ha Eh) as (Et & _).
  pose proof (profile_low alpha (v_height v) Ha). pose proof (profile_bound alpha (v_height v) Ha).
  pose proof (flux_range lat lng (date_time s) Hj) as Fl.
  pose proof (solar_calculator_ranges lat lng (date_time s)) as El.
  destruct (solar_calculator lat lng (date_time s)) as [[el az] flux].
  destruct (cold_start_search (envelope_volume_base s) (envelope_mass s) (v_temperature v) (pressure s)
    el flux (upwelling_infrared s) 10 206) as (ti & En & Hti); try lra.
  rewrite En. destruct (calculate_superpressure_and_volume _ _ _ _ _ _) as [V sp].
  eexists. split; [reflexivity|]. destruct s. cbn. split; [lra|]. split; reflexivity.
Qed.

(** ** Where a balloon starts *)
Lemma start_latitude center px py : Rabs (fst center) <= 10 * PI / 180 ->
  sqrt (px * px + py * py) <= 200000 -> Rabs (degrees (fst (latlng center px py))) < 60.
Proof.
  intros Hc Hd. unfold latlng, calculate_latlng_from_offset, normalized. cbn [fst snd].
  set (h := atan2 _ _). set (a := sqrt _ / EARTH_RADIUS).
  assert (Ha : 0 <= a <= 0.04).
  { pose proof (sqrt_pos (px * px + py * py)). unfold a, EARTH_RADIUS. lra. }
  pose proof PI_precise as Pi.
  assert (Sa : Rabs (sin a) <= 0.04).
  { pose proof (sin_lip a 0) as L. rewrite sin_0, !Rminus_0_r in L. rewrite (Rabs_right a) in L by lra. lra. }
  assert (Sc : Rabs (sin (fst center)) <= 0.2).
  { pose proof (sin_lip (fst center) 0) as L. rewrite sin_0, !Rminus_0_r in L. lra. }
  pose proof (COS_bound a). pose proof (COS_bound (fst center)). pose proof (COS_bound h).
  apply Rabs_le_inv in Sa, Sc.
  set (z := cos a * sin (fst center) + sin a * cos (fst center) * cos h).
  assert (Hz : -0.25 <= z <= 0.25).
  { unfold z. assert (-0.2 <= cos a * sin (fst center) <= 0.2) by nra.
    assert (-0.04 <= sin a * cos (fst center) <= 0.04) by nra.
    assert (-0.04 <= sin a * cos (fst center) * cos h <= 0.04) by nra. lra. }
  assert (As : - (PI / 6) < asin z < PI / 6).
  { pose proof (asin_bound z) as [B1 B2]. split; apply Rnot_le_lt; intro L.
    - pose proof (sin_asin z ltac:(lra)) as E. assert (sin (asin z) <= sin (- (PI / 6))).
      { destruct L as [L|L]; [left; apply sin_increasing_1; lra|rewrite L; lra]. }
      rewrite sin_neg, sin_PI6 in H2. lra.
    - pose proof (sin_asin z ltac:(lra)) as E. assert (sin (PI / 6) <= sin (asin z)).
      { destruct L as [L|L]; [left; apply sin_increasing_1; lra|rewrite <- L; lra]. }
      rewrite sin_PI6 in H2. lra. }
  rewrite (Rmax_left (asin z)) by lra. rewrite (Rmin_left (asin z)) by lra.
  rewrite (Rmin_right (PI / 2)) by lra. rewrite Rmax_right by lra.
  unfold degrees. apply Rabs_def1.
  - apply Rmult_lt_reg_r with PI; [lra|]. unfold Rdiv. rewrite Rmult_assoc, Rinv_l by lra. nra.
  - apply Rmult_lt_reg_r with PI; [lra|]. unfold Rdiv. rewrite Rmult_assoc, Rinv_l by lra. nra.
Qed.

(** ** The noise of a wind field that was reset *)
Lemma reset_noise_defined P noise4d k n : forall hs i x y p e a b c,
  exists r, noise_loop noise4d (reset_from P k n i hs) x y p e a b c = Some r.
Proof.
  induction hs as [|h hs IH]; intros; cbn [reset_from noise_loop]; [eauto|].
  unfold harmonic_noise at 1. cbn [generator harmonic_reset]. apply IH.
Qed.
Lemma noise_defined P noise4d m k x y p e : exists w, wind_noise noise4d (noise_reset P m k) x y p e = Some w.
Proof.
  unfold wind_noise, component_noise, noise_reset, component_reset. cbn [noise_u noise_v].
  destruct (reset_noise_defined P noise4d (split P k 2 0) (length (noise_u m)) (noise_u m) 0 x y p e 0 0 0) as ([[a1 a2] a3] & ->).
  destruct (reset_noise_defined P noise4d (split P k 2 1) (length (noise_v m)) (noise_v m) 0 x y p e 0 0 0) as ([[b1 b2] b3] & ->).
  eauto.
Qed.

(** ** Specification *)
(** A forecast implementation that, once reset, answers every query at a time
    that is not negative. *)
Definition answers {P : prng} (F : forecaster P) : Prop :=
  forall st x y p e, (0 <= e)%Z -> get_forecast P F (Some st) x y p e <> None.
(** A feature constructor that does not raise. *)
Definition never_raises {P : prng} {F : forecaster P} (FC : feature_class P F) : Prop :=
  (forall w atm, fc_new P F FC w atm <> None) /\
  (forall w atm f center s wind, snd (fc_observe P F FC w atm f center s wind) <> None) /\
  (forall w atm f, snd (fc_get_features P F FC w atm f) <> None).
(** The chain of keys of the rejection sampling contains an accepted draw (this
    fails with probability 0). *)
Definition sampling_ends (P : prng) : Prop :=
  forall k, exists j, 225 <= 315 * logit_normal P (Nat.iter j (fun k => split P k 2 0) k).

Section Reset.
Context (P : prng) (HP : lawful P) (noise4d : Z -> R -> R -> R -> R -> R) (F : forecaster P)
  (FC : feature_class P F).
Hypothesis HS : sampling_ends P.
Hypothesis HF : answers F.
Hypothesis HC : never_raises FC.

Lemma chain_iter k j : Nat.iter j (fun k => split P k 2 0) (split P k 2 0) = Nat.iter (S j) (fun k => split P k 2 0) k.
Proof.
  induction j as [|j IH]; [reflexivity|].
  change (split P (Nat.iter j (fun k => split P k 2 0) (split P k 2 0)) 2 0
          = split P (Nat.iter (S j) (fun k => split P k 2 0) k) 2 0). now rewrite IH.
Qed.
Lemma infrared_sampled k : exists n x, 225 <= x <= 315 /\
  forall draws, (n <= draws)%nat -> sample_upwelling_infrared P draws LogitNormal k = Sampled x.
Proof.
  destruct (HS k) as (j & Hj). revert k Hj. induction j as [|j IH]; intros k Hj.
  - exists 1%nat, (315 * logit_normal P k). cbn in Hj.
    pose proof (logit_normal_range P HP k). split; [lra|].
    intros [|d] Hd; [lia|]. cbn [sample_upwelling_infrared infrared_draw]. now rewrite Rleb_true.
  - rewrite <- chain_iter in Hj. destruct (IH _ Hj) as (n & x & Hx & E).
    destruct (Rle_dec 225 (315 * logit_normal P k)) as [L|L].
    + exists 1%nat, (315 * logit_normal P k).
      pose proof (logit_normal_range P HP k). split; [lra|].
      intros [|d] Hd; [lia|]. cbn [sample_upwelling_infrared infrared_draw]. now rewrite Rleb_true.
    + exists (S n), x. split; [exact Hx|]. intros [|d] Hd; [lia|].
      cbn [sample_upwelling_infrared infrared_draw]. rewrite Rleb_false by lra. apply E. lia.
Qed.

Lemma initialize_succeeds rng alpha now : 0 <= alpha <= 1 ->
  (BEGIN_RANGE <= now < END_RANGE)%Z ->
  exists n center s, bstatus s = OK /\ time_elapsed s = 0%Z /\
    forall draws, (n <= draws)%nat ->
      initialize_balloon P draws rng (atmosphere_reset alpha) now = Some (center, s).
Proof.
  intros Ha Hnow. unfold initialize_balloon.
  set (ks := fun i => split P rng 6 (S i)).
  set (radius := 200 * beta P (ks 0%nat) 1.2 2.0 * 1000).
  set (theta := uniform P (ks 1%nat) 0 (2 * PI)).
  destruct (sample_location P (ks 2%nat)) as [lat lng] eqn:El.
  destruct (C52_pressure P HP (ks 3%nat) alpha Ha) as (p & v & Ep & Hp & Ev & Hh). 
  destruct (infrared_sampled (ks 4%nat)) as (n & x & Hx & Ex).
  cbv zeta. fold (ks 0%nat) (ks 1%nat) (ks 2%nat) (ks 3%nat) (ks 4%nat). rewrite Ep, El.
  fold radius theta.
  assert (Hr : 0 <= radius <= 200000).
  { pose proof (beta_range P HP (ks 0%nat) 1.2 2.0 ltac:(lra) ltac:(lra)). unfold radius. lra. }
  set (px := cos theta * radius). set (py := sin theta * radius).
  assert (Hd : sqrt (px * px + py * py) <= 200000).
  { replace (px * px + py * py) with (radius * radius).
    - rewrite sqrt_square; lra.
    - unfold px, py. pose proof (sin2_cos2 theta) as S2. unfold Rsqr in S2.
      replace (cos theta * radius * (cos theta * radius) + sin theta * radius * (sin theta * radius))
        with ((sin theta * sin theta + cos theta * cos theta) * (radius * radius)) by ring.
      rewrite S2. ring. }
  assert (Hl : Rabs (radians lat) <= 10 * PI / 180).
  { unfold sample_location in El. injection El as <- _.
    pose proof (uniform_range P HP (split P (ks 2%nat) 2 0) (-10) 10 ltac:(lra)). pose proof PI_precise.
    unfold radians. apply Rabs_le. nra. }
  set (center := (radians lat, radians lng)).
  fold px py center. pose proof (start_latitude center px py Hl Hd) as Lat.
  destruct (latlng center px py) as [la lo] eqn:Ell. cbn [fst] in Lat.
  unfold BEGIN_RANGE, END_RANGE in Hnow.
  destruct (proj1 (C74_search_answers la lo now SEARCH_TIME_DELTA ltac:(lia) ltac:(lia) ltac:(reflexivity) ltac:(reflexivity)) Lat)
    as (sr & ss & Es & _).
  assert (En : new_state center px py p now x = Some (default_state now (sr, ss) <| Balloon.x := px |>
     <| Balloon.y := py |> <| pressure := p |> <| upwelling_infrared := x |>)).
  { unfold new_state. rewrite Ell, Es. reflexivity. }
  set (s0 := default_state now (sr, ss) <| Balloon.x := px |> <| Balloon.y := py |> <| pressure := p |>
     <| upwelling_infrared := x |>) in En.
  destruct (C15_pressure_then_height alpha p Ha) as [_ B]. destruct (B v Ev) as [Ep' Eh].
  destruct (pressure_decay alpha 15240 Ha ltac:(lra)) as (vm & Em & Dm).
  pose proof (C16_pressure_decreases alpha 15240 (v_height v) vm v Ha Em Eh) as Dec.
  destruct (C16_values_positive alpha _ vm Ha Em) as (_ & Pm & _).
  assert (Pl : p <= 101325).
  { assert (p < v_pressure vm) by (rewrite <- Ep'; apply Dec; lra).
    pose proof (exp_ineq1_le (0.000085 * 15240)). nra. }
  destruct (C65_cold_start s0 la lo alpha v) as (s' & Ec & _ & Eb & Et); try assumption.
  - unfold s0. cbn. lra.
  - unfold s0. cbn. lra.
  - unfold s0. cbn. lra.
  - change (-1 <= julian_century now <= 1).
    destruct (julian_century_value now) as (-> & _); [unfold in_years, us_per_day; lia|].
    assert (0 <= now / 1000000 < 1419984000)%Z as [A1 A2].
    { split; [apply Z.div_pos; lia|apply Z.div_lt_upper_bound; lia]. }
    apply IZR_le in A1. apply IZR_lt in A2. lra.
  - exists n, center, s'. rewrite Eb, Et. split; [reflexivity|]. split; [reflexivity|].
    intros draws Hn. rewrite (Ex draws Hn), En, Ec. reflexivity.
Qed.

Lemma truth_defined w k d x y p e : (0 <= e)%Z ->
  exists v, ground_truth P noise4d F (wind_reset P F w k d) x y p e = Some v.
Proof.
  intro He. unfold ground_truth. destruct (forecast _ _ _ _ _ _ _) as [f|] eqn:Ef.
  - unfold wind_reset. cbn [noise].
    destruct (noise_defined P noise4d (noise P F w) (split P k 2 0) x y p e) as (n & ->). eauto.
  - exfalso. revert Ef. apply HF. exact He.
Qed.
Lemma arena_reset_succeeds (a : arena P F FC) k :
  exists n a' o s center, a_balloon P F FC a' = Some (center, s) /\
    forall draws, (n <= draws)%nat -> arena_reset P noise4d F FC draws a k = (a', Returned o).
Proof.
  set (alpha := uniform P (split P k 3 1) 0 1).
  assert (Ha : 0 <= alpha <= 1)
    by (pose proof (uniform_range P HP (split P k 3 1) 0 1 ltac:(lra)); unfold alpha; lra).
  destruct (initialize_succeeds (split P k 3 0) alpha (sample_time P (split P k 3 2) BEGIN_RANGE END_RANGE) Ha
    (C52_default_time P HP _)) as (n & center & s & Hok & Ht & Ei).
  exists n.
  enough (One : exists a' o s center, a_balloon P F FC a' = Some (center, s) /\
            arena_reset P noise4d F FC n a k = (a', Returned o)).
  { destruct One as (a' & o & s' & c' & Eb & E). exists a', o, s', c'. split; [exact Eb|].
    intros draws Hn. rewrite <- E. unfold arena_reset. fold alpha. cbv zeta.
    rewrite (Ei draws Hn), (Ei n (le_n n)). reflexivity. }
  unfold arena_reset. fold alpha. cbv zeta.
  rewrite (Ei n (le_n n)). rewrite Hok. cbn [status_is_ok negb].
  destruct HC as (C1 & C2 & C3).
  match goal with |- context [fc_new P F FC ?w ?b] => pose proof (C1 w b) as N; destruct (fc_new P F FC w b) as [f|]; [|congruence] end.
  unfold observe_and_get_features. cbn [a_balloon a_features set].
  match goal with |- context [wind_at_balloon P noise4d F FC ?b s] => set (a1 := b) end.
  assert (G : exists w, wind_at_balloon P noise4d F FC a1 s = Some w).
  { apply (truth_defined (a_wind P F FC a) (split P (split P (split P k 3 0) 6 0) 2 1)
      (sample_time P (split P k 3 2) BEGIN_RANGE END_RANGE)). lia. }
  destruct G as (w & ->).
  match goal with |- context [fc_observe P F FC ?ww ?b ?ff ?cc ?ss ?v] => pose proof (C2 ww b ff cc ss v) as N2;
    destruct (fc_observe P F FC ww b ff cc ss v) as [f1 [[]|]]; [|elim N2; reflexivity] end.
  match goal with |- context [fc_get_features P F FC ?ww ?b ?ff] => pose proof (C3 ww b ff) as N3;
    destruct (fc_get_features P F FC ww b ff) as [f2 [o|]]; [|elim N3; reflexivity] end.
  eexists. exists o, s, center. split; [|reflexivity]. reflexivity.
Qed.

(** Whatever the state of the environment, a reset returns an observation, with
    or without a seed; only the rejection sampling of the infrared radiation may
    take many draws. *)
Theorem C65_reset (e : env P F FC) (seed : option Z) :
  exists n e' o i, forall draws, (n <= draws)%nat ->
    env_reset P noise4d F FC draws e seed = (e', Returned (o, i)).
Proof.
  unfold env_reset.
  set (e1 := match seed with Some z => _ | None => _ end).
  destruct (arena_reset_succeeds (e_arena P F FC e1) (split P (e_rng P F FC e1) 2 1))
    as (n & a' & o & s & center & Eb & E).
  exists n. eexists. exists o, (get_info s). intros draws Hn.
  cbn -[arena_reset get_info]. rewrite (E draws Hn), Eb. reflexivity.
Qed.

(** So does the constructor, whatever its arguments and the system time. *)
Theorem C65_construct (radius : R) (seed : option Z) (now1 now2 : Z) :
  exists n e, forall draws, (n <= draws)%nat ->
    new_env P noise4d F FC draws radius seed now1 now2 = Some e.
Proof.
  unfold new_env, new_arena, new_arena_from, arena_reset_from, arena_key.
  match goal with |- context [arena_reset P noise4d F FC _ ?b ?kk] => set (a0 := b); set (k0 := kk) end.
  destruct (arena_reset_succeeds a0 k0) as (n & a & o & s & c & _ & E).
  set (z := match seed with Some z => z | None => now2 end).
  destruct (C65_reset (mkEnv P F FC (radius * 1000) (prng_key P 0) 0 a) (Some z)) as (n' & e & o' & i & E').
  exists (Nat.max n n'), e. intros draws Hn.
  rewrite (E draws ltac:(lia)), (E' draws ltac:(lia)). reflexivity.
Qed.
End Reset.
Print Assumptions C65_cold_start.
Print Assumptions C65_reset.
Print Assumptions C65_construct.

(** The wind fields of the code meet the hypothesis on forecasts. *)
Theorem C65_forecasts (P : prng) : answers (static_field P) /\
  forall sample_field, answers (grid_field P default_shape sample_field).
Proof.
  split; [intros st x y p e _; discriminate|].
  intros sample st x y p e He. cbn [get_forecast grid_field]. intro E.
  apply C35_refuses in E; [|apply C35_environment_grid]. destruct E as [E|E]; [discriminate|lia].
Qed.
Print Assumptions C65_forecasts.

(** A generator and a feature constructor that meet the hypotheses: keys are the
    lists of the splits that led to them, and the third draw is accepted. *)
Definition witness_prng : prng :=
  mkPrng (list nat) (fun z => [Z.to_nat z]) (fun k n i => (i :: n :: k)%list) (fun _ _ => 0%Z)
    (fun _ a _ => a) (fun _ _ _ => 0) (fun _ _ _ => 0) (fun _ _ _ => 0)
    (fun k => match k with (0 :: 2 :: 0 :: 2 :: _)%nat => 0.9 | _ => 0.5 end) (fun _ => 1).
Definition witness_features : feature_class witness_prng (static_field witness_prng) :=
  mkFC _ _ nat (R * R) (fun _ _ => Some O) (fun _ _ f _ _ _ => (S f, Some tt))
    (fun _ _ f => (f, Some (INR f, 1))).
Example C65_witness : lawful witness_prng /\ sampling_ends witness_prng /\
  never_raises witness_features /\
  sample_upwelling_infrared witness_prng 2 LogitNormal (prng_key witness_prng 7) = StillRunning /\
  exists n e e' o i, forall draws, (n <= draws)%nat ->
    new_env _ (fun _ _ _ _ _ => 0) _ witness_features draws 50 (Some 3%Z) 0 0 = Some e /\
    env_reset _ (fun _ _ _ _ _ => 0) _ witness_features draws e None = (e', Returned (o, i)).
Proof.
  assert (L : lawful witness_prng).
  { constructor; cbn; intros; try lia; try lra.
    destruct k as [|[|[|]] [|[|[|[|]]] [|[|[|]] [|[|[|[|]]] k]]]]; lra. }
  assert (S0 : sampling_ends witness_prng).
  { intro k. exists 2%nat. cbn. lra. }
  assert (N : never_raises witness_features).
  { repeat split; cbn; discriminate. }
  split; [exact L|]. split; [exact S0|]. split; [exact N|]. split.
  { change (sample_upwelling_infrared witness_prng 2 LogitNormal (prng_key witness_prng 7)) with
      (if Rleb 225 (315 * 0.5) then Sampled (315 * 0.5)
       else if Rleb 225 (315 * 0.5) then Sampled (315 * 0.5) else StillRunning).
    rewrite Rleb_false by lra. reflexivity. }
  destruct (C65_construct witness_prng L (fun _ _ _ _ _ => 0) _ witness_features S0
    (proj1 (C65_forecasts _)) N 50 (Some 3%Z) 0 0) as (n & e & E).
  destruct (C65_reset witness_prng L (fun _ _ _ _ _ => 0) _ witness_features S0
    (proj1 (C65_forecasts _)) N e None) as (n' & e' & o & i & E').
  exists (Nat.max n n'), e, e', o, i. intros draws Hn. split; [apply E; lia|apply E'; lia].
Qed.
