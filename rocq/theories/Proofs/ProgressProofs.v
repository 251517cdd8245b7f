(** A call of simulate_step from a balloon in flight runs all its sub-steps. *)
From Coq Require Import ZArith Reals Lra Lia Psatz Bool List.
From RecordUpdate Require Import RecordSet.
From Verif Require Import Model.Num Model.Safety Model.Acs Model.Balloon Model.Atmosphere Model.Sampling Model.Geometry Model.Solar Model.Env.
From Verif Require Import Spec.Envelope Spec.Buoyancy.
From Verif Require Import Proofs.NumR Proofs.BalloonProofs Proofs.AtmosphereProofs Proofs.FloatAtmosphere Proofs.SolarProofs Proofs.RealSun Proofs.MotionProofs
  Proofs.SteadyAir Proofs.SteadyFlight
  Props.AtmosphereProps Props.SamplingProps Props.VehicleProps Props.DefaultRangeProps.
Import ListNotations RecordSetNotations.
Open Scope R_scope.
#[local] Opaque world_of atmosphere_reset simulate_substep.

(** Above 12750 Pa the balloon is below the lowest altitude, where the vent is opened. *)
Lemma low_height alpha p v : 0 <= alpha <= 1 -> Atmosphere.at_pressure (atmosphere_reset alpha) p = Some v ->
  12750 < p -> v_height v < 15240.
Proof.
  intros Ha Ev Hp. destruct (floor_pressure alpha Ha) as (vf & Ef & _).
  destruct (bottom_band alpha vf Ha Ef) as [Bt Br].
  assert (Pf : v_pressure vf <= 12750).
  { assert (Q : v_pressure vf = v_pressure vf / v_temperature vf * v_temperature vf) by (field; lra).
    assert (v_pressure vf / v_temperature vf * v_temperature vf <= 61 * 208.2) by (apply Rmult_le_compat; lra). lra. }
  pose proof (antitone_lookup alpha Ha _ _ _ _ (round_trip_height alpha Ha _ _ Ef) Ev ltac:(lra)) as L.
  destruct (at_height_some alpha _ _ Ef) as (_ & Eh & _). rewrite Eh in L. unfold MIN_ALTITUDE_M in *. lra.
Qed.
Lemma low_goes_up alpha p h t l a : 0 <= alpha <= 1 -> profile_of (atmosphere_reset alpha) p = Some (h, t) ->
  12750 < p -> snd (alt_get_action l a h) = UP.
Proof.
  intros Ha E Hp. unfold profile_of in E.
  destruct (Atmosphere.at_pressure (atmosphere_reset alpha) p) as [v|] eqn:Ev; [|discriminate].
  injection E as <- <-. pose proof (low_height alpha p v Ha Ev Hp) as L.
  unfold alt_get_action, alt_transition. numR. unfold MIN_ALTITUDE, metres_of_feet. numR.
  rewrite Rltb_true by lra. reflexivity.
Qed.

Lemma simulate_runs alpha center wind c s : 0 <= alpha <= 1 -> steady s -> bstatus s = OK ->
  (0 <= date_time s)%Z -> before_2100 (date_time s + 180000000) ->
  exists s' eff, simulate_step (world_of (atmosphere_reset alpha) center) wind c AGENT_TIME_STEP STRIDE s = (s', Executed eff) /\
    aloft s'.
Proof.
  intros Ha Hs Hok H0 Ht. pose proof Hs as (Veh & En & Hir & Hsp & HV & Hamb & HT & Hp & Hn & M1 & M2).
  unfold simulate_step. change (bstatus (s <| last_command := c |>)) with (bstatus s). rewrite Hok. cbn [status_is_ok negb].
  unfold safety_layers.
  destruct (if power_safety_layer_enabled (s <| last_command := c |>) then _ else _) as [p' a1].
  destruct (env_get_action _ _ _ _) as [e' a2].
  change (Balloon.at_pressure (world_of (atmosphere_reset alpha) center)) with (profile_of (atmosphere_reset alpha)).
  change (pressure (s <| last_command := c |>)) with (pressure s).
  destruct (air_lookup alpha (pressure s) Ha ltac:(lra)) as (h & t & E & _). rewrite E.
  pose proof (low_goes_up alpha (pressure s) h t (altitude_layer (s <| last_command := c |>)) a2 Ha E) as Up.
  destruct (alt_get_action _ a2 h) as [al' a3]. cbn [snd] in Up.
  change (int_seconds AGENT_TIME_STEP) with 180%Z. change (int_seconds STRIDE) with 10%Z.
  cbn [Z.eqb negb]. change (Z.eqb (180 mod 10) 0) with true. cbn [negb]. change (Z.to_nat (180 / 10)) with 18%nat.
  match goal with |- context [substeps _ _ _ _ _ ?b] => set (S := b) end.
  assert (SS : steady S) by exact Hs. assert (SO : bstatus S = OK) by exact Hok.
  assert (Sd : date_time S = date_time s) by reflexivity. assert (Sn : mols_air S = mols_air s) by reflexivity.
  clearbody S.
  destruct (substeps_run alpha center wind a3 18 Ha (le_n 18) S SS SO) as (s' & Es & Al).
  { rewrite Sd. exact H0. }
  { rewrite Sd. exact Ht. }
  { intros ->. rewrite Sn.
    assert (Q : pressure s <= 12750) by (apply Rnot_lt_le; intro L; specialize (Up L); discriminate).
    specialize (M1 Q). rewrite INR_IZR_INZ. change (Z.of_nat 18) with 18%Z. lra. }
  exists s', a3. split; [|exact Al]. change (10 * 1000000)%Z with STRIDE in Es.
  rewrite Es. reflexivity.
Qed.

(** Up to 4000 km from a station near the equator the latitude is below 60 degrees. *)
Lemma near_latitude center px py : Rabs (fst center) <= 10 * PI / 180 ->
  sqrt (px * px + py * py) <= 4000000 -> Rabs (degrees (fst (latlng center px py))) < 60.
Proof.
  intros Hc Hd. unfold latlng, calculate_latlng_from_offset, normalized. cbn [fst snd].
  set (h := atan2 _ _). set (a := sqrt _ / EARTH_RADIUS).
  assert (Ha : 0 <= a <= 0.628).
  { pose proof (sqrt_pos (px * px + py * py)). unfold a, EARTH_RADIUS. lra. }
  pose proof PI_precise as Pi.
  assert (Sa : Rabs (sin a) <= 0.628).
  { pose proof (sin_lip a 0) as L. rewrite sin_0, !Rminus_0_r in L. rewrite (Rabs_right a) in L by lra. lra. }
  assert (Sc : Rabs (sin (fst center)) <= 0.175).
  { pose proof (sin_lip (fst center) 0) as L. rewrite sin_0, !Rminus_0_r in L. lra. }
  pose proof (COS_bound a). pose proof (COS_bound (fst center)). pose proof (COS_bound h).
  apply Rabs_le_inv in Sa, Sc.
  set (z := cos a * sin (fst center) + sin a * cos (fst center) * cos h).
  assert (Hz : -0.81 <= z <= 0.81).
  { unfold z. assert (-0.175 <= cos a * sin (fst center) <= 0.175) by nra.
    assert (-0.628 <= sin a * cos (fst center) <= 0.628) by nra.
    assert (-0.628 <= sin a * cos (fst center) * cos h <= 0.628) by nra. lra. }
  assert (S3 : 0.86 < sin (PI / 3)).
  { rewrite sin_PI3. assert (1.72 < sqrt 3); [|lra]. rewrite <- (sqrt_Rsqr 1.72) by lra. apply sqrt_lt_1; unfold Rsqr; lra. }
  assert (As : - (PI / 3) < asin z < PI / 3).
  { pose proof (asin_bound z) as [B1 B2]. split; apply Rnot_le_lt; intro L.
    - pose proof (sin_asin z ltac:(lra)) as E. assert (sin (asin z) <= sin (- (PI / 3))).
      { destruct L as [L|L]; [left; apply sin_increasing_1; lra|rewrite L; lra]. }
      rewrite sin_neg in H2. lra.
    - pose proof (sin_asin z ltac:(lra)) as E. assert (sin (PI / 3) <= sin (asin z)).
      { destruct L as [L|L]; [left; apply sin_increasing_1; lra|rewrite <- L; lra]. }
      lra. }
  rewrite (Rmax_left (asin z)) by lra. rewrite (Rmin_left (asin z)) by lra.
  rewrite (Rmin_right (PI / 2)) by lra. rewrite Rmax_right by lra.
  unfold degrees. apply Rabs_def1.
  - apply Rmult_lt_reg_r with PI; [lra|]. unfold Rdiv. rewrite Rmult_assoc, Rinv_l by lra. nra.
  - apply Rmult_lt_reg_r with PI; [lra|]. unfold Rdiv. rewrite Rmult_assoc, Rinv_l by lra. nra.
Qed.
