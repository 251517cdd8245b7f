(** Property C52 (ranges of the sampled initial conditions). *)
From Coq Require Import ZArith Reals Lra Lia Psatz List.
From Verif Require Import Model.Num Model.Prng Model.Atmosphere Model.Sampling Spec.PrngSpec
  Model.Solar Spec.AtmosphereSpec Spec.Calendar Proofs.NumR Proofs.AtmosphereProofs Props.AtmosphereProps.
Open Scope R_scope.

Section Sampling.
Context (P : prng) (HP : lawful P).

(** Locations are in the equatorial belt, away from the date line. *)
Theorem C52_location (k : key P) :
  let '(lat, lng) := sample_location P k in -10 <= lat < 10 /\ -175 <= lng < 175.
Proof. unfold sample_location. split; apply (uniform_range P HP); lra. Qed.

(** Times are whole seconds after the beginning of the range, before its end. *)
Theorem C52_time (k : key P) (b e : Z) : (1000000 <= e - b)%Z ->
  let t := sample_time P k b e in (b <= t < e)%Z /\ exists s, (t = b + s * 1000000)%Z.
Proof.
  intros H t. unfold t, sample_time.
  assert (Q : (0 < Z.quot (e - b) 1000000)%Z) by (apply Z.quot_str_pos; lia).
  pose proof (choice_range P HP k _ Q) as C.
  pose proof (Z.mul_quot_le (e - b) 1000000 ltac:(lia) ltac:(lia)) as M.
  split; [nia|]. eexists. reflexivity.
Qed.
Theorem C52_default_time (k : key P) :
  let t := sample_time P k BEGIN_RANGE END_RANGE in
  (1293840000 * 1000000 <= t < 1419984000 * 1000000)%Z.
Proof. exact (proj1 (C52_time k BEGIN_RANGE END_RANGE ltac:(unfold BEGIN_RANGE, END_RANGE; lia))). Qed.


Lemma ln_mono a b : 0 < a -> a <= b -> ln a <= ln b.
Proof. intros Ha [H|<-]; [left; now apply ln_increasing|lra]. Qed.
Lemma exp_times n x : exp (INR n * x) = exp x ^ n.
Proof.
  induction n as [|n IH]; [cbn; rewrite Rmult_0_l; apply exp_0|].
  rewrite S_INR, Rmult_plus_distr_r, Rmult_1_l, exp_plus, IH. cbn. ring.
Qed.

(** The pressure at the lowest allowed altitude, in every seeded atmosphere. *)
Lemma floor_pressure alpha : 0 <= alpha <= 1 ->
  exists v, at_height (atmosphere_reset alpha) MIN_ALTITUDE_M = Some v /\ 6500 < v_pressure v.
Proof.
  intro Ha. set (l := (1 - alpha) * -0.007 + alpha * -0.0058).
  assert (Hl : -0.007 <= l <= -0.0058) by (unfold l; nra).
  eexists. split.
  - unfold at_height, MIN_ALTITUDE_M. cbn [hd last HEIGHT_TRANSITIONS].
    rewrite Rleb_true, Rltb_true by lra. cbn [negb]. unfold atmosphere_reset.
    cbn [lapse_rates temp_transitions press_transitions].
    unfold mix_lapse_rates, LAPSE_RATES_LOW, LAPSE_RATES_HIGH.
    cbn [combine map fst snd]. fold l.
    cbn [temperature_transitions pressure_transitions HEIGHT_TRANSITIONS at_height_loop].
    rewrite Rltb_true by lra. unfold Reqb. destruct (Req_EM_T l 0) as [E|_]; [exfalso; lra|]. reflexivity.
  - cbn [v_pressure]. unfold pressure_for_linear_temperature, Rpower.
    set (x := - l * (15850 / 300)).
    replace ((300 + l * (50000 * 0.3048 - -610)) / 300) with (1 - x) by (unfold x; lra).
    assert (Hx : 0.3 <= x <= 0.3699) by (unfold x; lra).
    assert (L : - (1.5 * x) <= ln (1 - x)).
    { rewrite <- (ln_exp (- (1.5 * x))). apply ln_mono; [apply exp_pos|].
      rewrite exp_Ropp.
      assert (E : (1 + 0.75 * x) * (1 + 0.75 * x) <= exp (1.5 * x)).
      { replace (1.5 * x) with (0.75 * x + 0.75 * x) by lra. rewrite exp_plus.
        pose proof (exp_ineq1_le (0.75 * x)). nra. }
      apply Rmult_le_reg_l with (exp (1.5 * x)); [apply exp_pos|].
      rewrite Rinv_r by (apply Rgt_not_eq, exp_pos).
      apply Rle_trans with ((1 + 0.75 * x) * (1 + 0.75 * x) * (1 - x)); [nra|].
      apply Rmult_le_compat_r; lra. }
    pose proof gas_pos as Hg.
    assert (K : -2.7078 <= - A_GRAVITY / (A_GAS * l) * ln (1 - x)).
    { apply Rle_trans with (- A_GRAVITY / (A_GAS * l) * - (1.5 * x)).
      - unfold x. replace 1.5 with (3 / 2) by lra.
        replace (- A_GRAVITY / (A_GAS * l) * - (3 / 2 * (- l * (15850 / 300))))
          with (- (A_GRAVITY / A_GAS * (317 / 4))) by (field; repeat split; lra).
        unfold A_GRAVITY, A_GAS. lra.
      - apply Rmult_le_compat_l; [|exact L].
        replace (- A_GRAVITY / (A_GAS * l)) with (A_GRAVITY / (A_GAS * - l)) by (field; repeat split; lra).
        apply Rlt_le, Rdiv_lt_0_compat; [exact grav_pos|]. nra. }
    assert (X : 0.0598 <= exp (- A_GRAVITY / (A_GAS * l) * ln (1 - x))).
    { apply Rle_trans with (exp (-2.7078)).
      - replace (-2.7078) with (INR 40 * (-0.067695)) by (cbn [INR]; lra).
        rewrite exp_times. apply Rle_trans with ((1 + -0.067695) ^ 40); [lra|].
        apply pow_incr. split; [lra|apply exp_ineq1_le].
      - destruct K as [K|K]; [left; now apply exp_increasing|rewrite K; lra]. }
    lra.
Qed.

(** ... and high above the flight levels. *)
Lemma profile_bound alpha h : 0 <= alpha <= 1 -> temperature_profile alpha h <= 400.
Proof.
  intro Ha. unfold temperature_profile, layers, gained. cbn [map fold_right].
  assert (M : forall b t, b <= t -> 0 <= Rmin h t - Rmin h b <= t - b).
  { intros b t Hbt. unfold Rmin. destruct (Rle_dec h t), (Rle_dec h b); lra. }
  pose proof (M (-610) 17000 ltac:(lra)). pose proof (M 17000 21000 ltac:(lra)).
  pose proof (M 21000 32000 ltac:(lra)). pose proof (M 32000 47000 ltac:(lra)).
  pose proof (M 47000 51000 ltac:(lra)). pose proof (M 51000 71000 ltac:(lra)).
  pose proof (M 71000 85000 ltac:(lra)).
  set (d1 := Rmin h 17000 - Rmin h (-610)) in *. set (d2 := Rmin h 21000 - Rmin h 17000) in *.
  set (d3 := Rmin h 32000 - Rmin h 21000) in *. set (d4 := Rmin h 47000 - Rmin h 32000) in *.
  set (d5 := Rmin h 51000 - Rmin h 47000) in *. set (d6 := Rmin h 71000 - Rmin h 51000) in *.
  set (d7 := Rmin h 85000 - Rmin h 71000) in *. clearbody d1 d2 d3 d4 d5 d6 d7.
  assert ((-0.007 + alpha * (-0.0058 - -0.007)) * d1 <= 0) by nra.
  assert ((0.006 + alpha * (0.005 - 0.006)) * d2 <= 24) by nra.
  assert ((0.001 + alpha * (0.001 - 0.001)) * d3 <= 11) by nra.
  assert ((0.0028 + alpha * (0.0028 - 0.0028)) * d4 <= 42) by nra.
  assert ((0 + alpha * (0 - 0)) * d5 <= 0) by nra.
  assert ((-0.0028 + alpha * (-0.0028 - -0.0028)) * d6 <= 0) by nra.
  assert ((-0.002 + alpha * (-0.002 - -0.002)) * d7 <= 0) by nra. lra.
Qed.
Lemma pressure_decay alpha top : 0 <= alpha <= 1 -> 0 < top <= 84000 ->
  exists v, at_height (atmosphere_reset alpha) top = Some v /\
    v_pressure v * exp (0.000085 * top) <= 108870.8213.
Proof.
  intros Ha Htop. destruct (C16_hydrostatic alpha Ha) as (_ & _ & Hy).
  set (P0 := fun h => match at_height (atmosphere_reset alpha) h with Some v => v_pressure v | None => 0 end) in *.
  set (c := gravity / (specific_gas_constant * 400)).
  assert (Hc : 0.000085 <= c <= 0.000086) by (unfold c, gravity, specific_gas_constant; lra).
  set (f := fun h => P0 h * exp (c * h)).
  assert (Get : forall h, -610 < h < 85000 -> exists v, at_height (atmosphere_reset alpha) h = Some v).
  { intros h Hh. destruct (at_height (atmosphere_reset alpha) h) eqn:E; [eauto|].
    exfalso. apply (proj2 (proj1 (C15_height_then_pressure alpha h Ha)) ltac:(lra)). exact E. }
  assert (D : forall h, 0 <= h <= top ->
     derivable_pt_lim f h (- (P0 h / (specific_gas_constant * temperature_profile alpha h)) * gravity * exp (c * h)
                           + P0 h * (exp (c * h) * c))).
  { intros h Hh. apply (derivable_pt_lim_mult P0 (fun z => exp (c * z))).
    - apply Hy. lra.
    - apply (derivable_pt_lim_comp (fun z => c * z) exp).
      + pose proof (derivable_pt_lim_scal id c h 1 (derivable_pt_lim_id h)) as Q.
        rewrite Rmult_1_r in Q. exact Q.
      + apply derivable_pt_lim_exp. }
  destruct (MVT_cor2 f _ 0 top ltac:(lra) D) as (h & E & Hh).
  destruct (Get h ltac:(lra)) as (vh & Evh). destruct (Get 0 ltac:(lra)) as (v0 & Ev0).
  destruct (Get top ltac:(lra)) as (v & Ev). exists v. split; [exact Ev|].
  assert (Ph : P0 h = v_pressure vh) by (unfold P0; now rewrite Evh).
  assert (Pz : P0 0 = v_pressure v0) by (unfold P0; now rewrite Ev0).
  assert (Pv : P0 top = v_pressure v) by (unfold P0; now rewrite Ev).
  destruct (C16_values_positive alpha h vh Ha Evh) as (Tpos & [Ppos _] & _).
  destruct (C16_values_positive alpha 0 v0 Ha Ev0) as (_ & [_ Pmax] & _).
  destruct (C16_temperature_and_density alpha h vh Ha Evh) as (ET & _).
  pose proof (profile_bound alpha h Ha) as TB. rewrite ET in Tpos.
  assert (S0 : 0 < specific_gas_constant) by (unfold specific_gas_constant; lra).
  assert (Dec : f top - f 0 <= 0).
  { rewrite E. apply Ropp_le_cancel. rewrite Ropp_0, Ropp_mult_distr_l.
    apply Rmult_le_pos; [|lra].
    replace (- (_ + _)) with (P0 h * exp (c * h) * (gravity / (specific_gas_constant * temperature_profile alpha h) - c))
      by (field; split; lra).
    apply Rmult_le_pos.
    - rewrite Ph. pose proof (exp_pos (c * h)). nra.
    - unfold c. assert (0 < gravity) by (unfold gravity; lra).
      enough (gravity / (specific_gas_constant * 400) <= gravity / (specific_gas_constant * temperature_profile alpha h)) by lra.
      unfold Rdiv. apply Rmult_le_compat_l; [lra|]. apply Rinv_le_contravar; nra. }
  unfold f in Dec. rewrite Rmult_0_r, exp_0, Pz, Pv in Dec.
  assert (X : exp (0.000085 * top) <= exp (c * top)).
  { destruct (Req_dec (0.000085 * top) (c * top)) as [->|Ne]; [lra|]. left. apply exp_increasing. nra. }
  destruct (C16_values_positive alpha top v Ha Ev) as (_ & [Pv0 _] & _). nra.
Qed.
Lemma top_pressure alpha : 0 <= alpha <= 1 ->
  exists v, at_height (atmosphere_reset alpha) 84000 = Some v /\ v_pressure v < 1000.
Proof.
  intro Ha. destruct (pressure_decay alpha 84000 Ha ltac:(lra)) as (v & Ev & D). exists v. split; [exact Ev|].
  assert (X : (1 + 0.714) ^ 10 <= exp (0.000085 * 84000)).
  { replace (0.000085 * 84000) with (INR 10 * 0.714) by (cbn [INR]; lra). rewrite exp_times.
    apply pow_incr. pose proof (exp_ineq1_le 0.714). lra. }
  apply Rnot_le_lt. intro Hge.
  assert (1000 * (1 + 0.714) ^ 10 <= v_pressure v * exp (0.000085 * 84000)) by (apply Rmult_le_compat; lra).
  lra.
Qed.

(** Pressures: without an atmosphere between 6500 and 11400 Pa; with one, such
    that the balloon starts strictly above the minimum altitude of 15240 m. *)
Theorem C52_pressure_default (k : key P) :
  exists p, sample_pressure P k None = Some p /\ 6500 <= p < 11400.
Proof. eexists. split; [reflexivity|]. apply (uniform_range P HP). lra. Qed.
Theorem C52_pressure (k : key P) (alpha : R) : 0 <= alpha <= 1 ->
  exists p v, sample_pressure P k (Some (atmosphere_reset alpha)) = Some p /\ 6500 <= p /\
    Atmosphere.at_pressure (atmosphere_reset alpha) p = Some v /\ 15240 < v_height v.
Proof.
  intro Ha. destruct (floor_pressure alpha Ha) as (vf & Ef & Hf).
  destruct (top_pressure alpha Ha) as (vt & Et & Ht).
  unfold sample_pressure. rewrite Ef. cbn [option_map].
  pose proof (uniform_range P HP k 6500 (v_pressure vf) Hf) as U.
  set (p := uniform P k 6500 (v_pressure vf)) in *.
  assert (Ap : Atmosphere.at_pressure (atmosphere_reset alpha) p <> None).
  { pose proof (round_trip_height alpha Ha _ _ Et) as Rt.
    pose proof (at_pressure_some alpha _ _ Rt) as (Rt1 & _).
    pose proof (round_trip_height alpha Ha _ _ Ef) as Rf.
    pose proof (at_pressure_some alpha _ _ Rf) as (Rf1 & _).
    destruct (at_pressure_loop HEIGHT_TRANSITIONS (lapse_rates (atmosphere_reset alpha))
      (temp_transitions (atmosphere_reset alpha)) (press_transitions (atmosphere_reset alpha)) p) as [hh tt] eqn:El.
    rewrite (at_pressure_make alpha p hh tt); [discriminate|lra|exact El]. }
  destruct (Atmosphere.at_pressure (atmosphere_reset alpha) p) as [v|] eqn:Ev; [|congruence].
  exists p, v. split; [reflexivity|]. split; [lra|]. split; [exact Ev|].
  destruct (C15_pressure_then_height alpha p Ha) as [_ B]. destruct (B v Ev) as [Ep Eh].
  replace 15240 with MIN_ALTITUDE_M by (unfold MIN_ALTITUDE_M; lra).
  apply (C16_pressure_decreases alpha MIN_ALTITUDE_M (v_height v) vf v Ha Ef Eh). lra.
Qed.

(** Upwelling infrared: the loop returns the first acceptable draw of the chain
    of keys, at least 225 and below the top of its distribution, and raises
    exactly for an unknown distribution. *)
Fixpoint key_chain (k : key P) (j : nat) : key P :=
  match j with O => k | S j' => split P (key_chain k j') 2 0 end.
Lemma key_chain_shift k j : key_chain (split P k 2 0) j = key_chain k (S j).
Proof. induction j as [|j IH]; [reflexivity|]. cbn [key_chain] in *. now rewrite IH. Qed.
Lemma infrared_loop d fuel : forall k, d <> OtherDistribution ->
  match sample_upwelling_infrared P fuel d k with
  | Sampled x => exists j, (j < fuel)%nat /\ infrared_draw P d (key_chain k j) = Some x /\ 225 <= x /\
      forall i, (i < j)%nat -> exists y, infrared_draw P d (key_chain k i) = Some y /\ y < 225
  | RaisesValueError => False
  | StillRunning =>
      forall i, (i < fuel)%nat -> exists y, infrared_draw P d (key_chain k i) = Some y /\ y < 225
  end.
Proof.
  induction fuel as [|fuel IH]; intros k Hd; cbn [sample_upwelling_infrared]; [intros; lia|].
  destruct (infrared_draw P d k) as [y|] eqn:Ey; [|destruct d; discriminate || congruence].
  destruct (Rleb_spec 225 y) as [L|L].
  - exists 0%nat. split; [lia|]. split; [exact Ey|]. split; [exact L|]. intros; lia.
  - specialize (IH (split P k 2 0) Hd).
    assert (Sh : forall n, (forall i, (i < n)%nat -> exists y, infrared_draw P d (key_chain (split P k 2 0) i) = Some y /\ y < 225) ->
       forall i, (i < S n)%nat -> exists y, infrared_draw P d (key_chain k i) = Some y /\ y < 225).
    { intros n Hn i0 Hi. destruct i0 as [|i0]; [exists y; split; [exact Ey|lra]|].
      rewrite <- (key_chain_shift k i0). apply Hn. lia. }
    destruct (sample_upwelling_infrared P fuel d (split P k 2 0)) as [x| |]; [|exact IH|].
    + destruct IH as (j & Hj & Ej & Hx & Hi). exists (S j). split; [lia|].
      rewrite <- key_chain_shift. split; [exact Ej|]. split; [exact Hx|]. apply Sh. exact Hi.
    + apply Sh. exact IH.
Qed.
(** What is drawn for a key: 315 times a logit-normal number, or a log-normal number to the
    power 0.68, times 35, below 300.9568. *)
Definition drawn (d : distribution_type) (k : key P) (x : R) : Prop :=
  match d with
  | LogitNormal => x = 315 * logit_normal P k
  | InverseLognormal => x = 300.9568 - 35 * Rpower (log_normal P k) 0.68
  | OtherDistribution => False
  end.
Lemma draw_drawn d k x : infrared_draw P d k = Some x -> drawn d k x.
Proof. destruct d; cbn; intros [= <-]; [reflexivity|lra]. Qed.
Theorem C52_infrared (d : distribution_type) (fuel : nat) (k : key P) (x : R) :
  sample_upwelling_infrared P fuel d k = Sampled x ->
  225 <= x /\ (d = LogitNormal -> x <= 315) /\ (d = InverseLognormal -> x < 300.9568) /\
  exists j, drawn d (key_chain k j) x /\
    forall i, (i < j)%nat -> exists y, drawn d (key_chain k i) y /\ y < 225.
Proof.
  intro E. enough (K : 225 <= x /\ (d = LogitNormal -> x <= 315) /\ (d = InverseLognormal -> x < 300.9568) /\
    exists j, infrared_draw P d (key_chain k j) = Some x /\
      forall i, (i < j)%nat -> exists y, infrared_draw P d (key_chain k i) = Some y /\ y < 225).
  { destruct K as (K1 & K2 & K3 & j & K4 & K5). repeat (split; [assumption|]). exists j. split; [now apply draw_drawn|].
    intros i Hi. destruct (K5 i Hi) as (y & Ey & Ly). exists y. split; [now apply draw_drawn|exact Ly]. }
  destruct d; try (destruct fuel; cbn in E; discriminate).
  - pose proof (infrared_loop LogitNormal fuel k ltac:(discriminate)) as L. rewrite E in L.
    destruct L as (j & _ & Ej & Hx & Hi). split; [exact Hx|].
    split; [|split; [discriminate|exists j; auto]]. intros _.
    cbn in Ej. injection Ej as <-. pose proof (logit_normal_range P HP (key_chain k j)). lra.
  - pose proof (infrared_loop InverseLognormal fuel k ltac:(discriminate)) as L. rewrite E in L.
    destruct L as (j & _ & Ej & Hx & Hi). split; [exact Hx|].
    split; [discriminate|split; [|exists j; auto]]. intros _.
    unfold infrared_draw in Ej. injection Ej as <-. unfold Rpower.
    pose proof (exp_pos (0.68 * ln (log_normal P (key_chain k j)))). lra.
Qed.
(** It stops as soon as one key of the chain gives an acceptable draw, and raises
    exactly when asked for an unknown distribution. *)
Theorem C52_infrared_stops (d : distribution_type) (k : key P) :
  (d = OtherDistribution <-> forall fuel, (0 < fuel)%nat -> sample_upwelling_infrared P fuel d k = RaisesValueError) /\
  ((exists j y, drawn d (key_chain k j) y /\ 225 <= y) ->
   exists fuel x, sample_upwelling_infrared P fuel d k = Sampled x).
Proof.
  split.
  - split; [intros -> [|f] Hf; [lia|reflexivity]|]. intro H. specialize (H 1%nat ltac:(lia)).
    destruct d; [| |reflexivity].
    + pose proof (infrared_loop LogitNormal 1 k ltac:(discriminate)) as L. now rewrite H in L.
    + pose proof (infrared_loop InverseLognormal 1 k ltac:(discriminate)) as L. now rewrite H in L.
  - intros (j & y & E0 & Hy). assert (E : infrared_draw P d (key_chain k j) = Some y).
    { destruct d; cbn in E0 |- *; [now rewrite E0|rewrite E0; f_equal; lra|contradiction]. }
    clear E0. exists (S j). assert (Hd : d <> OtherDistribution) by (intros ->; discriminate).
    pose proof (infrared_loop d (S j) k Hd) as L.
    destruct (sample_upwelling_infrared P (S j) d k) as [x| |]; [exists x; reflexivity|destruct L|].
    destruct (L j ltac:(lia)) as (y' & E' & Hy'). rewrite E in E'. injection E' as <-. lra.
Qed.
End Sampling.
Print Assumptions C52_location.
Print Assumptions C52_time.
Print Assumptions C52_default_time.
Print Assumptions C52_pressure_default.
Print Assumptions C52_pressure.
Print Assumptions C52_infrared.
Print Assumptions C52_infrared_stops.

(** The default time range is 2011-01-01 to 2014-12-31: its ends are that many
    days after 1970-01-01, counted on the calendar. *)
Example C52_default_dates :
  Nat.iter 14975 next_day (mkDate 1970 1 1) = mkDate 2011 1 1 /\
  Nat.iter 16435 next_day (mkDate 1970 1 1) = mkDate 2014 12 31 /\
  BEGIN_RANGE = (14975 * 86400 * 1000000)%Z /\ END_RANGE = (16435 * 86400 * 1000000)%Z.
Proof. vm_compute. auto. Qed.

(** A generator meeting the hypotheses. *)
Example C52_witness : exists P : prng, lawful P /\
  exists k, sample_upwelling_infrared P 3 LogitNormal k = Sampled 315.
Proof.
  exists (mkPrng nat (fun _ => 0%nat) (fun k _ _ => S k) (fun _ _ => 0%Z)
    (fun _ a _ => a) (fun _ _ _ => 0) (fun _ _ _ => 0) (fun _ _ _ => 0)
    (fun k => match k with 2%nat => 1 | _ => 0 end) (fun _ => 1)).
  split.
  - constructor; cbn; intros; try lia; try lra. destruct k as [|[|[|k]]]; lra.
  - exists 0%nat. cbn [sample_upwelling_infrared infrared_draw logit_normal split].
    rewrite !Rmult_0_r, Rmult_1_r, !Rleb_false, Rleb_true by lra. reflexivity.
Qed.
