(** Pressure over temperature at some heights, in every atmosphere. *)
From Coq Require Import ZArith Reals Lra Lia Psatz List.
From Verif Require Import Model.Num Model.Atmosphere Model.Sampling Spec.AtmosphereSpec Spec.RangeSpec Proofs.NumR Proofs.AtmosphereProofs
  Proofs.RangeProofs Props.RangeProps
  Props.AtmosphereProps Props.SamplingProps Props.ResetProps.
Import ListNotations.
Open Scope R_scope.

(** ** The logarithm *)
Fixpoint log_series (n : nat) (x : R) : R :=
  match n with O => 0 | S m => log_series m x + x ^ S m / INR (S m) end.
Fixpoint geometric (n : nat) (x : R) : R := match n with O => 0 | S m => geometric m x + x ^ m end.
Lemma geometric_sum n x : (1 - x) * geometric n x = 1 - x ^ n.
Proof. induction n as [|n IH]; cbn [geometric Rpow_def.pow]; [ring|]. rewrite Rmult_plus_distr_l, IH. ring. Qed.
Lemma log_series_deriv n x : derivable_pt_lim (log_series n) x (geometric n x).
Proof.
  induction n as [|n IH]; cbn [log_series geometric].
  - apply derivable_pt_lim_const.
  - apply (derivable_pt_lim_plus (log_series n) (fun x => x ^ S n / INR (S n))); [exact IH|].
    pose proof (derivable_pt_lim_scal (fun x => x ^ S n) (/ INR (S n)) x _ (derivable_pt_lim_pow x (S n))) as D.
    cbn [pred] in D. replace (/ INR (S n) * (INR (S n) * x ^ n)) with (x ^ n) in D.
    2:{ field. apply not_0_INR. lia. }
    intros eps He. destruct (D eps He) as (d & Q). exists d. intros h Hh Hd. specialize (Q h Hh Hd).
    unfold mult_real_fct in Q. replace ((x + h) ^ S n / INR (S n) - x ^ S n / INR (S n))
      with (/ INR (S n) * (x + h) ^ S n - / INR (S n) * x ^ S n) by (unfold Rdiv; ring). exact Q.
Qed.
Lemma ln_deriv x : x < 1 -> derivable_pt_lim (fun x => ln (1 - x)) x (- / (1 - x)).
Proof.
  intro H.
  pose proof (derivable_pt_lim_minus (fun _ => 1) id x 0 1 (derivable_pt_lim_const 1 x) (derivable_pt_lim_id x)) as D1.
  pose proof (derivable_pt_lim_ln (1 - x) ltac:(lra)) as D2.
  pose proof (derivable_pt_lim_comp ((fun _ => 1) - id)%F ln x _ _ D1 D2) as D.
  replace (- / (1 - x)) with (/ (1 - x) * (0 - 1)) by ring. exact D.
Qed.
Lemma log_lower n x : 0 <= x < 1 -> log_series n x <= - ln (1 - x).
Proof.
  intros [[H|<-] H1].
  2:{ rewrite Rminus_0_r, ln_1, Ropp_0. right. induction n as [|n IH]; cbn [log_series]; [reflexivity|].
      rewrite IH. rewrite pow_ne_zero by lia. unfold Rdiv. ring. }
  set (f := (log_series n + (fun x => ln (1 - x)))%F).
  destruct (MVT_cor2 f (fun c => geometric n c + - / (1 - c)) 0 x H) as (c & E & Hc).
  { intros c Hc. apply derivable_pt_lim_plus; [apply log_series_deriv|apply ln_deriv; lra]. }
  assert (Z : forall m, log_series m 0 = 0).
  { intro m. induction m as [|m IH]; cbn [log_series]; [reflexivity|]. rewrite IH, pow_ne_zero by lia. unfold Rdiv. ring. }
  unfold f, plus_fct in E. rewrite Z, Rminus_0_r, ln_1 in E.
  assert (G : geometric n c + - / (1 - c) = - (c ^ n / (1 - c))).
  { apply Rmult_eq_reg_l with (1 - c); [|lra]. rewrite Rmult_plus_distr_l, geometric_sum. field. lra. }
  rewrite G in E. assert (0 <= c ^ n / (1 - c)).
  { apply Rmult_le_pos; [apply pow_le; lra|left; apply Rinv_0_lt_compat; lra]. }
  assert (0 <= c ^ n / (1 - c) * x) by (apply Rmult_le_pos; lra). lra.
Qed.
Lemma log_upper n x : 0 <= x <= 3 / 7 -> - ln (1 - x) <= log_series n x + 7 / 4 / INR (S n) * x ^ S n.
Proof.
  intros [[H|<-] H1].
  2:{ rewrite Rminus_0_r, ln_1, Ropp_0, pow_ne_zero by lia.
      assert (Z : log_series n 0 = 0).
      { induction n as [|n IH]; cbn [log_series]; [reflexivity|]. rewrite IH, pow_ne_zero by lia. unfold Rdiv. ring. }
      rewrite Z. lra. }
  set (f := (log_series n + (fun x => ln (1 - x)) + mult_real_fct (7 / 4 / INR (S n)) (fun x => x ^ S n))%F).
  destruct (MVT_cor2 f (fun c => geometric n c + - / (1 - c) + 7 / 4 / INR (S n) * (INR (S n) * c ^ n)) 0 x H) as (c & E & Hc).
  { intros c Hc. apply derivable_pt_lim_plus; [apply derivable_pt_lim_plus; [apply log_series_deriv|apply ln_deriv; lra]|].
    apply derivable_pt_lim_scal. exact (derivable_pt_lim_pow c (S n)). }
  assert (Z : forall m, log_series m 0 = 0).
  { intro m. induction m as [|m IH]; cbn [log_series]; [reflexivity|]. rewrite IH, pow_ne_zero by lia. unfold Rdiv. ring. }
  unfold f, plus_fct, mult_real_fct in E. rewrite Z, Rminus_0_r, ln_1, (pow_ne_zero (S n)) in E by lia.
  assert (G : geometric n c + - / (1 - c) = - (c ^ n / (1 - c))).
  { apply Rmult_eq_reg_l with (1 - c); [|lra]. rewrite Rmult_plus_distr_l, geometric_sum. field. lra. }
  assert (N : INR (S n) <> 0) by (apply not_0_INR; lia).
  replace (7 / 4 / INR (S n) * (INR (S n) * c ^ n)) with (7 / 4 * c ^ n) in E by (field; exact N).
  rewrite G in E. pose proof (pow_le c n ltac:(lra)) as P.
  assert (c ^ n / (1 - c) <= 7 / 4 * c ^ n).
  { apply Rmult_le_reg_r with (1 - c); [lra|]. unfold Rdiv at 1. rewrite Rmult_assoc, Rinv_l, Rmult_1_r by lra.
    assert (c ^ n * (3 / 7) >= c ^ n * c) by (apply Rle_ge, Rmult_le_compat_l; lra). lra. }
  assert (0 <= (- (c ^ n / (1 - c)) + 7 / 4 * c ^ n) * x) by (apply Rmult_le_pos; lra). lra.
Qed.
Ltac series := cbn [log_series INR Rpow_def.pow] in *; lra.

(** ** The two lowest layers *)
Definition gradient : R := A_GRAVITY / A_GAS.
Lemma gradient_range : 0.034163 <= gradient <= 0.0341633.
Proof. unfold gradient, A_GRAVITY, A_GAS. lra. Qed.
Definition lapse0 (alpha : R) : R := 0.007 - 0.0012 * alpha.
Definition lapse1 (alpha : R) : R := 0.006 - 0.001 * alpha.

(** Pressure over temperature at the height [y] above the bottom, in the lowest layer. *)
Definition low_ratio (L y : R) : R :=
  108870.8213 * Rpower ((300 + - L * y) / 300) (- A_GRAVITY / (A_GAS * - L)) / (300 + - L * y).
Lemma low_ratio_value L y : 0 < L -> 0 < 300 - L * y ->
  low_ratio L y = 108870.8213 / 300 * exp (- ((gradient / L - 1) * - ln (1 - L * y / 300))).
Proof.
  intros HL HT. unfold low_ratio, Rpower. pose proof gas_pos as Hg.
  replace ((300 + - L * y) / 300) with (1 - L * y / 300) by (field; lra).
  replace (- A_GRAVITY / (A_GAS * - L)) with (gradient / L) by (unfold gradient; field; lra).
  set (w := ln (1 - L * y / 300)).
  assert (Ew : 300 + - L * y = 300 * exp w) by (unfold w; rewrite exp_ln by lra; field).
  rewrite Ew. replace (- ((gradient / L - 1) * - w)) with (gradient / L * w + - w) by ring.
  rewrite exp_plus, exp_Ropp. pose proof (exp_pos w). generalize 108870.8213. intro. field. lra.
Qed.
Lemma exp_le x y : x <= y -> exp x <= exp y.
Proof. intros [H| ->]; [left; now apply exp_increasing|lra]. Qed.
Lemma exp_known n x : x < 1 -> exp (- (INR n * - ln (1 - x))) = (1 - x) ^ n.
Proof.
  intro H. replace (- (INR n * - ln (1 - x))) with (INR n * ln (1 - x)) by ring.
  change (exp (INR n * ln (1 - x))) with (Rpower (1 - x) (INR n)). apply Rpower_pow. lra.
Qed.
Lemma low_ratio_upper L y x0 q : 0 < L -> 0 <= L * y / 300 < 1 -> 0 <= x0 <= 3 / 7 -> L <= gradient ->
  4 * (log_series 6 x0 + 7 / 4 / 7 * x0 ^ 7) <= (gradient / L - 1) * log_series 6 (L * y / 300) ->
  108870.8213 / 300 * (1 - x0) ^ 4 <= q -> low_ratio L y <= q.
Proof.
  intros HL Hx H0 Hg H Hq. rewrite low_ratio_value by lra.
  apply Rle_trans with (2 := Hq). apply Rmult_le_compat_l; [lra|].
  rewrite <- (exp_known 4 x0) by lra. apply exp_le. apply Ropp_le_contravar.
  pose proof (log_upper 6 x0 ltac:(lra)) as U. replace (INR 7) with 7 in U by (cbn; lra).
  pose proof (log_lower 6 (L * y / 300) ltac:(lra)) as Lo.
  replace (INR 4) with 4 by (cbn; lra).
  assert (0 <= gradient / L - 1).
  { assert (1 <= gradient / L); [|lra]. apply Rmult_le_reg_r with L; [exact HL|]. unfold Rdiv. rewrite Rmult_assoc, Rinv_l by lra. lra. }
  apply Rle_trans with ((gradient / L - 1) * log_series 6 (L * y / 300)); [lra|]. apply Rmult_le_compat_l; assumption.
Qed.
Lemma low_ratio_lower L y x0 q : 0 < L -> 0 <= L * y / 300 <= 3 / 7 -> 0 <= x0 < 1 -> L <= gradient ->
  (gradient / L - 1) * (log_series 6 (L * y / 300) + 7 / 4 / 7 * (L * y / 300) ^ 7) <= 4 * log_series 6 x0 ->
  q <= 108870.8213 / 300 * (1 - x0) ^ 4 -> q <= low_ratio L y.
Proof.
  intros HL Hx H0 Hg H Hq. rewrite low_ratio_value by lra.
  apply Rle_trans with (1 := Hq). apply Rmult_le_compat_l; [lra|].
  rewrite <- (exp_known 4 x0) by lra. apply exp_le. apply Ropp_le_contravar.
  pose proof (log_lower 6 x0 ltac:(lra)) as U.
  pose proof (log_upper 6 (L * y / 300) ltac:(lra)) as Lo. replace (INR 7) with 7 in Lo by (cbn; lra).
  replace (INR 4) with 4 by (cbn; lra).
  assert (0 <= gradient / L - 1).
  { assert (1 <= gradient / L); [|lra]. apply Rmult_le_reg_r with L; [exact HL|]. unfold Rdiv. rewrite Rmult_assoc, Rinv_l by lra. lra. }
  apply Rle_trans with ((gradient / L - 1) * (log_series 6 (L * y / 300) + 7 / 4 / 7 * (L * y / 300) ^ 7)); [|lra].
  apply Rmult_le_compat_l; assumption.
Qed.
(** The factor 1 / L cancels. *)
Lemma cancel_lapse L y s : 0 < L -> (gradient / L - 1) * (L * y / 300 * s) = (gradient * y / 300 - L * y / 300) * s.
Proof. intro H. field. lra. Qed.
Lemma series_6 x : log_series 6 x = x * (1 + x / 2 + x ^ 2 / 3 + x ^ 3 / 4 + x ^ 4 / 5 + x ^ 5 / 6).
Proof. cbn [log_series INR]. field. Qed.

Lemma powers u b : 0 <= u <= b -> 0 <= u ^ 2 <= b * u /\ 0 <= u ^ 3 <= b * u ^ 2 /\ 0 <= u ^ 4 <= b * u ^ 3 /\
  0 <= u ^ 5 <= b * u ^ 4 /\ 0 <= u ^ 6 <= b * u ^ 5 /\ 0 <= u ^ 7 <= b * u ^ 6.
Proof.
  intro H. assert (P : forall n, 0 <= u ^ S n <= b * u ^ n).
  { intro n. pose proof (pow_le u n ltac:(lra)). cbn [Rpow_def.pow]. split; [apply Rmult_le_pos; lra|apply Rmult_le_compat_r; lra]. }
  pose proof (P 1%nat) as P1. cbn [Rpow_def.pow] in P1. rewrite !Rmult_1_r in P1.
  split; [cbn [Rpow_def.pow]; rewrite !Rmult_1_r; exact P1|].
  exact (conj (P 2%nat) (conj (P 3%nat) (conj (P 4%nat) (conj (P 5%nat) (P 6%nat))))).
Qed.

Lemma ratio_15240 L : 0.0058 <= L <= 0.007 -> 60 <= low_ratio L 15850 <= 61.
Proof.
  intro HL. pose proof gradient_range as Hg. set (x := L * 15850 / 300).
  assert (Hx : 0.3064 <= x <= 0.36984) by (unfold x; lra).
  set (u := x - 0.3064). assert (Hu : 0 <= u <= 0.0635) by (unfold u; lra).
  destruct (powers u 0.0635 Hu) as (P2 & P3 & P4 & P5 & P6 & P7).
  set (c := gradient * 15850 / 300). assert (Hc : 1.80494 <= c <= 1.80497) by (unfold c; lra).
  assert (Ex : x = 0.3064 + u) by (unfold u; ring).
  split.
  - apply (low_ratio_lower L 15850 0.3622); try (fold x); try lra.
    fold x. rewrite (series_6 x).
    replace (x * (1 + x / 2 + x ^ 2 / 3 + x ^ 3 / 4 + x ^ 4 / 5 + x ^ 5 / 6) + 7 / 4 / 7 * x ^ 7)
      with (L * 15850 / 300 * (1 + x / 2 + x ^ 2 / 3 + x ^ 3 / 4 + x ^ 4 / 5 + x ^ 5 / 6 + x ^ 6 / 4)) by (fold x; field).
    rewrite cancel_lapse by lra. fold x. fold c.
    set (s := 1 + x / 2 + x ^ 2 / 3 + x ^ 3 / 4 + x ^ 4 / 5 + x ^ 5 / 6 + x ^ 6 / 4).
    assert (Hs : s <= 1.1942 + 0.87 * u).
    { unfold s. rewrite Ex. lra. }
    assert (Hs0 : 0 <= s).
    { unfold s. assert (forall n, 0 <= x ^ n) by (intro n; apply pow_le; lra).
      pose proof (H 2%nat). pose proof (H 3%nat). pose proof (H 4%nat). pose proof (H 5%nat). pose proof (H 6%nat). lra. }
    apply Rle_trans with ((1.80497 - x) * s); [apply Rmult_le_compat_r; lra|].
    apply Rle_trans with ((1.80497 - x) * (1.1942 + 0.87 * u)); [apply Rmult_le_compat_l; lra|].
    rewrite Ex. apply Rle_trans with 1.7975; [lra|]. series.
  - apply (low_ratio_upper L 15850 0.36); try (fold x); try lra.
    fold x. rewrite (series_6 x).
    change (x * (1 + x / 2 + x ^ 2 / 3 + x ^ 3 / 4 + x ^ 4 / 5 + x ^ 5 / 6))
      with (L * 15850 / 300 * (1 + x / 2 + x ^ 2 / 3 + x ^ 3 / 4 + x ^ 4 / 5 + x ^ 5 / 6)).
    rewrite cancel_lapse by lra. fold x. fold c.
    set (s := 1 + x / 2 + x ^ 2 / 3 + x ^ 3 / 4 + x ^ 4 / 5 + x ^ 5 / 6).
    assert (Hs : 1.1937 + 0.804 * u <= s).
    { unfold s. rewrite Ex. lra. }
    apply Rle_trans with ((1.80494 - x) * (1.1937 + 0.804 * u)).
    2:{ apply Rmult_le_compat; lra. }
    rewrite Ex. apply Rle_trans with 1.7858; [series|]. lra.
Qed.
Lemma ratio_17000 L : 0.0058 <= L <= 0.007 -> low_ratio L 17610 <= 47.7.
Proof.
  intro HL. pose proof gradient_range as Hg. set (x := L * 17610 / 300).
  assert (Hx : 0.3404 <= x <= 0.4109) by (unfold x; lra).
  set (u := x - 0.3404). assert (Hu : 0 <= u <= 0.0705) by (unfold u; lra).
  destruct (powers u 0.0705 Hu) as (P2 & P3 & P4 & P5 & P6 & P7).
  set (c := gradient * 17610 / 300). assert (Hc : 2.00536 <= c <= 2.00539) by (unfold c; lra).
  assert (Ex : x = 0.3404 + u) by (unfold u; ring).
  apply (low_ratio_upper L 17610 0.398); try (fold x); try lra.
  fold x. rewrite (series_6 x).
    change (x * (1 + x / 2 + x ^ 2 / 3 + x ^ 3 / 4 + x ^ 4 / 5 + x ^ 5 / 6))
      with (L * 17610 / 300 * (1 + x / 2 + x ^ 2 / 3 + x ^ 3 / 4 + x ^ 4 / 5 + x ^ 5 / 6)).
    rewrite cancel_lapse by lra. fold x. fold c.
  set (s := 1 + x / 2 + x ^ 2 / 3 + x ^ 3 / 4 + x ^ 4 / 5 + x ^ 5 / 6).
  assert (Hs : 1.2221 + 0.85 * u <= s).
  { unfold s. rewrite Ex. lra. }
  apply Rle_trans with ((2.00536 - x) * (1.2221 + 0.85 * u)).
  2:{ apply Rmult_le_compat; lra. }
  rewrite Ex. apply Rle_trans with 2.0332; [series|]. lra.
Qed.

(** ** Temperatures *)
Lemma profile_first alpha h : -610 <= h <= 17000 -> temperature_profile alpha h = 300 - lapse0 alpha * (h + 610).
Proof.
  intro H. unfold temperature_profile, layers, gained, lapse0. cbn [map fold_right].
  rewrite (Rmin_right h (-610)), !(Rmin_left h) by lra. lra.
Qed.
Lemma profile_second alpha h : 17000 <= h <= 21000 ->
  temperature_profile alpha h = 300 - lapse0 alpha * 17610 + lapse1 alpha * (h - 17000).
Proof.
  intro H. unfold temperature_profile, layers, gained, lapse0, lapse1. cbn [map fold_right].
  rewrite (Rmin_right h (-610)), !(Rmin_right h 17000), !(Rmin_left h) by lra. lra.
Qed.
Lemma profile_300 alpha h : 0 <= alpha <= 1 -> -610 <= h -> temperature_profile alpha h <= 300.
Proof.
  intros Ha Hh. destruct (Rle_dec h 17000) as [L|L].
  - rewrite profile_first by lra. assert (0 <= lapse0 alpha * (h + 610)); [|lra].
    apply Rmult_le_pos; unfold lapse0; lra.
  - unfold temperature_profile, layers, gained. cbn [map fold_right].
    rewrite (Rmin_right h 17000), (Rmin_right h (-610)) by lra.
    assert (M : forall b t, b <= t -> 0 <= Rmin h t - Rmin h b <= t - b).
    { intros b t Hbt. unfold Rmin. destruct (Rle_dec h t), (Rle_dec h b); lra. }
    pose proof (M 17000 21000 ltac:(lra)) as M2. rewrite (Rmin_right h 17000) in M2 by lra.
    pose proof (M 21000 32000 ltac:(lra)). pose proof (M 32000 47000 ltac:(lra)).
    pose proof (M 47000 51000 ltac:(lra)). pose proof (M 51000 71000 ltac:(lra)).
    pose proof (M 71000 85000 ltac:(lra)).
    set (d2 := Rmin h 21000 - 17000) in *.
    set (d3 := Rmin h 32000 - Rmin h 21000) in *. set (d4 := Rmin h 47000 - Rmin h 32000) in *.
    set (d5 := Rmin h 51000 - Rmin h 47000) in *. set (d6 := Rmin h 71000 - Rmin h 51000) in *.
    set (d7 := Rmin h 85000 - Rmin h 71000) in *. clearbody d2 d3 d4 d5 d6 d7.
    assert (0 <= alpha * d2) by (apply Rmult_le_pos; lra). lra.
Qed.
Lemma profile_band alpha h : 0 <= alpha <= 1 -> 15240 <= h <= 19820 -> 176.7 <= temperature_profile alpha h <= 212.
Proof.
  intros Ha Hh. destruct (Rle_dec h 17000) as [L|L].
  - rewrite profile_first by lra. unfold lapse0.
    assert (0 <= alpha * (h + 610)) by (apply Rmult_le_pos; lra).
    assert (alpha * (h + 610) <= 1 * 17610) by (apply Rmult_le_compat; lra).
    assert (alpha * (h + 610) <= 1 * (h + 610)) by (apply Rmult_le_compat; lra). lra.
  - rewrite profile_second by lra. unfold lapse0, lapse1.
    assert (0 <= alpha * (h - 17000)) by (apply Rmult_le_pos; lra).
    assert (0 <= (1 - alpha) * (19820 - h)) by (apply Rmult_le_pos; lra).
    assert (alpha * (h - 17000) <= alpha * 2820) by (apply Rmult_le_compat_l; lra). lra.
Qed.

(** ** Pressures *)
Lemma log_pressure alpha a b va vb : 0 <= alpha <= 1 -> -610 < a < b -> b < 85000 ->
  at_height (atmosphere_reset alpha) a = Some va -> at_height (atmosphere_reset alpha) b = Some vb ->
  exists h, a < h < b /\ ln (v_pressure va) - ln (v_pressure vb) = gradient / temperature_profile alpha h * (b - a).
Proof.
  intros Ha Hab Hb Ea Eb. destruct (C16_hydrostatic alpha Ha) as (_ & _ & Hy).
  set (P0 := fun h => match at_height (atmosphere_reset alpha) h with Some v => v_pressure v | None => 0 end) in *.
  assert (Get : forall h, -610 < h < 85000 -> exists v, at_height (atmosphere_reset alpha) h = Some v).
  { intros h Hh. destruct (at_height (atmosphere_reset alpha) h) eqn:E; [eauto|].
    exfalso. apply (proj2 (proj1 (C15_height_then_pressure alpha h Ha)) ltac:(lra)). exact E. }
  assert (Pos : forall h, -610 < h < 85000 -> 0 < P0 h /\ 0 < temperature_profile alpha h).
  { intros h Hh. destruct (Get h Hh) as (v & E). unfold P0. rewrite E.
    destruct (C16_values_positive alpha h v Ha E) as (Tp & [Pp _] & _).
    destruct (C16_temperature_and_density alpha h v Ha E) as (<- & _). split; assumption. }
  destruct (MVT_cor2 (fun h => ln (P0 h)) (fun h => - (gradient / temperature_profile alpha h)) a b ltac:(lra)) as (h & E & Hh).
  { intros h Hh. destruct (Pos h ltac:(lra)) as [Pp Tp].
    pose proof (derivable_pt_lim_comp P0 ln h _ _ (Hy h ltac:(lra)) (derivable_pt_lim_ln (P0 h) Pp)) as D.
    replace (- (gradient / temperature_profile alpha h))
      with (/ P0 h * (- (P0 h / (specific_gas_constant * temperature_profile alpha h)) * gravity)).
    - exact D.
    - pose proof gas_pos. change specific_gas_constant with A_GAS. change gravity with A_GRAVITY. unfold gradient. field. lra. }
  exists h. split; [exact Hh|]. unfold P0 in E. rewrite Ea, Eb in E. lra.
Qed.

Lemma first_ratio alpha h v : 0 <= alpha <= 1 -> 0 <= h < 17000 -> at_height (atmosphere_reset alpha) h = Some v ->
  v_pressure v / v_temperature v = low_ratio (lapse0 alpha) (h + 610).
Proof.
  intros Ha Hh E. set (l := (1 - alpha) * -0.007 + alpha * -0.0058).
  assert (El : l = - lapse0 alpha) by (unfold l, lapse0; lra).
  assert (Hl : -0.007 <= l <= -0.0058) by (unfold l; lra).
  unfold at_height in E. cbn [hd last HEIGHT_TRANSITIONS] in E.
  rewrite Rleb_true, Rltb_true in E by lra. cbn [negb] in E. unfold atmosphere_reset in E.
  cbn [lapse_rates temp_transitions press_transitions] in E.
  unfold mix_lapse_rates, LAPSE_RATES_LOW, LAPSE_RATES_HIGH in E.
  cbn [combine map fst snd] in E. fold l in E.
  cbn [temperature_transitions pressure_transitions HEIGHT_TRANSITIONS at_height_loop] in E.
  rewrite Rltb_true in E by lra. unfold Reqb in E. destruct (Req_EM_T l 0) as [C|_]; [exfalso; lra|].
  injection E as <-. cbn [v_pressure v_temperature].
  unfold pressure_for_linear_temperature, low_ratio. rewrite El.
  replace (h - -610) with (h + 610) by ring. reflexivity.
Qed.
Lemma ratio_at_17000 alpha v : 0 <= alpha <= 1 -> at_height (atmosphere_reset alpha) 17000 = Some v ->
  v_pressure v / v_temperature v <= 47.7.
Proof.
  intros Ha E. set (l := (1 - alpha) * -0.007 + alpha * -0.0058).
  assert (El : l = - lapse0 alpha) by (unfold l, lapse0; lra).
  assert (Hl : -0.007 <= l <= -0.0058) by (unfold l; lra).
  set (m := (1 - alpha) * 0.006 + alpha * 0.005). assert (Hm : 0.005 <= m) by (unfold m; lra).
  unfold at_height in E. cbn [hd last HEIGHT_TRANSITIONS] in E.
  rewrite Rleb_true, Rltb_true in E by lra. cbn [negb] in E. unfold atmosphere_reset in E.
  cbn [lapse_rates temp_transitions press_transitions] in E.
  unfold mix_lapse_rates, LAPSE_RATES_LOW, LAPSE_RATES_HIGH in E.
  cbn [combine map fst snd] in E. fold l m in E.
  cbn [temperature_transitions pressure_transitions HEIGHT_TRANSITIONS at_height_loop] in E.
  rewrite Rltb_false, Rltb_true in E by lra. unfold Reqb in E.
  destruct (Req_EM_T l 0) as [C|_]; [exfalso; lra|]. destruct (Req_EM_T m 0) as [C|_]; [exfalso; lra|].
  injection E as <-. cbn [v_pressure v_temperature].
  pose proof (ratio_17000 (lapse0 alpha) ltac:(unfold lapse0; lra)) as Q.
  apply Rle_trans with (2 := Q). right.
  unfold pressure_for_linear_temperature, low_ratio. rewrite El.
  replace (17000 - -610) with 17610 by ring. replace (17000 - 17000) with 0 by ring. rewrite !Rmult_0_r, !Rplus_0_r.
  set (t := 300 + - lapse0 alpha * 17610). assert (0 < t) by (unfold t, lapse0; lra).
  replace (t / t) with 1 by (field; lra). assert (O : forall e, Rpower 1 e = 1) by (intro e; unfold Rpower; rewrite ln_1, Rmult_0_r; apply exp_0).
  rewrite O, Rmult_1_r. reflexivity.
Qed.

(** At 19820 m. *)
Lemma ratio_at_19820 alpha v : 0 <= alpha <= 1 -> at_height (atmosphere_reset alpha) 19820 = Some v ->
  v_pressure v / v_temperature v <= 28.39.
Proof.
  intros Ha E. pose proof gradient_range as Hg.
  assert (exists w, at_height (atmosphere_reset alpha) 17000 = Some w) as (w & Ew).
  { destruct (at_height (atmosphere_reset alpha) 17000) eqn:F; [eauto|].
    exfalso. apply (proj2 (proj1 (C15_height_then_pressure alpha 17000 Ha)) ltac:(lra)). exact F. }
  pose proof (ratio_at_17000 alpha w Ha Ew) as Qw.
  destruct (log_pressure alpha 17000 19820 w v Ha ltac:(lra) ltac:(lra) Ew E) as (h & Hh & D).
  destruct (C16_values_positive _ _ _ Ha E) as (Tv & [Pv _] & _).
  destruct (C16_values_positive _ _ _ Ha Ew) as (Tw & [Pw _] & _).
  destruct (C16_temperature_and_density _ _ _ Ha E) as (EV & _).
  destruct (C16_temperature_and_density _ _ _ Ha Ew) as (EW & _).
  rewrite profile_second in EV, EW, D by lra.
  set (T := v_temperature v) in *. set (U := v_temperature w) in *.
  set (X := 300 - lapse0 alpha * 17610 + lapse1 alpha * (h - 17000)) in *.
  assert (Hm : 0.005 <= lapse1 alpha) by (unfold lapse1; lra).
  assert (HX : 0 < X <= T).
  { split.
    - unfold X. assert (0 <= lapse1 alpha * (h - 17000)) by (apply Rmult_le_pos; lra). unfold lapse0 in *. lra.
    - rewrite EV. unfold X. assert (lapse1 alpha * (h - 17000) <= lapse1 alpha * (19820 - 17000)) by (apply Rmult_le_compat_l; lra). lra. }
  assert (G : gradient / T * 2820 <= gradient / X * (19820 - 17000)).
  { replace (19820 - 17000) with 2820 by ring. apply Rmult_le_compat_r; [lra|]. unfold Rdiv.
    apply Rmult_le_compat_l; [lra|]. apply Rinv_le_contravar; lra. }
  (* the temperature rises *)
  assert (I : ln U <= ln T - lapse1 alpha / T * 2820).
  { assert (ln (U / T) <= U / T - 1).
    { pose proof (exp_ineq1_le (ln (U / T))) as Q. rewrite exp_ln in Q by (apply Rdiv_lt_0_compat; assumption). lra. }
    unfold Rdiv in H. rewrite ln_mult in H by (auto; apply Rinv_0_lt_compat; assumption). rewrite ln_Rinv in H by assumption.
    assert (U * / T - 1 = - (lapse1 alpha / T * 2820)); [|lra].
    apply Rmult_eq_reg_r with T; [|lra]. replace ((U * / T - 1) * T) with (U - T) by (field; lra).
    replace (- (lapse1 alpha / T * 2820) * T) with (- (lapse1 alpha * 2820)) by (field; lra). rewrite EV, EW. ring. }
  assert (K : 0.5209 <= (gradient + lapse1 alpha) / T * 2820).
  { apply Rmult_le_reg_r with T; [assumption|].
    replace ((gradient + lapse1 alpha) / T * 2820 * T) with ((gradient + lapse1 alpha) * 2820) by (field; lra).
    rewrite EV. unfold lapse0, lapse1. lra. }
  assert (Z : ln (v_pressure v / T) <= ln (47.7 * (1 - 0.405))).
  { unfold Rdiv. rewrite !ln_mult by (try lra; try assumption; apply Rinv_0_lt_compat; assumption).
    rewrite ln_Rinv by assumption.
    assert (W : ln (v_pressure w / U) <= ln 47.7) by (apply ln_mono; [apply Rdiv_lt_0_compat; assumption|exact Qw]).
    unfold Rdiv in W. rewrite ln_mult, ln_Rinv in W by (try assumption; apply Rinv_0_lt_compat; assumption).
    pose proof (log_upper 6 0.405 ltac:(lra)) as LU.
    assert (log_series 6 0.405 + 7 / 4 / INR 7 * 0.405 ^ 7 <= 0.5209) by series.
    replace ((gradient + lapse1 alpha) / T * 2820) with (gradient / T * 2820 + lapse1 alpha / T * 2820) in K by (field; lra).
    lra. }
  apply Rle_trans with (47.7 * (1 - 0.405)); [|lra].
  apply Rnot_lt_le. intro C. apply ln_increasing in C; [lra|lra].
Qed.

(** ** The bottom and the top of the range *)
Lemma bottom_band alpha v : 0 <= alpha <= 1 -> at_height (atmosphere_reset alpha) (50000 * 0.3048) = Some v ->
  189 <= v_temperature v <= 208.2 /\ 60 <= v_pressure v / v_temperature v <= 61.
Proof.
  intros Ha E. destruct (C16_temperature_and_density _ _ _ Ha E) as (ET & _). split.
  - rewrite ET, profile_first by lra. unfold lapse0. lra.
  - rewrite (first_ratio alpha (50000 * 0.3048) v Ha ltac:(lra) E). replace (50000 * 0.3048 + 610) with 15850 by lra.
    apply ratio_15240. unfold lapse0. lra.
Qed.

Lemma top_band alpha vf F top : 0 <= alpha <= 1 -> 29.9 <= F <= 30 ->
  let atm := atmosphere_reset alpha in
  at_height atm (50000 * 0.3048) = Some vf ->
  interpolates 20 (fun i => ratio_at atm (level (v_pressure vf) i)) (level (v_pressure vf)) F top ->
  exists v, Atmosphere.at_pressure atm top = Some v /\ 176.7 <= v_temperature v <= 212 /\
    28.4 <= top / v_temperature v <= 32.
Proof.
  intros Ha HF atm Ef (i & Hi & Lo & Hi' & ->).
  destruct (bottom_band alpha vf Ha Ef) as [Tf Qf]. pose proof gradient_range as Hg.
  destruct (C16_values_positive _ _ _ Ha Ef) as (_ & [Pf _] & _).
  set (bottom := v_pressure vf) in *.
  assert (Mul : bottom = bottom / v_temperature vf * v_temperature vf) by (field; lra).
  assert (Hb : 60 * 189 <= bottom <= 61 * 208.2) by (rewrite Mul; split; apply Rmult_le_compat; lra).
  assert (Lr : forall k, (k < 20)%nat -> 1000 <= level bottom k <= bottom).
  { intros k Hk. unfold level. assert (0 <= INR k) by apply pos_INR.
    assert (INR k <= 19) by (replace 19 with (INR 19) by (cbn; lra); apply le_INR; lia).
    assert (0 <= (bottom - 1000) * INR k) by (apply Rmult_le_pos; lra).
    assert ((bottom - 1000) * INR k <= (bottom - 1000) * 19) by (apply Rmult_le_compat_l; lra). lra. }
  assert (Fl : at_height atm MIN_ALTITUDE_M = Some vf) by exact Ef.
  assert (Look : forall p, 1000 <= p <= bottom -> exists v, Atmosphere.at_pressure atm p = Some v).
  { intros p Hp. exact (level_lookup alpha p vf Ha Fl Hp). }
  (* what a lookup gives *)
  assert (Info : forall p v, Atmosphere.at_pressure atm p = Some v ->
     v_pressure v = p /\ at_height atm (v_height v) = Some v /\ 0 < v_temperature v /\
     v_temperature v = temperature_profile alpha (v_height v) /\ -610 <= v_height v < 85000).
  { intros p v E. destruct (proj2 (C15_pressure_then_height alpha p Ha) v E) as [E1 E2].
    destruct (C16_values_positive _ _ _ Ha E2) as (Tp & _). destruct (C16_temperature_and_density _ _ _ Ha E2) as (ET & _).
    split; [exact E1|]. split; [exact E2|]. split; [exact Tp|]. split; [exact ET|].
    apply (proj1 (C15_height_then_pressure alpha (v_height v) Ha)). rewrite E2. discriminate. }
  assert (Lip : forall h h' v v', at_height atm h = Some v -> at_height atm h' = Some v' -> h <= h' ->
     - (0.007 * (h' - h)) <= v_temperature v' - v_temperature v <= 0.007 * (h' - h)).
  { intros h h' v v' E E' L. destruct (C16_temperature_and_density _ _ _ Ha E) as (_ & _ & Q).
    specialize (Q h' v' E'). rewrite (Rabs_right (h' - h)) in Q by lra.
    pose proof (Rle_abs (v_temperature v' - v_temperature v)). pose proof (Rle_abs (- (v_temperature v' - v_temperature v))).
    rewrite Rabs_Ropp in *. lra. }
  (* the heights where the ratio is large *)
  assert (exists vt, at_height atm 19820 = Some vt) as (vt & Et).
  { destruct (at_height atm 19820) eqn:X; [eauto|].
    exfalso. apply (proj2 (proj1 (C15_height_then_pressure alpha 19820 Ha)) ltac:(lra)). exact X. }
  pose proof (ratio_at_19820 alpha vt Ha Et) as Qt.
  assert (Low : forall p v, p <= bottom -> Atmosphere.at_pressure atm p = Some v -> 28.4 <= p / v_temperature v ->
     15240 <= v_height v <= 19820 /\ 176.7 <= v_temperature v <= 212).
  { intros p v Hp E Q. destruct (Info p v E) as (E1 & E2 & Tp & ET & _).
    assert (Hh : 15240 <= v_height v <= 19820).
    { split.
      - apply Rnot_lt_le. intro C.
        assert (C' : v_height v < 50000 * 0.3048) by lra.
        apply (C16_pressure_decreases alpha _ _ v vf Ha E2 Ef) in C'. fold bottom in C'. lra.
      - apply Rnot_lt_le. intro C.
        apply (C16_pressure_decreases alpha _ _ vt v Ha Et E2) in C. rewrite E1 in C.
        pose proof (round_trip_height alpha Ha _ _ Et) as Rt.
        pose proof (ratio_increases alpha _ _ _ _ Ha E Rt C) as W. rewrite E1 in W. lra. }
    split; [exact Hh|]. rewrite ET. apply profile_band; assumption. }
  set (pi := level bottom i) in *. set (pj := level bottom (S i)) in *.
  destruct (Look pi (Lr i ltac:(lia))) as (vi & Ei). destruct (Look pj (Lr (S i) Hi)) as (vj & Ej).
  destruct (Info pi vi Ei) as (Pi & Hti & Ti & ETi & Bi). destruct (Info pj vj Ej) as (Pj & Htj & Tj & ETj & Bj).
  unfold ratio_at in *. rewrite Ei, Ej in *.
  assert (Step : pj - pi = (bottom - 1000) / 19) by (unfold pj, pi, level; rewrite S_INR; lra).
  assert (Hij : pi < pj) by lra.
  pose proof (antitone_lookup alpha Ha _ _ _ _ Ei Ej Hij) as Hh.
  pose proof (ratio_increases alpha _ _ _ _ Ha Ei Ej Hij) as Qij. rewrite Pi, Pj in Qij.
  set (qi := pi / v_temperature vi) in *. set (qj := pj / v_temperature vj) in *.
  (* the two levels enclose the ratio *)
  assert (Qi : qi < F).
  { destruct Lo as [Z|Z]; [|exact Z]. unfold qi, pi. rewrite Z. unfold level. cbn [INR].
    pose proof (profile_low alpha (v_height vi) Ha) as PL. rewrite <- ETi in PL.
    apply Rmult_lt_reg_r with (v_temperature vi); [lra|].
    unfold Rdiv at 1. rewrite (Rmult_assoc _ (/ _)), Rinv_l, Rmult_1_r by lra.
    assert (29.9 * 165 <= F * v_temperature vi) by (apply Rmult_le_compat; lra). lra. }
  assert (Qj : F <= qj).
  { destruct Hi' as [Z|Z]; [|exact Z].
    assert (Eb : pj = bottom).
    { unfold pj. replace (S i) with 19%nat by lia. unfold level. replace (INR 19) with 19 by (cbn; lra). lra. }
    assert (vj = vf).
    { pose proof (round_trip_height alpha Ha _ _ Ef) as Rf. fold bottom in Rf. fold atm in Rf. rewrite <- Eb, Ej in Rf.
      injection Rf as X. exact X. }
    unfold qj. rewrite Eb, H. lra. }
  destruct (Low pj vj (proj2 (Lr (S i) Hi)) Ej ltac:(fold qj; lra)) as [Hj Tjr].
  assert (Pjr : 29.9 * 176.7 <= pj).
  { replace pj with (qj * v_temperature vj) by (unfold qj; field; lra). apply Rmult_le_compat; lra. }
  assert (Pir : 4667 <= pi) by lra.
  (* the distance between the levels *)
  assert (Dh : v_height vi - v_height vj <= 1160).
  { destruct (log_pressure alpha _ _ vj vi Ha ltac:(split; [|exact Hh]; lra) ltac:(lra) Htj Hti) as (h & Hr & D).
    pose proof (profile_300 alpha h Ha ltac:(lra)) as T3. pose proof (profile_low alpha h Ha) as T1.
    rewrite Pi, Pj in D.
    assert (ln pj - ln pi <= pj / pi - 1).
    { pose proof (exp_ineq1_le (ln (pj / pi))) as Q. rewrite exp_ln in Q by (apply Rdiv_lt_0_compat; lra).
      unfold Rdiv in Q at 1. rewrite ln_mult, ln_Rinv in Q by (try lra; apply Rinv_0_lt_compat; lra). lra. }
    assert (pj / pi - 1 <= 0.132).
    { apply Rmult_le_reg_r with pi; [lra|]. replace ((pj / pi - 1) * pi) with (pj - pi) by (field; lra). lra. }
    assert (gradient / 300 * (v_height vi - v_height vj) <= gradient / temperature_profile alpha h * (v_height vi - v_height vj)).
    { apply Rmult_le_compat_r; [lra|]. unfold Rdiv. apply Rmult_le_compat_l; [lra|]. apply Rinv_le_contravar; lra. }
    assert (0.034163 / 300 * (v_height vi - v_height vj) <= gradient / 300 * (v_height vi - v_height vj)).
    { apply Rmult_le_compat_r; lra. }
    lra. }
  (* the interpolated pressure *)
  set (s := (F - qi) / (qj - qi)).
  assert (Hs : 0 < s <= 1).
  { unfold s. split; [apply Rdiv_lt_0_compat; lra|]. apply Rmult_le_reg_r with (qj - qi); [lra|].
    unfold Rdiv. rewrite Rmult_assoc, Rinv_l by lra. lra. }
  unfold on_line. fold s. set (top := pi + s * (pj - pi)).
  assert (Htop : pi <= top <= pj).
  { unfold top. assert (0 <= s * (pj - pi)) by (apply Rmult_le_pos; lra).
    assert (s * (pj - pi) <= 1 * (pj - pi)) by (apply Rmult_le_compat_r; lra). lra. }
  assert (Etop : top = (1 - s) * (qi * v_temperature vi) + s * (qj * v_temperature vj)).
  { unfold top, qi, qj. field. lra. }
  assert (EF : F = (1 - s) * qi + s * qj) by (unfold s; field; lra).
  pose proof (Lr (S i) Hi) as Lj. fold pj in Lj.
  destruct (Look top ltac:(lra)) as (v & E). destruct (Info top v E) as (P & Ht & T & ET & B).
  assert (Hv : v_height vj <= v_height v <= v_height vi).
  { split.
    - destruct (Req_dec top pj) as [Z|Z]; [rewrite Z, Ej in E; injection E as <-; lra|].
      left. apply (antitone_lookup alpha Ha _ _ _ _ E Ej). lra.
    - destruct (Req_dec pi top) as [Z|Z]; [rewrite <- Z, Ei in E; injection E as <-; lra|].
      left. apply (antitone_lookup alpha Ha _ _ _ _ Ei E). lra. }
  pose proof (Lip _ _ _ _ Htj Ht ltac:(lra)) as L1. pose proof (Lip _ _ _ _ Ht Hti ltac:(lra)) as L2.
  set (t := v_temperature v) in *.
  assert (Ti' : t - 8.12 <= v_temperature vi <= t + 8.12) by lra.
  assert (Tj' : t - 8.12 <= v_temperature vj <= t + 8.12) by lra.
  assert (Ht' : 168.5 <= t <= 221) by lra.
  assert (Q0 : 0 <= qi).
  { unfold qi. apply Rlt_le, Rdiv_lt_0_compat; lra. }
  assert (A1 : 0 <= (1 - s) * qi) by (apply Rmult_le_pos; lra). assert (A2 : 0 <= s * qj) by (apply Rmult_le_pos; lra).
  assert (Up : top <= F * (t + 8.12)).
  { rewrite Etop, EF. rewrite <- !Rmult_assoc, Rmult_plus_distr_r. apply Rplus_le_compat; apply Rmult_le_compat_l; lra. }
  assert (Dn : F * (t - 8.12) <= top).
  { rewrite Etop, EF. rewrite <- !Rmult_assoc, Rmult_plus_distr_r. apply Rplus_le_compat; apply Rmult_le_compat_l; lra. }
  assert (Q : 28.4 <= top / t <= 32).
  { split; apply Rmult_le_reg_r with t; try lra; unfold Rdiv; rewrite (Rmult_assoc _ (/ t)), Rinv_l, Rmult_1_r by lra.
    - apply Rle_trans with (2 := Dn). apply Rle_trans with (29.9 * (t - 8.12)); [lra|]. apply Rmult_le_compat_r; lra.
    - apply Rle_trans with (1 := Up). apply Rle_trans with (30 * (t + 8.12)); [|lra]. apply Rmult_le_compat_r; lra. }
  exists v. split; [exact E|]. split; [|exact Q].
  apply (Low top v ltac:(lra) E). exact (proj1 Q).
Qed.
