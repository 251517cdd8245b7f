(** Ranges of the solar model. *)
From Coq Require Import ZArith Reals Lra Lia Psatz Bool.
From Verif Require Import Model.Num Model.Solar Proofs.NumR.
Open Scope R_scope.

Lemma PI_bounds : 3 < PI <= 4.
Proof. pose proof PI_4. pose proof PI2_3_2. unfold PI2 in *. lra. Qed.

Lemma degrees_PI : degrees PI = 180.
Proof. unfold degrees. pose proof PI_bounds. field. lra. Qed.
Lemma degrees_le a b : a <= b -> degrees a <= degrees b.
Proof.
  intro H. unfold degrees. pose proof PI_bounds.
  apply Rmult_le_compat_r; [left; apply Rinv_0_lt_compat; lra|]. lra.
Qed.
Lemma degrees_0 : degrees 0 = 0.
Proof. unfold degrees. lra. Qed.
Lemma radians_le a b : a <= b -> radians a <= radians b.
Proof. intro H. unfold radians. pose proof PI_bounds. nra. Qed.
Lemma radians_opp a : radians (- a) = - radians a.
Proof. unfold radians. lra. Qed.
Lemma degrees_radians a : degrees (radians a) = a.
Proof. unfold degrees, radians. pose proof PI_bounds. field. lra. Qed.
Lemma radians_degrees a : radians (degrees a) = a.
Proof. unfold degrees, radians. pose proof PI_bounds. field. lra. Qed.

(** ** Small angles *)
Lemma sin_half x : 0 <= x <= PI -> sin x <= 2 * sin (x / 2).
Proof.
  intros H. replace (sin x) with (sin (2 * (x / 2))) by (f_equal; lra).
  rewrite sin_2a. assert (0 <= sin (x / 2)) by (apply sin_ge_0; lra).
  pose proof (COS_bound (x / 2)). nra.
Qed.
Lemma sin_3a y : sin (3 * y) = 3 * sin y - 4 * sin y ^ 3.
Proof.
  replace (3 * y) with (2 * y + y) by ring. rewrite sin_plus, sin_2a, cos_2a.
  pose proof (sin2_cos2 y) as E. unfold Rsqr in E.
  replace (cos y * cos y) with (1 - sin y * sin y) by lra.
  replace (2 * sin y * cos y * cos y) with (2 * sin y * (1 - sin y * sin y))
    by (rewrite <- E; ring). ring.
Qed.
Lemma sin_5deg : 1 / 12 <= sin (radians 5).
Proof.
  assert (A : 1 / 2 <= 3 * sin (PI / 18)).
  { rewrite <- sin_PI6. replace (PI / 6) with (3 * (PI / 18)) by lra. rewrite sin_3a.
    pose proof PI_bounds.
    assert (0 <= sin (PI / 18)) by (apply sin_ge_0; lra).
    assert (0 <= sin (PI / 18) ^ 3) by (apply pow_le; assumption). lra. }
  pose proof (sin_half (PI / 18)) as B. pose proof PI_bounds.
  replace (PI / 18 / 2) with (radians 5) in B by (unfold radians; lra). lra.
Qed.
Lemma sin_small : 1 / 192 <= sin (radians 0.3125).
Proof.
  pose proof sin_5deg as A. pose proof PI_bounds.
  pose proof (sin_half (radians 5)) as B1. pose proof (sin_half (radians 2.5)) as B2.
  pose proof (sin_half (radians 1.25)) as B3. pose proof (sin_half (radians 0.625)) as B4.
  unfold radians in *.
  replace (5 * PI / 180 / 2) with (2.5 * PI / 180) in B1 by lra.
  replace (2.5 * PI / 180 / 2) with (1.25 * PI / 180) in B2 by lra.
  replace (1.25 * PI / 180 / 2) with (0.625 * PI / 180) in B3 by lra.
  replace (0.625 * PI / 180 / 2) with (0.3125 * PI / 180) in B4 by lra. lra.
Qed.

(** 1/tan of an angle between [a] and 90 degrees. *)
Lemma tan_lower a b m : 0 < a -> a <= b -> b < 90 -> 0 < m -> m <= sin (radians a) ->
  m <= tan (radians b).
Proof.
  intros Ha Hab Hb Hm H. pose proof PI_bounds.
  assert (Hc : 0 < cos (radians b)).
  { apply cos_gt_0; unfold radians; nra. }
  assert (Hs : sin (radians a) <= sin (radians b)).
  { destruct Hab as [Hab| ->]; [|lra]. left. apply sin_increasing_1; unfold radians; nra. }
  unfold tan. pose proof (COS_bound (radians b)).
  apply (Rmult_le_reg_r (cos (radians b))); [assumption|].
  unfold Rdiv. rewrite Rmult_assoc, Rinv_l by lra. nra.
Qed.

(** ** Refraction *)
Lemma refraction_low el : -90 <= el <= -0.575 -> 0 <= -20.772 / tan (radians el) <= 4000.
Proof.
  intro H. destruct (Req_dec el (-90)) as [->|Hne].
  - replace (radians (-90)) with (- (PI / 2)) by (unfold radians; lra).
    unfold tan. rewrite cos_neg, cos_PI2.
    unfold Rdiv. rewrite Rinv_0, Rmult_0_r, Rinv_0. lra.
  - assert (Hel : 0.575 <= - el < 90) by lra. pose proof (tan_lower 0.3125 (- el) (1 / 192) ltac:(lra) ltac:(lra) ltac:(lra)
      ltac:(lra) sin_small) as Ht.
    rewrite radians_opp in Ht. rewrite tan_neg in Ht.
    set (t := tan (radians el)) in *. clearbody t.
    assert (Hnt : t <> 0) by lra. replace (-20.772 / t) with (20.772 * / (- t)) by (unfold Rdiv; rewrite Rinv_opp; lra).
    assert (0 < / (- t) <= 192).
    { split; [apply Rinv_0_lt_compat; lra|].
      replace 192 with (/ (1 / 192)) by lra. apply Rinv_le_contravar; lra. }
    lra.
Qed.

Lemma refraction_bounds el : -90 <= el <= 90 ->
  -90 <= el + atmospheric_refraction el / 3600 <= 90.
Proof.
  intro H. unfold atmospheric_refraction.
  destruct (Rltb_spec 85 el); [lra|].
  destruct (Rltb_spec 5 el) as [H5|H5].
  - pose proof (tan_lower 5 el (1 / 12) ltac:(lra) ltac:(lra) ltac:(lra) ltac:(lra) sin_5deg) as Ht.
    set (t := tan (radians el)) in *. clearbody t. cbv zeta.
    assert (Hu : 0 < / t <= 12).
    { split; [apply Rinv_0_lt_compat; lra|].
      replace 12 with (/ (1 / 12)) by lra. apply Rinv_le_contravar; lra. }
    replace (58.1 / t) with (58.1 * / t) by reflexivity.
    replace (0.07 / t ^ 3) with (0.07 * (/ t) ^ 3) by (rewrite pow_inv; reflexivity).
    replace (0.000086 / t ^ 5) with (0.000086 * (/ t) ^ 5) by (rewrite pow_inv; reflexivity).
    set (u := / t) in *. clearbody u.
    assert (0 <= u ^ 3 <= 12 ^ 3) by (split; [apply pow_le; lra|apply pow_incr; lra]).
    assert (0 <= u ^ 5 <= 12 ^ 5) by (split; [apply pow_le; lra|apply pow_incr; lra]).
    lra.
  - destruct (Rltb_spec (-0.575) el) as [Hm|Hm].
    + assert (A1 : -14 <= -12.79 + el * 0.711 <= -9) by lra.
      assert (A2 : 30 <= 103.4 + el * (-12.79 + el * 0.711) <= 120) by nra.
      set (p2 := 103.4 + el * (-12.79 + el * 0.711)) in *. clearbody p2.
      assert (A3 : -600 <= -518.2 + el * p2 <= 100) by nra.
      set (p3 := -518.2 + el * p2) in *. clearbody p3.
      assert (-3000 <= el * p3 <= 600) by nra. lra.
    + pose proof (refraction_low el ltac:(lra)) as Hr.
      lra.
Qed.



Lemma solar_calculator_ranges lat lng t :
  let '(el, az, flux) := solar_calculator lat lng t in
  -90 <= el <= 90 /\ 0 <= az <= 360.
Proof.
  unfold solar_calculator. split.
  - apply refraction_bounds. unfold zenith_angle.
    set (q := _ + _). pose proof (acos_bound q) as [A B].
    apply degrees_le in A. apply degrees_le in B. rewrite degrees_0 in A. rewrite degrees_PI in B.
    lra.
  - set (q := Rmin _ 1). pose proof (acos_bound q) as [A B].
    apply degrees_le in A. apply degrees_le in B. rewrite degrees_0 in A. rewrite degrees_PI in B.
    destruct (Rltb 0 _); lra.
Qed.

(** Flux within a century of J2000. *)
Lemma flux_range lat lng t : -1 <= julian_century t <= 1 ->
  let '(el, az, flux) := solar_calculator lat lng t in 1300 <= flux <= 1432.
Proof.
  intro Hj. unfold solar_calculator.
  set (jc := julian_century t) in *. clearbody jc.
  set (c := cos (geometric_mean_anomaly_sun jc)). assert (Hc : -1 <= c <= 1) by apply COS_bound.
  clearbody c.
  assert (He : 0.0166 <= eccentricity_earth jc <= 0.0168) by (unfold eccentricity_earth; nra).
  set (e := eccentricity_earth jc) in *. clearbody e.
  assert (Hr : 1 <= (1 + e) / (1 - e) <= 1.035).
  { split.
    - apply (Rmult_le_reg_r (1 - e)); [lra|]. unfold Rdiv. rewrite Rmult_assoc, Rinv_l by lra. lra.
    - apply (Rmult_le_reg_r (1 - e)); [lra|]. unfold Rdiv. rewrite Rmult_assoc, Rinv_l by lra. lra. }
  set (r := (1 + e) / (1 - e)) in *. clearbody r.
  assert (0 <= r ^ 2 - 1 <= 0.0713) by nra.
  set (s := r ^ 2 - 1) in *. clearbody s. nra.
Qed.

(** ** Attenuation *)
Definition airmass_factor (t : R) : R := sqrt (1229 + t * t) - t.
Lemma airmass_factor_pos t : 0 < airmass_factor t.
Proof.
  unfold airmass_factor. destruct (Rle_dec t 0).
  - assert (0 < sqrt (1229 + t * t)) by (apply sqrt_lt_R0; nra). lra.
  - assert (t < sqrt (1229 + t * t)); [|lra].
    rewrite <- (sqrt_square t) at 1 by lra. apply sqrt_lt_1; nra.
Qed.
Lemma airmass_factor_anti t t' : t <= t' -> airmass_factor t' <= airmass_factor t.
Proof.
  intro H. unfold airmass_factor.
  (* sqrt(1229+t^2) - t = 1229 / (sqrt(1229+t^2) + t) *)
  set (a := sqrt (1229 + t * t)). set (b := sqrt (1229 + t' * t')).
  assert (Ha : a * a = 1229 + t * t) by (apply sqrt_sqrt; nra).
  assert (Hb : b * b = 1229 + t' * t') by (apply sqrt_sqrt; nra).
  assert (Ha0 : 0 < a) by (apply sqrt_lt_R0; nra).
  assert (Hb0 : 0 < b) by (apply sqrt_lt_R0; nra).
  clearbody a b.
  assert (Hat : - a < t < a) by (split; nra). assert (Hbt : - b < t' < b) by (split; nra).
  (* b - a <= t' - t : (b-a)(b+a) = (t'-t)(t'+t) and |t+t'| < a+b *)
  assert ((b - a) * (b + a) = (t' - t) * (t' + t)) by nra.
  assert ((t' - t) * (t' + t) <= (t' - t) * (b + a)) by nra.
  assert (b - a <= t' - t) by nra. lra.
Qed.

Lemma sin_deg_mono a b : -90 <= a -> a <= b -> b <= 90 -> sin (radians a) <= sin (radians b).
Proof.
  intros Ha [H| ->] Hb; [|lra]. left. pose proof PI_bounds.
  apply sin_increasing_1; unfold radians; nra.
Qed.

Definition airmass (el p : R) : R :=
  0.34764 * (p / 101325) * airmass_factor (614 * sin (radians el)).

Lemma attenuation_value el p : -90 <= el <= 90 -> 0 <= p <= 101325 ->
  solar_atmospheric_attenuation el p =
  Some (if Rltb el (-4.242) then 0
        else 0.5 * (exp (-0.65 * airmass el p) + exp (-0.95 * airmass el p))).
Proof.
  intros He Hp. unfold solar_atmospheric_attenuation, MIN_SOLAR_EL_DEG.
  rewrite (Rltb_false 90 el), (Rltb_false el (-90)), (Rltb_false 101325 p), (Rltb_false p 0) by lra.
  cbn [orb]. destruct (Rltb el (-4.242)); reflexivity.
Qed.

Lemma attenuation_rejects el p :
  solar_atmospheric_attenuation el p = None <-> ~ (-90 <= el <= 90 /\ 0 <= p <= 101325).
Proof.
  unfold solar_atmospheric_attenuation.
  destruct (Rltb_spec 90 el); [split; [lra|reflexivity]|].
  destruct (Rltb_spec el (-90)); [split; [lra|reflexivity]|]. cbn [orb].
  destruct (Rltb_spec 101325 p); [split; [lra|reflexivity]|].
  destruct (Rltb_spec p 0); [split; [lra|reflexivity]|]. cbn [orb].
  destruct (Rltb el MIN_SOLAR_EL_DEG); split; try discriminate; lra.
Qed.

Lemma airmass_nonneg el p : 0 <= p -> 0 <= airmass el p.
Proof.
  intro Hp. unfold airmass. pose proof (airmass_factor_pos (614 * sin (radians el))).
  assert (0 <= p / 101325) by lra. apply Rmult_le_pos; lra.
Qed.
Lemma exp_le a b : a <= b -> exp a <= exp b.
Proof. intros [H| ->]; [left; now apply exp_increasing|lra]. Qed.
Lemma exp_neg_unit a : 0 <= a -> 0 < exp (- a) <= 1.
Proof. intro H. split; [apply exp_pos|]. rewrite <- exp_0. apply exp_le. lra. Qed.

Lemma attenuation_range el p : -90 <= el <= 90 -> 0 <= p <= 101325 ->
  exists a, solar_atmospheric_attenuation el p = Some a /\ 0 <= a <= 1 /\
    (a = 0 <-> el < -4.242).
Proof.
  intros He Hp. rewrite attenuation_value by assumption. eexists; split; [reflexivity|].
  destruct (Rltb_spec el (-4.242)); [lra|].
  pose proof (airmass_nonneg el p ltac:(lra)).
  pose proof (exp_neg_unit (0.65 * airmass el p) ltac:(nra)) as X.
  pose proof (exp_neg_unit (0.95 * airmass el p) ltac:(nra)) as Y.
  replace (-0.65 * airmass el p) with (- (0.65 * airmass el p)) by lra.
  replace (-0.95 * airmass el p) with (- (0.95 * airmass el p)) by lra.
  lra.
Qed.

Lemma attenuation_monotone el el' p p' a a' :
  -90 <= el <= el' -> el' <= 90 -> 0 <= p' <= p -> p <= 101325 ->
  solar_atmospheric_attenuation el p = Some a ->
  solar_atmospheric_attenuation el' p' = Some a' -> a <= a'.
Proof.
  intros He He' Hp Hp' E E'. rewrite attenuation_value in E, E' by lra.
  injection E as <-. injection E' as <-.
  destruct (Rltb_spec el (-4.242)).
  - destruct (Rltb_spec el' (-4.242)); [lra|].
    pose proof (exp_pos (-0.65 * airmass el' p')). pose proof (exp_pos (-0.95 * airmass el' p')). lra.
  - rewrite Rltb_false by lra.
    assert (M : airmass el' p' <= airmass el p).
    { unfold airmass. pose proof (airmass_factor_pos (614 * sin (radians el'))) as F1.
      pose proof (sin_deg_mono el el' ltac:(lra) ltac:(lra) ltac:(lra)).
      pose proof (airmass_factor_anti (614 * sin (radians el)) (614 * sin (radians el')) ltac:(lra)) as F2.
      set (f := airmass_factor (614 * sin (radians el))) in *.
      set (f' := airmass_factor (614 * sin (radians el'))) in *. clearbody f f'.
      assert (0 <= p' / 101325 <= p / 101325) by lra.
      apply Rmult_le_compat; lra. }
    assert (exp (-0.65 * airmass el p) <= exp (-0.65 * airmass el' p')) by (apply exp_le; lra).
    assert (exp (-0.95 * airmass el p) <= exp (-0.95 * airmass el' p')) by (apply exp_le; lra).
    lra.
Qed.

(** ** Shadow and power *)
Lemma shadow_iff el h : -90 < el < 90 ->
  (sqrt (h * (10.41603 + h)) / 8.69275 <= tan (radians el) -> balloon_shadow el h = 0.4392) /\
  (tan (radians el) < sqrt (h * (10.41603 + h)) / 8.69275 -> balloon_shadow el h = 1).
Proof.
  intro He. unfold balloon_shadow. set (q := sqrt (h * (10.41603 + h)) / 8.69275). pose proof PI_bounds.
  assert (Hr : - (PI / 2) < radians el < PI / 2) by (unfold radians; nra).
  assert (Ea : atan (tan (radians el)) = radians el).
  { apply atan_tan. lra. }
  split; intro Hq.
  - rewrite Rleb_true; [reflexivity|].
    assert (Hl : atan q <= atan (tan (radians el)))
      by (destruct Hq as [Hq| ->]; [left; apply atan_increasing; exact Hq|lra]).
    rewrite Ea in Hl. apply degrees_le in Hl. rewrite degrees_radians in Hl. exact Hl.
  - rewrite Rleb_false; [reflexivity|]. intro L.
    apply radians_le in L. rewrite radians_degrees in L.
    apply atan_increasing in Hq. rewrite Ea in Hq. lra.
Qed.
Lemma shadow_values el h : balloon_shadow el h = 0.4392 \/ balloon_shadow el h = 1.
Proof. unfold balloon_shadow. destruct (Rleb _ el); auto. Qed.
Lemma shadow_monotone el el' h : el <= el' -> balloon_shadow el' h <= balloon_shadow el h.
Proof.
  intro H. unfold balloon_shadow.
  destruct (Rleb_spec (degrees (atan (sqrt (h * (10.41603 + h)) / 8.69275))) el),
           (Rleb_spec (degrees (atan (sqrt (h * (10.41603 + h)) / 8.69275))) el'); lra.
Qed.

Lemma cos_deg_pos a : -90 < a < 90 -> 0 < cos (radians a).
Proof. intro H. pose proof PI_bounds. apply cos_gt_0; unfold radians; nra. Qed.

Lemma solar_power_range el p : -90 <= el <= 90 -> 0 <= p <= 101325 ->
  exists w, solar_power el p = Some w /\ 0 <= w <= 210 * 6 /\ (w = 0 <-> el < -4.242).
Proof.
  intros He Hp. destruct (attenuation_range el p He Hp) as (a & Ea & Ra & Za).
  unfold solar_power. rewrite Ea. eexists; split; [reflexivity|].
  destruct (Rlt_dec el (-4.242)) as [L|L].
  { assert (a = 0) by (apply Za; exact L). subst a. split; [lra|]. split; [intros _; exact L|]. intros; lra. }
  assert (a <> 0) by (intro Q; apply Za in Q; contradiction).
  pose proof (cos_deg_pos (el - 35) ltac:(lra)). pose proof (cos_deg_pos (el - 65) ltac:(lra)).
  pose proof (COS_bound (radians (el - 35))). pose proof (COS_bound (radians (el - 65))).
  set (c1 := cos _) in *. set (c2 := cos (radians (el - 65))) in *. clearbody c1 c2.
  assert (B : forall h, 0.4392 <= balloon_shadow el h <= 1)
    by (intro h; destruct (shadow_values el h) as [-> | ->]; lra).
  pose proof (B 3.3) as B1. pose proof (B 2.7) as B2.
  set (s1 := balloon_shadow el 3.3) in *. set (s2 := balloon_shadow el 2.7) in *. clearbody s1 s2.
  assert (0 < 4 * c1 * s1 <= 4) by nra. assert (0 < 2 * c2 * s2 <= 2) by nra.
  set (q := 4 * c1 * s1 + 2 * c2 * s2). assert (0 < q <= 6) by (unfold q; lra). clearbody q.
  split; [nra|]. split; [intro; exfalso; nra|intro; lra].
Qed.

Lemma solar_power_value el p a : solar_atmospheric_attenuation el p = Some a ->
  solar_power el p = Some (210 * a *
    (4 * cos (radians (el - 35)) * balloon_shadow el 3.3
     + 2 * cos (radians (el - 65)) * balloon_shadow el 2.7)).
Proof. intro E. unfold solar_power. now rewrite E. Qed.
