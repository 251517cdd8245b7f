(** The sun of solar.py over a day: how far it is from turning at a constant rate at
    a constant declination, and that the search for sunrise and sunset answers. *)
From Coq Require Import ZArith Reals Lra Lia Psatz Bool Machin.
From Verif Require Import Model.Num Model.Solar Model.SolarSearch Proofs.NumR Proofs.SolarProofs
  Proofs.CalendarProofs Proofs.SolarSearchProofs Spec.SunSpec.
Open Scope R_scope.

(** ** Bounds *)
Lemma PI_precise : 3.141 < PI < 3.142.
Proof.
  pose proof (PI_2_3_7_ineq 2) as [A B].
  cbv -[Rplus Rmult Rinv Rdiv Ropp IZR Rle Rlt PI] in A, B. lra.
Qed.

Lemma sin_lip a b : Rabs (sin a - sin b) <= Rabs (a - b).
Proof.
  assert (H : forall x, Rabs (sin x) <= Rabs x).
  { assert (P : forall x, 0 <= x -> Rabs (sin x) <= x).
    { intros x Hx. apply Rabs_le. pose proof (SIN_bound x).
      destruct (Rle_dec 1 x); [lra|]. pose proof PI_precise.
      assert (0 <= sin x) by (apply sin_ge_0; lra).
      destruct (Req_dec x 0) as [->|]; [rewrite sin_0; lra|].
      pose proof (sin_lt_x x). lra. }
    intro x. destruct (Rle_dec 0 x) as [Hx|Hx].
    - rewrite (Rabs_right x) by lra. now apply P.
    - rewrite <- (Rabs_Ropp (sin x)), <- sin_neg, (Rabs_left x) by lra. apply P. lra. }
  rewrite form4. rewrite !Rabs_mult. rewrite (Rabs_right 2) by lra.
  pose proof (H ((a - b) / 2)) as H2.
  assert (Rabs (cos ((a + b) / 2)) <= 1) by (apply Rabs_le; apply COS_bound).
  pose proof (Rabs_pos (sin ((a - b) / 2))). pose proof (Rabs_pos (cos ((a + b) / 2))).
  replace (Rabs (a - b)) with (2 * Rabs ((a - b) / 2)).
  2:{ unfold Rdiv at 1. rewrite Rabs_mult, (Rabs_right (/ 2)) by lra. lra. }
  nra.
Qed.
Lemma cos_lip a b : Rabs (cos a - cos b) <= Rabs (a - b).
Proof.
  rewrite <- !sin_shift. eapply Rle_trans; [apply sin_lip|].
  replace (PI / 2 - a - (PI / 2 - b)) with (- (a - b)) by ring. rewrite Rabs_Ropp. lra.
Qed.

(** ** Bounded Lipschitz functions on an interval *)
Definition BL (lo hi : R) (f : R -> R) (M K : R) : Prop :=
  (forall a, lo <= a <= hi -> Rabs (f a) <= M) /\
  (forall a b, lo <= a <= hi -> lo <= b <= hi -> Rabs (f a - f b) <= K * Rabs (a - b)).

Section BLs.
Context (lo hi : R).
Notation L := (BL lo hi).
Lemma BL_ext f g M K : (forall a, f a = g a) -> L f M K -> L g M K.
Proof. intros E [A B]. split; intros; rewrite <- !E; auto. Qed.
Lemma BL_weaken f M K M' K' : L f M K -> M <= M' -> K <= K' -> L f M' K'.
Proof.
  intros [A B] HM HK. split; intros.
  - specialize (A a H). lra.
  - specialize (B a b H H0). pose proof (Rabs_pos (a - b)). nra.
Qed.
Lemma BL_const c : L (fun _ => c) (Rabs c) 0.
Proof. split; intros; [lra|]. rewrite Rminus_diag_eq, Rabs_R0 by reflexivity. lra. Qed.
Lemma BL_id : L (fun x => x) (Rmax (Rabs lo) (Rabs hi)) 1.
Proof.
  split; intros; [|lra].
  unfold Rmax. destruct (Rle_dec (Rabs lo) (Rabs hi)); unfold Rabs in *;
    repeat destruct (Rcase_abs _); lra.
Qed.
Lemma BL_plus f g M K M' K' : L f M K -> L g M' K' -> L (fun x => f x + g x) (M + M') (K + K').
Proof.
  intros [A B] [A' B']. split; intros.
  - specialize (A a H). specialize (A' a H). eapply Rle_trans; [apply Rabs_triang|]. lra.
  - specialize (B a b H H0). specialize (B' a b H H0).
    replace (f a + g a - (f b + g b)) with ((f a - f b) + (g a - g b)) by ring.
    eapply Rle_trans; [apply Rabs_triang|]. lra.
Qed.
Lemma BL_opp f M K : L f M K -> L (fun x => - f x) M K.
Proof.
  intros [A B]. split; intros; [rewrite Rabs_Ropp; auto|].
  replace (- f a - - f b) with (- (f a - f b)) by ring. rewrite Rabs_Ropp. auto.
Qed.
Lemma BL_minus f g M K M' K' : L f M K -> L g M' K' -> L (fun x => f x - g x) (M + M') (K + K').
Proof. intros A B. exact (BL_plus _ _ _ _ _ _ A (BL_opp _ _ _ B)). Qed.
Lemma BL_mult f g M K M' K' : L f M K -> L g M' K' ->
  L (fun x => f x * g x) (M * M') (K * M' + M * K').
Proof.
  intros [A B] [A' B']. split; intros.
  - specialize (A a H). specialize (A' a H). rewrite Rabs_mult.
    apply Rmult_le_compat; auto using Rabs_pos.
  - pose proof (B a b H H0). pose proof (B' a b H H0). pose proof (A b H0). pose proof (A' a H).
    replace (f a * g a - f b * g b) with ((f a - f b) * g a + f b * (g a - g b)) by ring.
    eapply Rle_trans; [apply Rabs_triang|]. rewrite !Rabs_mult.
    pose proof (Rabs_pos (f a - f b)). pose proof (Rabs_pos (g a - g b)).
    pose proof (Rabs_pos (f b)). pose proof (Rabs_pos (g a)). pose proof (Rabs_pos (a - b)).
    assert (Rabs (f a - f b) * Rabs (g a) <= K * Rabs (a - b) * M') by (apply Rmult_le_compat; lra).
    assert (Rabs (f b) * Rabs (g a - g b) <= M * (K' * Rabs (a - b))) by (apply Rmult_le_compat; lra).
    lra.
Qed.
Lemma BL_scale c f M K : L f M K -> L (fun x => c * f x) (Rabs c * M) (Rabs c * K).
Proof.
  intro A. pose proof (BL_mult _ _ _ _ _ _ (BL_const c) A) as H.
  eapply BL_weaken; [exact H| |]; lra.
Qed.
Lemma BL_sin f M K : L f M K -> L (fun x => sin (f x)) 1 K.
Proof.
  intros [A B]. split; intros; [apply Rabs_le, SIN_bound|].
  eapply Rle_trans; [apply sin_lip|]. auto.
Qed.
Lemma BL_cos f M K : L f M K -> L (fun x => cos (f x)) 1 K.
Proof.
  intros [A B]. split; intros; [apply Rabs_le, COS_bound|].
  eapply Rle_trans; [apply cos_lip|]. auto.
Qed.
End BLs.

(** ** The motion of the sun along the ecliptic, per julian century *)
Notation LC := (BL (-1.1) 1.1).
Lemma BL_radians f M K : LC f M K -> LC (fun x => radians (f x)) (0.01746 * M) (0.01746 * K).
Proof.
  intros [A B]. pose proof PI_precise.
  assert (E : forall a, radians a = PI / 180 * a) by (intro; unfold radians; lra).
  assert (HM : 0 <= M).
  { specialize (A 0 ltac:(lra)). pose proof (Rabs_pos (f 0)). lra. }
  assert (HK : 0 <= K).
  { specialize (B 1 0 ltac:(lra) ltac:(lra)). rewrite (Rabs_right (1 - 0)) in B by lra.
    pose proof (Rabs_pos (f 1 - f 0)). lra. }
  split; intros.
  - rewrite E, Rabs_mult, (Rabs_right (PI / 180)) by lra. specialize (A a H0).
    pose proof (Rabs_pos (f a)). nra.
  - rewrite !E, <- Rmult_minus_distr_l, Rabs_mult, (Rabs_right (PI / 180)) by lra.
    specialize (B a b H0 H1). pose proof (Rabs_pos (f a - f b)).
    apply Rle_trans with (0.01746 * (Rabs (f a - f b))); [nra|lra].
Qed.
Lemma BL_constant c M : Rabs c <= M -> LC (fun _ => c) M 0.
Proof. intro H. eapply BL_weaken; [apply BL_const|lra|lra]. Qed.
Lemma BL_jc : LC (fun x => x) 1.1 1.
Proof.
  eapply BL_weaken; [apply BL_id| |lra].
  rewrite (Rabs_left (-1.1)), (Rabs_right 1.1) by lra. unfold Rmax. destruct (Rle_dec _ _); lra.
Qed.
Ltac babs := repeat (rewrite Rabs_right by lra || rewrite Rabs_left by lra); lra.
Ltac bl :=
  match goal with
  | |- LC (Rmult ?c) ?M ?K => change (LC (fun x => c * x) M K); bl
  | |- LC (Rminus ?c) ?M ?K => change (LC (fun x => c - x) M K); bl
  | H : LC _ _ _ |- LC _ _ _ => exact H
  | |- LC (fun x => _ + _) _ _ => eapply BL_plus; bl
  | |- LC (fun x => _ - _) _ _ => eapply BL_minus; bl
  | |- LC (fun x => _ * _) _ _ => eapply BL_mult; bl
  | |- LC (fun x => sin _) _ _ => eapply BL_sin; bl
  | |- LC (fun x => cos _) _ _ => eapply BL_cos; bl
  | |- LC (fun x => radians _) _ _ => eapply BL_radians; bl
  | |- LC (fun x => x) _ _ => apply BL_jc
  | |- LC (fun x => ?c) _ _ => apply BL_const
  end.
Ltac blw := eapply BL_weaken; [bl|..]; babs.

Lemma BL_long : LC geometric_mean_long_sun 20000 628.6.
Proof.
  eapply (BL_ext _ _ (fun jc => radians (280.46646 + jc * (36000.76983 + jc * 0.0003032))));
    [reflexivity|].
  blw.
Qed.
Lemma BL_anomaly : LC geometric_mean_anomaly_sun 20000 628.6.
Proof.
  eapply (BL_ext _ _ (fun jc => radians (357.52911 + jc * (35999.05029 - 0.0001537 * jc))));
    [reflexivity|].
  blw.
Qed.
Lemma Rabs_le_inv a b : Rabs a <= b -> - b <= a <= b.
Proof. unfold Rabs. destruct (Rcase_abs a); lra. Qed.
Lemma BL_node : LC (fun jc => radians (125.04 - 1934.136 * jc)) 100 34.
Proof. blw. Qed.
Lemma BL_obliquity : LC obliquity_correction 0.41 0.002.
Proof.
  pose proof (BL_cos _ _ _ _ _ BL_node) as Hn. cbv beta in Hn.
  eapply (BL_ext _ _ (fun jc =>
    radians (23 + (26 + (21.448 - jc * (46.815 + jc * (0.00059 - jc * 0.001813))) * / 60) * / 60)
    + radians (0.00256 * cos (radians (125.04 - 1934.136 * jc))))); [reflexivity|].
  blw.
Qed.
Lemma sin_small_le x : Rabs (sin x) <= Rabs x.
Proof. pose proof (sin_lip x 0) as H. rewrite sin_0, !Rminus_0_r in H. exact H. Qed.
Lemma cos_lower x : 1 - x * x / 2 <= cos x.
Proof.
  replace x with (2 * (x / 2)) at 3 by lra. rewrite cos_2a_sin.
  pose proof (sin_small_le (x / 2)) as H. apply Rsqr_le_abs_1 in H. unfold Rsqr in H. lra.
Qed.
Lemma BL_sin_obliquity : LC (fun jc => sin (obliquity_correction jc)) 0.41 0.002.
Proof.
  destruct BL_obliquity as [A B]. split; intros.
  - eapply Rle_trans; [apply sin_small_le|]. auto.
  - eapply Rle_trans; [apply sin_lip|]. auto.
Qed.
Lemma cos_obliquity jc : -1.1 <= jc <= 1.1 -> 0.915 <= cos (obliquity_correction jc) <= 1.
Proof.
  intro H. split; [|apply COS_bound]. destruct BL_obliquity as [A _]. specialize (A jc H).
  pose proof (cos_lower (obliquity_correction jc)). apply Rabs_le_inv in A. nra.
Qed.
(** The half-angle factor of the equation of time. *)
Lemma tan_half_square x : 0 < cos x -> tan (x / 2) ^ 2 = (1 - cos x) / (1 + cos x).
Proof.
  intro H. set (h := x / 2). assert (E : x = 2 * h) by (unfold h; lra). rewrite E in *. clear E.
  assert (C : cos h <> 0).
  { intro C. rewrite cos_2a_cos, C in H. lra. }
  rewrite cos_2a_cos in *. unfold tan. pose proof (sin2_cos2 h) as P. unfold Rsqr in P.
  replace ((sin h / cos h) ^ 2) with (sin h * sin h / (cos h * cos h)) by (field; exact C).
  replace (sin h * sin h) with (1 - cos h * cos h) by lra. field. split; nra.
Qed.
Lemma BL_vy : LC (fun jc => tan (obliquity_correction jc / 2) ^ 2) 0.045 0.002.
Proof.
  destruct BL_obliquity as [_ B].
  split; intros.
  - pose proof (cos_obliquity a H). rewrite tan_half_square by lra.
    set (c := cos _) in *. clearbody c.
    assert (0 <= (1 - c) / (1 + c) <= 0.045).
    { split; [apply Rmult_le_pos; [lra|left; apply Rinv_0_lt_compat; lra]|].
      apply (Rmult_le_reg_r (1 + c)); [lra|]. unfold Rdiv. rewrite Rmult_assoc, Rinv_l by lra. lra. }
    rewrite Rabs_right by lra. lra.
  - pose proof (cos_obliquity a H). pose proof (cos_obliquity b H0).
    rewrite !tan_half_square by lra. specialize (B a b H H0).
    pose proof (cos_lip (obliquity_correction a) (obliquity_correction b)) as L.
    set (c := cos (obliquity_correction a)) in *. set (c' := cos (obliquity_correction b)) in *.
    clearbody c c'.
    replace ((1 - c) / (1 + c) - (1 - c') / (1 + c')) with
      ((c - c') * (-2 / ((1 + c) * (1 + c')))) by (field; lra).
    rewrite Rabs_mult.
    assert (Rabs (-2 / ((1 + c) * (1 + c'))) <= 1).
    { unfold Rdiv. rewrite Rabs_mult, (Rabs_left (-2)) by lra.
      assert (3 <= (1 + c) * (1 + c')) by nra.
      rewrite Rabs_right by (left; apply Rinv_0_lt_compat; lra).
      apply (Rmult_le_reg_r ((1 + c) * (1 + c'))); [lra|]. rewrite Rmult_assoc, Rinv_l by lra. lra. }
    pose proof (Rabs_pos (c - c')). nra.
Qed.
Lemma BL_ecc : LC eccentricity_earth 0.0168 0.000043.
Proof.
  eapply (BL_ext _ _ (fun jc => 0.016708634 - jc * (0.000042037 + 0.0000001267 * jc)));
    [reflexivity|]. blw.
Qed.
(** A quarter of the equation of time. *)
Definition eot4 (jc : R) : R := equation_of_time jc / 4.
Lemma BL_eot : LC eot4 0.1 100.
Proof.
  pose proof BL_vy as V. pose proof BL_ecc as Ec.
  pose proof BL_long as Lo. pose proof BL_anomaly as An.
  eapply (BL_ext _ _ (fun jc =>
   let l0 := geometric_mean_long_sun jc in
   let m0 := geometric_mean_anomaly_sun jc in
   let vy := tan (obliquity_correction jc / 2) ^ 2 in
   let e := eccentricity_earth jc in
   (vy * sin (2 * l0) - 2 * e * sin m0
       + 4 * e * vy * sin m0 * cos (2 * l0)
       - 0.5 * vy * vy * sin (4 * l0)
       - 1.25 * e * e * sin (2 * m0)))).
  { intro jc. unfold eot4, equation_of_time. cbv zeta. lra. }
  cbv zeta. 
  blw.
Qed.
(** The apparent longitude of the sun, and its declination. *)
Definition apparent_longitude (jc : R) : R :=
  let l0 := geometric_mean_long_sun jc in
  let m0 := geometric_mean_anomaly_sun jc in
  l0 + radians (sin m0 * (1.914602 - jc * (0.004817 + 0.000014 * jc))
             + sin (2 * m0) * (0.019993 - 0.000101 * jc)
             + sin (3 * m0) * 0.000289)
  - radians (0.00569 - 0.00478 * sin (radians (125.04 - 1934.136 * jc))).
Lemma BL_apparent : LC apparent_longitude 20001 652.
Proof.
  pose proof BL_long as Lo. pose proof BL_anomaly as An. pose proof BL_node as Nd.
  eapply BL_ext; [intro jc; unfold apparent_longitude; cbv zeta; reflexivity|].
  eapply BL_weaken; [|apply Rle_refl|apply Rle_refl].
  blw.
Qed.
Definition sin_decl (jc : R) : R := sin (obliquity_correction jc) * sin (apparent_longitude jc).
Definition cos_decl (jc : R) : R := sqrt (1 - sin_decl jc * sin_decl jc).
Lemma BL_sin_decl : LC sin_decl 0.41 268.
Proof.
  pose proof BL_sin_obliquity as S. pose proof (BL_sin _ _ _ _ _ BL_apparent) as A.
  eapply BL_weaken; [exact (BL_mult _ _ _ _ _ _ _ _ S A)|lra|lra].
Qed.
Lemma sin_decl_ok jc : sin (declination_sun jc) = sin_decl jc /\ cos (declination_sun jc) = cos_decl jc.
Proof.
  unfold declination_sun. cbv zeta. fold (apparent_longitude jc).
  assert (B : -1 <= sin_decl jc <= 1).
  { unfold sin_decl. pose proof (SIN_bound (obliquity_correction jc)).
    pose proof (SIN_bound (apparent_longitude jc)). nra. }
  change (sin (asin (sin_decl jc)) = sin_decl jc /\ cos (asin (sin_decl jc)) = cos_decl jc).
  rewrite sin_asin, cos_asin by assumption. split; reflexivity.
Qed.
Lemma cos_decl_range jc : -1.1 <= jc <= 1.1 -> 0.912 <= cos_decl jc <= 1.
Proof.
  intro H. destruct BL_sin_decl as [A _]. specialize (A jc H). apply Rabs_le_inv in A.
  unfold cos_decl. set (s := sin_decl jc) in *. clearbody s. split.
  - rewrite <- (sqrt_Rsqr 0.912) by lra. apply sqrt_le_1_alt. unfold Rsqr. nra.
  - apply Rle_trans with (sqrt 1); [apply sqrt_le_1_alt; nra|rewrite sqrt_1; lra].
Qed.
Lemma BL_cos_decl : LC cos_decl 1 121.
Proof.
  split; intros a.
  - intro H. pose proof (cos_decl_range a H). rewrite Rabs_right by lra. lra.
  - intros b Ha Hb. pose proof (cos_decl_range a Ha) as Ca. pose proof (cos_decl_range b Hb) as Cb.
    destruct BL_sin_decl as [A L]. pose proof (A a Ha) as Sa. pose proof (A b Hb) as Sb.
    specialize (L a b Ha Hb). apply Rabs_le_inv in Sa, Sb.
    assert (Ea : cos_decl a * cos_decl a = 1 - sin_decl a * sin_decl a)
      by (unfold cos_decl; apply sqrt_sqrt; nra).
    assert (Eb : cos_decl b * cos_decl b = 1 - sin_decl b * sin_decl b)
      by (unfold cos_decl; apply sqrt_sqrt; nra).
    set (ca := cos_decl a) in *. set (cb := cos_decl b) in *.
    set (sa := sin_decl a) in *. set (sb := sin_decl b) in *. clearbody ca cb sa sb.
    assert (E : (ca - cb) * (ca + cb) = (sb - sa) * (sa + sb)) by lra.
    apply (f_equal Rabs) in E. rewrite !Rabs_mult in E. rewrite (Rabs_minus_sym sb) in E.
    assert (Rabs (ca + cb) >= 1.824) by (rewrite Rabs_right; lra).
    assert (Rabs (sa + sb) <= 0.82) by (apply Rabs_le; lra).
    pose proof (Rabs_pos (ca - cb)). pose proof (Rabs_pos (sa - sb)). pose proof (Rabs_pos (a - b)).
    pose proof (Rabs_pos (sa + sb)).
    set (x := Rabs (ca - cb)) in *. set (y := Rabs (sa - sb)) in *. set (u := Rabs (ca + cb)) in *.
    set (v := Rabs (sa + sb)) in *. set (w := Rabs (a - b)) in *. clearbody x y u v w.
    assert (x * 1.824 <= x * u) by (apply Rmult_le_compat_l; lra).
    assert (y * v <= y * 0.82) by (apply Rmult_le_compat_l; lra). lra.
Qed.

(** ** The hour angle *)
(** The angle from the lower meridian: the sun is highest at [PI]. *)
Definition turn (lng : R) (t : Z) : R :=
  2 * PI * (IZR (t / 1000000) / 86400) + eot4 (julian_century t) + lng.
Lemma Rtrunc_int a : exists k, Rtrunc a = IZR k.
Proof.
  unfold Rtrunc. destruct (Rleb 0 a); [eauto|].
  exists (- Int_part (- a))%Z. now rewrite opp_IZR.
Qed.
Lemma cos_period_Z x k : cos (x + 2 * IZR k * PI) = cos x.
Proof.
  destruct (Z.le_gt_cases 0 k) as [H|H].
  - replace (IZR k) with (INR (Z.to_nat k)) by (rewrite INR_IZR_INZ, Z2Nat.id; auto).
    apply cos_period.
  - set (y := x + 2 * IZR k * PI).
    replace x with (y + 2 * INR (Z.to_nat (- k)) * PI).
    + symmetry. apply cos_period.
    + rewrite INR_IZR_INZ, Z2Nat.id by lia. rewrite opp_IZR. unfold y. ring.
Qed.
Lemma cos_hour_angle lng t : (0 <= t)%Z ->
  cos (hour_angle (julian_century t) (fraction_of_day t) (degrees lng)) = - cos (turn lng t).
Proof.
  intro Ht. unfold hour_angle. cbv zeta. pose proof PI_precise.
  set (A := 1440 * fraction_of_day t + degrees (equation_of_time (julian_century t)) + 4 * degrees lng).
  unfold fmod. destruct (Rtrunc_int (A / 1440)) as [k Ek]. rewrite Ek.
  assert (Es : IZR (t / 1000000) / 86400 = fraction_of_day t + IZR (t / 1000000 / 86400)).
  { unfold fraction_of_day, second_of_day. rewrite Z.quot_div_nonneg by lia.
    rewrite (Z.div_mod (t / 1000000) 86400) at 1 by lia. rewrite plus_IZR, mult_IZR. lra. }
  assert (E : radians (A - IZR k * 1440) / 4 =
    turn lng t + 2 * IZR (- (t / 1000000 / 86400) - k) * PI).
  { unfold turn. rewrite Es. unfold A, eot4, radians, degrees. rewrite minus_IZR, opp_IZR. field. lra. }
  rewrite E. destruct (Rltb _ 0).
  - rewrite neg_cos. f_equal. apply cos_period_Z.
  - replace (turn lng t + 2 * IZR (- (t / 1000000 / 86400) - k) * PI - PI)
      with (- (PI - (turn lng t + 2 * IZR (- (t / 1000000 / 86400) - k) * PI))) by ring.
    rewrite cos_neg, Rtrigo_facts.cos_pi_minus. f_equal. apply cos_period_Z.
Qed.

(** ** Refraction: the apparent elevation increases with the true one *)
Lemma refraction_range el : -90 <= el <= 90 -> -200 <= atmospheric_refraction el <= 4000.
Proof.
  intro H. unfold atmospheric_refraction.
  destruct (Rltb_spec 85 el); [lra|].
  destruct (Rltb_spec 5 el) as [H5|H5].
  - pose proof (tan_lower 5 el (1 / 12) ltac:(lra) ltac:(lra) ltac:(lra) ltac:(lra) sin_5deg) as Ht.
    set (t := tan (radians el)) in *. clearbody t. cbv zeta.
    assert (Hu : 0 < / t <= 12).
    { split; [apply Rinv_0_lt_compat; lra|].
      replace 12 with (/ (1 / 12)) by lra. apply Rinv_le_contravar; lra. }
    replace (58.1 / t) with (58.1 * / t) by reflexivity.
    replace (0.07 / t ^ 3) with (0.07 * (/ t) ^ 3) by (rewrite pow_inv; reflexivity).
    replace (0.000086 / t ^ 5) with (0.000086 * (/ t) ^ 5) by (rewrite pow_inv; reflexivity).
    set (u := / t) in *. clearbody u.
    assert (0 <= u ^ 3 <= 12 ^ 3) by (split; [apply pow_le; lra|apply pow_incr; lra]).
    assert (0 <= u ^ 5 <= 12 ^ 5) by (split; [apply pow_le; lra|apply pow_incr; lra]).
    lra.
  - destruct (Rltb_spec (-0.575) el) as [Hm|Hm]; [|pose proof (refraction_low el ltac:(lra)); lra].
    assert (A1 : -14 <= -12.79 + el * 0.711 <= -9) by lra.
    assert (A2 : 55 <= 103.4 + el * (-12.79 + el * 0.711) <= 112) by nra.
    set (p2 := 103.4 + el * (-12.79 + el * 0.711)) in *. clearbody p2.
    assert (A3 : -583 <= -518.2 + el * p2 <= 42) by nra.
    destruct (Rle_dec 0 el) as [P|P].
    + assert (-518.2 * el + 55 * (el * el) <= el * (-518.2 + el * p2)) by nra.
      assert (-520 * el + 55 * (el * el) >= -1300) by nra.
      assert (el * (-518.2 + el * p2) <= 210) by nra. lra.
    + set (p3 := -518.2 + el * p2) in *. clearbody p3.
      assert (-50 <= el * p3 <= 400) by nra. lra.
Qed.

Lemma tan_deg_increasing a b : -90 < a -> a < b -> b < 90 -> tan (radians a) < tan (radians b).
Proof.
  intros. pose proof PI_precise. apply tan_increasing; unfold radians; nra.
Qed.
(** Slope of the tangent, at least that of the angle. *)
Lemma tan_x_lower x : 0 < x < PI / 2 -> x < tan x.
Proof.
  intros H. destruct (MVT_cor2 tan (fun y => 1 + tan y ^ 2) 0 x ltac:(lra)) as (c & E & Hc).
  - intros c Hc. pose proof PI_precise. assert (Pr : - PI / 2 < c < PI / 2) by lra.
    exact (derive_pt_eq_1 tan c _ _ (derive_pt_tan c Pr)).
  - rewrite tan_0, !Rminus_0_r in E.
    assert (0 < tan c) by (apply tan_gt_0; lra).
    assert (0 < tan c ^ 2 * x) by (apply Rmult_lt_0_compat; [apply pow_lt; assumption|lra]). lra.
Qed.
Lemma refraction_low_mono a b : -90 < a -> a <= b -> b <= -0.575 ->
  -20.772 / tan (radians a) <= -20.772 / tan (radians b).
Proof.
  intros H1 H2 H3. destruct H2 as [H2| ->]; [|lra].
  pose proof (tan_deg_increasing a b H1 H2 ltac:(lra)) as T.
  assert (Tb : tan (radians b) < 0).
  { pose proof (tan_deg_increasing b 0 ltac:(lra) ltac:(lra) ltac:(lra)) as T0.
    replace (radians 0) with 0 in T0 by (unfold radians; lra). rewrite tan_0 in T0. exact T0. }
  set (ta := tan (radians a)) in *. set (tb := tan (radians b)) in *. clearbody ta tb.
  replace (-20.772 / ta) with (20.772 * / (- ta)) by (unfold Rdiv; rewrite Rinv_opp; lra).
  replace (-20.772 / tb) with (20.772 * / (- tb)) by (unfold Rdiv; rewrite Rinv_opp; lra).
  apply Rmult_le_compat_l; [lra|]. left. apply Rinv_lt_contravar; [nra|lra].
Qed.
Lemma refraction_at_break a : -90 < a <= -0.575 -> -20.772 / tan (radians a) <= 2070.3.
Proof.
  intro H. eapply Rle_trans; [apply (refraction_low_mono a (-0.575)); lra|].
  pose proof PI_precise as P.
  assert (T : radians 0.575 < tan (radians 0.575)) by (apply tan_x_lower; unfold radians; lra).
  replace (radians (-0.575)) with (- radians 0.575) by (rewrite <- radians_opp; f_equal; lra).
  rewrite tan_neg. assert (0.0100337 < radians 0.575) by (unfold radians; lra).
  set (u := tan _) in *. clearbody u.
  replace (-20.772 / - u) with (20.772 * / u) by (unfold Rdiv; rewrite Rinv_opp; lra).
  assert (/ u <= / 0.0100337) by (apply Rinv_le_contravar; lra). lra.
Qed.
Definition refraction_poly (el : R) : R :=
  1735 + el * (-518.2 + el * (103.4 + el * (-12.79 + el * 0.711))).
Lemma poly_slope a b : -0.575 <= a -> a <= b -> b <= 5 ->
  refraction_poly a - refraction_poly b <= 1700 * (b - a).
Proof.
  intros H1 H2 H3. unfold refraction_poly.
  assert (E : 1735 + a * (-518.2 + a * (103.4 + a * (-12.79 + a * 0.711)))
    - (1735 + b * (-518.2 + b * (103.4 + b * (-12.79 + b * 0.711))))
    = (b - a) * (518.2 - 103.4 * (a + b) + 12.79 * (a * a + a * b + b * b)
        - 0.711 * ((a + b) * (a * a + b * b)))).
  { lra. }
  rewrite E, Rmult_comm. apply Rmult_le_compat_r; [lra|].
  assert (a * a <= 25) by nra. assert (b * b <= 25) by nra. assert (a * b <= 25) by nra.
  assert (0 <= a * a + b * b) by nra.
  assert (-60 <= (a + b) * (a * a + b * b)) by nra. lra.
Qed.
Definition refraction_cot (w : R) : R := 58.1 * w - 0.07 * w ^ 3 + 0.000086 * w ^ 5.
Lemma refraction_cot_slope w w' : 0 < w' -> w' <= w -> w <= 12 ->
  0 <= refraction_cot w - refraction_cot w' <= 68 * (w - w').
Proof.
  intros H1 H2 H3. unfold refraction_cot.
  assert (E : 58.1 * w - 0.07 * w ^ 3 + 0.000086 * w ^ 5 - (58.1 * w' - 0.07 * w' ^ 3 + 0.000086 * w' ^ 5)
    = (w - w') * (58.1 - 0.07 * (w * w + w * w' + w' * w')
       + 0.000086 * ((w * w) * (w * w) + (w * w) * (w * w') + (w * w') * (w * w')
                     + (w * w') * (w' * w') + (w' * w') * (w' * w'))))
    by (generalize 58.1 0.07 0.000086; intros; ring).
  rewrite E. rewrite (Rmult_comm 68).
  assert (0 <= w * w <= 144) by nra. assert (0 <= w * w' <= 144) by nra.
  assert (0 <= w' * w' <= 144) by nra.
  set (x := w * w) in *. set (y := w * w') in *. set (z := w' * w') in *. clearbody x y z.
  assert (P : forall u v, 0 <= u <= 144 -> 0 <= v <= 144 -> 0 <= u * v <= 20736) by (intros; nra).
  pose proof (P x x ltac:(lra) ltac:(lra)). pose proof (P x y ltac:(lra) ltac:(lra)).
  pose proof (P y y ltac:(lra) ltac:(lra)). pose proof (P y z ltac:(lra) ltac:(lra)).
  pose proof (P z z ltac:(lra) ltac:(lra)).
  split; [apply Rmult_le_pos; lra|apply Rmult_le_compat_l; lra].
Qed.
Lemma cot_slope a b : 5 <= a -> a <= b -> b < 90 ->
  0 < / tan (radians b) /\ / tan (radians b) <= / tan (radians a) /\ / tan (radians a) <= 12 /\
  / tan (radians a) - / tan (radians b) <= 2.6 * (b - a).
Proof.
  intros Ha Hab Hb. pose proof PI_precise as P.
  pose proof (tan_lower 5 a (1 / 12) ltac:(lra) ltac:(lra) ltac:(lra) ltac:(lra) sin_5deg) as Ta.
  pose proof (tan_lower 5 b (1 / 12) ltac:(lra) ltac:(lra) ltac:(lra) ltac:(lra) sin_5deg) as Tb.
  assert (Hle : tan (radians a) <= tan (radians b)).
  { destruct Hab as [Hab| ->]; [left; apply tan_deg_increasing; lra|lra]. }
  split; [apply Rinv_0_lt_compat; lra|]. split; [apply Rinv_le_contravar; lra|].
  split; [replace 12 with (/ (1 / 12)) by lra; apply Rinv_le_contravar; lra|].
  assert (Ca : 0 < cos (radians a)) by (apply cos_deg_pos; lra).
  assert (Cb : 0 < cos (radians b)) by (apply cos_deg_pos; lra).
  assert (Sa : 1 / 12 <= sin (radians a)).
  { eapply Rle_trans; [apply sin_5deg|]. apply sin_deg_mono; lra. }
  assert (Sb : 1 / 12 <= sin (radians b)).
  { eapply Rle_trans; [apply sin_5deg|]. apply sin_deg_mono; lra. }
  assert (D : sin (radians b) * cos (radians a) - cos (radians b) * sin (radians a) <= 0.01746 * (b - a)).
  { rewrite <- sin_minus. pose proof (sin_small_le (radians b - radians a)) as S.
    pose proof (Rle_abs (sin (radians b - radians a))).
    rewrite (Rabs_right (radians b - radians a)) in S
      by (apply Rle_ge, Rge_le, Rle_ge; pose proof (radians_le a b Hab); lra).
    assert (radians b - radians a <= 0.01746 * (b - a)) by (unfold radians; nra). lra. }
  unfold tan. set (sa := sin (radians a)) in *. set (sb := sin (radians b)) in *.
  set (ca := cos (radians a)) in *. set (cb := cos (radians b)) in *. clearbody sa sb ca cb.
  replace (/ (sa / ca) - / (sb / cb)) with ((sb * ca - cb * sa) * / (sa * sb)) by (field; lra).
  assert (1 / 144 <= sa * sb) by nra.
  assert (0 < / (sa * sb) <= 144).
  { split; [apply Rinv_0_lt_compat; lra|]. replace 144 with (/ (1 / 144)) by lra.
    apply Rinv_le_contravar; lra. }
  set (i := / (sa * sb)) in *. clearbody i. set (dd := sb * ca - cb * sa) in *. clearbody dd.
  destruct (Rle_dec 0 dd); nra.
Qed.
Lemma refraction_high el : 5 < el <= 85 ->
  atmospheric_refraction el = refraction_cot (/ tan (radians el)).
Proof.
  intro H. unfold atmospheric_refraction, refraction_cot.
  destruct (Rltb_spec 85 el); [lra|]. destruct (Rltb_spec 5 el); [|lra]. cbv zeta.
  rewrite !pow_inv. reflexivity.
Qed.
Lemma refraction_mid el : -0.575 < el <= 5 -> atmospheric_refraction el = refraction_poly el.
Proof.
  intro H. unfold atmospheric_refraction, refraction_poly.
  destruct (Rltb_spec 85 el); [lra|]. destruct (Rltb_spec 5 el); [lra|].
  destruct (Rltb_spec (-0.575) el); [reflexivity|lra].
Qed.
Lemma refraction_below el : el <= -0.575 -> atmospheric_refraction el = -20.772 / tan (radians el).
Proof.
  intro H. unfold atmospheric_refraction.
  destruct (Rltb_spec 85 el); [lra|]. destruct (Rltb_spec 5 el); [lra|].
  destruct (Rltb_spec (-0.575) el); [lra|reflexivity].
Qed.
Lemma refraction_above_5 el : 5 < el <= 85 -> 575 - 180 * (el - 5) <= atmospheric_refraction el.
Proof.
  intro H. rewrite refraction_high by lra. pose proof PI_precise as P.
  destruct (cot_slope 5 el) as (A & B & C & D); try lra.
  pose proof (refraction_cot_slope _ _ A B C) as [_ S].
  assert (T : tan (radians 5) <= 0.08762).
  { assert (X : 0 < radians 5 <= 0.087278) by (unfold radians; lra).
    unfold tan. pose proof (cos_lower (radians 5)). pose proof (sin_small_le (radians 5)) as L.
    pose proof (Rle_abs (sin (radians 5))). rewrite (Rabs_right (radians 5)) in L by lra.
    assert (0.99619 <= cos (radians 5)) by nra.
    apply (Rmult_le_reg_r (cos (radians 5))); [lra|]. unfold Rdiv.
    rewrite Rmult_assoc, Rinv_l by lra. nra. }
  assert (W : 11.41 <= / tan (radians 5)).
  { pose proof (tan_lower 5 5 (1 / 12) ltac:(lra) ltac:(lra) ltac:(lra) ltac:(lra) sin_5deg).
    eapply Rle_trans; [|apply Rinv_le_contravar; [lra|exact T]]. lra. }
  pose proof (refraction_cot_slope _ 11.41 ltac:(lra) W C) as [Q _].
  unfold refraction_cot at 2 in Q.
  assert (575.4 <= 58.1 * 11.41 - 0.07 * 11.41 ^ 3 + 0.000086 * 11.41 ^ 5) by lra. lra.
Qed.

(** The loss of refraction over a rise is a fraction of the rise. *)
Lemma refraction_loss a b : -89 <= a -> a < b -> b <= 85 ->
  atmospheric_refraction a - atmospheric_refraction b <= 1 + 1700 * (b - a).
Proof.
  intros Ha Hab Hb. destruct (Rle_dec a (-0.575)) as [La|La].
  - rewrite (refraction_below a La). pose proof (refraction_at_break a ltac:(lra)).
    destruct (Rle_dec b (-0.575)) as [Lb|Lb].
    + rewrite (refraction_below b Lb). pose proof (refraction_low_mono a b ltac:(lra) ltac:(lra) Lb). lra.
    + destruct (Rle_dec b 5) as [L5|L5].
      * rewrite (refraction_mid b) by lra. pose proof (poly_slope (-0.575) b ltac:(lra) ltac:(lra) L5) as Q.
        unfold refraction_poly at 1 in Q. lra.
      * pose proof (refraction_above_5 b ltac:(lra)). lra.
  - destruct (Rle_dec b 5) as [L5|L5].
    + rewrite (refraction_mid a), (refraction_mid b) by lra. pose proof (poly_slope a b). lra.
    + destruct (Rle_dec a 5) as [A5|A5].
      * rewrite (refraction_mid a) by lra. pose proof (refraction_above_5 b ltac:(lra)).
        pose proof (poly_slope a 5 ltac:(lra) ltac:(lra) ltac:(lra)) as Q.
        unfold refraction_poly at 2 in Q. lra.
      * rewrite (refraction_high a), (refraction_high b) by lra.
        destruct (cot_slope a b) as (A & B & C & D); try lra.
        pose proof (refraction_cot_slope _ _ A B C) as [_ S]. lra.
Qed.
Definition apparent (el : R) : R := el + atmospheric_refraction el / 3600.
Lemma apparent_increases a b : -89 <= a -> a + 0.0015 <= b -> b <= 85 -> apparent a < apparent b.
Proof.
  intros Ha Hab Hb. pose proof (refraction_loss a b Ha ltac:(lra) Hb). unfold apparent. lra.
Qed.

(** ** The true elevation *)
(** Its sine. *)
Definition sin_elevation (lat lng : R) (t : Z) : R :=
  sin lat * sin_decl (julian_century t)
  - cos lat * cos_decl (julian_century t) * cos (turn lng t).
Definition arc (c : R) : R := 90 - degrees (acos c).
Definition elevation (lat lng : R) (t : Z) : R := fst (fst (solar_calculator lat lng t)).
Lemma sin_elevation_range lat lng t : -1 <= sin_elevation lat lng t <= 1.
Proof.
  unfold sin_elevation. destruct (sin_decl_ok (julian_century t)) as [<- <-].
  set (d := declination_sun _). set (q := cos (turn lng t)).
  assert (-1 <= q <= 1) by apply COS_bound.
  pose proof (sin2_cos2 lat) as P1. pose proof (sin2_cos2 d) as P2. unfold Rsqr in *.
  set (a := sin lat) in *. set (b := cos lat) in *. set (c := sin d) in *. set (e := cos d) in *.
  clearbody a b c e q.
  (* Cauchy-Schwarz *)
  assert (CS : forall x, x * x <= 1 -> -1 <= a * c + b * e * x <= 1).
  { intros x Hx. assert (E : (a * c + b * e * x) * (a * c + b * e * x) <= 1).
    { assert (H1 : (a * c + b * (e * x)) * (a * c + b * (e * x)) + (a * (e * x) - b * c) * (a * (e * x) - b * c)
        = (a * a + b * b) * (c * c + (e * x) * (e * x))) by ring.
      assert (H2 : (e * x) * (e * x) <= e * e).
      { replace (e * x * (e * x)) with (e * e * (x * x)) by ring.
        pose proof (Rle_0_sqr e). unfold Rsqr in *. nra. }
      pose proof (Rle_0_sqr (a * (e * x) - b * c)) as Q. unfold Rsqr in Q.
      replace (b * e * x) with (b * (e * x)) by ring. rewrite P1 in H1. lra. }
    split; nra. }
  pose proof (CS (- q)). replace (a * c - b * e * q) with (a * c + b * e * - q) by ring.
  apply H0. nra.
Qed.
Lemma elevation_value lat lng t : (0 <= t)%Z ->
  elevation lat lng t = apparent (arc (sin_elevation lat lng t)).
Proof.
  intro Ht. unfold elevation, solar_calculator, zenith_angle, apparent, arc. cbv zeta. cbn [fst].
  rewrite cos_hour_angle by exact Ht.
  destruct (sin_decl_ok (julian_century t)) as [-> ->].
  replace (sin lat * sin_decl (julian_century t)
    + cos lat * cos_decl (julian_century t) * - cos (turn lng t)) with (sin_elevation lat lng t)
    by (unfold sin_elevation; ring).
  reflexivity.
Qed.
Lemma arc_facts c : -1 <= c <= 1 ->
  -90 <= arc c <= 90 /\ - (PI / 2) <= radians (arc c) <= PI / 2 /\ sin (radians (arc c)) = c.
Proof.
  intro H. unfold arc. pose proof (acos_bound c) as [A B].
  assert (E : radians (90 - degrees (acos c)) = PI / 2 - acos c).
  { rewrite <- (radians_degrees (acos c)) at 2. unfold radians. lra. }
  rewrite E. rewrite sin_shift, cos_acos by exact H. split; [|split; [lra|reflexivity]].
  pose proof (degrees_le _ _ A). pose proof (degrees_le _ _ B). rewrite degrees_0, degrees_PI in *. lra.
Qed.
Lemma arc_spread c1 c2 e : -1 <= c1 <= 1 -> -1 <= c2 <= 1 -> 0 < e -> c1 + e <= c2 ->
  arc c1 + 57 * e <= arc c2.
Proof.
  intros H1 H2 He Hc. destruct (arc_facts c1 H1) as (_ & R1 & S1).
  destruct (arc_facts c2 H2) as (_ & R2 & S2). pose proof PI_precise as P.
  assert (X : radians (arc c1) < radians (arc c2)).
  { destruct (Rlt_dec (radians (arc c1)) (radians (arc c2))) as [L|L]; [exact L|exfalso].
    assert (sin (radians (arc c2)) <= sin (radians (arc c1))).
    { destruct (Req_dec (radians (arc c1)) (radians (arc c2))) as [->|N]; [lra|].
      left. apply sin_increasing_1; lra. }
    lra. }
  pose proof (sin_lip (radians (arc c2)) (radians (arc c1))) as L. rewrite S1, S2 in L.
  pose proof (Rle_abs (c2 - c1)). rewrite (Rabs_right (radians (arc c2) - radians (arc c1))) in L by lra.
  unfold radians in L. nra.
Qed.
Lemma arc_close c1 c2 D : -1 <= c1 <= 1 -> -1 <= c2 <= 1 -> 0 <= D -> arc c1 <= arc c2 + D ->
  c1 <= c2 + 0.01746 * D.
Proof.
  intros H1 H2 HD Hc. destruct (arc_facts c1 H1) as (_ & R1 & S1).
  destruct (arc_facts c2 H2) as (_ & R2 & S2). pose proof PI_precise as P.
  destruct (Rle_dec (radians (arc c1)) (radians (arc c2))) as [L|L].
  - assert (sin (radians (arc c1)) <= sin (radians (arc c2))).
    { destruct L as [L| ->]; [|lra]. left. apply sin_increasing_1; lra. }
    nra.
  - pose proof (sin_lip (radians (arc c1)) (radians (arc c2))) as Q. rewrite S1, S2 in Q.
    pose proof (Rle_abs (c1 - c2)). rewrite (Rabs_right (radians (arc c1) - radians (arc c2))) in Q by lra.
    assert (radians (arc c1) - radians (arc c2) <= 0.01746 * D) by (unfold radians in *; nra). lra.
Qed.
Lemma arc_small c : Rabs c <= 0.49 -> -30 <= arc c <= 30.
Proof.
  intro H. apply Rabs_le_inv in H. destruct (arc_facts c ltac:(lra)) as (R0 & R1 & S1).
  assert (H30 : sin (radians 30) = 1 / 2) by (rewrite <- sin_PI6; f_equal; unfold radians; lra).
  assert (H30' : sin (radians (-30)) = - (1 / 2)).
  { replace (radians (-30)) with (- radians 30) by (unfold radians; lra). rewrite sin_neg, H30. reflexivity. }
  split.
  - destruct (Rle_dec (-30) (arc c)) as [L|L]; [exact L|exfalso].
    pose proof (sin_deg_mono (arc c) (-30) ltac:(lra) ltac:(lra) ltac:(lra)). lra.
  - destruct (Rle_dec (arc c) 30) as [L|L]; [exact L|exfalso].
    pose proof (sin_deg_mono 30 (arc c) ltac:(lra) ltac:(lra) ltac:(lra)). lra.
Qed.
Lemma elevation_order lat lng t t' : (0 <= t)%Z -> (0 <= t')%Z ->
  elevation lat lng t <= elevation lat lng t' ->
  sin_elevation lat lng t <= sin_elevation lat lng t' + 0.0205.
Proof.
  intros H H' Hle. rewrite !elevation_value in Hle by assumption.
  pose proof (sin_elevation_range lat lng t) as R1. pose proof (sin_elevation_range lat lng t') as R2.
  set (c := sin_elevation lat lng t) in *. set (c' := sin_elevation lat lng t') in *. clearbody c c'.
  destruct (arc_facts c R1) as (A1 & _). destruct (arc_facts c' R2) as (A2 & _).
  pose proof (refraction_range _ A1). pose proof (refraction_range _ A2). unfold apparent in Hle.
  pose proof (arc_close c c' (4200 / 3600) R1 R2 ltac:(lra) ltac:(lra)). lra.
Qed.

(** ** The sun after [k] seconds *)
Definition in_years (t : Z) : Prop := (0 <= t < 47541 * us_per_day)%Z.
Lemma julian_century_value t : in_years t ->
  julian_century t = (IZR (t / 1000000) / 86400 - 10957.5) / 36525 /\ -1.1 <= julian_century t <= 1.1.
Proof.
  intro H. unfold julian_century. rewrite julian_time_linear by exact H.
  split; [lra|]. unfold in_years, us_per_day in H.
  assert (0 <= t / 1000000 < 4107542400)%Z.
  { split; [apply Z.div_pos; lia|apply Z.div_lt_upper_bound; lia]. }
  destruct H0 as [A B]. apply IZR_le in A. apply IZR_lt in B. lra.
Qed.
Lemma sin_elevation_later lat lng t k : (0 <= k)%Z -> in_years t -> in_years (t + k * 1000000) ->
  Rabs (sin_elevation lat lng (t + k * 1000000)
        - (sin lat * sin_decl (julian_century t)
           - cos lat * cos_decl (julian_century t) * cos (turn lng t + 2 * PI * (IZR k / 86400))))
  <= 490 * (IZR k / (86400 * 36525)).
Proof.
  intros Hk Ht Ht'. destruct (julian_century_value _ Ht) as (E & J).
  destruct (julian_century_value _ Ht') as (E' & J').
  unfold sin_elevation, turn.
  replace ((t + k * 1000000) / 1000000)%Z with (t / 1000000 + k)%Z in *
    by (rewrite Z.div_add by lia; reflexivity).
  rewrite plus_IZR in *.
  set (j := julian_century t) in *. set (j' := julian_century (t + k * 1000000)) in *. clearbody j j'.
  set (s := IZR (t / 1000000)) in *. clearbody s.
  assert (Hd : Rabs (j' - j) = IZR k / (86400 * 36525)).
  { rewrite Rabs_right.
    - rewrite E, E'. lra.
    - apply (IZR_le 0) in Hk. rewrite E, E'. lra. }
  destruct BL_sin_decl as [_ L1]. specialize (L1 j' j J' J).
  destruct BL_cos_decl as [M2 L2]. specialize (L2 j' j J' J). pose proof (M2 j J) as M.
  destruct BL_eot as [_ L3]. specialize (L3 j' j J' J). rewrite Hd in *.
  set (w := IZR k / (86400 * 36525)) in *. clearbody w.
  set (th := 2 * PI * (s / 86400) + eot4 j + lng + 2 * PI * (IZR k / 86400)).
  set (th' := 2 * PI * ((s + IZR k) / 86400) + eot4 j' + lng).
  assert (Eth : th' - th = eot4 j' - eot4 j) by (unfold th, th'; lra).
  pose proof (cos_lip th' th) as L4. rewrite Eth in L4.
  assert (Rabs (sin lat) <= 1) by apply Rabs_le, SIN_bound.
  assert (Rabs (cos lat) <= 1) by apply Rabs_le, COS_bound.
  assert (Rabs (cos th') <= 1) by apply Rabs_le, COS_bound.
  replace (sin lat * sin_decl j' - cos lat * cos_decl j' * cos th' -
    (sin lat * sin_decl j - cos lat * cos_decl j * cos th)) with
    (sin lat * (sin_decl j' - sin_decl j)
     + (- (cos lat * ((cos_decl j' - cos_decl j) * cos th' + cos_decl j * (cos th' - cos th))))) by ring.
  eapply Rle_trans; [apply Rabs_triang|]. rewrite Rabs_Ropp, !Rabs_mult.
  assert (Rabs ((cos_decl j' - cos_decl j) * cos th' + cos_decl j * (cos th' - cos th)) <= 121 * w + 100 * w).
  { eapply Rle_trans; [apply Rabs_triang|]. rewrite !Rabs_mult.
    pose proof (Rabs_pos (cos_decl j' - cos_decl j)). pose proof (Rabs_pos (cos th' - cos th)).
    pose proof (Rabs_pos (cos th')). pose proof (Rabs_pos (cos_decl j)). nra. }
  pose proof (Rabs_pos (sin lat)). pose proof (Rabs_pos (cos lat)).
  pose proof (Rabs_pos (sin_decl j' - sin_decl j)).
  set (z := Rabs (_ + _)) in *. assert (0 <= z) by apply Rabs_pos. clearbody z. nra.
Qed.

(** ** One second near the horizon *)
Definition one_second : R := 2 * PI * (1 / 86400).
Lemma one_second_facts : 0.00007 <= sin one_second <= 0.00008 /\ 1 - 0.0000001 <= cos one_second <= 1.
Proof.
  pose proof PI_precise. assert (X : 0.0000727 <= one_second <= 0.000073) by (unfold one_second; lra).
  set (x := one_second) in *. clearbody x.
  pose proof (pre_sin_bound x 0 ltac:(lra) ltac:(lra)) as [S1 _].
  cbv -[Rplus Rmult Rinv Rdiv Ropp IZR Rle Rlt PI sin] in S1.
  pose proof (sin_lt_x x ltac:(lra)).
  pose proof (cos_lower x) as C. pose proof (COS_bound x).
  assert (0 <= x * x <= 0.00000001) by nra.
  assert (0 <= x * x * x <= 0.00000001) by nra.
  repeat split; lra.
Qed.
Lemma day_circle lat lng t : in_years t -> 0.5 <= cos lat ->
  0.456 <= cos lat * cos_decl (julian_century t) <= 1 /\
  Rabs (sin lat * sin_decl (julian_century t)) <= 0.41 /\
  sin_elevation lat lng t = sin lat * sin_decl (julian_century t)
    - cos lat * cos_decl (julian_century t) * cos (turn lng t).
Proof.
  intros Ht Hl. destruct (julian_century_value _ Ht) as (_ & J).
  pose proof (cos_decl_range _ J). pose proof (COS_bound lat).
  destruct BL_sin_decl as [A _]. specialize (A _ J).
  split; [nra|]. split; [|reflexivity].
  rewrite Rabs_mult. assert (Rabs (sin lat) <= 1) by apply Rabs_le, SIN_bound.
  pose proof (Rabs_pos (sin lat)). pose proof (Rabs_pos (sin_decl (julian_century t))). nra.
Qed.
Lemma rises_or_sets lat lng t : in_years t -> in_years (t + 1000000) -> 0.5 <= cos lat ->
  Rabs (cos (turn lng t)) <= 0.06 ->
  (sin (turn lng t) <= -0.99 -> elevation lat lng (t + 1000000) < elevation lat lng t) /\
  (0.99 <= sin (turn lng t) -> elevation lat lng t < elevation lat lng (t + 1000000)).
Proof.
  intros Ht Ht' Hl Hc.
  pose proof (sin_elevation_later lat lng t 1 ltac:(lia) Ht Ht') as D.
  change (1 * 1000000)%Z with 1000000%Z in D.
  change (2 * PI * (IZR 1 / 86400)) with one_second in D.
  destruct (day_circle lat lng t Ht Hl) as (HB & HS & E).
  rewrite !elevation_value by (unfold in_years in *; lia).
  pose proof (sin_elevation_range lat lng t) as R1.
  pose proof (sin_elevation_range lat lng (t + 1000000)) as R2.
  destruct one_second_facts as (S1 & C1).
  rewrite cos_plus in D. set (co := cos (turn lng t)) in *. set (si := sin (turn lng t)) in *.
  assert (Hsi : -1 <= si <= 1) by apply SIN_bound.
  set (S := sin lat * sin_decl _) in *. set (B := cos lat * cos_decl _) in *.
  set (c := sin_elevation lat lng t) in *. set (c' := sin_elevation lat lng (t + 1000000)) in *.
  set (s1 := sin one_second) in *. set (c1 := cos one_second) in *.
  clearbody co si S B c c' s1 c1. apply Rabs_le_inv in D, HS, Hc.
  assert (Hc0 : Rabs c <= 0.48) by (apply Rabs_le; nra).
  assert (E1 : -0.000000006 <= co * (1 - c1) <= 0.000000006) by nra.
  assert (Hd : c' - c <= B * (co * (1 - c1) + si * s1) + 0.0000002 /\
               B * (co * (1 - c1) + si * s1) - 0.0000002 <= c' - c).
  { rewrite E. split; nra. }
  destruct Hd as [Hd1 Hd2].
  assert (Hc0' : Rabs c' <= 0.49).
  { assert (Rabs (c' - c) <= 0.001).
    { assert (-0.00008 <= si * s1 <= 0.00008) by nra. apply Rabs_le. nra. }
    replace c' with (c + (c' - c)) by ring. eapply Rle_trans; [apply Rabs_triang|]. lra. }
  pose proof (arc_small c ltac:(lra)). pose proof (arc_small c' Hc0').
  split; intro Hs.
  - assert (si * s1 <= -0.000069) by nra.
    assert (c' + 0.00003 <= c) by nra.
    pose proof (arc_spread c' c 0.00003 R2 R1 ltac:(lra) ltac:(lra)).
    apply apparent_increases; lra.
  - assert (0.000069 <= si * s1) by nra.
    assert (c + 0.00003 <= c') by nra.
    pose proof (arc_spread c c' 0.00003 R1 R2 ltac:(lra) ltac:(lra)).
    apply apparent_increases; lra.
Qed.

(** ** Six, twelve and twenty-four hours later *)
Lemma quarters lat lng t : in_years t -> in_years (t + 86400 * 1000000) -> 0.5 <= cos lat ->
  let S := sin lat * sin_decl (julian_century t) in
  let B := cos lat * cos_decl (julian_century t) in
  0.456 <= B <= 1 /\
  sin_elevation lat lng t = S - B * cos (turn lng t) /\
  Rabs (sin_elevation lat lng (t + 21600 * 1000000) - (S + B * sin (turn lng t))) <= 0.0135 /\
  Rabs (sin_elevation lat lng (t + 43200 * 1000000) - (S + B * cos (turn lng t))) <= 0.0135 /\
  Rabs (sin_elevation lat lng (t + 86400 * 1000000) - (S - B * cos (turn lng t))) <= 0.0135.
Proof.
  intros Ht Ht' Hl S B. destruct (day_circle lat lng t Ht Hl) as (HB & HS & E).
  fold S B in HB, HS, E.
  split; [exact HB|]. split; [exact E|].
  assert (Q : forall k, (0 <= k <= 86400)%Z -> Rabs (sin_elevation lat lng (t + k * 1000000) -
     (S - B * cos (turn lng t + 2 * PI * (IZR k / 86400)))) <= 0.0135).
  { intros k Hk. eapply Rle_trans; [apply sin_elevation_later; unfold in_years in *; lia|].
    destruct Hk as [_ Hk]. apply IZR_le in Hk. lra. }
  pose proof (Q 21600%Z ltac:(lia)) as Q1. pose proof (Q 43200%Z ltac:(lia)) as Q2.
  pose proof (Q 86400%Z ltac:(lia)) as Q3.
  replace (turn lng t + 2 * PI * (21600 / 86400)) with (PI / 2 + turn lng t) in Q1 by lra.
  replace (turn lng t + 2 * PI * (43200 / 86400)) with (turn lng t + PI) in Q2 by lra.
  replace (turn lng t + 2 * PI * (86400 / 86400)) with (turn lng t + 2 * PI) in Q3 by lra.
  rewrite neg_cos in Q2. rewrite cos_2PI in Q3 || rewrite (cos_plus _ (2 * PI)), cos_2PI, sin_2PI in Q3.
  rewrite <- (Ropp_involutive (cos (PI / 2 + turn lng t))), <- sin_cos in Q1.
  split; [|split]; [eapply Rle_trans; [|exact Q1]|eapply Rle_trans; [|exact Q2]|eapply Rle_trans; [|exact Q3]];
    right; f_equal; ring.
Qed.

(** The comparisons of a failed search put the sun on the horizon, going the other way. *)
Lemma on_the_horizon lat lng t : in_years t -> in_years (t + 86400 * 1000000) -> 0.5 <= cos lat ->
  let el := elevation lat lng in
  (el t <= el (t + 43200 * 1000000)%Z /\ el (t + 43200 * 1000000)%Z <= el (t + 86400 * 1000000)%Z \/
   el (t + 43200 * 1000000)%Z <= el t /\ el (t + 86400 * 1000000)%Z <= el (t + 43200 * 1000000)%Z) ->
  (el (t + 21600 * 1000000)%Z <= el t \/ el (t + 21600 * 1000000)%Z <= el (t + 43200 * 1000000)%Z ->
     el (t + 1000000)%Z < el t) /\
  (el t <= el (t + 21600 * 1000000)%Z \/ el (t + 43200 * 1000000)%Z <= el (t + 21600 * 1000000)%Z ->
     el t < el (t + 1000000)%Z).
Proof.
  intros Ht Ht' Hl el Hel. unfold el in *. clear el.
  destruct (quarters lat lng t Ht Ht' Hl) as (HB & E0 & Q1 & Q2 & Q3).
  assert (Hcos : Rabs (cos (turn lng t)) <= 0.06).
  { destruct Hel as [[A A']|[A A']]; apply elevation_order in A; try (unfold in_years in *; lia);
      apply elevation_order in A'; try (unfold in_years in *; lia);
      rewrite E0 in *; apply Rabs_le_inv in Q1, Q2, Q3; apply Rabs_le; split; nra. }
  pose proof (sin2_cos2 (turn lng t)) as P. unfold Rsqr in P.
  destruct (rises_or_sets lat lng t Ht ltac:(unfold in_years in *; lia) Hl Hcos) as [Sets Rises].
  apply Rabs_le_inv in Hcos, Q1, Q2, Q3.
  assert (Big : 0.995 <= sin (turn lng t) * sin (turn lng t)) by nra.
  split; intro H.
  - apply Sets. assert (sin (turn lng t) <= 0.5).
    { destruct H as [H|H]; apply elevation_order in H; try (unfold in_years in *; lia); rewrite ?E0 in *; nra. }
    nra.
  - apply Rises. assert (-0.5 <= sin (turn lng t)).
    { destruct H as [H|H]; apply elevation_order in H; try (unfold in_years in *; lia); rewrite ?E0 in *; nra. }
    nra.
Qed.

(** ** What a bisection that ends at an end has compared *)
Local Open Scope Z_scope.
Ltac Zify.zify_post_hook ::= Z.to_euclidean_division_equations.
Section Ends.
Context {T : Type} {N : Num T}.
Definition chosen (obj : Z -> T) (r : option (Z * Z)) (i : Z) : Prop :=
  match r with Some (l, h) => i = (if nltb (obj l) (obj h) then l else h) | None => False end.
Lemma search_ends (obj : Z -> T) fuel low high i : low < high ->
  chosen obj (search_loop fuel obj low high) i ->
  low <= i <= high /\
  (i = low -> nltb (obj low) (obj high) = true) /\ (i = high -> nltb (obj low) (obj high) = false).
Proof.
  revert low high i. induction fuel as [|f IH]; intros low high i Hlt; cbn [search_loop].
  - destruct (Z.gtb_spec high (low + 1)); [intros []|]. cbn [chosen]. intros ->.
    destruct (nltb (obj low) (obj high)) eqn:E; lia.
  - destruct (Z.gtb_spec high (low + 1)) as [G|G].
    + destruct (nltb (obj low) (obj high)) eqn:E; intro H; apply IH in H; lia.
    + cbn [chosen]. intros ->. destruct (nltb (obj low) (obj high)) eqn:E; lia.
Qed.
Lemma search_ends_half (obj : Z -> T) fuel q i : 0 < q ->
  chosen obj (search_loop fuel obj 0 (2 * q)) i ->
  (i = 0 -> nltb (obj 0) (obj (2 * q)) = true /\ nltb (obj 0) (obj q) = true) /\
  (i = 2 * q -> nltb (obj 0) (obj (2 * q)) = false /\ nltb (obj q) (obj (2 * q)) = false).
Proof.
  intros Hq H. destruct (search_ends obj fuel 0 (2 * q) i ltac:(lia) H) as (_ & A & B).
  destruct fuel as [|f]; cbn [search_loop] in H.
  { destruct (Z.gtb_spec (2 * q) (0 + 1)); [destruct H|lia]. }
  destruct (Z.gtb_spec (2 * q) (0 + 1)) as [G|G]; [|lia].
  destruct (nltb (obj 0) (obj (2 * q))) eqn:E.
  - replace (- (- (0 + 2 * q) / 2)) with q in H by lia.
    destruct (search_ends obj f 0 q i ltac:(lia) H) as (R & A' & _). split; intro X; [auto|lia].
  - replace ((0 + 2 * q) / 2) with q in H by lia.
    destruct (search_ends obj f q (2 * q) i ltac:(lia) H) as (R & _ & B'). split; intro X; [lia|auto].
Qed.
(** The searches over twelve hours. *)
Lemma find_ends el a tg d q time e : half_day = 2 * q * d -> 0 < d -> 0 < q ->
  let tr := match tg with Minimum => fun v => v | Maximum => fun v => nopp v
            | Elevation x => fun v => nabs (nsub v x) end in
  find_solar_elevation (T:=T) el a (a + half_day) tg d = Some (time, e) ->
  exists i, 0 <= i <= 2 * q /\ time = a + d * i /\
  (i = 0 -> nltb (tr (el a)) (tr (el (a + 43200 * 1000000))) = true /\
            nltb (tr (el a)) (tr (el (a + 21600 * 1000000))) = true) /\
  (i = 2 * q -> nltb (tr (el a)) (tr (el (a + 43200 * 1000000))) = false /\
            nltb (tr (el (a + 21600 * 1000000))) (tr (el (a + 43200 * 1000000))) = false).
Proof.
  intros Hq Hd Hq0 tr. unfold find_solar_elevation. fold tr. clearbody tr. unfold binary_search.
  replace (a + half_day - a) with half_day by lia. replace (Z.quot half_day d) with (2 * q) by (rewrite Hq, Z.quot_mul by lia; reflexivity).
  cbv zeta.
  destruct (Z.ltb_spec (a + half_day) a); [unfold half_day in *; lia|].
  destruct (Z.eqb_spec d 0); [lia|]. destruct (Z.leb_spec (2 * q) 0); [lia|].
  set (obj := fun idx => tr (el (a + d * idx))).
  pose proof (search_ends_half obj (Z.to_nat (2 * q)) q) as S.
  pose proof (search_ends obj (Z.to_nat (2 * q)) 0 (2 * q)) as S0.
  destruct (search_loop (Z.to_nat (2 * q)) obj 0 (2 * q)) as [[l h]|]; [|discriminate].
  intro E. injection E as E _. set (i := if nltb (obj l) (obj h) then l else h) in *.
  specialize (S i Hq0 eq_refl). specialize (S0 i ltac:(lia) eq_refl).
  exists i. split; [lia|]. split; [symmetry; exact E|].
  assert (E0 : obj 0 = tr (el a)) by (unfold obj; f_equal; f_equal; lia).
  assert (E1 : obj q = tr (el (a + 21600 * 1000000))).
  { unfold obj. f_equal. f_equal. unfold half_day in Hq. clear -Hq. nia. }
  assert (E2 : obj (2 * q) = tr (el (a + 43200 * 1000000))).
  { unfold obj. f_equal. f_equal. unfold half_day in Hq. clear -Hq. nia. }
  rewrite E0, E1, E2 in S. exact S.
Qed.
End Ends.

Lemma nltb_true_R (a b : R) : nltb a b = true -> (a < b)%R.
Proof. exact (proj1 (Rltb_iff a b)). Qed.
Lemma nltb_false_R (a b : R) : nltb a b = false -> (b <= a)%R.
Proof. intro H. apply Rnot_lt_le. intro L. apply Rltb_iff in L. change (nltb a b = true) in L. congruence. Qed.

(** ** The search answers for the sun of solar.py, at every supported latitude *)
Lemma real_sunrise_sunset lat lng horizon t d q :
  0 <= t -> t + one_day < 47541 * us_per_day -> (0.5 <= cos lat)%R ->
  0 < d -> half_day = 2 * q * d ->
  exists r s, get_next_sunrise_sunset true horizon (elevation lat lng) t d = Some (r, s).
Proof.
  intros Ht Ht' Hl Hd Hq.
  assert (Hq0 : 0 < q) by (unfold half_day in Hq; nia).
  assert (I0 : in_years t) by (unfold in_years, one_day, us_per_day in *; lia).
  assert (I1 : in_years (t + 86400 * 1000000)) by (unfold in_years, one_day, us_per_day in *; lia).
  set (el := elevation lat lng).
  assert (Hst : steps12 d) by (unfold steps12, hours12, half_day in *; nia).
  destruct (next_noon_midnight el t d Hst) as (n & m & en & em & En & _ & Em & _ & _).
  apply (sunrise_sunset_answers horizon el t d n en m em Hst En Em).
  pose proof (on_the_horizon lat lng t I0 I1 Hl) as H. fold el in H. cbv zeta in H.
  unfold get_next_solar_noon in En. unfold get_next_solar_midnight in Em.
  change hours12 with half_day in *. change hours24 with one_day in *.
  replace (t + one_day) with (t + half_day + half_day) in * by (unfold half_day, one_day; lia).
  assert (E24 : t + half_day + 43200 * 1000000 = t + 86400 * 1000000) by (unfold half_day; lia).
  destruct (is_solar_afternoon el t) eqn:Ea.
  - destruct (find_ends el _ _ d q _ _ Hq Hd Hq0 En) as (i & Bi & Ei & I & J).
    destruct (find_ends el _ _ d q _ _ Hq Hd Hq0 Em) as (i' & Bi' & Ei' & I' & J').
    assert (X : 1 <= 2 * q + i - i' <= 4 * q - 1).
    { destruct (Z.eq_dec i 0) as [Zi|Zi]; [destruct (Z.eq_dec i' (2 * q)) as [Zi'|]; [exfalso|lia]|
        destruct (Z.eq_dec i (2 * q)) as [Ni|]; [destruct (Z.eq_dec i' 0) as [Zi'|]; [exfalso|lia]|lia]].
      - destruct (I Zi) as [A1 _]. destruct (J' Zi') as [A2 A3].
        apply nltb_true_R in A1. apply nltb_false_R in A2, A3. cbn [nopp Num_R] in A1. rewrite E24 in A1.
        change (t + half_day) with (t + 43200 * 1000000) in A1.
        destruct (H ltac:(right; lra)) as [_ G]. specialize (G ltac:(right; lra)).
        apply nltb_true_R in Ea. unfold second1 in Ea. lra.
      - destruct (J Ni) as [A1 _]. destruct (I' Zi') as [A2 A3].
        apply nltb_false_R in A1. apply nltb_true_R in A2, A3. cbn [nopp Num_R] in A1. rewrite E24 in A1.
        change (t + half_day) with (t + 43200 * 1000000) in A1.
        destruct (H ltac:(left; lra)) as [_ G]. specialize (G ltac:(left; lra)).
        apply nltb_true_R in Ea. unfold second1 in Ea. lra. }
    assert (E : n - m = d * (2 * q + i - i')) by (rewrite Ei, Ei', Hq; ring).
    rewrite E, Z.abs_eq by nia. replace one_day with (d * (4 * q)) by (unfold half_day, one_day in *; lia). nia.
  - destruct (find_ends el _ _ d q _ _ Hq Hd Hq0 En) as (i & Bi & Ei & I & J).
    destruct (find_ends el _ _ d q _ _ Hq Hd Hq0 Em) as (i' & Bi' & Ei' & I' & J').
    assert (X : 1 <= 2 * q + i' - i <= 4 * q - 1).
    { destruct (Z.eq_dec i' 0) as [Zi'|Zi']; [destruct (Z.eq_dec i (2 * q)) as [Zi|]; [exfalso|lia]|
        destruct (Z.eq_dec i' (2 * q)) as [Ni'|]; [destruct (Z.eq_dec i 0) as [Zi|]; [exfalso|lia]|lia]].
      - destruct (I' Zi') as [A1 _]. destruct (J Zi) as [A2 A3].
        apply nltb_true_R in A1. apply nltb_false_R in A2, A3. cbn [nopp Num_R] in A2, A3. rewrite E24 in A1.
        change (t + half_day) with (t + 43200 * 1000000) in A1.
        destruct (H ltac:(left; lra)) as [G _]. specialize (G ltac:(right; lra)).
        apply nltb_false_R in Ea. unfold second1 in Ea. lra.
      - destruct (J' Ni') as [A1 _]. destruct (I Zi) as [A2 A3].
        apply nltb_false_R in A1. apply nltb_true_R in A2, A3. cbn [nopp Num_R] in A2, A3. rewrite E24 in A1.
        change (t + half_day) with (t + 43200 * 1000000) in A1.
        destruct (H ltac:(right; lra)) as [G _]. specialize (G ltac:(left; lra)).
        apply nltb_false_R in Ea. unfold second1 in Ea. lra. }
    assert (E : m - n = d * (2 * q + i' - i)) by (rewrite Ei, Ei', Hq; ring).
    rewrite <- Z.abs_opp, Z.opp_sub_distr, Z.add_comm, Z.add_opp_r.
    rewrite E, Z.abs_eq by nia. replace one_day with (d * (4 * q)) by (unfold half_day, one_day in *; lia). nia.
Qed.
