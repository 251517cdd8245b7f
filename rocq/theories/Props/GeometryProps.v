(** Property C51 (offsets on the sphere). *)
From Coq Require Import Reals Lra Lia ZArith Psatz.
From Verif Require Import Model.Num Model.Geometry Spec.Sphere Proofs.NumR Proofs.SolarProofs.
Open Scope R_scope.

(** ** atan2 *)
Lemma cos_atan_pos z : 0 < cos (atan z).
Proof. pose proof (atan_bound z). apply cos_gt_0; lra. Qed.
Lemma sin_cos_atan z : sin (atan z) = z * cos (atan z).
Proof.
  pose proof (cos_atan_pos z) as C. pose proof (tan_atan z) as E. unfold tan in E.
  rewrite <- E at 2. field. lra.
Qed.

Lemma atan2_polar y x : let r := sqrt (x * x + y * y) in
  r * cos (atan2 y x) = x /\ r * sin (atan2 y x) = y.
Proof.
  intro r. unfold atan2.
  assert (Main : forall z k, x = z -> 0 < Rabs z -> k = y / z ->
            r * cos (atan k) = Rabs z /\ r * sin (atan k) = Rabs z * k).
  { intros z k -> Hz ->. pose proof (cos_atan_pos (y / z)) as C.
    assert (N : z <> 0) by (intro E; rewrite E, Rabs_R0 in Hz; lra).
    set (k := y / z) in *. set (c := cos (atan k)) in *.
    assert (K : k * z = y) by (unfold k; field; exact N).
    pose proof (sin_cos_atan k) as S. fold c in S.
    pose proof (sin2_cos2 (atan k)) as P1. unfold Rsqr in P1. rewrite S in P1. fold c in P1.
    assert (Rr : r = Rabs z / c).
    { unfold r. apply sqrt_lem_1.
      - nra.
      - apply Rmult_le_pos; [lra|]. left. now apply Rinv_0_lt_compat.
      - assert (Az : Rabs z * Rabs z = z * z) by (rewrite <- Rabs_mult; apply Rabs_right; nra).
        replace (Rabs z / c * (Rabs z / c)) with (Rabs z * Rabs z / (c * c)) by (field; lra).
        rewrite Az. rewrite <- K.
        replace (z * z / (c * c)) with (z * z * (1 / (c * c))) by (field; lra).
        replace (1 / (c * c)) with (1 + k * k); [ring|].
        apply Rmult_eq_reg_r with (c * c); [|nra]. replace (1 / (c * c) * (c * c)) with 1 by (field; lra). nra. }
    rewrite S, Rr. split; field; lra. }
  destruct (Rltb_spec 0 x) as [Hx|Hx].
  - destruct (Main x (y / x) eq_refl) as [A B]; [rewrite Rabs_right; lra|reflexivity|].
    rewrite Rabs_right in A, B by lra. split; [exact A|]. rewrite B. field. lra.
  - destruct (Rltb_spec x 0) as [Hx'|Hx'].
    + destruct (Main x (y / x) eq_refl) as [A B]; [rewrite Rabs_left; lra|reflexivity|].
      rewrite Rabs_left in A, B by lra.
      assert (B' : r * sin (atan (y / x)) = - y) by (rewrite B; field; lra).
      destruct (Rltb y 0).
      * rewrite cos_minus, sin_minus, cos_PI, sin_PI. split; nra.
      * rewrite neg_cos, neg_sin. split; nra.
    + assert (x = 0) by lra. subst x. unfold r. replace (0 * 0 + y * y) with (y * y) by ring.
      destruct (Rltb_spec 0 y) as [Hy|Hy].
      * rewrite cos_PI2, sin_PI2, sqrt_square by lra. lra.
      * destruct (Rltb_spec y 0) as [Hy'|Hy'].
        -- rewrite cos_neg, sin_neg, cos_PI2, sin_PI2.
           replace (y * y) with (- y * - y) by ring. rewrite sqrt_square by lra. lra.
        -- assert (y = 0) by lra. subst y. rewrite Rmult_0_l, sqrt_0. lra.
Qed.

Lemma atan2_scale k y x : 0 < k -> atan2 (k * y) (k * x) = atan2 y x.
Proof.
  intro Hk. unfold atan2.
  assert (S : forall z, Rltb 0 (k * z) = Rltb 0 z /\ Rltb (k * z) 0 = Rltb z 0).
  { intro z. split.
    - destruct (Rltb_spec 0 z); [apply Rltb_true; nra|apply Rltb_false; nra].
    - destruct (Rltb_spec z 0); [apply Rltb_true; nra|apply Rltb_false; nra]. }
  destruct (S x) as [-> ->]. destruct (S y) as [-> ->].
  destruct (Rltb_spec 0 x); [|destruct (Rltb_spec x 0)].
  - f_equal. field. lra.
  - replace (k * y / (k * x)) with (y / x) by (field; lra). reflexivity.
  - reflexivity.
Qed.

(** ** Normalisation *)
Lemma nearest_spec q : Rabs (q - IZR (nearest q)) <= 1 / 2.
Proof.
  unfold nearest. destruct (base_Int_part q) as [I1 I2].
  set (k := Int_part q) in *. clearbody k.
  destruct (Rltb_spec (q - IZR k) (1 / 2)); [rewrite Rabs_right; lra|].
  destruct (Rltb_spec (1 / 2) (q - IZR k)).
  - rewrite plus_IZR. rewrite Rabs_left; lra.
  - destruct (Z.even k); [rewrite Rabs_right; lra|]. rewrite plus_IZR, Rabs_left; lra.
Qed.
Lemma remainder_range x y : 0 < y -> - (y / 2) <= remainder_near x y <= y / 2.
Proof.
  intro Hy. unfold remainder_near. pose proof (nearest_spec (x / y)) as H.
  set (n := IZR (nearest (x / y))) in *. clearbody n.
  assert (E : x = x / y * y) by (field; lra). set (q := x / y) in *. clearbody q. subst x.
  unfold Rabs in H. destruct (Rcase_abs (q - n)); split; nra.
Qed.
Lemma periodic n x : cos (x - IZR n * (2 * PI)) = cos x /\ sin (x - IZR n * (2 * PI)) = sin x.
Proof.
  assert (P : forall m y, cos (y + 2 * INR m * PI) = cos y /\ sin (y + 2 * INR m * PI) = sin y)
    by (intros m y; split; [apply cos_period|apply sin_period]).
  destruct (Z_le_gt_dec n 0) as [H|H].
  - destruct (P (Z.to_nat (- n)) x) as [A B].
    replace (x + 2 * INR (Z.to_nat (- n)) * PI) with (x - IZR n * (2 * PI)) in *; [split; assumption|].
    rewrite INR_IZR_INZ, Z2Nat.id, opp_IZR by lia. ring.
  - destruct (P (Z.to_nat n) (x - IZR n * (2 * PI))) as [A B].
    replace (x - IZR n * (2 * PI) + 2 * INR (Z.to_nat n) * PI) with x in *; [split; congruence|].
    rewrite INR_IZR_INZ, Z2Nat.id by lia. ring.
Qed.

(** Every result is a valid pair of coordinates. *)
Theorem C51_valid (center : R * R) (x y : R) : valid (calculate_latlng_from_offset center x y).
Proof.
  unfold calculate_latlng_from_offset, normalized, valid. cbn [fst snd].
  pose proof PI_RGT_0. split.
  - unfold Rmax, Rmin. repeat destruct (Rle_dec _ _); lra.
  - set (z := snd center + _). pose proof (remainder_range z (2 * PI) ltac:(lra)). lra.
Qed.
Print Assumptions C51_valid.

(** The result is where one gets going straight, from any centre but the poles,
    towards (x east, y north) for the distance sqrt(x^2 + y^2) on a sphere of
    radius 6371 km. *)
Theorem C51_travel (center : R * R) (x y : R) :
  - (PI / 2) < fst center < PI / 2 ->
  let d := sqrt (x ^ 2 + y ^ 2) in
  point (calculate_latlng_from_offset center x y) = travel center (x / d) (y / d) (d / 6371000).
Proof.
  intros Hc d. destruct center as [lat lng]. cbn [fst] in Hc.
  unfold calculate_latlng_from_offset, EARTH_RADIUS. cbn [fst snd].
  replace (x * x + y * y) with (x ^ 2 + y ^ 2) by ring. fold d.
  replace (6371 * 1000) with 6371000 by lra. set (a := d / 6371000).
  set (h := atan2 (x / 1000) (y / 1000)).
  (* direction *)
  assert (Hh : sin a * sin h = sin a * (x / d) /\ sin a * cos h = sin a * (y / d)).
  { assert (Eh : h = atan2 x y).
    { unfold h. replace (x / 1000) with (1 / 1000 * x) by lra. replace (y / 1000) with (1 / 1000 * y) by lra.
      apply atan2_scale. lra. }
    destruct (atan2_polar x y) as [A B]. rewrite <- Eh in A, B.
    replace (y * y + x * x) with (x ^ 2 + y ^ 2) in A, B by ring. fold d in A, B.
    destruct (Req_dec d 0) as [Z|Z].
    - assert (Sa : sin a = 0) by (unfold a; rewrite Z; unfold Rdiv; rewrite Rmult_0_l; apply sin_0).
      rewrite Sa, !Rmult_0_l. split; reflexivity.
    - split; f_equal; [rewrite <- B|rewrite <- A]; field; exact Z. }
  set (u := x / d) in *. set (v := y / d) in *.
  assert (U : sin a ^ 2 * (u ^ 2 + v ^ 2) = sin a ^ 2).
  { destruct Hh as [H1 H2]. pose proof (sin2_cos2 h) as P1. unfold Rsqr in P1.
    replace (sin a ^ 2 * (u ^ 2 + v ^ 2)) with ((sin a * u) * (sin a * u) + (sin a * v) * (sin a * v)) by ring.
    rewrite <- H1, <- H2. replace (sin a ^ 2) with (sin a ^ 2 * 1) by ring. rewrite <- P1. ring. }
  destruct Hh as [H1 H2]. clearbody u v h a. clear d.
  set (S := sin lat). set (C := cos lat).
  assert (HC : 0 < C) by (apply cos_gt_0; lra).
  pose proof (sin2_cos2 lat) as SC. unfold Rsqr in SC. fold S C in SC.
  pose proof (sin2_cos2 a) as sc. unfold Rsqr in sc.
  (* the target in the frame of the centre's meridian *)
  set (X := cos a * C - sin a * v * S). set (Y := sin a * u). set (Z := cos a * S + sin a * v * C).
  assert (Unit : X * X + Y * Y + Z * Z = 1).
  { unfold X, Y, Z.
    replace ((cos a * C - sin a * v * S) * (cos a * C - sin a * v * S) + sin a * u * (sin a * u) +
      (cos a * S + sin a * v * C) * (cos a * S + sin a * v * C))
      with (cos a * cos a * (S * S + C * C) + (sin a ^ 2 * (v ^ 2 * (S * S + C * C) + u ^ 2))) by ring.
    rewrite SC. replace (sin a ^ 2 * (v ^ 2 * 1 + u ^ 2)) with (sin a ^ 2 * (u ^ 2 + v ^ 2)) by ring.
    rewrite U. lra. }
  assert (EZ : cos a * S + sin a * C * cos h = Z).
  { unfold Z. replace (sin a * C * cos h) with (C * (sin a * cos h)) by ring. rewrite H2. ring. }
  rewrite EZ.
  assert (EY : sin a * C * sin h = C * Y).
  { unfold Y. replace (sin a * C * sin h) with (C * (sin a * sin h)) by ring. rewrite H1. reflexivity. }
  assert (EX : cos a - S * Z = C * X).
  { unfold X, Z. replace (cos a - S * (cos a * S + sin a * v * C)) with (cos a * (1 - S * S) - S * sin a * v * C) by ring.
    replace (1 - S * S) with (C * C) by lra. ring. }
  rewrite EY, EX, atan2_scale by exact HC.
  destruct (atan2_polar Y X) as [PX PY]. set (w := atan2 Y X) in *. set (r := sqrt (X * X + Y * Y)) in *.
  assert (HZ : -1 <= Z <= 1) by (split; nra).
  assert (CL : cos (asin Z) = r).
  { rewrite cos_asin by exact HZ. unfold r. f_equal. unfold Rsqr. lra. }
  pose proof (asin_bound Z) as [AB1 AB2].
  replace (Rmin (Rmax (asin Z) (- PI / 2)) (PI / 2)) with (asin Z)
    by (rewrite Rmax_left by lra; rewrite Rmin_left by lra; reflexivity).
  unfold normalized. cbn [fst snd]. rewrite Rmin_right by lra. rewrite Rmax_right by lra.
  unfold point. rewrite CL, sin_asin by exact HZ.
  unfold remainder_near. destruct (periodic (nearest ((lng + w) / (2 * PI))) (lng + w)) as [-> ->].
  unfold travel, plus, scale, point, east, north. cbn [vx vy vz]. fold S C.
  f_equal.
  - rewrite cos_plus. replace (r * (cos lng * cos w - sin lng * sin w)) with (cos lng * (r * cos w) - sin lng * (r * sin w)) by ring.
    rewrite PX, PY. unfold X, Y. ring.
  - rewrite sin_plus. replace (r * (sin lng * cos w + cos lng * sin w)) with (sin lng * (r * cos w) + cos lng * (r * sin w)) by ring.
    rewrite PX, PY. unfold X, Y. ring.
  - unfold Z. ring.
Qed.
Print Assumptions C51_travel.

(** Hence the great-circle distance covered is the requested one, up to half way
    round the Earth. *)
Theorem C51_distance (center : R * R) (x y : R) :
  - (PI / 2) < fst center < PI / 2 -> sqrt (x ^ 2 + y ^ 2) <= PI * 6371000 ->
  6371000 * acos (dot (point center) (point (calculate_latlng_from_offset center x y)))
  = sqrt (x ^ 2 + y ^ 2).
Proof.
  intros Hc Hd. rewrite C51_travel by exact Hc. set (d := sqrt (x ^ 2 + y ^ 2)) in *. cbv zeta.
  replace (dot (point center) (travel center (x / d) (y / d) (d / 6371000))) with (cos (d / 6371000)).
  - rewrite acos_cos; [field|]. split; [apply Rmult_le_pos; [apply sqrt_pos|lra]|]. lra.
  - destruct center as [lat lng]. unfold travel, plus, scale, point, east, north, dot. cbn [vx vy vz].
    set (a := d / 6371000). set (u := x / d). set (v := y / d).
    pose proof (sin2_cos2 lat) as P1. pose proof (sin2_cos2 lng) as P2. unfold Rsqr in P1, P2.
    replace (cos lat * cos lng * (cos a * (cos lat * cos lng) + sin a * (u * - sin lng + v * - (sin lat * cos lng))) +
      cos lat * sin lng * (cos a * (cos lat * sin lng) + sin a * (u * cos lng + v * - (sin lat * sin lng))) +
      sin lat * (cos a * sin lat + sin a * (u * 0 + v * cos lat)))
      with (cos a * (cos lat * cos lat * (sin lng * sin lng + cos lng * cos lng) + sin lat * sin lat)
            + sin a * v * cos lat * sin lat * (1 - (sin lng * sin lng + cos lng * cos lng))) by ring.
    rewrite P2. replace (cos lat * cos lat * 1 + sin lat * sin lat) with 1 by lra. ring.
Qed.
Print Assumptions C51_distance.

(** No offset: the centre, normalised. *)
Theorem C51_identity (lat lng : R) : - (PI / 2) < lat < PI / 2 -> - PI < lng < PI ->
  calculate_latlng_from_offset (lat, lng) 0 0 = (lat, lng).
Proof.
  intros Hl Hg. pose proof PI_RGT_0. unfold calculate_latlng_from_offset, EARTH_RADIUS. cbn [fst snd].
  replace (0 * 0 + 0 * 0) with 0 by ring. rewrite sqrt_0.
  replace (0 / (6371 * 1000)) with 0 by lra. rewrite cos_0, sin_0.
  replace (1 * sin lat + 0 * cos lat * cos (atan2 (0 / 1000) (0 / 1000))) with (sin lat) by ring.
  rewrite asin_sin by lra.
  replace (0 * cos lat * sin (atan2 (0 / 1000) (0 / 1000))) with 0 by ring.
  pose proof (sin2_cos2 lat) as P1. unfold Rsqr in P1. pose proof (cos_gt_0 lat ltac:(lra) ltac:(lra)) as C.
  assert (A0 : forall z, 0 < z -> atan2 0 z = 0).
  { intros z Hz. unfold atan2. rewrite Rltb_true by exact Hz. unfold Rdiv. rewrite Rmult_0_l. apply atan_0. }
  rewrite A0 by nra. rewrite Rplus_0_r.
  unfold normalized. cbn [fst snd].
  rewrite (Rmax_left lat), (Rmin_left lat), (Rmin_right (PI / 2) lat), Rmax_right by lra. f_equal.
  unfold remainder_near.
  assert (N : nearest (lng / (2 * PI)) = 0%Z).
  { pose proof (nearest_spec (lng / (2 * PI))) as B. set (n := nearest _) in *. clearbody n.
    assert (E : lng = lng / (2 * PI) * (2 * PI)) by (field; lra). set (q := lng / (2 * PI)) in *. clearbody q.
    assert (-1 / 2 < q < 1 / 2) by (split; nra).
    unfold Rabs in B. assert (IZR n < 1 /\ -1 < IZR n) as [H1 H2] by (destruct (Rcase_abs (q - IZR n)); split; lra).
    apply lt_IZR in H1. apply (lt_IZR (-1)) in H2. lia. }
  rewrite N. ring.
Qed.
Print Assumptions C51_identity.

(** 200 km to the north-east of 9 degrees north, 30 degrees east. *)
Example C51_witness :
  - (PI / 2) < fst (PI / 20, PI / 6) < PI / 2 /\ - PI < PI / 6 < PI /\
  sqrt (120000 ^ 2 + 160000 ^ 2) = 200000 /\ 200000 <= PI * 6371000.
Proof.
  pose proof PI_bounds. cbn [fst]. repeat split; try lra.
  replace (120000 ^ 2 + 160000 ^ 2) with (200000 * 200000) by ring. apply sqrt_square. lra.
Qed.
