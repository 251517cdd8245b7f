(** Property C99: the default reward in double precision.  [B2R f] is the real number a finite
    [f] stands for. *)
From Coq Require Import ZArith Reals Lra Lia Bool List.
From Flocq Require Import Core BinarySingleNaN.
From Verif Require Import Model.Num Model.Float64 Model.Safety Model.Balloon Model.Transforms Model.FloatFeatures Model.FloatReward.
From Verif Require Import Spec.RewardSpec Proofs.NumR Proofs.Float64Proofs Proofs.FloatWindProofs Proofs.RewardProofs.
From Verif Require Import Props.FloatProps Props.FloatFeatureProps Props.FloatCountProps.
From Verif Require Model.Reward Model.Units.
Open Scope R_scope.

(** With real numbers instead, the code is that of C17 and C18 (Model/Reward.v). *)
Theorem C99_same_code : forall (w : world R) (s : bstate R) radius dropoff halflife,
  reward exp w s radius dropoff halflife = Reward.perciatelli_reward_function w s radius dropoff halflife.
Proof.
  intros w s radius dropoff halflife. unfold reward, Reward.perciatelli_reward_function.
  unfold relative_distance, distance_sub, Units.relative_distance, FloatFeatures.distance_m, FloatFeatures.distance_km, lit. numR.
  rewrite (proj1 (proj2 (proj2 (C96_same_code (acs_power s) 100 300)))).
  set (n := sqrt _).
  replace (n + 0 + (0 + 0) * 1000 + 0 * (3048 / 10000)) with n by ring.
  replace (0 + 0 + (radius + 0) * 1000 + 0 * (3048 / 10000)) with (radius * 1000) by ring.
  replace (n - radius * 1000 + 0 + (0 + 0) * 1000 + 0 * (3048 / 10000)) with (n - radius * 1000) by ring.
  reflexivity.
Qed.
Print Assumptions C99_same_code.

(** ** Facts about real numbers *)
Lemma prod_error a a' b b' ea eb A B : Rabs (a - a') <= ea -> Rabs (b - b') <= eb ->
  Rabs b <= B -> Rabs a' <= A -> Rabs (a * b - a' * b') <= ea * B + A * eb.
Proof.
  intros H1 H2 H3 H4. replace (a * b - a' * b') with ((a - a') * b + a' * (b - b')) by ring.
  eapply Rle_trans; [apply Rabs_triang|]. rewrite !Rabs_mult.
  pose proof (Rabs_pos (a - a')). pose proof (Rabs_pos (b - b')). pose proof (Rabs_pos b). pose proof (Rabs_pos a').
  apply Rplus_le_compat; apply Rmult_le_compat; lra.
Qed.
Lemma exp_le_1 a : a <= 0 -> 0 < exp a <= 1.
Proof. intro H. split; [apply exp_pos|]. rewrite <- exp_0. destruct H as [H| ->]; [left; now apply exp_increasing|lra]. Qed.
Lemma exp_lipschitz a b : a <= 0 -> b <= 0 -> Rabs (exp a - exp b) <= Rabs (a - b).
Proof.
  assert (K : forall a b, a <= b -> b <= 0 -> 0 <= exp b - exp a <= b - a).
  { intros u v L V. pose proof (exp_le_1 v V) as [P1 P2]. destruct L as [L| ->]; [|lra].
    pose proof (exp_increasing _ _ L) as I. split; [lra|].
    pose proof (exp_ineq1_le (u - v)) as Q. replace (exp u) with (exp v * exp (u - v)) by (rewrite <- exp_plus; f_equal; ring). nra. }
  intros A B. destruct (Rle_or_lt a b) as [L|L].
  - destruct (K a b L B). rewrite !Rabs_left1 by lra. lra.
  - destruct (K b a ltac:(lra) A). rewrite !Rabs_pos_eq by lra. lra.
Qed.
Lemma sqrt_error S s a : 0 <= S -> 0 < a -> a <= sqrt s -> Rabs (sqrt S - sqrt s) <= Rabs (S - s) / a.
Proof.
  intros HS Ha Hs. pose proof (sqrt_pos S) as P.
  assert (Ps : 0 <= s). { destruct (Rle_or_lt 0 s) as [|N]; [assumption|]. rewrite sqrt_neg_0 in Hs by lra. lra. }
  assert (E : S - s = (sqrt S - sqrt s) * (sqrt S + sqrt s)).
  { rewrite <- (sqrt_sqrt S HS) at 1. rewrite <- (sqrt_sqrt s Ps) at 1. ring. }
  rewrite E, Rabs_mult, (Rabs_pos_eq (sqrt S + sqrt s)) by lra.
  pose proof (Rabs_pos (sqrt S - sqrt s)). apply Rmult_le_reg_r with a; [exact Ha|].
  unfold Rdiv. rewrite Rmult_assoc, Rinv_l, Rmult_1_r by lra. apply Rmult_le_compat_l; lra.
Qed.
Lemma sqrt_small S k : (0 <= k)%Z -> 0 <= S <= bpow radix2 k -> sqrt S <= bpow radix2 k.
Proof.
  intros K B. assert (O : 1 <= bpow radix2 k) by (change 1 with (bpow radix2 0); now apply bpow_le).
  apply Rsqr_incr_0_var; [|lra]. rewrite Rsqr_sqrt by lra. unfold Rsqr. nra.
Qed.

Lemma rnd_0 : rnd 0 = 0. Proof. unfold Float64Proofs.rnd. apply round_0. exact _. Qed.
Lemma rnd_fixed r : generic_format radix2 fexp64 r -> rnd r = r.
Proof. intro H. apply round_generic; [exact _|exact H]. Qed.
Lemma rnd_nonneg r : 0 <= r -> 0 <= rnd r.
Proof. intro H. rewrite <- rnd_0. now apply (rnd_mono 53 1024). Qed.

Section Pow.
Context (pow : float -> float -> float).
Notation N64 := (FloatProps.F pow).
Notation distance_m := (@FloatFeatures.distance_m float N64).
Notation distance_km := (@FloatFeatures.distance_km float N64).
Notation relative_distance := (@relative_distance float N64).
Notation zero := (nofZ (Num:=N64) 0).

(** ** The distance *)
Lemma plain (v : float) : is_finite v = true ->
  is_finite (distance_m v zero zero zero zero) = true /\ B2R (distance_m v zero zero zero zero) = B2R v.
Proof.
  intro Fv. unfold FloatFeatures.distance_m. rewrite no_feet, !add_is.
  assert (Z0 : nmul (Num:=N64) (Bplus mode_NE zero zero) (nofZ (Num:=N64) 1000) = B754_zero false).
  { apply B2SF_inj. vm_compute. reflexivity. }
  rewrite Z0. change zero with (@B754_zero 53 1024 false).
  destruct (zero_right v false Fv) as [F1 V1]. destruct (zero_right _ false F1) as [F2 V2]. destruct (zero_right _ false F2) as [F3 V3].
  split; [exact F3|]. now rewrite V3, V2, V1.
Qed.
Lemma radius_50 : distance_m zero zero (nofZ (Num:=N64) 50) zero zero = float_of_Z 50000.
Proof. apply B2SF_inj. vm_compute. reflexivity. Qed.

Definition sum64 (x y : R) : R := rnd (rnd (x * x) + rnd (y * y)).

Lemma distance_value (x y : float) k : (0 <= k <= 400)%Z -> within k x -> within k y ->
  is_finite (relative_distance x y) = true /\
  B2R (relative_distance x y) = rnd (sqrt (sum64 (B2R x) (B2R y))) /\
  0 <= sum64 (B2R x) (B2R y) <= bpow radix2 (2 * k + 1).
Proof.
  intros K X Y.
  destruct (within_mul 53 1024 k k x x ltac:(lia) X X) as [W1 V1].
  destruct (within_mul 53 1024 k k y y ltac:(lia) Y Y) as [W2 V2].
  destruct (within_add 53 1024 (k + k) _ _ ltac:(lia) W1 W2) as [[Fs Ls] Vs]. rewrite V1, V2 in Vs.
  fold (sum64 (B2R x) (B2R y)) in Vs.
  assert (P : 0 <= sum64 (B2R x) (B2R y)).
  { apply rnd_nonneg. apply Rplus_le_le_0_compat; apply rnd_nonneg; nra. }
  unfold FloatReward.relative_distance. change (nsqrt (Num:=N64)) with (@Bsqrt 53 1024 prec_64 emax_64 mode_NE).
  rewrite add_is, !mul_is. set (q := Bplus mode_NE _ _) in *.
  pose proof (Bsqrt_correct 53 1024 _ _ mode_NE q) as (Vq & Fq & _). cbn [round_mode] in Vq. fold (rnd (sqrt (B2R q))) in Vq.
  assert (Fq' : is_finite (Bsqrt mode_NE q) = true).
  { rewrite Fq. destruct q as [b|b| |b m e Hm]; try reflexivity; try discriminate Fs. destruct b; [exfalso|reflexivity].
    assert (N : B2R (B754_finite true m e Hm : float) < 0) by (apply F2R_lt_0; reflexivity). lra. }
  destruct (plain _ Fq') as [Fd Vd]. split; [exact Fd|]. split; [now rewrite Vd, Vq, Vs|].
  split; [exact P|]. rewrite <- Vs. apply Rle_trans with (Rabs (B2R q)); [apply Rle_abs|].
  eapply Rle_trans; [exact Ls|]. apply bpow_le. lia.
Qed.

Lemma sum_error x y k : (0 <= k <= 400)%Z -> Rabs x <= bpow radix2 k -> Rabs y <= bpow radix2 k ->
  Rabs (sum64 x y - (x * x + y * y)) <= bpow radix2 (2 * k - 52).
Proof.
  intros K X Y.
  assert (Sq : forall v, Rabs v <= bpow radix2 k -> Rabs (v * v) <= bpow radix2 (2 * k)).
  { intros v V. rewrite Rabs_mult. replace (2 * k)%Z with (k + k)%Z by lia. rewrite bpow_plus. pose proof (Rabs_pos v). nra. }
  pose proof (rnd_error 53 1024 (x * x) (2 * k) ltac:(lia) (Sq x X)) as E1.
  pose proof (rnd_error 53 1024 (y * y) (2 * k) ltac:(lia) (Sq y Y)) as E2.
  pose proof (rnd_within 53 1024 (x * x) (2 * k) ltac:(lia) (Sq x X)) as W1.
  pose proof (rnd_within 53 1024 (y * y) (2 * k) ltac:(lia) (Sq y Y)) as W2.
  assert (W3 : Rabs (rnd (x * x) + rnd (y * y)) <= bpow radix2 (2 * k + 1)).
  { eapply Rle_trans; [apply Rabs_triang|]. rewrite (bpow_plus radix2 (2 * k) 1). change (bpow radix2 1) with 2. lra. }
  pose proof (rnd_error 53 1024 _ (2 * k + 1) ltac:(lia) W3) as E3. fold (sum64 x y) in E3.
  replace (2 * k + 1 - 53 - 1)%Z with (2 * k - 53 - 1 + 1)%Z in E3 by lia.
  replace (2 * k - 52)%Z with (2 * k - 53 - 1 + 2)%Z by lia.
  rewrite bpow_plus in E3. rewrite (bpow_plus radix2 _ 2). change (bpow radix2 1) with 2 in E3. change (bpow radix2 2) with 4.
  set (u := bpow radix2 (2 * k - 53 - 1)) in *. clearbody u.
  apply Rabs_le_inv in E1, E2, E3. apply Rabs_le. lra.
Qed.

(** Inside the radius is inside. *)
Definition tick : float := binary_normalize 53 1024 prec_64 emax_64 mode_NE 1 (-22) false.
Lemma tie_down : rnd (2500000000 + / 4194304) = 2500000000.
Proof.
  destruct (value tick _ _ _ ltac:(vm_compute; reflexivity)) as [Ft Vt].
  assert (Et : B2R tick = / 4194304).
  { rewrite Vt. unfold F2R. cbn [Fnum Fexp cond_Zopp bpow]. vm_compute Z.pow_pos. lra. }
  destruct (of_Z 2500000000 ltac:(lia)) as [F V].
  assert (W1 : within 40 (float_of_Z 2500000000)).
  { split; [exact F|]. rewrite V. change (bpow radix2 40) with 1099511627776. rewrite Rabs_pos_eq; lra. }
  assert (W2 : within 40 tick).
  { split; [exact Ft|]. rewrite Et. change (bpow radix2 40) with 1099511627776. rewrite Rabs_pos_eq; lra. }
  destruct (within_add 53 1024 40 _ _ ltac:(lia) W1 W2) as [_ Vs]. rewrite V, Et in Vs. rewrite <- Vs.
  assert (E : Bplus mode_NE (float_of_Z 2500000000) tick = float_of_Z 2500000000) by (apply B2SF_inj; vm_compute; reflexivity).
  rewrite E. exact V.
Qed.
Lemma squares : forall u v : R, 0 <= u -> 0 <= v -> u + v <= 2500000000 -> rnd u + rnd v <= 2500000000 + / 4194304.
Proof.
  assert (Big : forall u v, 0 <= v -> 2147483648 <= u -> u + v <= 2500000000 -> rnd u + rnd v <= 2500000000 + / 4194304).
  { intros u v Pv Lu S.
    assert (E : Rabs (rnd u - u) <= bpow radix2 (32 - 53 - 1)).
    { apply (rnd_error 53 1024); [lia|]. change (bpow radix2 32) with 4294967296. rewrite Rabs_pos_eq; lra. }
    change (bpow radix2 (32 - 53 - 1)) with (/ 4194304) in E. apply Rabs_le_inv in E.
    assert (L : bpow radix2 31 <= rnd u).
    { rewrite <- (rnd_fixed (bpow radix2 31)) by (apply generic_format_bpow; unfold SpecFloat.fexp, SpecFloat.emin; lia).
      apply (rnd_mono 53 1024). change (bpow radix2 31) with 2147483648. lra. }
    destruct (multiple (rnd u) 31 ltac:(lia) ltac:(apply generic_format_round; exact _) L) as [m Em].
    change (bpow radix2 (31 - 52)) with (/ 2097152) in Em. change (bpow radix2 31) with 2147483648 in L.
    assert (F : generic_format radix2 fexp64 (2500000000 - rnd u + / 4194304)).
    { replace (2500000000 - rnd u + / 4194304) with (IZR (2500000000 * 4194304 - 2 * m + 1) * bpow radix2 (-22)).
      - apply multiple_format; [|lia]. assert (2147483648 * 2097152 <= m <= 2500000001 * 2097152)%Z by (split; apply le_IZR; rewrite mult_IZR; lra). lia.
      - change (bpow radix2 (-22)) with (/ 4194304). rewrite plus_IZR, minus_IZR, !mult_IZR, Em. lra. }
    assert (V : rnd v <= 2500000000 - rnd u + / 4194304) by (rewrite <- (rnd_fixed _ F); apply (rnd_mono 53 1024); lra).
    lra. }
  intros u v Pu Pv S. destruct (Rle_or_lt 2147483648 u) as [U|U]; [now apply Big|].
  destruct (Rle_or_lt 2147483648 v) as [V|V]; [rewrite Rplus_comm; apply Big; lra|].
  assert (E : forall z, 0 <= z -> z < 2147483648 -> Rabs (rnd z - z) <= / 8388608).
  { intros z P L. change (/ 8388608) with (bpow radix2 (31 - 53 - 1)). apply (rnd_error 53 1024); [lia|].
    change (bpow radix2 31) with 2147483648. rewrite Rabs_pos_eq; lra. }
  pose proof (E u Pu U) as E1. pose proof (E v Pv V) as E2. apply Rabs_le_inv in E1, E2. lra.
Qed.
Lemma inside (x y : float) : within 400 x -> within 400 y ->
  sqrt (B2R x * B2R x + B2R y * B2R y) <= 50000 -> B2R (relative_distance x y) <= 50000.
Proof.
  intros X Y H. set (s := B2R x * B2R x + B2R y * B2R y) in *.
  assert (Ps : 0 <= s) by (unfold s; nra). pose proof (sqrt_pos s) as P.
  assert (Es : s = sqrt s * sqrt s) by (symmetry; now apply sqrt_sqrt).
  assert (Ls : s <= 2500000000) by nra.
  destruct (distance_value x y 400 ltac:(lia) X Y) as (_ & V & B).
  pose proof (squares (B2R x * B2R x) (B2R y * B2R y) ltac:(nra) ltac:(nra) Ls) as Q.
  pose proof (rnd_mono 53 1024 _ _ Q) as M. rewrite tie_down in M. fold (sum64 (B2R x) (B2R y)) in M.
  rewrite V. rewrite <- (rnd_fixed 50000) by (apply (whole_format 50000); lia). apply (rnd_mono 53 1024).
  apply Rsqr_incr_0_var; [|lra]. rewrite Rsqr_sqrt by lra. unfold Rsqr. lra.
Qed.
(** Outside it by a nanometre is outside. *)
Lemma outside (x y : float) : within 400 x -> within 400 y ->
  50000 + / 1000000000 <= sqrt (B2R x * B2R x + B2R y * B2R y) -> 50000 < B2R (relative_distance x y).
Proof.
  intros X Y H. set (s := B2R x * B2R x + B2R y * B2R y) in *.
  assert (Ps : 0 <= s) by (unfold s; nra).
  assert (Es : s = sqrt s * sqrt s) by (symmetry; now apply sqrt_sqrt).
  assert (Ls : 2500000000 + 1 / 20000 <= s) by nra.
  destruct (distance_value x y 400 ltac:(lia) X Y) as (_ & V & B). rewrite V.
  assert (Far : forall u v, bpow radix2 16 <= Rabs u -> bpow radix2 32 <= rnd (rnd (u * u) + rnd (v * v))).
  { intros u v U. assert (Q : bpow radix2 32 <= u * u).
    { change (bpow radix2 32) with 4294967296. change (bpow radix2 16) with 65536 in U.
      replace (u * u) with (Rabs u * Rabs u) by (rewrite <- Rabs_mult; apply Rabs_pos_eq; nra). nra. }
    assert (F32 : rnd (bpow radix2 32) = bpow radix2 32) by (apply rnd_fixed; apply generic_format_bpow; unfold SpecFloat.fexp, SpecFloat.emin; lia).
    pose proof (rnd_mono 53 1024 _ _ Q) as M. rewrite F32 in M.
    pose proof (rnd_nonneg (v * v) ltac:(nra)). rewrite <- F32. apply (rnd_mono 53 1024). lra. }
  assert (Fin : bpow radix2 32 <= sum64 (B2R x) (B2R y) -> 50000 < rnd (sqrt (sum64 (B2R x) (B2R y)))).
  { intro L. apply Rlt_le_trans with 65536; [lra|]. rewrite <- (rnd_fixed 65536) by (apply (whole_format 65536); lia).
    apply (rnd_mono 53 1024). apply Rsqr_incr_0_var; [|apply sqrt_pos]. rewrite Rsqr_sqrt by lra. unfold Rsqr.
    change (bpow radix2 32) with 4294967296 in L. lra. }
  destruct (Rle_or_lt (bpow radix2 16) (Rabs (B2R x))) as [Lx|Lx]; [apply Fin; now apply Far|].
  destruct (Rle_or_lt (bpow radix2 16) (Rabs (B2R y))) as [Ly|Ly].
  { apply Fin. unfold sum64. rewrite Rplus_comm. now apply Far. }
  pose proof (sum_error (B2R x) (B2R y) 16 ltac:(lia) ltac:(lra) ltac:(lra)) as E. fold s in E.
  change (bpow radix2 (2 * 16 - 52)) with (/ 1048576) in E. apply Rabs_le_inv in E.
  assert (Fm : generic_format radix2 fexp64 (50000 + / 68719476736)).
  { replace (50000 + / 68719476736) with (IZR (50000 * 68719476736 + 1) * bpow radix2 (-36)).
    - apply multiple_format; lia.
    - change (bpow radix2 (-36)) with (/ 68719476736). rewrite plus_IZR, mult_IZR. lra. }
  apply Rlt_le_trans with (50000 + / 68719476736); [lra|]. rewrite <- (rnd_fixed _ Fm). apply (rnd_mono 53 1024).
  apply Rsqr_incr_0_var; [|apply sqrt_pos]. rewrite Rsqr_sqrt by lra. unfold Rsqr. lra.
Qed.

(** ** The literals *)
Notation c64 := (ndiv (Num:=N64) (nopp (Num:=N64) (lit (N:=N64) 69314718056 100000000000)) (nofZ (Num:=N64) 100)).
Notation dropoff64 := (lit (N:=N64) 4 10).
Lemma coefficient : is_finite c64 = true /\ B2R c64 < 0 /\ Rabs (B2R c64 - - (69314718056 / 10000000000000)) <= / 2 ^ 58.
Proof.
  destruct (value c64 _ _ _ ltac:(vm_compute; reflexivity)) as [F V]. split; [exact F|]. rewrite V. unfold F2R.
  cbn [Fnum Fexp cond_Zopp bpow]. vm_compute Z.pow_pos. rewrite opp_IZR. split; [lra|]. cbn [Rpow_def.pow]. apply Rabs_le. lra.
Qed.
Lemma dropoff_value : is_finite dropoff64 = true /\ Rabs (B2R dropoff64 - 4 / 10) <= / 2 ^ 54.
Proof.
  destruct (value dropoff64 _ _ _ ltac:(vm_compute; reflexivity)) as [F V]. split; [exact F|]. rewrite V. unfold F2R.
  cbn [Fnum Fexp cond_Zopp bpow]. vm_compute Z.pow_pos. cbn [Rpow_def.pow]. apply Rabs_le. lra.
Qed.
Lemma lit_95 : is_finite (lit (N:=N64) 95 100) = true /\ Rabs (B2R (lit (N:=N64) 95 100) - 95 / 100) <= / 2 ^ 53.
Proof.
  destruct (value (lit (N:=N64) 95 100) _ _ _ ltac:(vm_compute; reflexivity)) as [F V]. split; [exact F|]. rewrite V. unfold F2R.
  cbn [Fnum Fexp cond_Zopp bpow]. vm_compute Z.pow_pos. cbn [Rpow_def.pow]. apply Rabs_le. lra.
Qed.
Lemma lit_3 : is_finite (lit (N:=N64) 3 10) = true /\ Rabs (B2R (lit (N:=N64) 3 10) - 3 / 10) <= / 2 ^ 54.
Proof.
  destruct (value (lit (N:=N64) 3 10) _ _ _ ltac:(vm_compute; reflexivity)) as [F V]. split; [exact F|]. rewrite V. unfold F2R.
  cbn [Fnum Fexp cond_Zopp bpow]. vm_compute Z.pow_pos. cbn [Rpow_def.pow]. apply Rabs_le. lra.
Qed.
Lemma p54 : / 2 ^ 54 = bpow radix2 (0 - 53 - 1).
Proof. cbn. lra. Qed.

(** ** math.exp *)
(** What is asked of the C library: at and below 0 a finite result between 0 and 1. *)
Definition exp_in_range (e : float -> float) : Prop := forall f : float, is_finite f = true -> B2R f <= 0 ->
  is_finite (e f) = true /\ 0 <= B2R (e f) <= 1.
(** And that it is accurate to 2^-50. *)
Definition exp_accurate (e : float -> float) : Prop := forall f : float, is_finite f = true -> B2R f <= 0 ->
  Rabs (B2R (e f) - exp (B2R f)) <= / 2 ^ 50.

(** ** The two factors of the reward *)
Section Exp.
Context (e64 : float -> float).

Definition base64 (x y : float) : float :=
  if Bleb (relative_distance x y) (float_of_Z 50000) then float_of_Z 1
  else nmul (Num:=N64) dropoff64
         (e64 (nmul (Num:=N64) c64 (distance_km (distance_sub (N:=N64) (relative_distance x y) (float_of_Z 50000))))).
Definition factor64 (scale : float) : float :=
  nsub (Num:=N64) (lit (N:=N64) 95 100) (nmul (Num:=N64) (lit (N:=N64) 3 10) scale).

Lemma reward_split (w : world float) (s : bstate float) :
  reward_default (N:=N64) e64 w s =
  if Reward.is_down (last_command s) && negb (excess_energy (N:=N64) w s)
  then option_map (fun scale => nmul (Num:=N64) (base64 (Balloon.x s) (Balloon.y s)) (factor64 scale))
         (rescale_saturated (N:=N64) (acs_power s) (nofZ (Num:=N64) 100) (nofZ (Num:=N64) 300))
  else Some (base64 (Balloon.x s) (Balloon.y s)).
Proof.
  unfold reward_default, reward. rewrite radius_50.
  assert (Z0 : neqb (Num:=N64) (nofZ (Num:=N64) 100) zero = false) by reflexivity. rewrite Z0.
  unfold base64. rewrite le_is. destruct (Bleb _ _), (_ && _); try reflexivity;
    destruct (rescale_saturated _ _ _); reflexivity.
Qed.

(** The argument of exp. *)
Lemma km_value (x y : float) k : (16 <= k <= 400)%Z -> within k x -> within k y -> 50000 < B2R (relative_distance x y) ->
  let d := B2R (relative_distance x y) in
  let km := rnd (rnd (d - 50000) / 1000) in
  let z := nmul (Num:=N64) c64 (distance_km (distance_sub (N:=N64) (relative_distance x y) (float_of_Z 50000))) in
  d <= bpow radix2 (2 * k + 1) /\ 0 <= km <= bpow radix2 (2 * k + 2) /\ is_finite z = true /\ B2R z = rnd (B2R c64 * km) /\ B2R z <= 0.
Proof.
  intros K X Y L. cbv zeta. destruct (distance_value x y k ltac:(lia) X Y) as (Fd & Vd & Bs).
  set (D := relative_distance x y) in *.
  assert (Ld : B2R D <= bpow radix2 (2 * k + 1)).
  { apply Rle_trans with (Rabs (B2R D)); [apply Rle_abs|]. rewrite Vd. apply (rnd_within 53 1024); [lia|].
    rewrite Rabs_pos_eq by apply sqrt_pos. apply sqrt_small; [lia|exact Bs]. }
  split; [exact Ld|].
  assert (WD : within (2 * k + 1) D) by (split; [exact Fd|]; rewrite Rabs_pos_eq by lra; exact Ld).
  destruct (of_Z 50000 ltac:(lia)) as [F5 V5].
  assert (W5 : within (2 * k + 1) (float_of_Z 50000)).
  { split; [exact F5|]. rewrite V5, Rabs_pos_eq by lra. apply Rle_trans with (bpow radix2 16); [change (bpow radix2 16) with 65536; lra|apply bpow_le; lia]. }
  destruct (within_sub 53 1024 (2 * k + 1) D _ ltac:(lia) WD W5) as [[Fm Lm] Vm]. rewrite V5 in Vm.
  destruct (plain _ Fm) as [Fp Vp]. rewrite Vm in Vp.
  unfold distance_sub. rewrite (sub_is pow). set (m := distance_m _ _ _ _ _) in *.
  assert (Pm : 0 <= rnd (B2R D - 50000) <= bpow radix2 (2 * k + 2)).
  { split; [apply rnd_nonneg; lra|]. apply Rle_trans with (Rabs (rnd (B2R D - 50000))); [apply Rle_abs|].
    rewrite <- Vm. replace (2 * k + 2)%Z with (2 * k + 1 + 1)%Z by lia. exact Lm. }
  destruct thousand as [Ft Vt].
  pose proof (div_computes 53 1024 m _ Fp Ft ltac:(rewrite Vt; lra)) as C. rewrite Vp, Vt in C.
  assert (Q : 0 <= rnd (B2R D - 50000) / 1000 <= bpow radix2 (2 * k + 2)) by lra.
  destruct (computes_within 53 1024 _ _ (2 * k + 2) ltac:(lia) C) as [Wk Vk]; [rewrite Rabs_pos_eq by lra; lra|].
  unfold FloatFeatures.distance_km. rewrite (div_is pow m), mul_is. change (nofZ (Num:=N64) 1000) with (float_of_Z 1000).
  set (km := Bdiv mode_NE m (float_of_Z 1000)) in *.
  assert (Pk : 0 <= rnd (rnd (B2R D - 50000) / 1000) <= bpow radix2 (2 * k + 2)).
  { split; [apply rnd_nonneg; lra|]. rewrite <- Vk. apply Rle_trans with (Rabs (B2R km)); [apply Rle_abs|apply Wk]. }
  split; [exact Pk|].
  destruct coefficient as (Fc & Nc & Ec).
  assert (Wc : within 0 c64).
  { split; [exact Fc|]. change (bpow radix2 0) with 1. cbn [Rpow_def.pow] in Ec. apply Rabs_le_inv in Ec. rewrite Rabs_left1 by lra. lra. }
  destruct (within_mul 53 1024 0 (2 * k + 2) c64 km ltac:(lia) Wc Wk) as [[Fz _] Vz]. rewrite Vk in Vz.
  split; [exact Fz|]. split; [exact Vz|]. rewrite Vz, <- rnd_0. apply (rnd_mono 53 1024). nra.
Qed.

Lemma base_range (x y : float) : exp_in_range e64 -> within 400 x -> within 400 y ->
  is_finite (base64 x y) = true /\ 0 <= B2R (base64 x y) <= 1 /\
  (B2R (relative_distance x y) <= 50000 -> B2R (base64 x y) = 1) /\
  (50000 < B2R (relative_distance x y) -> B2R (base64 x y) <= 41 / 100).
Proof.
  intros He X Y. unfold base64. destruct (distance_value x y 400 ltac:(lia) X Y) as (Fd & _ & _).
  destruct (of_Z 50000 ltac:(lia)) as [F5 V5]. rewrite Bleb_correct by assumption. rewrite V5.
  destruct (Rle_bool_spec (B2R (relative_distance x y)) 50000) as [L|L].
  - destruct one_value as [F1 V1]. rewrite V1. repeat split; try assumption; lra.
  - destruct (km_value x y 400 ltac:(lia) X Y L) as (_ & _ & Fz & _ & Nz).
    destruct (He _ Fz Nz) as [Fe Be]. set (ev := e64 _) in *. clearbody ev.
    destruct dropoff_value as [Fo Eo]. cbn [Rpow_def.pow] in Eo. apply Rabs_le_inv in Eo.
    assert (Wo : within 0 dropoff64) by (split; [exact Fo|]; change (bpow radix2 0) with 1; rewrite Rabs_pos_eq; lra).
    assert (We : within 0 ev) by (split; [exact Fe|]; change (bpow radix2 0) with 1; rewrite Rabs_pos_eq; lra).
    rewrite mul_is. destruct (within_mul 53 1024 0 0 _ _ ltac:(lia) Wo We) as [[Fr _] Vr]. rewrite Vr.
    assert (U : rnd (B2R dropoff64 * B2R ev) <= B2R dropoff64).
    { rewrite <- (rnd_of 53 1024 dropoff64) at 2. apply (rnd_mono 53 1024). nra. }
    pose proof (rnd_nonneg (B2R dropoff64 * B2R ev) ltac:(nra)).
    repeat split; try assumption; lra.
Qed.

Lemma factor_range (scale : float) : is_finite scale = true -> 0 <= B2R scale <= 1 ->
  is_finite (factor64 scale) = true /\ / 2 <= B2R (factor64 scale) <= 951 / 1000 /\
  Rabs (B2R (factor64 scale) - (95 / 100 - 3 / 10 * B2R scale)) <= / 2 ^ 50.
Proof.
  intros Fs Bs. unfold factor64. rewrite mul_is, sub_is.
  destruct lit_95 as [F9 E9]. destruct lit_3 as [F3 E3]. set (a := lit 95 100) in *. set (b := lit 3 10) in *.
  cbn [Rpow_def.pow] in E9, E3. apply Rabs_le_inv in E9, E3.
  assert (Wb : within 0 b) by (split; [exact F3|]; change (bpow radix2 0) with 1; rewrite Rabs_pos_eq; lra).
  assert (Ws : within 0 scale) by (split; [exact Fs|]; change (bpow radix2 0) with 1; rewrite Rabs_pos_eq; lra).
  destruct (within_mul 53 1024 0 0 _ _ ltac:(lia) Wb Ws) as [[Fm _] Vm].
  assert (Em : Rabs (rnd (B2R b * B2R scale) - B2R b * B2R scale) <= bpow radix2 (0 - 53 - 1)).
  { apply (rnd_error 53 1024); [lia|]. change (bpow radix2 0) with 1. rewrite Rabs_pos_eq; nra. }
  rewrite <- p54 in Em. cbn [Rpow_def.pow] in Em. apply Rabs_le_inv in Em.
  assert (Q : -1 / 1000000000000000 <= B2R b * B2R scale - 3 / 10 * B2R scale <= 1 / 1000000000000000) by nra.
  assert (Pb : 0 <= B2R b * B2R scale) by nra. pose proof (rnd_nonneg _ Pb) as Pm.
  set (m := Bmult mode_NE b scale) in *. rewrite <- Vm in Em, Pm.
  assert (Wa : within 0 a) by (split; [exact F9|]; change (bpow radix2 0) with 1; rewrite Rabs_pos_eq; lra).
  assert (Wm : within 0 m) by (split; [exact Fm|]; change (bpow radix2 0) with 1; rewrite Rabs_pos_eq; lra).
  destruct (within_sub 53 1024 0 _ _ ltac:(lia) Wa Wm) as [[Ff _] Vf]. split; [exact Ff|].
  assert (Es : Rabs (rnd (B2R a - B2R m) - (B2R a - B2R m)) <= bpow radix2 (0 - 53 - 1)).
  { apply (rnd_error 53 1024); [lia|]. change (bpow radix2 0) with 1. rewrite Rabs_pos_eq; lra. }
  rewrite <- p54 in Es. cbn [Rpow_def.pow] in Es. apply Rabs_le_inv in Es. rewrite Vf.
  split; [lra|]. cbn [Rpow_def.pow]. apply Rabs_le. nra.
Qed.

(** The reward lies in the announced range [0, 1].  It is 1 within the radius and without the
    penalty; it is not from a nanometre outside the radius, nor with the penalty. *)
Theorem C99_range : forall (w : world float) (s : bstate float),
  exp_in_range e64 ->
  is_finite (Balloon.x s) = true -> Rabs (B2R (Balloon.x s)) <= 2 ^ 400 ->
  is_finite (Balloon.y s) = true -> Rabs (B2R (Balloon.y s)) <= 2 ^ 400 ->
  is_finite (acs_power s) = true -> Rabs (B2R (acs_power s)) <= 1048576 ->
  let distance := sqrt (B2R (Balloon.x s) ^ 2 + B2R (Balloon.y s) ^ 2) in
  let penalty := last_command s = DOWN /\ excess_energy (N:=N64) w s = false in
  exists r, reward_default (N:=N64) e64 w s = Some r /\ is_finite r = true /\ 0 <= B2R r <= 1 /\
    (distance <= 50000 -> ~ penalty -> B2R r = 1) /\
    (50000 + / 1000000000 <= distance -> B2R r <= 41 / 100) /\
    (penalty -> B2R r <= 951 / 1000).
Proof.
  intros w s He Fx Lx Fy Ly Fp Lp distance penalty.
  assert (P400 : 2 ^ 400 = bpow radix2 400) by (rewrite bpow_powerRZ; reflexivity). rewrite P400 in Lx, Ly.
  assert (X : within 400 (Balloon.x s)) by (split; assumption). assert (Y : within 400 (Balloon.y s)) by (split; assumption).
  destruct (base_range _ _ He X Y) as (Fb & Bb & In & Out).
  assert (Ed : distance = sqrt (B2R (Balloon.x s) * B2R (Balloon.x s) + B2R (Balloon.y s) * B2R (Balloon.y s))) by (unfold distance; f_equal; ring).
  rewrite reward_split. set (b := base64 (Balloon.x s) (Balloon.y s)) in *.
  destruct (Reward.is_down (last_command s) && negb (excess_energy (N:=N64) w s)) eqn:Pen.
  - apply andb_prop in Pen. destruct Pen as [P1 P2].
    assert (Hp : penalty) by (split; [destruct (last_command s); try discriminate P1; reflexivity|destruct (excess_energy w s); [discriminate P2|reflexivity]]).
    destruct (saturated_error pow (acs_power s) 100 300 Fp Lp ltac:(lia) ltac:(lia) ltac:(lia)) as (scale & Es & Fs & Bs & _).
    change (nofZ (Num:=N64)) with float_of_Z. rewrite Es. cbn [option_map]. eexists. split; [reflexivity|].
    destruct (factor_range scale Fs Bs) as (Ff & Bf & _). rewrite mul_is.
    assert (Wb : within 0 b) by (split; [exact Fb|]; change (bpow radix2 0) with 1; rewrite Rabs_pos_eq; lra).
    assert (Wf : within 0 (factor64 scale)) by (split; [exact Ff|]; change (bpow radix2 0) with 1; rewrite Rabs_pos_eq; lra).
    destruct (within_mul 53 1024 0 0 _ _ ltac:(lia) Wb Wf) as [[Fr _] Vr]. rewrite Vr.
    set (v := B2R b * B2R (factor64 scale)) in *.
    assert (U1 : rnd v <= B2R b) by (rewrite <- (rnd_of 53 1024 b); apply (rnd_mono 53 1024); unfold v; nra).
    assert (U2 : rnd v <= B2R (factor64 scale)) by (rewrite <- (rnd_of 53 1024 (factor64 scale)); apply (rnd_mono 53 1024); unfold v; nra).
    pose proof (rnd_nonneg v ltac:(unfold v; nra)) as U3.
    split; [exact Fr|]. split; [lra|]. split; [intros _ N; contradiction|]. split; [|intros _; lra].
    intro L. rewrite Ed in L. specialize (Out (outside _ _ X Y L)). lra.
  - eexists. split; [reflexivity|]. split; [exact Fb|]. split; [exact Bb|].
    split; [|split].
    + intros L _. rewrite Ed in L. apply In. now apply inside.
    + intros L. rewrite Ed in L. apply Out. now apply outside.
    + intros [P1 P2]. rewrite P1, P2 in Pen. discriminate Pen.
Qed.

(** ** Accuracy *)
Lemma base_error (x y : float) : exp_in_range e64 -> exp_accurate e64 ->
  within 25 x -> within 25 y -> let d := sqrt (B2R x * B2R x + B2R y * B2R y) in
  50000 + / 1000000000 <= d ->
  Rabs (B2R (base64 x y) - 4 / 10 * exp (- (69314718056 / 10000000000000) * ((d - 50000) / 1000))) <= 1 / 10000000000.
Proof.
  intros He Ha X Y d Hd.
  assert (X4 : within 400 x) by (apply (within_weaken 53 1024 25); [exact X|lia]).
  assert (Y4 : within 400 y) by (apply (within_weaken 53 1024 25); [exact Y|lia]).
  pose proof (outside _ _ X4 Y4 Hd) as L.
  destruct (distance_value x y 25 ltac:(lia) X Y) as (Fd & Vd & Bs).
  pose proof (sum_error (B2R x) (B2R y) 25 ltac:(lia) (proj2 X) (proj2 Y)) as Es.
  destruct (km_value x y 25 ltac:(lia) X Y L) as (_ & Bk & Fz & Vz & Nz).
  unfold base64. destruct (of_Z 50000 ltac:(lia)) as [F5 V5]. rewrite Bleb_correct by assumption. rewrite V5, Rle_bool_false by exact L.
  destruct (He _ Fz Nz) as [Fe Be]. pose proof (Ha _ Fz Nz) as Ee. set (z := nmul (Num:=N64) c64 _) in *. set (ev := e64 z) in *.
  set (D := relative_distance x y) in *. set (S := sum64 (B2R x) (B2R y)) in *.
  (* the distance *)
  set (t := B2R x * B2R x + B2R y * B2R y) in *.
  change (bpow radix2 (2 * 25 - 52)) with (/ 4) in Es.
  assert (E1 : Rabs (sqrt S - d) <= 5 / 1000000).
  { eapply Rle_trans; [apply (sqrt_error S t 50000); [lra|lra|fold d; lra]|]. lra. }
  assert (Bt : 0 <= t <= 2251799813685248).
  { destruct X as [_ X], Y as [_ Y]. change (bpow radix2 25) with 33554432 in X, Y. apply Rabs_le_inv in X, Y. unfold t. nra. }
  assert (Bd : d <= 67108864).
  { unfold d. apply Rsqr_incr_0_var; [|lra]. rewrite Rsqr_sqrt by lra. unfold Rsqr. lra. }
  apply Rabs_le_inv in E1.
  assert (E2 : Rabs (rnd (sqrt S) - sqrt S) <= bpow radix2 (27 - 53 - 1)).
  { apply (rnd_error 53 1024); [lia|]. change (bpow radix2 27) with 134217728. rewrite Rabs_pos_eq; lra. }
  change (bpow radix2 (27 - 53 - 1)) with (/ 134217728) in E2. apply Rabs_le_inv in E2. rewrite <- Vd in E2.
  assert (E3 : Rabs (rnd (B2R D - 50000) - (B2R D - 50000)) <= bpow radix2 (27 - 53 - 1)).
  { apply (rnd_error 53 1024); [lia|]. change (bpow radix2 27) with 134217728. rewrite Rabs_pos_eq; lra. }
  change (bpow radix2 (27 - 53 - 1)) with (/ 134217728) in E3. apply Rabs_le_inv in E3.
  set (u := rnd (B2R D - 50000)) in *.
  assert (E4 : Rabs (rnd (u / 1000) - u / 1000) <= bpow radix2 (17 - 53 - 1)).
  { apply (rnd_error 53 1024); [lia|]. change (bpow radix2 17) with 131072. assert (0 <= u) by (apply rnd_nonneg; lra). rewrite Rabs_pos_eq; lra. }
  change (bpow radix2 (17 - 53 - 1)) with (/ 137438953472) in E4. apply Rabs_le_inv in E4.
  set (km := rnd (u / 1000)) in *. set (km' := (d - 50000) / 1000).
  assert (Ek : Rabs (km - km') <= 6 / 1000000000) by (apply Rabs_le; unfold km'; lra).
  assert (Bkm : 0 <= km' <= 67109) by (unfold km'; lra).
  assert (Bk2 : Rabs km <= 131072) by (apply Rabs_le_inv in Ek; apply Rabs_le; lra).
  (* the argument of exp *)
  destruct coefficient as (Fc & Nc & Ec). set (c := c64) in *.
  set (c' := - (69314718056 / 10000000000000)) in *.
  assert (Bc' : Rabs c' <= 7 / 1000) by (unfold c'; apply Rabs_le; lra).
  pose proof (prod_error (B2R c) c' km km' _ _ _ _ Ec Ek Bk2 Bc') as Ep.
  assert (Ep' : Rabs (B2R c * km - c' * km') <= 1 / 20000000000) by (eapply Rle_trans; [exact Ep|]; cbn [Rpow_def.pow]; lra).
  assert (Bz' : -470 <= c' * km' <= 0) by (unfold c'; nra).
  apply Rabs_le_inv in Ep'.
  assert (E5 : Rabs (rnd (B2R c * km) - B2R c * km) <= bpow radix2 (9 - 53 - 1)).
  { apply (rnd_error 53 1024); [lia|]. change (bpow radix2 9) with 512. apply Rabs_le. lra. }
  change (bpow radix2 (9 - 53 - 1)) with (/ 35184372088832) in E5. apply Rabs_le_inv in E5. rewrite <- Vz in E5.
  assert (Ez : Rabs (B2R z - c' * km') <= 1 / 10000000000 * (6 / 10)) by (apply Rabs_le; lra).
  (* exp *)
  pose proof (exp_lipschitz (B2R z) (c' * km') Nz ltac:(lra)) as El.
  pose proof (exp_le_1 (c' * km') ltac:(lra)) as Bx.
  cbn [Rpow_def.pow] in Ee. apply Rabs_le_inv in Ee, Ez. 
  assert (El' : Rabs (exp (B2R z) - exp (c' * km')) <= 1 / 10000000000 * (6 / 10)).
  { eapply Rle_trans; [exact El|]. apply Rabs_le. lra. }
  apply Rabs_le_inv in El'.
  assert (Ev : Rabs (B2R ev - exp (c' * km')) <= 1 / 10000000000 * (7 / 10)) by (apply Rabs_le; lra).
  (* the product *)
  destruct dropoff_value as [Fo Eo].
  assert (Bo : 0 <= B2R dropoff64 <= 1 / 2) by (cbn [Rpow_def.pow] in Eo; apply Rabs_le_inv in Eo; lra).
  assert (Wo : within 0 dropoff64) by (split; [exact Fo|]; change (bpow radix2 0) with 1; rewrite Rabs_pos_eq; lra).
  assert (We : within 0 ev) by (split; [exact Fe|]; change (bpow radix2 0) with 1; rewrite Rabs_pos_eq; lra).
  rewrite mul_is. destruct (within_mul 53 1024 0 0 _ _ ltac:(lia) Wo We) as [_ Vr]. rewrite Vr.
  assert (E6 : Rabs (rnd (B2R dropoff64 * B2R ev) - B2R dropoff64 * B2R ev) <= bpow radix2 (0 - 53 - 1)).
  { apply (rnd_error 53 1024); [lia|]. change (bpow radix2 0) with 1. rewrite Rabs_pos_eq; nra. }
  rewrite <- p54 in E6. cbn [Rpow_def.pow] in E6. apply Rabs_le_inv in E6.
  assert (B1 : Rabs (B2R ev) <= 1) by (rewrite Rabs_pos_eq; lra).
  assert (B4 : Rabs (4 / 10) <= 4 / 10) by (rewrite Rabs_pos_eq; lra).
  pose proof (prod_error (B2R dropoff64) (4 / 10) (B2R ev) (exp (c' * km')) _ _ _ _ Eo Ev B1 B4) as E7.
  cbn [Rpow_def.pow] in E7. apply Rabs_le_inv in E7. apply Rabs_le. lra.
Qed.

(** The reward is the documented one to within 1e-9, unless the position is outside the radius
    by less than a nanometre. *)
Theorem C99_accuracy : forall (w : world float) (s : bstate float),
  exp_in_range e64 -> exp_accurate e64 ->
  is_finite (Balloon.x s) = true -> Rabs (B2R (Balloon.x s)) <= 33554432 ->
  is_finite (Balloon.y s) = true -> Rabs (B2R (Balloon.y s)) <= 33554432 ->
  is_finite (acs_power s) = true -> Rabs (B2R (acs_power s)) <= 1048576 ->
  let d := RewardSpec.distance_km (B2R (Balloon.x s)) (B2R (Balloon.y s)) in
  d <= 50 \/ 50 + / 1000000000000 <= d ->
  exists r half base factor, reward_default (N:=N64) e64 w s = Some r /\
    Rabs (half - 1 / 2) <= 1 / 100000000000 /\
    is_distance_reward half 50 (4 / 10) 100 d base /\
    (last_command s = DOWN /\ excess_energy (N:=N64) w s = false -> is_power_factor (B2R (acs_power s)) factor) /\
    (~ (last_command s = DOWN /\ excess_energy (N:=N64) w s = false) -> factor = 1) /\
    Rabs (B2R r - base * factor) <= 1 / 1000000000.
Proof.
  intros w s He Ha Fx Lx Fy Ly Fp Lp d Hd.
  assert (X : within 25 (Balloon.x s)) by (split; assumption). assert (Y : within 25 (Balloon.y s)) by (split; assumption).
  assert (X4 : within 400 (Balloon.x s)) by (apply (within_weaken 53 1024 25); [exact X|lia]).
  assert (Y4 : within 400 (Balloon.y s)) by (apply (within_weaken 53 1024 25); [exact Y|lia]).
  destruct (base_range _ _ He X4 Y4) as (Fb & Bb & In & _).
  set (m := sqrt (B2R (Balloon.x s) * B2R (Balloon.x s) + B2R (Balloon.y s) * B2R (Balloon.y s))).
  assert (Ed : d = m / 1000) by (unfold d, RewardSpec.distance_km, m; do 2 f_equal; ring).
  assert (Base : exists base, is_distance_reward half_const 50 (4 / 10) 100 d base /\ 0 <= base <= 1 /\
    Rabs (B2R (base64 (Balloon.x s) (Balloon.y s)) - base) <= 1 / 10000000000).
  { destruct (Rle_or_lt d 50) as [L|L].
    - exists 1. split; [left; split; [exact L|reflexivity]|]. split; [lra|].
      rewrite In; [unfold Rminus; rewrite Rplus_opp_r, Rabs_R0; lra|]. apply inside; [exact X4|exact Y4|]. fold m. lra.
    - exists (4 / 10 * Rpower half_const ((d - 50) / 100)). split; [right; split; [exact L|reflexivity]|].
      destruct Hd as [Hd|Hd]; [lra|]. rewrite half_const_power.
      assert (Ee : - (69314718056 / 100000000000) * ((d - 50) / 100) = - (69314718056 / 10000000000000) * ((m - 50000) / 1000)) by (rewrite Ed; field).
      rewrite Ee. split.
      + pose proof (exp_le_1 (- (69314718056 / 10000000000000) * ((m - 50000) / 1000)) ltac:(nra)). lra.
      + apply base_error; try assumption. fold m. lra. }
  destruct Base as (base & Sb & Bb' & Eb). set (b := base64 (Balloon.x s) (Balloon.y s)) in *.
  rewrite reward_split. fold b.
  destruct (Reward.is_down (last_command s) && negb (excess_energy (N:=N64) w s)) eqn:Pen.
  - apply andb_prop in Pen. destruct Pen as [P1 P2].
    assert (Hp : last_command s = DOWN /\ excess_energy (N:=N64) w s = false)
      by (split; [destruct (last_command s); try discriminate P1; reflexivity|destruct (excess_energy w s); [discriminate P2|reflexivity]]).
    destruct (saturated_error pow (acs_power s) 100 300 Fp Lp ltac:(lia) ltac:(lia) ltac:(lia)) as (scale & Es & Fs & Bs & Esc).
    change (nofZ (Num:=N64)) with float_of_Z. rewrite Es. cbn [option_map].
    destruct (factor_range scale Fs Bs) as (Ff & Bf & Ef).
    set (cl := clipped ((B2R (acs_power s) - 100) / (300 - 100))) in *.
    exists (nmul (Num:=N64) b (factor64 scale)), half_const, base, (95 / 100 - 3 / 10 * cl).
    split; [reflexivity|]. split; [exact half_const_close|]. split; [exact Sb|].
    assert (Bcl : 0 <= cl <= 1).
    { unfold cl, clipped. split; [apply Rmin_glb; [apply Rmax_r|lra]|apply Rmin_r]. }
    split; [|split; [intro N; contradiction|]].
    + intros _. unfold is_power_factor, cl, clipped. apply Rmin_case_strong; apply Rmax_case_strong; intros; lra.
    + rewrite mul_is.
      assert (Wb : within 0 b) by (split; [exact Fb|]; change (bpow radix2 0) with 1; rewrite Rabs_pos_eq; lra).
      assert (Wf : within 0 (factor64 scale)) by (split; [exact Ff|]; change (bpow radix2 0) with 1; rewrite Rabs_pos_eq; lra).
      destruct (within_mul 53 1024 0 0 _ _ ltac:(lia) Wb Wf) as [_ Vr]. rewrite Vr.
      assert (E6 : Rabs (rnd (B2R b * B2R (factor64 scale)) - B2R b * B2R (factor64 scale)) <= bpow radix2 (0 - 53 - 1)).
      { apply (rnd_error 53 1024); [lia|]. change (bpow radix2 0) with 1. rewrite Rabs_pos_eq; nra. }
      rewrite <- p54 in E6. cbn [Rpow_def.pow] in E6, Ef. change (2 * bpow radix2 (21 - 53 - 1)) with (2 * / 8589934592) in Esc.
      apply Rabs_le_inv in E6, Ef, Esc.
      assert (Eff : Rabs (B2R (factor64 scale) - (95 / 100 - 3 / 10 * cl)) <= 1 / 10000000000) by (apply Rabs_le; lra).
      assert (B1 : Rabs (B2R (factor64 scale)) <= 1) by (rewrite Rabs_pos_eq; lra).
      assert (B4 : Rabs base <= 1) by (rewrite Rabs_pos_eq; lra).
      pose proof (prod_error _ _ _ _ _ _ _ _ Eb Eff B1 B4) as E7. apply Rabs_le_inv in E7. apply Rabs_le. lra.
  - exists b, half_const, base, 1. split; [reflexivity|]. split; [exact half_const_close|]. split; [exact Sb|].
    split; [intros [P1 P2]; rewrite P1, P2 in Pen; discriminate Pen|]. split; [reflexivity|].
    rewrite Rmult_1_r. lra.
Qed.
End Exp.
End Pow.
Print Assumptions C99_range.
Print Assumptions C99_accuracy.

(** The reward should be less than 1 outside the radius.  It is not less than a nanometre
    outside it. *)
Definition hair : float := binary_normalize 53 1024 prec_64 emax_64 mode_NE 1 (-20) false.
Theorem C99_edge_refuted : forall (pow : float -> float -> float) (e64 : float -> float) (w : world float) (s : bstate float),
  last_command s = STAY -> Balloon.x s = float_of_Z 50000 -> Balloon.y s = hair ->
  50 < RewardSpec.distance_km (B2R (Balloon.x s)) (B2R (Balloon.y s)) /\
  reward_default (N:=Num_float pow) e64 w s = Some (float_of_Z 1).
Proof.
  intros pow e64 w s Hc Ex Ey. split.
  - rewrite Ex, Ey. destruct (of_Z 50000 ltac:(lia)) as [F V]. rewrite V.
    destruct (value hair _ _ _ ltac:(vm_compute; reflexivity)) as [Fh Vh].
    assert (Eh : B2R hair = / 1048576).
    { rewrite Vh. unfold F2R. cbn [Fnum Fexp cond_Zopp bpow]. vm_compute Z.pow_pos. lra. }
    rewrite Eh. unfold RewardSpec.distance_km.
    enough (50000 < sqrt (50000 ^ 2 + (/ 1048576) ^ 2)) by lra.
    rewrite <- (sqrt_pow2 50000) at 1 by lra. apply sqrt_lt_1_alt. lra.
  - change (Num_float pow) with (FloatProps.F pow). rewrite reward_split, Hc. cbn [Reward.is_down andb]. f_equal.
    unfold base64. rewrite Ex, Ey.
    assert (E : Bleb (FloatReward.relative_distance (N:=FloatProps.F pow) (float_of_Z 50000) hair) (float_of_Z 50000) = true) by (vm_compute; reflexivity).
    rewrite E. reflexivity.
Qed.
Print Assumptions C99_edge_refuted.

(** ** Cases that meet the hypotheses *)
(** There is an exp that does what is asked of it: the multiple of 2^-53 nearest to exp. *)
Definition near_exp (f : float) : float :=
  binary_normalize 53 1024 prec_64 emax_64 mode_NE (ZnearestE (exp (B2R f) * bpow radix2 53)) (-53) false.
Lemma near_exp_value (f : float) : B2R f <= 0 ->
  is_finite (near_exp f) = true /\ 0 <= B2R (near_exp f) <= 1 /\ Rabs (B2R (near_exp f) - exp (B2R f)) <= / 2 ^ 54.
Proof.
  intro H. pose proof (exp_le_1 _ H) as B. set (v := exp (B2R f)) in *.
  set (n := ZnearestE (v * bpow radix2 53)).
  pose proof (bpow_gt_0 radix2 53) as P53. change (bpow radix2 53) with 9007199254740992 in *.
  pose proof (Znearest_half (fun z => negb (Z.even z)) (v * 9007199254740992)) as Hn. fold n in Hn. apply Rabs_le_inv in Hn.
  assert (N : (0 <= n <= 9007199254740992)%Z).
  { assert (-1 < n < 9007199254740993)%Z by (split; apply lt_IZR; lra). lia. }
  assert (NR : 0 <= IZR n <= 9007199254740992) by (split; apply IZR_le; lia).
  assert (E : F2R (Float radix2 n (-53)) = IZR n * / 9007199254740992) by reflexivity.
  assert (Fm : generic_format radix2 fexp64 (F2R (Float radix2 n (-53)))).
  { destruct (Z.eq_dec n 9007199254740992) as [Q|Q].
    - rewrite E, Q. replace (9007199254740992 * / 9007199254740992) with 1 by lra. apply (whole_format 1). lia.
    - apply (multiple_format n (-53)); lia. }
  pose proof (binary_normalize_correct 53 1024 prec_64 emax_64 mode_NE n (-53) false) as C. cbv zeta in C.
  cbn [round_mode] in C. rewrite round_generic in C by (exact _ || exact Fm). rewrite E in C.
  rewrite Rlt_bool_true in C.
  - destruct C as (V & F & _). change (binary_normalize 53 1024 prec_64 emax_64 mode_NE n (-53) false) with (near_exp f) in V, F.
    split; [exact F|]. rewrite V. split; [lra|]. cbn [Rpow_def.pow]. apply Rabs_le. lra.
  - rewrite Rabs_pos_eq by lra. apply Rle_lt_trans with (bpow radix2 0); [change (bpow radix2 0) with 1; lra|apply bpow_lt; lia].
Qed.
Example C99_exp_witness : exp_in_range near_exp /\ exp_accurate near_exp.
Proof.
  split; intros f _ H; destruct (near_exp_value f H) as (F & B & E); [now split|].
  eapply Rle_trans; [exact E|]. cbn [Rpow_def.pow]. lra.
Qed.
(** The balloon of C95's example, 50 km north and 10 cm east of the station: outside. *)
Example C99_witness :
  is_finite (Balloon.x demo_start) = true /\ is_finite (Balloon.y demo_start) = true /\ is_finite (acs_power demo_start) = true /\
  B2R (Balloon.y demo_start) = 50000 /\ B2R (acs_power demo_start) = 0 /\
  reward_default (N:=DF) near_exp demo_world demo_start <> Some (float_of_Z 1).
Proof.
  assert (Fx : is_finite (Balloon.x demo_start) = true) by (vm_compute; reflexivity).
  assert (Fy : is_finite (Balloon.y demo_start) = true) by (vm_compute; reflexivity).
  assert (Fp : is_finite (acs_power demo_start) = true) by (vm_compute; reflexivity).
  assert (Vp : B2R (acs_power demo_start) = 0) by reflexivity.
  assert (Vy : B2R (Balloon.y demo_start) = 50000) by exact (proj2 (of_Z 50000 ltac:(lia))).
  split; [exact Fx|]. split; [exact Fy|]. split; [exact Fp|]. split; [exact Vy|]. split; [exact Vp|].
  destruct (value (Balloon.x demo_start) _ _ _ ltac:(vm_compute; reflexivity)) as [_ Vx].
  assert (Ex : 9 / 100 < B2R (Balloon.x demo_start) < 11 / 100).
  { rewrite Vx. unfold F2R. cbn [Fnum Fexp cond_Zopp bpow]. vm_compute Z.pow_pos. lra. }
  assert (P : 50000 <= 2 ^ 400).
  { apply Rle_trans with (2 ^ 16); [cbn; lra|]. apply Rle_pow; [lra|lia]. }
  destruct (C99_range demo_pow near_exp demo_world demo_start (proj1 C99_exp_witness) Fx ltac:(rewrite Rabs_pos_eq; lra)
    Fy ltac:(rewrite Vy, Rabs_pos_eq; lra) Fp ltac:(rewrite Vp, Rabs_R0; lra)) as (r & E & _ & _ & _ & Out & _).
  rewrite Vy in Out.
  assert (Hd : 50000 + / 1000000000 <= sqrt (B2R (Balloon.x demo_start) ^ 2 + 50000 ^ 2)).
  { rewrite <- (sqrt_pow2 (50000 + / 1000000000)) by lra. apply sqrt_le_1_alt. nra. }
  specialize (Out Hd). intro Q. change DF with (FloatProps.F demo_pow) in Q. rewrite E in Q. apply some_eq in Q. rewrite Q in Out.
  rewrite (proj2 one_value) in Out. lra.
Qed.
