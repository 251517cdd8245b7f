(** Property C96: the features in double and single precision.  [B2R f] is the real number a
    finite [f] stands for. *)
From Coq Require Import ZArith Reals Lra Lia Bool List.
From Flocq Require Import Core BinarySingleNaN Plus_error Relative.
From RecordUpdate Require Import RecordSet.
From Verif Require Import Model.Num Model.Float64 Model.Safety Model.Balloon Model.Transforms Model.FloatFeatures.
From Verif Require Import Proofs.NumR Proofs.Float64Proofs Props.FloatProps.
Import ListNotations.
Open Scope R_scope.

Notation ext32 := (Float64Proofs.ext 24 128).
Notation near32 := (Float64Proofs.near 24 128).
Notation rnd32 := (Float64Proofs.rnd 24 128).

(** With real numbers instead, the functions are those of C20 (Model/Transforms.v). *)
Theorem C96_same_code : forall x a b : R,
  FloatFeatures.rescale x a b = linear_rescale_with_extrapolation x a b /\
  FloatFeatures.undo_rescale x a b = undo_linear_rescale_with_extrapolation x a b /\
  FloatFeatures.rescale_saturated x a b = linear_rescale_with_saturation x a b /\
  FloatFeatures.squash x a = squash_to_unit_interval x a.
Proof.
  intros x a b. split; [reflexivity|]. split; [reflexivity|]. split; [|reflexivity].
  unfold FloatFeatures.rescale_saturated, linear_rescale_with_saturation.
  change (FloatFeatures.rescale x a b) with (linear_rescale_with_extrapolation x a b).
  destruct (linear_rescale_with_extrapolation x a b) as [y|]; [|reflexivity]. cbn [option_map]. f_equal.
  unfold clip, np_clip, pymin, pymax. numR.
  destruct (Rltb_spec y 0); match goal with |- context [Rltb ?u ?v] => destruct (Rltb_spec u v) end;
    apply Rmax_case_strong; intro; apply Rmin_case_strong; intro; lra.
Qed.
Print Assumptions C96_same_code.

(** ** float32 *)
(** Storing a float64 in a float32 array rounds it; what is too large becomes infinite. *)
Lemma store (f : float) : is_nan f = false ->
  is_nan (to_float32 f) = false /\ ext32 (to_float32 f) = near32 (ext f).
Proof.
  intro N. destruct f as [s|s| |s m e H]; try discriminate.
  - split; [reflexivity|]. change (ext (B754_zero s)) with 0. rewrite near_0. reflexivity.
  - split; [reflexivity|]. unfold near, cut.
    assert (L : bpow radix2 128 <= bpow radix2 1024) by (apply bpow_le; lia).
    assert (P : 0 < bpow radix2 128) by apply bpow_gt_0.
    assert (E : rnd32 (bpow radix2 1024) = bpow radix2 1024).
    { unfold rnd. apply round_generic; [exact _|]. apply generic_format_bpow.
      unfold SpecFloat.fexp, SpecFloat.emin. lia. }
    assert (E' : rnd32 (- bpow radix2 1024) = - bpow radix2 1024).
    { unfold rnd. rewrite round_NE_opp. f_equal. exact E. }
    destruct s; cbn [to_float32 Float64Proofs.ext]; rewrite ?E, ?E'.
    + rewrite Rmin_right, Rmax_left; lra.
    + rewrite Rmin_left, Rmax_right; lra.
  - assert (V : F2R (Float radix2 (if s then Z.neg m else Z.pos m) e) = B2R (B754_finite s m e H)) by (destruct s; reflexivity).
    pose proof (binary_normalize_correct 24 128 _ _ mode_NE (if s then Z.neg m else Z.pos m) e s) as C. cbv zeta in C.
    rewrite V in C. cbn [round_mode] in C.
    change (to_float32 (B754_finite s m e H))
      with (binary_normalize 24 128 prec_32 emax_32 mode_NE (if s then Z.neg m else Z.pos m) e s).
    rewrite (ext_finite 53 1024) by reflexivity.
    apply (computes_of 24 128 _ _ (Rlt_bool (B2R (B754_finite s m e H)) 0)).
    + intro L. rewrite Rlt_bool_true in C by exact L. tauto.
    + intro L. rewrite Rlt_bool_false in C by exact L. split; [exact C|].
      split; intro P; [rewrite Rlt_bool_false by lra|rewrite Rlt_bool_true by lra]; reflexivity.
Qed.

(** The bounds of the observation space. *)
Lemma b32_value b : is_nan (b32 b) = false /\ ext32 (b32 b) = (if b then 1 else 0).
Proof. destruct b; split; try reflexivity; vm_compute; lra. Qed.
Lemma le32 (f g : float32) : is_nan f = false -> is_nan g = false ->
  Bleb f g = Rle_bool (ext32 f) (ext32 g).
Proof. exact (le_ext 24 128 f g). Qed.
Lemma near32_0 : near32 0 = 0. Proof. exact (near_0 24 128). Qed.
Lemma near32_1 : near32 1 = 1.
Proof. destruct (b32_value true) as [_ <-]. rewrite (ext_finite 24 128) by reflexivity. apply near_of. Qed.
Lemma near32_m1 : near32 (-1) = -1.
Proof.
  assert (E : B2R (Bopp (b32 true)) = -1).
  { rewrite B2R_Bopp. destruct (b32_value true) as [_ V]. rewrite (ext_finite 24 128) in V by reflexivity. rewrite V. reflexivity. }
  rewrite <- E. apply near_of.
Qed.

(** A number between two of the bounds is stored as one. *)
Lemma store_between (f : float) lo hi : is_nan f = false -> near32 lo = lo -> near32 hi = hi ->
  lo <= ext f <= hi -> is_nan (to_float32 f) = false /\ lo <= ext32 (to_float32 f) <= hi.
Proof.
  intros N L H B. destruct (store f N) as [A E]. split; [exact A|]. rewrite E.
  pose proof (near_mono 24 128 lo (ext f) ltac:(lra)). pose proof (near_mono 24 128 (ext f) hi ltac:(lra)). lra.
Qed.

(** Storing keeps the order, and rounds numbers up to 1 by at most 2^-25. *)
Theorem C96_float32 : forall f g : float,
  (Bleb f g = true -> Bleb (to_float32 f) (to_float32 g) = true) /\
  (is_finite f = true -> Rabs (B2R f) <= 1 ->
     is_finite (to_float32 f) = true /\ Rabs (B2R (to_float32 f) - B2R f) <= / 2 ^ 25).
Proof.
  intros f g. split.
  - intro H. destruct (not_nan_of_le _ _ H) as [Nf Ng]. rewrite leb_ext in H by assumption.
    destruct (Rle_bool_spec (ext f) (ext g)) as [L|]; [|discriminate].
    destruct (store f Nf) as [A E]. destruct (store g Ng) as [B E'].
    rewrite le32 by assumption. apply Rle_bool_true. rewrite E, E'. now apply (near_mono 24 128).
  - intros F L. destruct (store f (finite_not_nan f F)) as [A E]. rewrite (ext_finite 53 1024 f F) in E.
    destruct (store_between f (-1) 1 (finite_not_nan f F) near32_m1 near32_1) as [_ B].
    { rewrite (ext_finite 53 1024 f F). now apply Rabs_le_inv. }
    assert (G : is_finite (to_float32 f) = true).
    { apply (finite_of_ext 24 128); [exact A|]. apply Rle_lt_trans with 1; [now apply Rabs_le|].
      change 1 with (bpow radix2 0). apply bpow_lt. lia. }
    split; [exact G|]. rewrite (ext_finite 24 128 _ G) in E, B. rewrite E.
    destruct (near_cases 24 128 (B2R f)) as [[_ N]|[[_ N]|[_ N]]].
    + rewrite N. replace (/ 2 ^ 25) with (bpow radix2 (0 - 24 - 1)).
      * apply (rnd_error 24 128); [lia|exact L].
      * cbn. lra.
    + exfalso. rewrite E, N in B. assert (bpow radix2 0 < bpow radix2 128) by (apply bpow_lt; lia). change (bpow radix2 0) with 1 in *. lra.
    + exfalso. rewrite E, N in B. assert (bpow radix2 0 < bpow radix2 128) by (apply bpow_lt; lia). change (bpow radix2 0) with 1 in *. lra.
Qed.
Print Assumptions C96_float32.

Section Pow.
Context (pow : float -> float -> float).
Notation N64 := (FloatProps.F pow).
Notation rescale := (@rescale float N64).
Notation rescale_saturated := (@rescale_saturated float N64).
Notation squash := (@squash float N64).

(** A number of ordinary size. *)
Definition ordinary_size (f : float) : Prop := is_finite f = true /\ Rabs (B2R f) <= bpow radix2 1000.

Lemma gap (a b : float) : B2R a < B2R b -> 0 < rnd (B2R b - B2R a).
Proof.
  intro L. assert (P : 0 <= rnd (B2R b - B2R a)).
  { pose proof (rnd_mono 53 1024 0 (B2R b - B2R a) ltac:(lra)) as M.
    unfold Float64Proofs.rnd at 1 in M. rewrite round_0 in M by exact _. exact M. }
  destruct P as [P|P]; [exact P|exfalso].
  assert (V : Valid_exp (SpecFloat.fexp 53 1024)) by (apply fexp_correct; reflexivity).
  assert (Mo : Monotone_exp (SpecFloat.fexp 53 1024)) by (intros u v H; unfold SpecFloat.fexp; lia).
  apply (round_plus_neq_0 radix2 (SpecFloat.fexp 53 1024) ZnearestE (B2R b) (- B2R a)).
  - apply generic_format_B2R.
  - apply generic_format_opp, generic_format_B2R.
  - unfold Rminus in L. lra.
  - symmetry. exact P.
Qed.

Lemma saturated_value (x vmin vmax : float) :
  ordinary_size x -> ordinary_size vmin -> ordinary_size vmax -> B2R vmin < B2R vmax ->
  exists y, rescale_saturated x vmin vmax = Some y /\ is_finite y = true /\
    B2R y = Rmin (Rmax (near (rnd (B2R x - B2R vmin) / rnd (B2R vmax - B2R vmin))) 0) 1.
Proof.
  intros X L H Lt. pose proof (gap _ _ Lt) as G.
  destruct (within_sub 53 1024 1000 x vmin ltac:(lia) X L) as [[Fa _] Va].
  destruct (within_sub 53 1024 1000 vmax vmin ltac:(lia) H L) as [[Fd _] Vd].
  unfold rescale_saturated, FloatFeatures.rescale_saturated, FloatFeatures.rescale.
  assert (B : nleb (Num:=N64) vmax vmin = false).
  { rewrite le_is. destruct X, L, H. rewrite leb_ext by now apply finite_not_nan.
    rewrite !(ext_finite 53 1024) by assumption. now apply Rle_bool_false. }
  rewrite B. cbn [option_map]. eexists. split; [reflexivity|]. rewrite div_is, !sub_is.
  destruct (div_computes 53 1024 _ _ Fa Fd ltac:(rewrite Vd; lra)) as [Nq Eq]. rewrite Va, Vd in Eq.
  destruct one_value as [F1 V1].
  destruct (clip_float pow (Bdiv mode_NE (Bminus mode_NE x vmin) (Bminus mode_NE vmax vmin)) (float_of_Z 1) F1 ltac:(lra))
    as [[Nn _]|(_ & Fc & Vc)]; [pose proof (eq_trans (eq_sym Nq) Nn) as X0; discriminate X0|].
  split; [exact Fc|]. etransitivity; [exact Vc|]. rewrite Eq, V1. reflexivity.
Qed.

(** linear_rescale_with_saturation: between 0 and 1, exactly 0 up to vmin and exactly 1 from
    vmax, and never decreasing. *)
Theorem C96_saturation : forall x vmin vmax : float,
  ordinary_size x -> ordinary_size vmin -> ordinary_size vmax -> B2R vmin < B2R vmax ->
  exists y, rescale_saturated x vmin vmax = Some y /\ is_finite y = true /\ 0 <= B2R y <= 1 /\
    (B2R x <= B2R vmin -> B2R y = 0) /\ (B2R vmax <= B2R x -> B2R y = 1) /\
    (forall x', ordinary_size x' -> B2R x <= B2R x' ->
       exists y', rescale_saturated x' vmin vmax = Some y' /\ B2R y <= B2R y').
Proof.
  intros x vmin vmax X L H Lt. pose proof (gap _ _ Lt) as G.
  destruct (saturated_value x vmin vmax X L H Lt) as (y & E & Fy & V). exists y.
  split; [exact E|]. split; [exact Fy|]. rewrite V. clear E V Fy y.
  set (d := rnd (B2R vmax - B2R vmin)) in *.
  split; [split; [apply Rmin_glb; [apply Rmax_r|lra]|apply Rmin_r]|].
  assert (I : 0 < / d) by now apply Rinv_0_lt_compat.
  split; [|split].
  - intro A. pose proof (rnd_mono 53 1024 (B2R x - B2R vmin) 0 ltac:(lra)) as M.
    unfold Float64Proofs.rnd at 2 in M. rewrite round_0 in M by exact _.
    pose proof (near_mono 53 1024 (rnd (B2R x - B2R vmin) / d) 0 ltac:(unfold Rdiv; nra)) as K.
    rewrite near_0 in K. rewrite Rmax_right by exact K. apply Rmin_left. lra.
  - intro A. pose proof (rnd_mono 53 1024 (B2R vmax - B2R vmin) (B2R x - B2R vmin) ltac:(lra)) as M. fold d in M.
    pose proof (near_mono 53 1024 1 (rnd (B2R x - B2R vmin) / d)) as K.
    rewrite near_1 in K. assert (O : 1 <= rnd (B2R x - B2R vmin) / d).
    { unfold Rdiv. rewrite <- (Rinv_r d) by lra. apply Rmult_le_compat_r; lra. }
    specialize (K O). rewrite Rmax_left by lra. apply Rmin_right. exact K.
  - intros x' X' A. destruct (saturated_value x' vmin vmax X' L H Lt) as (y' & E' & _ & V'). exists y'.
    split; [exact E'|]. rewrite V'. fold d.
    apply Rmin_case_strong; intro; apply Rmin_case_strong; intro; try lra; try (apply Rmin_r); try apply Rle_refl.
    all: pose proof (rnd_mono 53 1024 (B2R x - B2R vmin) (B2R x' - B2R vmin) ltac:(lra)) as M;
      pose proof (near_mono 53 1024 (rnd (B2R x - B2R vmin) / d) (rnd (B2R x' - B2R vmin) / d)
        ltac:(unfold Rdiv; apply Rmult_le_compat_r; lra)) as K;
      pose proof (Rle_max_compat_r _ _ 0 K); lra.
Qed.

(** Rounding loses at most one part in 2^53 of numbers that are not tiny. *)
Lemma rnd_relative (r : R) : bpow radix2 (-1000) <= Rabs r -> Rabs (rnd r - r) <= bpow radix2 (-53) * Rabs r.
Proof.
  intro L. pose proof (relative_error_N_FLT radix2 (3 - 1024 - 53) 53 ltac:(lia) (fun z => negb (Z.even z)) r) as E.
  replace (bpow radix2 (-53)) with (/ 2 * bpow radix2 (- (53) + 1)).
  - apply E. eapply Rle_trans; [|exact L]. apply bpow_le. lia.
  - change (/ 2) with (bpow radix2 (-1)). rewrite <- bpow_plus. reflexivity.
Qed.

Lemma squash_value (x c : float) :
  ordinary_size x -> 0 <= B2R x -> ordinary_size c -> 0 < B2R c ->
  exists y, squash x c = Some y /\ is_finite y = true /\ 0 <= B2R y <= 1 /\
    B2R y = rnd (B2R x / rnd (B2R x + B2R c)) /\ 0 < rnd (B2R x + B2R c) /\ B2R x <= rnd (B2R x + B2R c).
Proof.
  intros X Px C Pc. destruct X as [Fx Lx], C as [Fc Lc].
  unfold FloatFeatures.squash.
  assert (B : nleb (Num:=N64) c (nofZ (Num:=N64) 0) = false).
  { rewrite le_is. rewrite leb_ext by (reflexivity || now apply finite_not_nan).
    rewrite (ext_finite 53 1024 c Fc). apply Rle_bool_false. exact Pc. }
  assert (B' : nltb (Num:=N64) x (nofZ (Num:=N64) 0) = false).
  { rewrite lt_is. rewrite ltb_ext by (reflexivity || now apply finite_not_nan).
    rewrite (ext_finite 53 1024 x Fx). apply Rlt_bool_false. exact Px. }
  rewrite B, B'. eexists. split; [reflexivity|]. rewrite div_is, add_is.
  destruct (within_add 53 1024 1000 x c ltac:(lia) (conj Fx Lx) (conj Fc Lc)) as [[Fs _] Vs].
  assert (G : 0 < rnd (B2R x + B2R c)).
  { replace (B2R x + B2R c) with (B2R c - B2R (Bopp x)) by (rewrite B2R_Bopp; ring). apply gap. rewrite B2R_Bopp. lra. }
  assert (M : B2R x <= rnd (B2R x + B2R c)).
  { pose proof (rnd_mono 53 1024 (B2R x) (B2R x + B2R c) ltac:(lra)) as M. rewrite rnd_of in M. exact M. }
  pose proof (div_computes 53 1024 _ _ Fx Fs ltac:(rewrite Vs; lra)) as Q. rewrite Vs in Q.
  set (sum := rnd (B2R x + B2R c)) in *.
  assert (U : 0 <= B2R x / sum <= 1).
  { assert (0 < / sum) by now apply Rinv_0_lt_compat. unfold Rdiv. split; [nra|].
    rewrite <- (Rinv_r sum) by lra. apply Rmult_le_compat_r; lra. }
  destruct (computes_within 53 1024 _ _ 0 ltac:(lia) Q) as [[Fq _] Vq].
  { rewrite Rabs_pos_eq by lra. exact (proj2 U). }
  split; [exact Fq|]. split; [|split; [exact Vq|split; [exact G|exact M]]].
  destruct Q as [_ Eq]. rewrite (ext_finite 53 1024 _ Fq) in Eq.
  pose proof (near_mono 53 1024 0 _ (proj1 U)) as K1. rewrite near_0 in K1.
  pose proof (near_mono 53 1024 _ 1 (proj2 U)) as K2. rewrite near_1 in K2. rewrite <- Eq in K1, K2. lra.
Qed.

(** Nearly one, in either format. *)
Definition nearly : float := binary_normalize 53 1024 _ _ mode_NE (2 ^ 22 - 1) (-22) false.
Lemma nearly_value : is_finite nearly = true /\ B2R nearly = 1 - / 4194304.
Proof.
  destruct (value nearly _ _ _ ltac:(vm_compute; reflexivity)) as [F V]. split; [exact F|]. rewrite V.
  unfold F2R. cbn [Fnum Fexp cond_Zopp bpow]. vm_compute Z.pow_pos. lra.
Qed.
Lemma nearly_32 : near32 (1 - / 4194304) = 1 - / 4194304.
Proof.
  assert (V : B2R (to_float32 nearly) = 1 - / 4194304).
  { assert (E : B2SF (to_float32 nearly) = SpecFloat.S754_finite false 16777212 (-24)) by (vm_compute; reflexivity).
    destruct (to_float32 nearly); try discriminate E. injection E as -> -> ->.
    unfold B2R, F2R. cbn [Fnum Fexp cond_Zopp bpow]. vm_compute Z.pow_pos. lra. }
  rewrite <- V. apply near_of.
Qed.

(** squash_to_unit_interval: between 0 and 1, 0 exactly at 0; close to the exact quotient,
    hence decreasing by 2^-51 at the most where it should increase; below 1 for x up to 2^20,
    also as a float32. *)
Theorem C96_squash : forall x c : float,
  ordinary_size x -> 0 <= B2R x -> ordinary_size c -> 0 < B2R c ->
  exists y, squash x c = Some y /\ is_finite y = true /\ 0 <= B2R y <= 1 /\
    (B2R x = 0 -> B2R y = 0) /\
    (1 <= B2R c -> Rabs (B2R y - B2R x / (B2R x + B2R c)) <= bpow radix2 (-52)) /\
    (1 <= B2R c -> B2R x <= 1048576 ->
       B2R y < 1 /\ is_finite (to_float32 y) = true /\ 0 <= B2R (to_float32 y) < 1).
Proof.
  intros x c X Px C Pc. destruct (squash_value x c X Px C Pc) as (y & E & Fy & R & V & G & M). exists y.
  split; [exact E|]. split; [exact Fy|]. split; [exact R|].
  set (sum := rnd (B2R x + B2R c)) in *.
  assert (I : 0 < / sum) by now apply Rinv_0_lt_compat.
  split; [|split].
  - intro Z. rewrite V, Z. unfold Rdiv. rewrite Rmult_0_l. apply (rnd_of 53 1024 (B754_zero false)).
  - intro C1.
    assert (Es : Rabs (sum - (B2R x + B2R c)) <= bpow radix2 (-53) * (B2R x + B2R c)).
    { rewrite <- (Rabs_pos_eq (B2R x + B2R c)) at 2 by lra. apply rnd_relative.
      rewrite Rabs_pos_eq by lra. assert (bpow radix2 (-1000) <= bpow radix2 0) by (apply bpow_le; lia).
      change (bpow radix2 0) with 1 in *. lra. }
    assert (Eq : Rabs (B2R y - B2R x / sum) <= bpow radix2 (-54)).
    { rewrite V. apply (rnd_error 53 1024 _ 0); [lia|]. change (bpow radix2 0) with 1.
      unfold Rdiv. rewrite Rabs_pos_eq by nra. rewrite <- (Rinv_r sum) by lra. apply Rmult_le_compat_r; lra. }
    set (t := B2R x + B2R c) in *. assert (T1 : 1 <= t) by (unfold t; lra).
    replace (B2R y - B2R x / t) with ((B2R y - B2R x / sum) + (B2R x / t) * ((t - sum) / sum)) by (field; lra).
    eapply Rle_trans; [apply Rabs_triang|]. rewrite Rabs_mult.
    set (h := bpow radix2 (-54)) in *.
    assert (H53 : bpow radix2 (-53) = 2 * h) by (unfold h; change (-53)%Z with (1 + -54)%Z; rewrite bpow_plus; reflexivity).
    assert (H52 : bpow radix2 (-52) = 4 * h) by (unfold h; change (-52)%Z with (2 + -54)%Z; rewrite bpow_plus; reflexivity).
    assert (Hh : 0 < h <= / 1024).
    { split; [apply bpow_gt_0|]. change (/ 1024) with (bpow radix2 (-10)). apply bpow_le. lia. }
    rewrite H53 in Es. rewrite H52. apply Rabs_le_inv in Es.
    assert (A1 : 0 <= B2R x / t <= 1).
    { assert (0 < / t) by (apply Rinv_0_lt_compat; lra). unfold Rdiv. split; [nra|].
      rewrite <- (Rinv_r t) by lra. apply Rmult_le_compat_r; [lra|unfold t; lra]. }
    assert (A2 : Rabs ((t - sum) / sum) <= 3 * h).
    { unfold Rdiv. rewrite Rabs_mult, (Rabs_pos_eq (/ sum)) by lra.
      apply Rmult_le_reg_r with sum; [exact G|]. rewrite Rmult_assoc, Rinv_l, Rmult_1_r by lra.
      apply Rabs_le. nra. }
    rewrite (Rabs_pos_eq (B2R x / t)) by lra. pose proof (Rabs_pos ((t - sum) / sum)). nra.
  - intros C1 X20.
    assert (S : B2R x + / 2 <= sum).
    { pose proof (rnd_mono 53 1024 (B2R x + 1) (B2R x + B2R c) ltac:(lra)) as K. fold sum in K.
      assert (Er : Rabs (rnd (B2R x + 1) - (B2R x + 1)) <= bpow radix2 (21 - 53 - 1)).
      { apply (rnd_error 53 1024); [lia|]. change (bpow radix2 21) with 2097152. rewrite Rabs_pos_eq; lra. }
      assert (bpow radix2 (21 - 53 - 1) <= / 2) by (change (/ 2) with (bpow radix2 (-1)); apply bpow_le; lia).
      apply Rabs_le_inv in Er. lra. }
    assert (Q : B2R x / sum <= 1 - / 4194304).
    { apply Rmult_le_reg_r with sum; [exact G|]. unfold Rdiv. rewrite Rmult_assoc, Rinv_l, Rmult_1_r by lra. lra. }
    assert (Y : B2R y <= 1 - / 4194304).
    { destruct nearly_value as [_ Vn]. pose proof (rnd_mono 53 1024 _ _ Q) as K. rewrite <- Vn in K at 1.
      rewrite rnd_of, Vn in K. rewrite V. exact K. }
    split; [lra|]. destruct (store_between y 0 (1 - / 4194304) (finite_not_nan y Fy) near32_0 nearly_32) as [N32 B32].
    { rewrite (ext_finite 53 1024 y Fy). lra. }
    assert (F32 : is_finite (to_float32 y) = true).
    { apply (finite_of_ext 24 128); [exact N32|]. apply Rle_lt_trans with 1; [apply Rabs_le; lra|].
      change 1 with (bpow radix2 0). apply bpow_lt. lia. }
    rewrite (ext_finite 24 128 _ F32) in B32. split; [exact F32|lra].
Qed.

(** Farther away should mean a larger feature.  It does not: the next number after
    44.333333333333336 km is given a smaller one. *)
Definition near_44 (m : Z) : float := binary_normalize 53 1024 _ _ mode_NE m (-47) false.
Theorem C96_squash_monotone_refuted : exists x x' y y' : float,
  44 < B2R x /\ B2R x < B2R x' /\ B2R x' < 45 /\
  squash x (float_of_Z 250) = Some y /\ squash x' (float_of_Z 250) = Some y' /\ B2R y' < B2R y.
Proof.
  exists (near_44 6239361983752875), (near_44 6239361983752876).
  exists (Bdiv mode_NE (near_44 6239361983752875) (Bplus mode_NE (near_44 6239361983752875) (float_of_Z 250))).
  exists (Bdiv mode_NE (near_44 6239361983752876) (Bplus mode_NE (near_44 6239361983752876) (float_of_Z 250))).
  destruct (value (near_44 6239361983752875) _ _ _ ltac:(vm_compute; reflexivity)) as [_ V1].
  destruct (value (near_44 6239361983752876) _ _ _ ltac:(vm_compute; reflexivity)) as [_ V2].
  destruct (value (Bdiv mode_NE (near_44 6239361983752875) (Bplus mode_NE (near_44 6239361983752875) (float_of_Z 250)))
    _ _ _ ltac:(vm_compute; reflexivity)) as [_ V3].
  destruct (value (Bdiv mode_NE (near_44 6239361983752876) (Bplus mode_NE (near_44 6239361983752876) (float_of_Z 250)))
    _ _ _ ltac:(vm_compute; reflexivity)) as [_ V4].
  rewrite V1, V2, V3, V4. unfold F2R. cbn [Fnum Fexp cond_Zopp bpow].
  split; [vm_compute Z.pow_pos; lra|]. split; [vm_compute Z.pow_pos; lra|]. split; [vm_compute Z.pow_pos; lra|].
  split; [reflexivity|]. split; [reflexivity|]. vm_compute Z.pow_pos. lra.
Qed.

(** The squashed value should stay below 1, which stands for infinity.  It does not, at 2^62. *)
Theorem C96_squash_below_one_refuted : exists x y : float,
  is_finite x = true /\ squash x (float_of_Z 250) = Some y /\ B2R y = 1.
Proof.
  exists (float_of_Z (2 ^ 62)), (float_of_Z 1). split; [vm_compute; reflexivity|]. split; [|apply one_value].
  assert (E : Bdiv mode_NE (float_of_Z (2 ^ 62)) (Bplus mode_NE (float_of_Z (2 ^ 62)) (float_of_Z 250)) = float_of_Z 1).
  { apply B2SF_inj. vm_compute. reflexivity. }
  unfold FloatFeatures.squash. rewrite div_is, add_is. change (nofZ (Num:=N64)) with float_of_Z. rewrite <- E. reflexivity.
Qed.

(** ** Units *)
Lemma zero_left (f : float) b : is_finite f = true ->
  is_finite (Bplus mode_NE (B754_zero b) f) = true /\ B2R (Bplus mode_NE (B754_zero b) f) = B2R f.
Proof. destruct f as [[]|[]| |s m e H]; try discriminate; destruct b; intros _; split; reflexivity. Qed.
Lemma zero_right (f : float) b : is_finite f = true ->
  is_finite (Bplus mode_NE f (B754_zero b)) = true /\ B2R (Bplus mode_NE f (B754_zero b)) = B2R f.
Proof. destruct f as [[]|[]| |s m e H]; try discriminate; destruct b; intros _; split; reflexivity. Qed.
Lemma no_feet : nmul (Num:=N64) (nofZ (Num:=N64) 0) (lit (N:=N64) 3048 10000) = B754_zero false.
Proof. apply B2SF_inj. vm_compute. reflexivity. Qed.

Notation zero := (nofZ (Num:=N64) 0).
Notation distance_m := (@distance_m float N64).
Notation distance_km := (@distance_km float N64).
Notation distance_feet := (@distance_feet float N64).

Lemma thousand : is_finite (float_of_Z 1000) = true /\ B2R (float_of_Z 1000) = 1000.
Proof. apply of_Z. lia. Qed.

(** Kilometres to metres and back: two roundings. *)
Theorem C96_km : forall x : float,
  is_finite x = true -> bpow radix2 (-900) <= Rabs (B2R x) <= bpow radix2 900 ->
  let d := distance_m zero zero x zero zero in
  is_finite d = true /\ Rabs (B2R d - 1000 * B2R x) <= / 2 ^ 53 * (1000 * Rabs (B2R x)) /\
  is_finite (distance_km d) = true /\ Rabs (B2R (distance_km d) - B2R x) <= / 2 ^ 51 * Rabs (B2R x).
Proof.
  intros x Fx L. cbv zeta. unfold FloatFeatures.distance_m, FloatFeatures.distance_km. rewrite no_feet, !add_is, mul_is, div_is.
  change (Bplus mode_NE zero zero) with (@B754_zero 53 1024 false). change zero with (@B754_zero 53 1024 false).
  change (nofZ (Num:=N64)) with float_of_Z.
  destruct (zero_right x false Fx) as [Fa Va]. destruct thousand as [Ft Vt].
  assert (Wa : within 900 (Bplus mode_NE x (B754_zero false))) by (split; [exact Fa|rewrite Va; lra]).
  assert (Wt : within 10 (float_of_Z 1000)).
  { split; [exact Ft|]. rewrite Vt. change (bpow radix2 10) with 1024. rewrite Rabs_pos_eq; lra. }
  destruct (within_mul 53 1024 900 10 _ _ ltac:(lia) Wa Wt) as [[Fm Lm] Vm]. rewrite Va, Vt in Vm.
  destruct (zero_left _ false Fm) as [Fb Vb]. destruct (zero_right _ false Fb) as [Fd Vd].
  rewrite Vb, Vm in Vd. set (d := Bplus mode_NE (Bplus mode_NE (B754_zero false) _) (B754_zero false)) in *. clearbody d.
  split; [exact Fd|].
  assert (H53 : bpow radix2 (-53) = / 2 ^ 53) by (cbn; lra).
  assert (H51 : / 2 ^ 51 = 4 * / 2 ^ 53) by (cbn; lra).
  assert (A1000 : Rabs (B2R x * 1000) = 1000 * Rabs (B2R x)) by (rewrite Rabs_mult, (Rabs_pos_eq 1000) by lra; ring).
  assert (Tiny : bpow radix2 (-1000) <= bpow radix2 (-900)) by (apply bpow_le; lia).
  assert (Rd : Rabs (B2R d - B2R x * 1000) <= / 2 ^ 53 * (1000 * Rabs (B2R x))).
  { rewrite Vd, <- H53, <- A1000. apply rnd_relative. rewrite A1000. pose proof (Rabs_pos (B2R x)). lra. }
  split; [replace (1000 * B2R x) with (B2R x * 1000) by ring; exact Rd|].
  pose proof (div_computes 53 1024 d _ Fd Ft ltac:(rewrite Vt; lra)) as Q. rewrite Vt in Q.
  set (e := / 2 ^ 53) in *. assert (He : 0 < e <= / 4) by (unfold e; cbn; lra). clearbody e.
  assert (Xd : B2R x - e * Rabs (B2R x) <= B2R d / 1000 <= B2R x + e * Rabs (B2R x)).
  { apply Rabs_le_inv in Rd. lra. }
  assert (Xq : Rabs (B2R d / 1000) <= 5 / 4 * Rabs (B2R x) /\ 3 / 4 * Rabs (B2R x) <= Rabs (B2R d / 1000)).
  { pose proof (Rabs_pos (B2R x)).
    assert (e * Rabs (B2R x) <= / 4 * Rabs (B2R x)) by (apply Rmult_le_compat_r; lra).
    destruct (Rcase_abs (B2R x)) as [N|P].
    - rewrite (Rabs_left (B2R x)) in * by lra. rewrite (Rabs_left1 (B2R d / 1000)) by lra. lra.
    - rewrite (Rabs_right (B2R x)) in * by lra. rewrite (Rabs_pos_eq (B2R d / 1000)) by lra. lra. }
  assert (B901 : 2 * bpow radix2 900 = bpow radix2 901) by (change 901%Z with (1 + 900)%Z; rewrite bpow_plus; reflexivity).
  destruct (computes_within 53 1024 _ _ 901 ltac:(lia) Q) as [[Fq _] Vq]; [pose proof (Rabs_pos (B2R x)); lra|].
  split; [exact Fq|]. rewrite Vq, H51.
  assert (Rq : Rabs (rnd (B2R d / 1000) - B2R d / 1000) <= e * Rabs (B2R d / 1000)).
  { rewrite <- H53. apply rnd_relative.
    assert (bpow radix2 (-900) = 4 * bpow radix2 (-902)) by (change (-900)%Z with (2 + -902)%Z; rewrite bpow_plus; reflexivity).
    assert (bpow radix2 (-1000) <= bpow radix2 (-902)) by (apply bpow_le; lia). pose proof (bpow_gt_0 radix2 (-902)). lra. }
  apply Rabs_le_inv in Rq. apply Rabs_le. pose proof (Rabs_pos (B2R x)).
  assert (e * Rabs (B2R d / 1000) <= e * (5 / 4 * Rabs (B2R x))) by (apply Rmult_le_compat_l; lra). lra.
Qed.

Lemma foot : is_finite (lit (N:=N64) 3048 10000) = true /\ Rabs (B2R (lit (N:=N64) 3048 10000) - 3048 / 10000) <= / 2 ^ 54.
Proof.
  destruct (value (lit (N:=N64) 3048 10000) _ _ _ ltac:(vm_compute; reflexivity)) as [F V]. split; [exact F|]. rewrite V.
  unfold F2R. cbn [Fnum Fexp cond_Zopp bpow]. vm_compute Z.pow_pos.
  replace (2 ^ 54) with 18014398509481984 by (cbn; lra). apply Rabs_le. lra.
Qed.

(** Feet to metres and back. *)
Theorem C96_feet : forall x : float,
  is_finite x = true -> bpow radix2 (-900) <= Rabs (B2R x) <= bpow radix2 900 ->
  let d := distance_m zero zero zero zero x in
  is_finite d = true /\ Rabs (B2R d - 3048 / 10000 * B2R x) <= / 2 ^ 53 * Rabs (B2R x) /\
  is_finite (distance_feet d) = true /\ Rabs (B2R (distance_feet d) - B2R x) <= / 2 ^ 51 * Rabs (B2R x).
Proof.
  intros x Fx L. cbv zeta. unfold FloatFeatures.distance_m, FloatFeatures.distance_feet. rewrite !add_is, !mul_is, div_is.
  destruct foot as [Fc Vc]. set (c := lit (N:=N64) 3048 10000) in *. clearbody c.
  assert (Z0 : Bplus mode_NE (Bplus mode_NE zero zero) (Bmult mode_NE (Bplus mode_NE zero zero) (nofZ (Num:=N64) 1000)) = B754_zero false)
    by (apply B2SF_inj; vm_compute; reflexivity).
  rewrite Z0.
  assert (H53 : bpow radix2 (-53) = / 2 ^ 53) by (cbn; lra).
  assert (H54 : / 2 ^ 54 = / 2 * / 2 ^ 53) by (cbn; lra).
  assert (H51 : / 2 ^ 51 = 4 * / 2 ^ 53) by (cbn; lra).
  rewrite H54 in Vc. rewrite H51. set (e := / 2 ^ 53) in *.
  assert (He : 0 < e <= / 1024) by (unfold e; cbn; lra). clearbody e. apply Rabs_le_inv in Vc.
  assert (Wc : within 0 c) by (split; [exact Fc|change (bpow radix2 0) with 1; rewrite Rabs_pos_eq; lra]).
  destruct (within_mul 53 1024 900 0 _ _ ltac:(lia) (conj Fx (proj2 L)) Wc) as [[Fm Lm] Vm].
  destruct (zero_left _ false Fm) as [Fd Vd]. rewrite Vm in Vd. set (d := Bplus mode_NE (B754_zero false) _) in *. clearbody d.
  split; [exact Fd|].
  assert (Ac : Rabs (B2R x * B2R c) = B2R c * Rabs (B2R x)) by (rewrite Rabs_mult, (Rabs_pos_eq (B2R c)) by lra; ring).
  assert (T1 : bpow radix2 (-900) = 4 * bpow radix2 (-902)) by (change (-900)%Z with (2 + -902)%Z; rewrite bpow_plus; reflexivity).
  assert (T2 : bpow radix2 (-902) = 4 * bpow radix2 (-904)) by (change (-902)%Z with (2 + -904)%Z; rewrite bpow_plus; reflexivity).
  assert (T3 : bpow radix2 (-1000) <= bpow radix2 (-904)) by (apply bpow_le; lia).
  pose proof (bpow_gt_0 radix2 (-904)) as P904. pose proof (Rabs_pos (B2R x)) as Px.
  assert (Rd : Rabs (B2R d - B2R x * B2R c) <= e * (B2R c * Rabs (B2R x))).
  { rewrite Vd, <- H53, <- Ac. apply rnd_relative. rewrite Ac. nra. }
  assert (Rd' : Rabs (B2R d - B2R x * B2R c) <= e * (31 / 100 * Rabs (B2R x))).
  { eapply Rle_trans; [exact Rd|]. apply Rmult_le_compat_l; [lra|]. apply Rmult_le_compat_r; lra. }
  split.
  { replace (B2R d - 3048 / 10000 * B2R x) with ((B2R d - B2R x * B2R c) + B2R x * (B2R c - 3048 / 10000)) by ring.
    eapply Rle_trans; [apply Rabs_triang|]. rewrite Rabs_mult.
    assert (Rabs (B2R c - 3048 / 10000) <= / 2 * e) as K by (apply Rabs_le; lra).
    assert (Rabs (B2R x) * Rabs (B2R c - 3048 / 10000) <= Rabs (B2R x) * (/ 2 * e)) by (apply Rmult_le_compat_l; lra). nra. }
  pose proof (div_computes 53 1024 d _ Fd Fc ltac:(lra)) as Q.
  assert (Pc : 0 < / B2R c) by (apply Rinv_0_lt_compat; lra).
  assert (Xd : Rabs (B2R d / B2R c - B2R x) <= e * Rabs (B2R x)).
  { replace (B2R d / B2R c - B2R x) with ((B2R d - B2R x * B2R c) * / B2R c) by (field; lra).
    rewrite Rabs_mult, (Rabs_pos_eq (/ B2R c)) by lra.
    apply Rmult_le_reg_r with (B2R c); [lra|]. rewrite Rmult_assoc, Rinv_l, Rmult_1_r by lra. lra. }
  assert (Xq : Rabs (B2R d / B2R c) <= 5 / 4 * Rabs (B2R x) /\ 3 / 4 * Rabs (B2R x) <= Rabs (B2R d / B2R c)).
  { assert (e * Rabs (B2R x) <= / 4 * Rabs (B2R x)) by (apply Rmult_le_compat_r; lra).
    pose proof (Rabs_triang (B2R d / B2R c - B2R x) (B2R x)) as Y. replace (B2R d / B2R c - B2R x + B2R x) with (B2R d / B2R c) in Y by ring.
    pose proof (Rabs_triang_inv (B2R x) (B2R x - B2R d / B2R c)) as Y'.
    replace (B2R x - (B2R x - B2R d / B2R c)) with (B2R d / B2R c) in Y' by ring. rewrite (Rabs_minus_sym (B2R x)) in Y'. lra. }
  assert (B901 : 2 * bpow radix2 900 = bpow radix2 901) by (change 901%Z with (1 + 900)%Z; rewrite bpow_plus; reflexivity).
  destruct (computes_within 53 1024 _ _ 901 ltac:(lia) Q) as [[Fq _] Vq]; [lra|].
  split; [exact Fq|]. rewrite Vq.
  assert (Rq : Rabs (rnd (B2R d / B2R c) - B2R d / B2R c) <= e * Rabs (B2R d / B2R c)).
  { rewrite <- H53. apply rnd_relative. lra. }
  assert (e * Rabs (B2R d / B2R c) <= e * (5 / 4 * Rabs (B2R x))) by (apply Rmult_le_compat_l; lra).
  apply Rabs_le_inv in Rq, Xd. apply Rabs_le. lra.
Qed.

(** Converting a distance and back should give the distance.  It does not: 1001 m through
    kilometres, and 7 feet through metres. *)
Theorem C96_units_refuted :
  (let d := distance_m (float_of_Z 1001) zero zero zero zero in
   B2R d = 1001 /\ B2R (distance_m zero zero (distance_km d) zero zero) <> 1001) /\
  B2R (distance_feet (distance_m zero zero zero zero (float_of_Z 7))) <> 7.
Proof.
  cbv zeta.
  destruct (value (distance_m (float_of_Z 1001) zero zero zero zero) _ _ _ ltac:(vm_compute; reflexivity)) as [_ V1].
  destruct (value (distance_m zero zero (distance_km (distance_m (float_of_Z 1001) zero zero zero zero)) zero zero)
    _ _ _ ltac:(vm_compute; reflexivity)) as [_ V2].
  destruct (value (distance_feet (distance_m zero zero zero zero (float_of_Z 7))) _ _ _ ltac:(vm_compute; reflexivity)) as [_ V3].
  rewrite V1, V2, V3. unfold F2R. cbn [Fnum Fexp cond_Zopp bpow].
  split; [split|]; vm_compute Z.pow_pos; lra.
Qed.

(** ** The observation *)
Lemma bool_box (i : nat) b : existsb (Nat.eqb i) [3; 4; 5; 6; 15]%nat = false -> in_box i (b32 b) = true.
Proof.
  intro H. unfold in_box, low32, high32. cbn [existsb] in *.
  repeat (apply orb_false_iff in H; destruct H as [?E H]). rewrite E, E0, E1, E2, E3. cbn [orb].
  destruct b; vm_compute; reflexivity.
Qed.
Lemma unit_box (i : nat) (f : float) : existsb (Nat.eqb i) [3; 4; 5; 6; 15]%nat = false ->
  is_finite f = true -> 0 <= B2R f <= 1 -> in_box i (to_float32 f) = true.
Proof.
  intros H Ff B. unfold in_box, low32, high32. cbn [existsb] in *.
  repeat (apply orb_false_iff in H; destruct H as [?E H]). rewrite E, E0, E1, E2, E3. cbn [orb].
  destruct (store_between f 0 1 (finite_not_nan f Ff) near32_0 near32_1) as [N32 B32].
  { rewrite (ext_finite 53 1024 f Ff). exact B. }
  destruct (b32_value true) as [N1 V1]. destruct (b32_value false) as [N0 V0].
  rewrite !le32 by assumption. rewrite V0, V1, !Rle_bool_true by lra. reflexivity.
Qed.
Lemma trig_box (i : nat) (f : float) : existsb (Nat.eqb i) [3; 4; 5; 6]%nat = true ->
  is_finite f = true -> -1 <= B2R f <= 1 -> in_box i (to_float32 f) = true.
Proof.
  intros H Ff B. unfold in_box, low32, high32. rewrite H.
  assert (E : Nat.eqb i 15 = false).
  { destruct (Nat.eqb_spec i 15) as [E0|]; [|reflexivity]. rewrite E0 in H. discriminate H. }
  rewrite E.
  destruct (store_between f (-1) 1 (finite_not_nan f Ff) near32_m1 near32_1) as [N32 B32].
  { rewrite (ext_finite 53 1024 f Ff). exact B. }
  destruct (b32_value true) as [N1 V1].
  assert (Vm : ext32 (Bopp (b32 true)) = -1) by (vm_compute; lra).
  rewrite !le32 by (assumption || reflexivity). rewrite Vm, V1, !Rle_bool_true by lra. reflexivity.
Qed.
Lemma ratio_box (f : float) : Bleb (float_of_Z 1) f = true -> in_box 15 (to_float32 f) = true.
Proof.
  intro H. destruct (not_nan_of_le _ _ H) as [N1 Nf]. rewrite leb_ext in H by assumption.
  destruct one_value as [F1 V1]. rewrite (ext_finite 53 1024 _ F1), V1 in H.
  destruct (Rle_bool_spec 1 (ext f)) as [L|]; [|discriminate H].
  destruct (store f Nf) as [N32 E32]. pose proof (near_mono 24 128 1 (ext f) L) as M. rewrite near32_1, <- E32 in M.
  destruct (b32_value true) as [Nt Vt]. unfold in_box, low32, high32. cbn [existsb Nat.eqb orb].
  rewrite !le32 by (assumption || reflexivity). rewrite Vt.
  pose proof (ext_le 24 128 (to_float32 f)) as [_ U].
  change (ext32 (B754_infinity false)) with (bpow radix2 128). rewrite !Rle_bool_true by assumption. reflexivity.
Qed.

Lemma size_of_Z (z : Z) : (Z.abs z < 2 ^ 53)%Z -> ordinary_size (float_of_Z z) /\ B2R (float_of_Z z) = IZR z.
Proof.
  intro H. destruct (of_Z z H) as [Fz V]. split; [|exact V]. split; [exact Fz|]. rewrite V, <- abs_IZR.
  apply Rle_trans with (IZR (2 ^ 53)); [apply IZR_le; lia|].
  change (IZR (2 ^ 53)) with (bpow radix2 53). apply bpow_le. lia.
Qed.
Lemma km_size (d : float) : ordinary_size d -> 0 <= B2R d ->
  ordinary_size (distance_km d) /\ 0 <= B2R (distance_km d) /\ B2R (distance_km d) = rnd (B2R d / 1000).
Proof.
  intros [Fd Ld] P. unfold FloatFeatures.distance_km. rewrite div_is. change (nofZ (Num:=N64)) with float_of_Z.
  destruct thousand as [Ft Vt].
  pose proof (div_computes 53 1024 d _ Fd Ft ltac:(rewrite Vt; lra)) as Q. rewrite Vt in Q.
  destruct (computes_within 53 1024 _ _ 1000 ltac:(lia) Q) as [W V].
  { rewrite Rabs_pos_eq in * by lra. lra. }
  split; [exact W|]. split; [|exact V].
  destruct Q as [_ E]. destruct W as [Fq _]. rewrite (ext_finite 53 1024 _ Fq) in E. rewrite E.
  rewrite <- (near_0 53 1024). apply (near_mono 53 1024). lra.
Qed.

Context (sin cos : float -> float) (atan2 : float -> float -> float).
Definition unit_range (f : float) : Prop := is_finite f = true /\ -1 <= B2R f <= 1.

Lemma sunrise_finite (t : float) : Bleb (float_of_Z 0) t = true ->
  Bleb t (nadd (Num:=N64) (nmul (Num:=N64) (float_of_Z 2) float_pi) (lit (N:=N64) 1 1000000)) = true -> is_finite t = true.
Proof.
  intros T0 T1.
  destruct (not_nan_of_le _ _ T0) as [Nz Nt]. rewrite leb_ext in T0 by assumption.
    destruct (not_nan_of_le _ _ T1) as [_ Nu]. rewrite leb_ext in T1 by assumption.
    destruct (value (nadd (Num:=N64) (nmul (Num:=N64) (float_of_Z 2) float_pi) (lit (N:=N64) 1 1000000)) _ _ _
      ltac:(vm_compute; reflexivity)) as [Fu Vu].
    rewrite (ext_finite 53 1024 _ Fu) in T1.
    destruct (Rle_bool_spec (ext (float_of_Z 0)) (ext t)) as [A|]; [|discriminate T0].
    destruct (Rle_bool_spec (ext t)
      (B2R (nadd (Num:=N64) (nmul (Num:=N64) (float_of_Z 2) float_pi) (lit (N:=N64) 1 1000000)))) as [B|]; [|discriminate T1].
    apply (finite_of_ext 53 1024); [exact Nt|]. change (ext (float_of_Z 0)) with 0 in A.
    rewrite Rabs_pos_eq by exact A. eapply Rle_lt_trans; [exact B|]. eapply Rle_lt_trans; [apply Rle_abs|]. apply finite_lt.
Qed.
Lemma km_finite (d : float) : is_finite d = true -> is_finite (nopp (Num:=N64) (distance_km d)) = true.
Proof.
  intro Fd. change (nopp (Num:=N64)) with (@Bopp 53 1024). rewrite is_finite_Bopp.
    unfold FloatFeatures.distance_km. rewrite div_is. change (nofZ (Num:=N64)) with float_of_Z. destruct thousand as [Fth Vth].
    pose proof (div_computes 53 1024 d _ Fd Fth ltac:(rewrite Vth; lra)) as [Nq Eq]. rewrite Vth in Eq.
    apply (finite_of_ext 53 1024); [exact Nq|]. rewrite Eq. eapply Rle_lt_trans; [|apply (finite_lt 53 1024 d)].
    destruct (Rle_lt_dec 0 (B2R d)) as [P|P].
    - pose proof (near_mono 53 1024 0 (B2R d / 1000) ltac:(lra)) as K1. rewrite near_0 in K1.
      pose proof (near_mono 53 1024 (B2R d / 1000) (B2R d) ltac:(lra)) as K2. rewrite near_of in K2.
      rewrite !Rabs_pos_eq; lra.
    - pose proof (near_mono 53 1024 (B2R d / 1000) 0 ltac:(lra)) as K1. rewrite near_0 in K1.
      pose proof (near_mono 53 1024 (B2R d) (B2R d / 1000) ltac:(lra)) as K2. rewrite near_of in K2.
      rewrite !Rabs_left1; lra.
Qed.

(** Entries 0 to 15 of the vector lie in the declared observation space, if the sine and
    cosine of the C library stay between -1 and 1. *)
Theorem C96_observation : forall (r : readings) (s : bstate float),
  (forall t, is_finite t = true -> unit_range (sin t) /\ unit_range (cos t)) ->
  (forall a b, is_finite a = true -> is_finite b = true -> is_finite (atan2 a b) = true) ->
  ordinary_size (pressure s) -> 0 < B2R (pressure s) -> is_nan (superpressure s) = false ->
  is_finite (@battery_soc _ N64 s) = true -> 0 <= B2R (@battery_soc _ N64 s) <= 1 ->
  is_finite (x s) = true -> is_finite (y s) = true ->
  ordinary_size (solar_angle r) -> ordinary_size (power r) ->
  ordinary_size (distance r) -> 0 <= B2R (distance r) ->
  Bleb (float_of_Z 0) (sunrise_time r) = true ->
  Bleb (sunrise_time r) (nadd (Num:=N64) (nmul (Num:=N64) (float_of_Z 2) float_pi) (lit (N:=N64) 1 1000000)) = true ->
  exists fs, ambient pow sin cos atan2 r s = Some fs /\ length fs = 16%nat /\
    forall i f, nth_error fs i = Some f -> in_box i f = true.
Proof.
  intros r s Hsc Hat Sp Pp Nsp Fsoc Bsoc Fx Fy Sa Sw Sd Pd T0 T1. unfold ambient.
  change (FloatFeatures.F pow) with N64. change (nofZ (Num:=N64)) with float_of_Z.
  change (npi (Num:=N64)) with float_pi.
  destruct (size_of_Z 5000 ltac:(lia)) as [S5 V5]. destruct (size_of_Z 14000 ltac:(lia)) as [S14 V14].
  destruct (size_of_Z (-90) ltac:(lia)) as [Sm90 Vm90]. destruct (size_of_Z 90 ltac:(lia)) as [S90 V90].
  destruct (size_of_Z 100 ltac:(lia)) as [S100 V100]. destruct (size_of_Z 300 ltac:(lia)) as [S300 V300].
  destruct (size_of_Z 250 ltac:(lia)) as [S250 V250].
  destruct (C96_saturation (pressure s) _ _ Sp S5 S14 ltac:(rewrite V5, V14; lra)) as (f0 & E0 & F0 & B0 & _).
  destruct (C96_saturation (solar_angle r) _ _ Sa Sm90 S90 ltac:(rewrite Vm90, V90; lra)) as (f2 & E2 & F2 & B2 & _).
  destruct (C96_saturation (power r) _ _ Sw S100 S300 ltac:(rewrite V100, V300; lra)) as (f14 & E14 & F14 & B14 & _).
  destruct (km_size (distance r) Sd Pd) as (Sk & Pk & _).
  destruct (C96_squash (distance_km (distance r)) _ Sk Pk S250 ltac:(rewrite V250; lra)) as (f7 & E7 & F7 & B7 & _).
  rewrite E0, E2. cbv zeta.
  match goal with |- context [if negb ?b then _ else _] => replace b with true end.
  2: { symmetry. apply andb_true_iff. split; [exact T0|exact T1]. }
  cbn [negb]. rewrite E7, E14.
  eexists. split; [reflexivity|]. split; [reflexivity|].
  assert (Ft : is_finite (sunrise_time r) = true) by (apply sunrise_finite; assumption).
  destruct (Hsc _ Ft) as [[Fs Bs] [Fc Bc]].
  destruct (Hsc _ (Hat _ _ (km_finite _ Fx) (km_finite _ Fy))) as [[Fsh Bsh] [Fch Bch]].
  intros i f Hi. clear Hsc Hat.
  do 16 (destruct i as [|i]; [cbn [nth_error] in Hi; apply some_eq in Hi; rewrite <- Hi;
    first [apply bool_box; reflexivity
          |apply unit_box; [reflexivity|assumption|assumption]
          |apply trig_box; [reflexivity|assumption|assumption]
          |apply ratio_box; apply C95_ratio; try assumption; apply Sp]|]).
  destruct i; discriminate Hi.
Qed.

(** The pressure can be read back from its feature to within 0.0003 Pa. *)
Theorem C96_pressure : forall p : float,
  is_finite p = true -> 5000 <= B2R p <= 14000 ->
  exists y, rescale_saturated p (float_of_Z 5000) (float_of_Z 14000) = Some y /\
    is_finite (to_float32 y) = true /\
    Rabs (5000 + 9000 * B2R (to_float32 y) - B2R p) <= 3 / 10000.
Proof.
  intros p Fp Bp. destruct (size_of_Z 5000 ltac:(lia)) as [S5 V5]. destruct (size_of_Z 14000 ltac:(lia)) as [S14 V14].
  destruct (size_of_Z 9000 ltac:(lia)) as [_ V9].
  assert (Sp : ordinary_size p).
  { split; [exact Fp|]. rewrite Rabs_pos_eq by lra. apply Rle_trans with 16384; [lra|].
    change 16384 with (bpow radix2 14). apply bpow_le. lia. }
  destruct (saturated_value p _ _ Sp S5 S14 ltac:(rewrite V5, V14; lra)) as (y & E & Fy & V). exists y.
  split; [exact E|]. rewrite V5, V14 in V.
  replace (14000 - 5000) with (B2R (float_of_Z 9000)) in V by (rewrite V9; lra). rewrite rnd_of, V9 in V.
  assert (E1 : Rabs (rnd (B2R p - 5000) - (B2R p - 5000)) <= bpow radix2 (14 - 53 - 1)).
  { apply (rnd_error 53 1024); [lia|]. change (bpow radix2 14) with 16384. rewrite Rabs_pos_eq; lra. }
  assert (E1' : 0 <= rnd (B2R p - 5000) <= 9000).
  { pose proof (rnd_mono 53 1024 0 (B2R p - 5000) ltac:(lra)) as K1. unfold Float64Proofs.rnd at 1 in K1. rewrite round_0 in K1 by exact _.
    pose proof (rnd_mono 53 1024 (B2R p - 5000) (B2R (float_of_Z 9000)) ltac:(rewrite V9; lra)) as K2. rewrite rnd_of, V9 in K2. lra. }
  set (a := rnd (B2R p - 5000)) in *.
  assert (E2 : near (a / 9000) = rnd (a / 9000) /\ 0 <= near (a / 9000) <= 1).
  { pose proof (near_mono 53 1024 0 (a / 9000) ltac:(lra)) as K1. rewrite near_0 in K1.
    pose proof (near_mono 53 1024 (a / 9000) 1 ltac:(lra)) as K2. rewrite near_1 in K2.
    destruct (near_cases 53 1024 (a / 9000)) as [[_ N]|[[_ N]|[_ N]]]; [now split| |]; exfalso;
      assert (bpow radix2 0 < bpow radix2 1024) by (apply bpow_lt; lia); change (bpow radix2 0) with 1 in *;
      rewrite N in K1, K2; lra. }
  destruct E2 as [E2 B2]. rewrite Rmax_left, Rmin_left in V by lra. rewrite E2 in V, B2.
  assert (E3 : Rabs (rnd (a / 9000) - a / 9000) <= bpow radix2 (0 - 53 - 1)).
  { apply (rnd_error 53 1024); [lia|]. change (bpow radix2 0) with 1. rewrite Rabs_pos_eq; lra. }
  destruct (C96_float32 y y) as [_ K]. destruct (K Fy ltac:(rewrite V, Rabs_pos_eq; lra)) as [F32 E4].
  split; [exact F32|]. rewrite V in E4.
  assert (H1 : bpow radix2 (14 - 53 - 1) <= / 10000000) by (cbn; lra).
  assert (H2 : bpow radix2 (0 - 53 - 1) <= / 1000000000000) by (cbn; lra).
  assert (H3 : / 2 ^ 25 <= 299 / 10000000000) by (cbn; lra).
  set (q := rnd (a / 9000)) in *. clearbody q a.
  apply Rabs_le_inv in E1, E3, E4. apply Rabs_le. lra.
Qed.

(** What the exact features are: clipped to [0, 1]. *)
Definition clipped (r : R) : R := Rmin (Rmax r 0) 1.

Lemma clipped_lipschitz r r' : Rabs (clipped r - clipped r') <= Rabs (r - r').
Proof.
  unfold clipped. apply Rmin_case_strong; intro; apply Rmin_case_strong; intro;
    revert H H0; apply Rmax_case_strong; intro; apply Rmax_case_strong; intros;
    unfold Rabs; repeat match goal with |- context [Rcase_abs ?u] => destruct (Rcase_abs u) end; lra.
Qed.

Lemma saturated_error (v : float) (a b : Z) :
  is_finite v = true -> Rabs (B2R v) <= 1048576 -> (Z.abs a <= 2 ^ 20)%Z -> (Z.abs b <= 2 ^ 20)%Z -> (a < b)%Z ->
  exists y, rescale_saturated v (float_of_Z a) (float_of_Z b) = Some y /\ is_finite y = true /\ 0 <= B2R y <= 1 /\
    Rabs (B2R y - clipped ((B2R v - IZR a) / (IZR b - IZR a))) <= 2 * bpow radix2 (21 - 53 - 1).
Proof.
  intros Fv Lv La Lb Lt. destruct (size_of_Z a ltac:(lia)) as [Sa Va]. destruct (size_of_Z b ltac:(lia)) as [Sb Vb].
  destruct (size_of_Z (b - a) ltac:(lia)) as [_ Vd].
  assert (Sv : ordinary_size v).
  { split; [exact Fv|]. apply Rle_trans with 1048576; [exact Lv|]. change 1048576 with (bpow radix2 20). apply bpow_le. lia. }
  assert (Gap : 1 <= IZR b - IZR a) by (rewrite <- minus_IZR; apply IZR_le; lia).
  destruct (saturated_value v _ _ Sv Sa Sb ltac:(rewrite Va, Vb; lra)) as (y & E & Fy & V). exists y.
  split; [exact E|]. rewrite Va, Vb in V.
  assert (Ed : rnd (IZR b - IZR a) = IZR b - IZR a) by (rewrite <- minus_IZR, <- Vd; apply rnd_of).
  rewrite Ed in V. fold (clipped (near (rnd (B2R v - IZR a) / (IZR b - IZR a)))) in V.
  assert (Aa : Rabs (IZR a) <= 1048576) by (rewrite <- abs_IZR; apply IZR_le; lia).
  assert (A1 : Rabs (B2R v - IZR a) <= bpow radix2 21).
  { change (bpow radix2 21) with 2097152. apply Rabs_le_inv in Lv, Aa. apply Rabs_le. lra. }
  assert (E1 : Rabs (rnd (B2R v - IZR a) - (B2R v - IZR a)) <= bpow radix2 (21 - 53 - 1)).
  { apply (rnd_error 53 1024); [lia|exact A1]. }
  assert (A2 : Rabs (rnd (B2R v - IZR a)) <= bpow radix2 21) by (apply (rnd_within 53 1024); [lia|exact A1]).
  set (u := rnd (B2R v - IZR a)) in *. set (d := IZR b - IZR a) in *.
  assert (I : 0 < / d <= 1).
  { split; [apply Rinv_0_lt_compat; lra|]. rewrite <- Rinv_1. apply Rinv_le_contravar; lra. }
  assert (A3 : Rabs (u / d) <= bpow radix2 21).
  { unfold Rdiv. rewrite Rabs_mult, (Rabs_pos_eq (/ d)) by lra. pose proof (Rabs_pos u). nra. }
  assert (E2 : Rabs (rnd (u / d) - u / d) <= bpow radix2 (21 - 53 - 1)) by (apply (rnd_error 53 1024); [lia|exact A3]).
  assert (Nr : near (u / d) = rnd (u / d)).
  { assert (A4 : Rabs (rnd (u / d)) <= bpow radix2 21) by (apply (rnd_within 53 1024); [lia|exact A3]).
    destruct (near_cases 53 1024 (u / d)) as [[_ N]|[[G _]|[G _]]]; [exact N| |]; exfalso;
      assert (T : bpow radix2 21 < bpow radix2 1024) by (apply bpow_lt; lia); apply Rabs_le_inv in A4; lra. }
  rewrite Nr in V.
  assert (U : Rabs (u / d - (B2R v - IZR a) / d) <= bpow radix2 (21 - 53 - 1)).
  { replace (u / d - (B2R v - IZR a) / d) with ((u - (B2R v - IZR a)) * / d) by (unfold Rdiv; ring).
    rewrite Rabs_mult, (Rabs_pos_eq (/ d)) by lra. pose proof (Rabs_pos (u - (B2R v - IZR a))). nra. }
  split; [exact Fy|]. split.
  { rewrite V. unfold clipped. split; [|apply Rmin_r]. apply Rmin_glb; [apply Rmax_r|lra]. }
  rewrite V. eapply Rle_trans; [apply clipped_lipschitz|].
    replace (rnd (u / d) - (B2R v - IZR a) / d) with ((rnd (u / d) - u / d) + (u / d - (B2R v - IZR a) / d)) by ring.
    eapply Rle_trans; [apply Rabs_triang|]. lra.
Qed.
Lemma saturated_near (v : float) (a b : Z) :
  is_finite v = true -> Rabs (B2R v) <= 1048576 -> (Z.abs a <= 2 ^ 20)%Z -> (Z.abs b <= 2 ^ 20)%Z -> (a < b)%Z ->
  exists y, rescale_saturated v (float_of_Z a) (float_of_Z b) = Some y /\ is_finite (to_float32 y) = true /\
    Rabs (B2R (to_float32 y) - clipped ((B2R v - IZR a) / (IZR b - IZR a))) <= / 2 ^ 24.
Proof.
  intros Fv Lv La Lb Lt. destruct (saturated_error v a b Fv Lv La Lb Lt) as (y & E & Fy & By & C). exists y.
  split; [exact E|]. set (d := IZR b - IZR a) in *.
  destruct (C96_float32 y y) as [_ K].
  destruct (K Fy) as [F32 E32].
  { rewrite Rabs_pos_eq; lra. }
  split; [exact F32|].
  replace (B2R (to_float32 y) - clipped ((B2R v - IZR a) / d))
    with ((B2R (to_float32 y) - B2R y) + (B2R y - clipped ((B2R v - IZR a) / d))) by ring.
  eapply Rle_trans; [apply Rabs_triang|].
  assert (H1 : 2 * bpow radix2 (21 - 53 - 1) <= / 2 ^ 25) by (cbn; lra).
  assert (H2 : / 2 ^ 24 = 2 * / 2 ^ 25) by (cbn; lra). lra.
Qed.

Lemma squash_near (d : float) : is_finite d = true -> 0 <= B2R d <= 1048576000 ->
  exists y, squash (distance_km d) (float_of_Z 250) = Some y /\
    Rabs (B2R (to_float32 y) - B2R d / (B2R d + 250000)) <= / 2 ^ 24.
Proof.
  intros Fd Bd. destruct (size_of_Z 250 ltac:(lia)) as [S250 V250].
  assert (Sd : ordinary_size d).
  { split; [exact Fd|]. rewrite Rabs_pos_eq by lra. apply Rle_trans with (bpow radix2 30); [change (bpow radix2 30) with 1073741824; lra|].
    apply bpow_le. lia. }
  destruct (km_size d Sd ltac:(lra)) as (Sk & Pk & Vk).
  destruct (C96_squash (distance_km d) _ Sk Pk S250 ltac:(rewrite V250; lra)) as (y & E & Fy & By & _ & C & _).
  exists y. split; [exact E|]. specialize (C ltac:(rewrite V250; lra)). rewrite V250 in C.
  destruct (proj2 (C96_float32 y y) Fy ltac:(rewrite Rabs_pos_eq; lra)) as [_ K].
  assert (Ek : Rabs (B2R (distance_km d) - B2R d / 1000) <= bpow radix2 (20 - 53 - 1)).
  { rewrite Vk. apply (rnd_error 53 1024); [lia|]. change (bpow radix2 20) with 1048576. rewrite Rabs_pos_eq; lra. }
  set (k := B2R (distance_km d)) in *. set (m := B2R d / 1000) in *. assert (Pm : 0 <= m) by (unfold m; lra).
  assert (Em : B2R d / (B2R d + 250000) = m / (m + 250)) by (unfold m; field; lra). rewrite Em.
  assert (L : Rabs (k / (k + 250) - m / (m + 250)) <= Rabs (k - m)).
  { replace (k / (k + 250) - m / (m + 250)) with ((k - m) * (250 / ((k + 250) * (m + 250)))) by (field; lra).
    rewrite Rabs_mult. assert (Z : 0 < (k + 250) * (m + 250)) by nra.
    assert (I : 0 < / ((k + 250) * (m + 250))) by now apply Rinv_0_lt_compat.
    assert (W : 250 / ((k + 250) * (m + 250)) <= 1).
    { apply Rmult_le_reg_r with ((k + 250) * (m + 250)); [exact Z|].
      unfold Rdiv. rewrite Rmult_assoc, Rinv_l, Rmult_1_r, Rmult_1_l by lra. nra. }
    rewrite (Rabs_pos_eq (250 / _)) by (unfold Rdiv; lra). pose proof (Rabs_pos (k - m)). nra. }
  assert (H1 : bpow radix2 (20 - 53 - 1) + bpow radix2 (-52) <= / 2 ^ 25) by (cbn; lra).
  assert (H2 : / 2 ^ 24 = 2 * / 2 ^ 25) by (cbn; lra).
  replace (B2R (to_float32 y) - m / (m + 250))
    with ((B2R (to_float32 y) - B2R y) + ((B2R y - k / (k + 250)) + (k / (k + 250) - m / (m + 250)))) by ring.
  eapply Rle_trans; [apply Rabs_triang|].
  pose proof (Rabs_triang (B2R y - k / (k + 250)) (k / (k + 250) - m / (m + 250))). lra.
Qed.

(** The value of a flag. *)
Definition flag (b : bool) : R := if b then 1 else 0.

(** Entry by entry, the vector is the exact one (that of C24) up to 2^-24. *)
Theorem C96_entries : forall (r : readings) (s : bstate float) fs,
  (forall t, is_finite t = true -> unit_range (sin t) /\ unit_range (cos t)) ->
  (forall a b, is_finite a = true -> is_finite b = true -> is_finite (atan2 a b) = true) ->
  is_finite (pressure s) = true -> 0 < B2R (pressure s) <= 1048576 ->
  is_finite (@battery_soc _ N64 s) = true -> 0 <= B2R (@battery_soc _ N64 s) <= 1 ->
  is_finite (x s) = true -> is_finite (y s) = true ->
  is_finite (solar_angle r) = true -> Rabs (B2R (solar_angle r)) <= 1048576 ->
  is_finite (power r) = true -> Rabs (B2R (power r)) <= 1048576 ->
  is_finite (distance r) = true -> 0 <= B2R (distance r) <= 1048576000 ->
  ambient pow sin cos atan2 r s = Some fs ->
  exists v0 v1 v2 v3 v4 v5 v6 v7 v14 v15 heading, fs = 
    [v0; v1; v2; v3; v4; v5; v6; v7;
     b32 (command_eqb (last_command s) UP); b32 (command_eqb (last_command s) STAY);
     b32 (command_eqb (last_command s) DOWN);
     b32 (navigation_is_paused s); b32 (negb (navigation_is_paused s)); b32 (excess r); v14; v15] /\
    Rabs (B2R v0 - clipped ((B2R (pressure s) - 5000) / 9000)) <= / 2 ^ 24 /\
    Rabs (B2R v1 - B2R (@battery_soc _ N64 s)) <= / 2 ^ 25 /\
    Rabs (B2R v2 - clipped ((B2R (solar_angle r) + 90) / 180)) <= / 2 ^ 24 /\
    Rabs (B2R v3 - B2R (sin (sunrise_time r))) <= / 2 ^ 25 /\
    Rabs (B2R v4 - B2R (cos (sunrise_time r))) <= / 2 ^ 25 /\
    heading = atan2 (nopp (Num:=N64) (distance_km (x s))) (nopp (Num:=N64) (distance_km (y s))) /\
    Rabs (B2R v5 - B2R (sin heading)) <= / 2 ^ 25 /\
    Rabs (B2R v6 - B2R (cos heading)) <= / 2 ^ 25 /\
    Rabs (B2R v7 - B2R (distance r) / (B2R (distance r) + 250000)) <= / 2 ^ 24 /\
    Rabs (B2R v14 - clipped ((B2R (power r) - 100) / 200)) <= / 2 ^ 24 /\
    v15 = to_float32 (@pressure_ratio _ N64 s) /\
    (forall b, B2R (b32 b) = flag b).
Proof.
  intros r s fs Hsc Hat Fp Bp Fsoc Bsoc Fx Fy Fa Ba Fw Bw Fd Bd H. unfold ambient in H.
  change (FloatFeatures.F pow) with N64 in H. change (nofZ (Num:=N64)) with float_of_Z in H.
  change (npi (Num:=N64)) with float_pi in H.
  destruct (saturated_near (pressure s) 5000 14000 Fp ltac:(rewrite Rabs_pos_eq; lra) ltac:(lia) ltac:(lia) ltac:(lia))
    as (f0 & E0 & G0 & A0).
  destruct (saturated_near (solar_angle r) (-90) 90 Fa Ba ltac:(lia) ltac:(lia) ltac:(lia)) as (f2 & E2 & G2 & A2).
  destruct (saturated_near (power r) 100 300 Fw Bw ltac:(lia) ltac:(lia) ltac:(lia)) as (f14 & E14 & G14 & A14).
  destruct (squash_near (distance r) Fd Bd) as (f7 & E7 & A7).
  rewrite E0, E2 in H. cbv zeta in H.
  destruct (Bleb (float_of_Z 0) (sunrise_time r)) eqn:T0; [|discriminate H].
  match type of H with context [true && ?b] => destruct b eqn:T1; [|discriminate H] end.
  cbn [negb andb] in H. rewrite E7, E14 in H. apply some_eq in H. rewrite <- H.
  assert (Ft : is_finite (sunrise_time r) = true) by (apply sunrise_finite; assumption).
  destruct (Hsc _ Ft) as [Us Uc].
  destruct (Hsc _ (Hat _ _ (km_finite _ Fx) (km_finite _ Fy))) as [Ush Uch].
  do 11 eexists. split; [reflexivity|].
  split; [replace 9000 with (14000 - 5000) by lra; exact A0|].
  split; [apply (proj2 (C96_float32 _ (B754_zero false)) Fsoc); rewrite Rabs_pos_eq; lra|].
  split; [replace 180 with (90 - -90) by lra; replace (B2R (solar_angle r) + 90) with (B2R (solar_angle r) - -90) by lra; exact A2|].
  assert (U : forall f : float, unit_range f -> Rabs (B2R (to_float32 f) - B2R f) <= / 2 ^ 25).
  { intros f [Ff Bf]. apply (proj2 (C96_float32 f f) Ff). now apply Rabs_le. }
  split; [now apply U|]. split; [now apply U|]. split; [reflexivity|]. split; [now apply U|]. split; [now apply U|].
  split; [exact A7|]. split; [replace 200 with (300 - 100) by lra; exact A14|]. split; [reflexivity|].
  intro b. destruct (b32_value b) as [_ V]. rewrite (ext_finite 24 128) in V by (destruct b; reflexivity).
  rewrite V. reflexivity.
Qed.


(** A reachable level of the wind column is in the observation space and never taken for an
    unreachable one; the mark of an unreachable level is. *)
Theorem C96_levels : forall deviation angle magnitude : float,
  is_finite deviation = true -> 0 <= B2R deviation <= 1 ->
  is_finite angle = true -> 0 <= B2R angle <= B2R float_pi ->
  is_finite magnitude = true -> 0 <= B2R magnitude <= 1048576 ->
  (exists u b m, level_features pow deviation angle magnitude = Some (u, b, m) /\
     valid_wind (u, b, m) = true /\
     Rabs (B2R u - B2R deviation) <= / 2 ^ 24 /\
     Rabs (B2R b - B2R angle / B2R float_pi) <= / 2 ^ 24 /\
     Rabs (B2R m - B2R magnitude / (B2R magnitude + 30)) <= / 2 ^ 24 /\
     forall j, (16 <= j)%nat -> in_box j u = true /\ in_box j b = true /\ in_box j m = true) /\
  valid_wind unreachable_features = false.
Proof.
  intros dv an mg Fd Bd Fa Ba Fm Bm. split; [|vm_compute; reflexivity]. unfold level_features.
  change (FloatFeatures.F pow) with N64. change (npi (Num:=N64)) with float_pi. change (nofZ (Num:=N64)) with float_of_Z.
  destruct (size_of_Z 30 ltac:(lia)) as [S30 V30].
  assert (Sm : ordinary_size mg).
  { split; [exact Fm|]. rewrite Rabs_pos_eq by lra. apply Rle_trans with 1048576; [lra|].
    change 1048576 with (bpow radix2 20). apply bpow_le. lia. }
  destruct (C96_squash mg _ Sm (proj1 Bm) S30 ltac:(rewrite V30; lra)) as (m & Em & Fm' & Bm' & _ & Close & Low).
  specialize (Close ltac:(rewrite V30; lra)). rewrite V30 in Close.
  destruct (Low ltac:(rewrite V30; lra) (proj2 Bm)) as (_ & F32 & L32).
  destruct (value float_pi _ _ _ ltac:(vm_compute; reflexivity)) as [Fpi Vpi].
  assert (Ppi : 3 < B2R float_pi).
  { rewrite Vpi. unfold F2R. cbn [Fnum Fexp cond_Zopp bpow]. vm_compute Z.pow_pos. lra. }
  clear Vpi.
  assert (Ea : exists a, rescale an (float_of_Z 0) float_pi = Some a /\ is_finite a = true /\ 0 <= B2R a <= 1 /\
    Rabs (B2R a - B2R an / B2R float_pi) <= bpow radix2 (-52)).
  { unfold FloatFeatures.rescale.
    assert (B : nleb (Num:=N64) float_pi (float_of_Z 0) = false).
    { rewrite le_is, leb_ext by reflexivity. rewrite (ext_finite 53 1024 float_pi Fpi).
      apply Rle_bool_false. change (ext (float_of_Z 0)) with 0. lra. }
    rewrite B. eexists. split; [reflexivity|]. rewrite div_is, !sub_is.
    assert (Sub : forall f : float, is_finite f = true ->
      is_finite (Bminus mode_NE f (float_of_Z 0)) = true /\ B2R (Bminus mode_NE f (float_of_Z 0)) = B2R f).
    { intros f Ff. change (float_of_Z 0) with (@B754_zero 53 1024 false).
      rewrite (minus_is 53 1024). change (Bopp (B754_zero false)) with (@B754_zero 53 1024 true). now apply zero_right. }
    destruct (Sub an Fa) as [Fa' Va]. destruct (Sub float_pi Fpi) as [Fp' Vp].
    pose proof (div_computes 53 1024 _ _ Fa' Fp' ltac:(rewrite Vp; lra)) as Q. rewrite Va, Vp in Q.
    assert (U : 0 <= B2R an / B2R float_pi <= 1).
    { assert (I : 0 < / B2R float_pi) by (apply Rinv_0_lt_compat; lra). unfold Rdiv. split; [nra|].
      rewrite <- (Rinv_r (B2R float_pi)) by lra. apply Rmult_le_compat_r; lra. }
    destruct (computes_within 53 1024 _ _ 0 ltac:(lia) Q) as [[Fq _] Vq].
    { rewrite Rabs_pos_eq by lra. exact (proj2 U). }
    split; [exact Fq|]. apply and_comm. split.
    { rewrite Vq. apply Rle_trans with (bpow radix2 (0 - 53 - 1)); [|apply bpow_le; lia].
      apply (rnd_error 53 1024); [lia|]. rewrite Rabs_pos_eq by lra. exact (proj2 U). }
    destruct Q as [_ Eq]. rewrite (ext_finite 53 1024 _ Fq) in Eq. rewrite Eq.
    pose proof (near_mono 53 1024 0 _ (proj1 U)) as K1. rewrite near_0 in K1.
    pose proof (near_mono 53 1024 _ 1 (proj2 U)) as K2. rewrite near_1 in K2. lra. }
  destruct Ea as (a & Ea & Fa' & Ba' & Na). rewrite Ea, Em.
  assert (D0 : Bleb (float_of_Z 0) dv = true).
  { rewrite leb_ext by (reflexivity || now apply finite_not_nan). rewrite (ext_finite 53 1024 dv Fd).
    apply Rle_bool_true. change (ext (float_of_Z 0)) with 0. lra. }
  assert (D1 : Bleb dv (lit (N:=N64) 100001 100000) = true).
  { destruct (value (lit (N:=N64) 100001 100000) _ _ _ ltac:(vm_compute; reflexivity)) as [Fl Vl].
    rewrite leb_ext by (now apply finite_not_nan). rewrite (ext_finite 53 1024 dv Fd), (ext_finite 53 1024 _ Fl), Vl.
    apply Rle_bool_true. unfold F2R. cbn [Fnum Fexp cond_Zopp bpow]. vm_compute Z.pow_pos. lra. }
  match goal with |- context [if ?b then _ else None] => replace b with true end.
  2: { symmetry. apply andb_true_iff. split; [exact D0|exact D1]. }
  do 3 eexists. split; [reflexivity|]. split.
  - unfold valid_wind.
    assert (Ne : Beqb (to_float32 m) (b32 true) = false).
    { destruct (b32_value true) as [N1 V1]. rewrite Beqb_correct by (exact F32 || reflexivity).
      apply Req_bool_false. rewrite (ext_finite 24 128) in V1 by reflexivity. rewrite V1. lra. }
    rewrite Ne. reflexivity.
  - assert (Cl : forall (f : float) r, is_finite f = true -> 0 <= B2R f <= 1 -> Rabs (B2R f - r) <= bpow radix2 (-52) ->
      Rabs (B2R (to_float32 f) - r) <= / 2 ^ 24).
    { intros f r Ff Bf Nf. destruct (proj2 (C96_float32 f f) Ff ltac:(rewrite Rabs_pos_eq; lra)) as [_ K].
      replace (B2R (to_float32 f) - r) with ((B2R (to_float32 f) - B2R f) + (B2R f - r)) by ring.
      eapply Rle_trans; [apply Rabs_triang|].
      assert (H1 : bpow radix2 (-52) <= / 2 ^ 25) by (cbn; lra).
      assert (H2 : / 2 ^ 24 = 2 * / 2 ^ 25) by (cbn; lra). lra. }
    split; [apply Cl; [exact Fd|exact Bd|]; unfold Rminus; rewrite Rplus_opp_r, Rabs_R0; apply bpow_ge_0|].
    split; [now apply Cl|]. split; [now apply Cl|].
    intros j Hj.
    assert (Ej : existsb (Nat.eqb j) [3; 4; 5; 6; 15]%nat = false).
    { cbn [existsb]. rewrite !(proj2 (Nat.eqb_neq _ _)) by lia. reflexivity. }
    split; [|split]; apply unit_box; assumption.
Qed.
End Pow.
Print Assumptions C96_saturation.
Print Assumptions C96_squash.
Print Assumptions C96_squash_monotone_refuted.
Print Assumptions C96_squash_below_one_refuted.
Print Assumptions C96_km.
Print Assumptions C96_feet.
Print Assumptions C96_units_refuted.
Print Assumptions C96_observation.
Print Assumptions C96_pressure.
Print Assumptions C96_entries.
Print Assumptions C96_levels.

(** Witnesses: the balloon of C95_witness with ordinary readings; its 16 features, as
    float32 mantissas and exponents. *)
Definition demo_readings : readings :=
  {| solar_angle := float_of_Z 40; sunrise_time := float_of_Z 1; distance := float_of_Z 50000;
     power := float_of_Z 150; excess := false |}.
(** A sine and cosine of constant value, for the witness. *)
Definition demo_trig (_ : float) : float := @lit _ DF (-3) 5.
Example C96_witness :
  option_map (map (@B2SF 24 128)) (ambient demo_pow demo_trig demo_trig (fun _ _ => float_of_Z 1) demo_readings demo_start)
  = Some [SpecFloat.S754_finite false 14913081 (-27); SpecFloat.S754_finite false 15938180 (-24);
          SpecFloat.S754_finite false 12116878 (-24);
          SpecFloat.S754_finite true 10066330 (-24); SpecFloat.S754_finite true 10066330 (-24);
          SpecFloat.S754_finite true 10066330 (-24); SpecFloat.S754_finite true 10066330 (-24);
          SpecFloat.S754_finite false 11184811 (-26);
          SpecFloat.S754_zero false; SpecFloat.S754_finite false 8388608 (-23); SpecFloat.S754_zero false;
          SpecFloat.S754_zero false; SpecFloat.S754_finite false 8388608 (-23); SpecFloat.S754_zero false;
          SpecFloat.S754_finite false 8388608 (-25); SpecFloat.S754_finite false 9646899 (-23)] /\
  ordinary_size (pressure demo_start) /\ 0 < B2R (pressure demo_start) /\ unit_range (demo_trig (float_of_Z 1)) /\
  Bleb (float_of_Z 0) (sunrise_time demo_readings) = true /\
  option_map (fun '(u, b, m) => (B2SF u, B2SF b, B2SF m))
    (level_features demo_pow (@lit _ DF 1 2) (float_of_Z 1) (float_of_Z 10))
  = Some (SpecFloat.S754_finite false 8388608 (-24), SpecFloat.S754_finite false 10680707 (-25), SpecFloat.S754_finite false 8388608 (-25)).
Proof.
  split; [vm_compute; reflexivity|].
  destruct (size_of_Z 6000 ltac:(lia)) as [S V]. split; [exact S|].
  split; [change (pressure demo_start) with (float_of_Z 6000); rewrite V; lra|].
  split.
  { destruct (value (demo_trig (float_of_Z 1)) _ _ _ ltac:(vm_compute; reflexivity)) as [Fd Vd].
    split; [exact Fd|]. rewrite Vd. unfold F2R. cbn [Fnum Fexp cond_Zopp bpow Z.opp]. vm_compute Z.pow_pos. lra. }
  split; vm_compute; reflexivity.
Qed.
