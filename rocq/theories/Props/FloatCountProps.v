(** Property C98: counts computed by rounding a quotient are the exact ones.
    [B2R f] is the real number a finite [f] stands for. *)
From Coq Require Import ZArith Reals Lra Lia Bool.
From Flocq Require Import Core BinarySingleNaN.
From Verif Require Import Model.Num Model.Float64 Model.Features Model.Balloon Model.FloatWind Model.FloatCounts.
From Verif Require Import Spec.FeatureSpec Proofs.Float64Proofs Proofs.FeatureProofs Proofs.FloatWindProofs.
From Verif Require Import Props.FloatProps Props.FloatFeatureProps.
Open Scope R_scope.

(** ** Rounding to a whole number *)
Lemma trunc_nearby md (f : float) : Btrunc (Bnearbyint md f) = round_mode md (B2R f).
Proof.
  apply eq_IZR. rewrite Btrunc_correct by exact _. destruct (Bnearbyint_correct 53 1024 _ md f) as (V & _).
  rewrite V, !round_FIX_IZR, Ztrunc_IZR. reflexivity.
Qed.

(** ** Counts of steps *)
Lemma ratio_value a h : (0 <= a)%Z -> (1 <= h)%Z -> (a + h < 2 ^ 53)%Z ->
  is_finite (ratio64 a h) = true /\ B2R (ratio64 a h) = Float64Proofs.rnd 53 1024 (IZR a / IZR h).
Proof.
  intros Ha Hh S. destruct (of_Z a ltac:(lia)) as [Fa Va]. destruct (of_Z h ltac:(lia)) as [Fh Vh].
  assert (Ph : 1 <= IZR h) by (apply IZR_le; lia). assert (Pa : 0 <= IZR a) by (apply IZR_le; lia).
  pose proof (div_computes 53 1024 _ _ Fa Fh ltac:(rewrite Vh; lra)) as C. rewrite Va, Vh in C.
  assert (Q : IZR a / IZR h * IZR h = IZR a) by (field; lra).
  assert (Q0 : 0 <= IZR a / IZR h) by (apply Rmult_le_pos; [lra|]; left; apply Rinv_0_lt_compat; lra).
  destruct (computes_within 53 1024 _ _ 53 ltac:(lia) C) as [[Fq _] Vq]; [|split; assumption].
  rewrite Rabs_pos_eq by exact Q0. apply Rle_trans with (IZR a); [nra|].
  change (bpow radix2 53) with (IZR (2 ^ 53)). apply IZR_le. lia.
Qed.

(** int(elapsed / time_delta) is the number of whole steps. *)
Theorem C98_whole_steps : forall elapsed time_delta : Z,
  (0 <= elapsed)%Z -> (1 <= time_delta)%Z -> (elapsed + time_delta < 2 ^ 53)%Z ->
  exists k, whole_steps64 elapsed time_delta = Some k /\
    (k * time_delta <= elapsed < (k + 1) * time_delta)%Z.
Proof.
  intros a h Ha Hh S. destruct (of_Z a ltac:(lia)) as [Fa Va].
  destruct (quotient_trunc (float_of_Z a) h Fa) as (k & K0 & E & B).
  - rewrite Va. now apply IZR_le.
  - exact Hh.
  - rewrite Va, <- plus_IZR. change (bpow radix2 53) with (IZR (2 ^ 53)). now apply IZR_lt.
  - exists k. split; [exact E|]. rewrite Va, <- (plus_IZR k 1), <- !mult_IZR in B.
    split; [apply le_IZR|apply lt_IZR]; lra.
Qed.
Print Assumptions C98_whole_steps.

(** math.ceil(elapsed / time_delta) is the number of steps begun. *)
Theorem C98_started_steps : forall elapsed time_delta : Z,
  (0 <= elapsed)%Z -> (1 <= time_delta)%Z -> (elapsed + time_delta < 2 ^ 53)%Z ->
  exists k, started_steps64 elapsed time_delta = Some k /\
    ((k - 1) * time_delta < elapsed <= k * time_delta)%Z.
Proof.
  intros a h Ha Hh S. destruct (ratio_value a h Ha Hh S) as [Fq Vq].
  set (k := (- ((- a) / h))%Z).
  assert (B : ((k - 1) * h < a <= k * h)%Z).
  { pose proof (Z.div_mod (- a) h ltac:(lia)) as D. pose proof (Z.mod_pos_bound (- a) h ltac:(lia)) as M. subst k. nia. }
  exists k. split; [|exact B]. unfold started_steps64, py_ceil64. rewrite Fq, trunc_nearby, Vq. f_equal. cbn [round_mode].
  destruct (of_Z a ltac:(lia)) as [Fa Va].
  assert (Ph : 1 <= IZR h) by (apply IZR_le; lia).
  assert (Q : IZR a / IZR h * IZR h = IZR a) by (field; lra).
  assert (K0 : (0 <= k)%Z) by nia.
  assert (U : IZR a / IZR h <= IZR k).
  { apply Rmult_le_reg_r with (IZR h); [lra|]. rewrite Q, <- mult_IZR. apply IZR_le. lia. }
  apply Zceil_imp. split.
  - destruct (Z.eq_dec k 0) as [->|N].
    + assert (a = 0)%Z as -> by lia. unfold Rdiv. rewrite Rmult_0_l. unfold Float64Proofs.rnd. rewrite round_0 by exact _. apply IZR_lt. lia.
    + destruct (Z.eq_dec k 1) as [E1|N1].
      * rewrite E1. change (IZR (1 - 1)) with 0.
        assert (L : bpow radix2 (-53) <= IZR a / IZR h).
        { apply Rmult_le_reg_r with (IZR h); [lra|]. rewrite Q.
          assert (A1 : 1 <= IZR a) by (apply IZR_le; nia).
          assert (H1 : IZR h <= bpow radix2 53) by (change (bpow radix2 53) with (IZR (2 ^ 53)); apply IZR_le; lia).
          apply Rle_trans with (bpow radix2 (-53) * bpow radix2 53).
          - apply Rmult_le_compat_l; [apply bpow_ge_0|exact H1].
          - rewrite <- bpow_plus. exact A1. }
        pose proof (rnd_mono 53 1024 _ _ L) as M. unfold Float64Proofs.rnd at 1 in M.
        rewrite round_generic in M by (exact _ || (apply generic_format_bpow; unfold SpecFloat.fexp, SpecFloat.emin; lia)).
        pose proof (bpow_gt_0 radix2 (-53)). lra.
      * rewrite <- Va. apply quotient_above; [lia|lia|lia|]. rewrite Va. apply IZR_lt. lia.
  - pose proof (rnd_mono 53 1024 _ _ U) as M. unfold Float64Proofs.rnd at 2 in M.
    rewrite round_generic in M by (exact _ || (apply whole_format; nia)). exact M.
Qed.
Print Assumptions C98_started_steps.

(** int(d.total_seconds()) is the number of whole seconds in [d] microseconds. *)
Theorem C98_whole_seconds : forall elapsed : Z, (0 <= elapsed < 2 ^ 52)%Z ->
  exists s, whole_seconds64 elapsed = Some s /\ (s * 1000000 <= elapsed < (s + 1) * 1000000)%Z.
Proof. intros a Ha. apply C98_whole_steps; lia. Qed.
Print Assumptions C98_whole_seconds.

(** So these are the counts the exact models of the sunrise search, the simulator and the
    sampler use. *)
Theorem C98_same_counts : forall elapsed time_delta : Z,
  (0 <= elapsed < 2 ^ 52)%Z -> (1 <= time_delta < 2 ^ 52)%Z ->
  whole_steps64 elapsed time_delta = Some (Z.quot elapsed time_delta) /\
  started_steps64 elapsed time_delta = Some (- ((- elapsed) / time_delta))%Z /\
  whole_seconds64 elapsed = Some (int_seconds elapsed).
Proof.
  assert (D : forall a h, (0 <= a < 2 ^ 52)%Z -> (1 <= h < 2 ^ 52)%Z -> whole_steps64 a h = Some (Z.quot a h)).
  { intros a h Ha Hh. destruct (C98_whole_steps a h ltac:(lia) ltac:(lia) ltac:(lia)) as (k & E & B). rewrite E. f_equal.
    rewrite Z.quot_div_nonneg by lia. apply (Z.div_unique a h k (a - h * k)); [left|]; nia. }
  intros a h Ha Hh. split; [now apply D|]. split.
  - destruct (C98_started_steps a h ltac:(lia) ltac:(lia) ltac:(lia)) as (k & E & B). rewrite E. f_equal.
    rewrite <- (Z.div_unique (- a) h (- k) (k * h - a)); [lia|left; nia|nia].
  - apply (D a 1000000%Z); lia.
Qed.
Print Assumptions C98_same_counts.

(** ** The nearest pressure level *)
Lemma multiple (c : R) (E : Z) : (-1000 <= E)%Z -> generic_format radix2 fexp64 c -> bpow radix2 E <= c ->
  exists m, c = IZR m * bpow radix2 (E - 52).
Proof.
  intros HE F L. set (x := cexp radix2 fexp64 c). set (n := Ztrunc (scaled_mantissa radix2 fexp64 c)).
  pose proof (bpow_gt_0 radix2 E) as P.
  assert (X : (E - 52 <= x)%Z).
  { unfold x, cexp. assert (E + 1 <= mag radix2 c)%Z by (apply mag_ge_bpow; rewrite Rabs_pos_eq by lra; replace (E + 1 - 1)%Z with E by lia; exact L).
    unfold SpecFloat.fexp, SpecFloat.emin. lia. }
  exists (n * 2 ^ (x - (E - 52)))%Z. rewrite mult_IZR. change 2%Z with (radix_val radix2). rewrite IZR_Zpower by lia.
  rewrite Rmult_assoc, <- bpow_plus. replace (x - (E - 52) + (E - 52))%Z with x by lia. exact F.
Qed.
Lemma multiple_format (m e : Z) : (Z.abs m < 2 ^ 53)%Z -> (-1000 <= e)%Z ->
  generic_format radix2 fexp64 (IZR m * bpow radix2 e).
Proof.
  intros M He. apply generic_format_FLT. apply (FLT_spec radix2 (SpecFloat.emin 53 1024) 53 _ (Float radix2 m e)).
  - reflexivity.
  - exact M.
  - unfold SpecFloat.emin. cbn [Fexp]. lia.
Qed.
Lemma height_format (c : R) : generic_format radix2 fexp64 c -> 5000 <= c <= 14000 ->
  generic_format radix2 fexp64 (c - 5000).
Proof.
  intros F B. destruct (Rlt_or_le c 8192) as [L|L].
  - destruct (multiple c 12 ltac:(lia) F ltac:(change (bpow radix2 12) with 4096; lra)) as [m E].
    assert (W : bpow radix2 (12 - 52) = / 1099511627776) by (vm_compute Z.sub; cbn [bpow]; vm_compute Z.pow_pos; reflexivity).
    replace (c - 5000) with (IZR (m - 5497558138880000) * bpow radix2 (12 - 52)).
    + apply multiple_format; [|lia]. rewrite W in E.
      assert (5497558138880000 <= m <= 9007199254740992)%Z by (split; apply le_IZR; lra). lia.
    + rewrite minus_IZR. rewrite W in *. rewrite E. lra.
  - destruct (multiple c 13 ltac:(lia) F ltac:(change (bpow radix2 13) with 8192; lra)) as [m E].
    assert (W : bpow radix2 (13 - 52) = / 549755813888) by (vm_compute Z.sub; cbn [bpow]; vm_compute Z.pow_pos; reflexivity).
    replace (c - 5000) with (IZR (m - 2748779069440000) * bpow radix2 (13 - 52)).
    + apply multiple_format; [|lia]. rewrite W in E.
      assert (2748779069440000 <= m <= 7696581394432000)%Z by (split; apply le_IZR; lra). lia.
    + rewrite minus_IZR. rewrite W in *. rewrite E. lra.
Qed.

(** Rounding the quotient does not move it across a point midway between two levels. *)
Lemma nearest_quotient (d : float) : 0 <= B2R d <= 9000 ->
  ZnearestE (Float64Proofs.rnd 53 1024 (B2R d / 50)) = ZnearestE (B2R d / 50).
Proof.
  intros B. set (r := B2R d / 50). set (n := Zfloor r).
  pose proof (Zfloor_lb r) as L. pose proof (Zfloor_ub r) as U. fold n in L, U.
  assert (Er : r * 50 = B2R d) by (unfold r; field).
  assert (N0 : (0 <= n)%Z) by (unfold n; apply Zfloor_lub; change (IZR 0) with 0; lra).
  assert (P0 : 0 <= IZR n) by now apply IZR_le.
  assert (N1 : (n <= 180)%Z) by (apply le_IZR; lra).
  assert (Hmid : IZR n + / 2 = IZR (2 * n + 1) * bpow radix2 (-1)).
  { rewrite plus_IZR, mult_IZR. change (bpow radix2 (-1)) with (/ 2). lra. }
  assert (Fk : generic_format radix2 fexp64 (IZR n + / 2)) by (rewrite Hmid; apply multiple_format; lia).
  assert (Fkh : generic_format radix2 fexp64 ((IZR n + / 2) * 50)).
  { replace ((IZR n + / 2) * 50) with (IZR (50 * n + 25)) by (rewrite plus_IZR, mult_IZR; lra). apply whole_format. lia. }
  assert (S : bpow radix2 (-999) <= / 2) by (change (/ 2) with (bpow radix2 (-1)); apply bpow_le; lia).
  destruct (Rtotal_order r (IZR n + / 2)) as [C|[C|C]].
  - pose proof (quotient_lt d (IZR n + / 2) 50 ltac:(lra) ltac:(lra) ltac:(lra) Fk Fkh ltac:(lra)) as H. fold r in H.
    pose proof (rnd_mono 53 1024 _ _ L) as M. unfold Float64Proofs.rnd at 1 in M.
    rewrite round_generic in M by (exact _ || (apply whole_format; lia)).
    transitivity n; [|symmetry]; apply Znearest_imp; apply Rabs_lt; lra.
  - unfold Float64Proofs.rnd. rewrite round_generic; [reflexivity|exact _|]. rewrite C. exact Fk.
  - pose proof (quotient_gt d (IZR n + / 2) 50 ltac:(lra) ltac:(lra) ltac:(lra) Fk Fkh ltac:(lra)) as H. fold r in H.
    assert (U' : r <= IZR (n + 1)) by (rewrite plus_IZR; lra).
    pose proof (rnd_mono 53 1024 _ _ U') as M. unfold Float64Proofs.rnd at 2 in M.
    rewrite round_generic in M by (exact _ || (apply whole_format; lia)). rewrite plus_IZR in M.
    transitivity (n + 1)%Z; [|symmetry]; apply Znearest_imp; rewrite plus_IZR; apply Rabs_lt; lra.
Qed.
Lemma nearest_is_round q : ZnearestE q = py_round q.
Proof.
  symmetry. apply py_round_unique.
  - rewrite Rabs_minus_sym. pose proof (Znearest_half (fun x => negb (Z.even x)) q). lra.
  - intro H. set (n := Zfloor q). pose proof (Zfloor_lb q) as L. pose proof (Zfloor_ub q) as U. fold n in L, U.
    assert (C : q = IZR n + / 2).
    { destruct (Rtotal_order q (IZR n + / 2)) as [C|[C|C]]; [exfalso|exact C|exfalso].
      - rewrite (Znearest_imp _ q n) in H by (apply Rabs_lt; lra). unfold Rabs in H. destruct Rcase_abs; lra.
      - rewrite (Znearest_imp _ q (n + 1)) in H by (rewrite plus_IZR; apply Rabs_lt; lra).
        rewrite plus_IZR in H. unfold Rabs in H. destruct Rcase_abs; lra. }
    unfold Znearest. fold n. rewrite Rcompare_Eq by lra.
    rewrite Zceil_floor_neq by (fold n; intro E; lra). fold n.
    destruct (Z.even n) eqn:Ev; cbn [negb]; [exact Ev|]. rewrite Z.add_1_r, Z.even_succ, <- Z.negb_even, Ev. reflexivity.
Qed.

(** The levels are exactly 5000, 5050, .. 14000 Pa. *)
Lemma step_value : is_finite (Bdiv mode_NE (Bminus mode_NE RANGE_MAX64 RANGE_MIN64) (float_of_Z 180)) = true /\
  B2R (Bdiv mode_NE (Bminus mode_NE RANGE_MAX64 RANGE_MIN64) (float_of_Z 180)) = 50.
Proof.
  assert (E : Bdiv mode_NE (Bminus mode_NE RANGE_MAX64 RANGE_MIN64) (float_of_Z 180) = float_of_Z 50).
  { apply B2SF_inj. vm_compute. reflexivity. }
  rewrite E. apply of_Z. lia.
Qed.
Theorem C98_levels : forall i : Z, (0 <= i <= 180)%Z ->
  is_finite (pressure_level64 i) = true /\ B2R (pressure_level64 i) = level_pressure i.
Proof.
  intros i Hi. unfold pressure_level64, level_pressure. destruct (Z.eqb_spec i 180) as [->|N].
  - destruct (of_Z 14000 ltac:(lia)) as [F V]. split; [exact F|]. unfold RANGE_MAX64. rewrite V. lra.
  - destruct step_value as [Fs Vs]. destruct (of_Z i ltac:(lia)) as [Fi Vi]. destruct (of_Z 5000 ltac:(lia)) as [F0 V0].
    set (st := Bdiv mode_NE _ _) in *. assert (Bi : 0 <= IZR i <= 180) by (split; apply IZR_le; lia).
    assert (Wi : within 8 (float_of_Z i)).
    { split; [exact Fi|]. rewrite Vi. change (bpow radix2 8) with 256. rewrite Rabs_pos_eq; lra. }
    assert (Ws : within 6 st).
    { split; [exact Fs|]. rewrite Vs. change (bpow radix2 6) with 64. rewrite Rabs_pos_eq; lra. }
    destruct (within_mul 53 1024 8 6 (float_of_Z i) st ltac:(lia) Wi Ws) as [[Fm _] Vm].
    rewrite Vi, Vs in Vm. unfold Float64Proofs.rnd in Vm. rewrite <- mult_IZR in Vm.
    rewrite round_generic in Vm by (exact _ || (apply whole_format; lia)).
    assert (Wm : within 14 (Bmult mode_NE (float_of_Z i) st)).
    { split; [exact Fm|]. rewrite Vm, mult_IZR. change (bpow radix2 14) with 16384. rewrite Rabs_pos_eq; lra. }
    assert (W0 : within 14 RANGE_MIN64).
    { split; [exact F0|]. unfold RANGE_MIN64. rewrite V0. change (bpow radix2 14) with 16384. rewrite Rabs_pos_eq; lra. }
    destruct (within_add 53 1024 14 _ _ ltac:(lia) Wm W0) as [[Fp _] Vp].
    split; [exact Fp|]. rewrite Vp, Vm. unfold RANGE_MIN64. rewrite V0. unfold Float64Proofs.rnd.
    rewrite <- plus_IZR, round_generic by (exact _ || (apply whole_format; lia)). rewrite plus_IZR, mult_IZR. lra.
Qed.
Print Assumptions C98_levels.

Lemma delta_value : Bminus mode_NE (pressure_level64 1) (pressure_level64 0) = float_of_Z 50.
Proof. apply B2SF_inj. vm_compute. reflexivity. Qed.

(** The level of a pressure between the extremes. *)
Lemma level_of (c : float) : is_finite c = true -> 5000 <= B2R c <= 14000 ->
  match py_round64 (Bdiv mode_NE (Bminus mode_NE c RANGE_MIN64) (Bminus mode_NE (pressure_level64 1) (pressure_level64 0))) with
  | None => None
  | Some level => if (0 <=? level)%Z && (level <? 181)%Z then Some level else None
  end = Some (py_round ((B2R c - 5000) / 50)).
Proof.
  intros Fc Bc. rewrite delta_value. destruct (of_Z 5000 ltac:(lia)) as [F0 V0]. destruct (of_Z 50 ltac:(lia)) as [F5 V5].
  assert (Wc : within 14 c) by (split; [exact Fc|]; change (bpow radix2 14) with 16384; rewrite Rabs_pos_eq; lra).
  assert (W0 : within 14 RANGE_MIN64).
  { split; [exact F0|]. unfold RANGE_MIN64. rewrite V0. change (bpow radix2 14) with 16384. rewrite Rabs_pos_eq; lra. }
  destruct (within_sub 53 1024 14 _ _ ltac:(lia) Wc W0) as [[Fd _] Vd].
  unfold RANGE_MIN64 in Vd at 2. rewrite V0 in Vd. unfold Float64Proofs.rnd in Vd.
  rewrite round_generic in Vd by (exact _ || (apply height_format; [apply generic_format_B2R|exact Bc])).
  set (d := Bminus mode_NE c RANGE_MIN64) in *.
  pose proof (div_computes 53 1024 d _ Fd F5 ltac:(rewrite V5; lra)) as C. rewrite V5 in C.
  destruct (computes_within 53 1024 _ _ 14 ltac:(lia) C) as [[Fq _] Vq].
  { rewrite Rabs_pos_eq by lra. change (bpow radix2 14) with 16384. lra. }
  unfold py_round64. rewrite Fq, trunc_nearby, Vq. cbn [round_mode].
  rewrite nearest_quotient by lra. rewrite nearest_is_round, Vd.
  destruct (py_round_spec ((B2R c - 5000) / 50)) as [A _]. set (k := py_round _) in *.
  assert (K : (-1 < k < 181)%Z) by (split; apply lt_IZR; unfold Rabs in A; destruct Rcase_abs in A; lra).
  replace ((0 <=? k)%Z && (k <? 181)%Z) with true; [reflexivity|].
  symmetry. apply andb_true_intro. split; [apply Z.leb_le|apply Z.ltb_lt]; lia.
Qed.

(** Every finite pressure gets the level nearest to it, the even one of two equally near. *)
Theorem C98_nearest_level : forall p : float, is_finite p = true ->
  exists k, nearest_level64 p = Some k /\ nearest_level (B2R p) k.
Proof.
  intros p Fp. exists (py_round ((Rmin (Rmax (B2R p) 5000) 14000 - 5000) / 50)).
  split; [|apply nearest_pressure_level_spec, nearest_pressure_level_value].
  assert (M0 : is_finite RANGE_MIN64 = true /\ B2R RANGE_MIN64 = 5000) by (apply of_Z; lia). destruct M0 as [F0 V0].
  assert (M1 : is_finite RANGE_MAX64 = true /\ B2R RANGE_MAX64 = 14000) by (apply of_Z; lia). destruct M1 as [F1 V1].
  assert (LT : forall f g : float, is_finite f = true -> is_finite g = true -> Bltb f g = Rlt_bool (B2R f) (B2R g)).
  { intros f g Ff Fg. apply Bltb_correct; assumption. }
  unfold nearest_level64.
  rewrite (LT p RANGE_MIN64 Fp F0), (LT RANGE_MAX64 p F1 Fp), V0, V1.
  destruct (Rlt_bool_spec (B2R p) 5000) as [A|A]; cbn [orb].
  - rewrite (LT RANGE_MAX64 RANGE_MIN64 F1 F0), V0, V1, Rlt_bool_false by lra.
    rewrite Rmax_right, Rmin_left by lra. rewrite (level_of RANGE_MIN64 F0) by lra. rewrite V0. reflexivity.
  - destruct (Rlt_bool_spec 14000 (B2R p)) as [B|B].
    + rewrite (LT RANGE_MAX64 p F1 Fp), V1, Rlt_bool_true by lra.
      rewrite Rmax_left, Rmin_right by lra. rewrite (level_of RANGE_MAX64 F1) by lra. rewrite V1. reflexivity.
    + rewrite Rmax_left, Rmin_left by lra. apply level_of; [exact Fp|lra].
Qed.
Print Assumptions C98_nearest_level.

(** Infinite pressures get the outermost levels; NaN raises. *)
Theorem C98_not_finite :
  nearest_level64 (B754_infinity true) = Some 0%Z /\ nearest_level64 (B754_infinity false) = Some 180%Z /\
  nearest_level64 B754_nan = None.
Proof. repeat split; vm_compute; reflexivity. Qed.
Print Assumptions C98_not_finite.

(** ** The midpoint of the binary search *)
Theorem C98_midpoint : forall low high : Z, (0 <= low <= high)%Z -> (high < 2 ^ 51)%Z ->
  exists up down, midpoint_up64 low high = Some up /\ midpoint_down64 low high = Some down /\
    (2 * down <= low + high <= 2 * up)%Z /\ (low + high < 2 * down + 2)%Z /\ (2 * up - 2 < low + high)%Z.
Proof.
  intros low high HL HH.
  destruct (ratio_value (high - low) 2 ltac:(lia) ltac:(lia) ltac:(lia)) as [Fr Vr].
  assert (Half : forall z, IZR z / 2 = IZR z * bpow radix2 (-1)) by (intro z; change (bpow radix2 (-1)) with (/ 2); reflexivity).
  unfold Float64Proofs.rnd in Vr. rewrite Half, round_generic in Vr by (exact _ || (apply multiple_format; lia)).
  rewrite <- Half in Vr.
  destruct (of_Z low ltac:(lia)) as [Fl Vl].
  assert (Bl : 0 <= IZR low <= bpow radix2 51) by (change (bpow radix2 51) with (IZR (2 ^ 51)); split; apply IZR_le; lia).
  assert (Bd : 0 <= IZR (high - low) <= bpow radix2 51) by (change (bpow radix2 51) with (IZR (2 ^ 51)); split; apply IZR_le; lia).
  assert (Wl : within 51 (float_of_Z low)) by (split; [exact Fl|]; rewrite Vl, Rabs_pos_eq; lra).
  assert (Wr : within 51 (ratio64 (high - low) 2)) by (split; [exact Fr|]; rewrite Vr, Rabs_pos_eq; lra).
  destruct (within_add 53 1024 51 _ _ ltac:(lia) Wl Wr) as [[Fm _] Vm]. rewrite Vl, Vr in Vm.
  fold (midpoint64 low high) in Fm, Vm.
  replace (IZR low + IZR (high - low) / 2) with (IZR (low + high) / 2) in Vm by (rewrite minus_IZR, plus_IZR; lra).
  unfold Float64Proofs.rnd in Vm. rewrite Half, round_generic in Vm by (exact _ || (apply multiple_format; lia)).
  rewrite <- Half in Vm.
  exists (Zceil (IZR (low + high) / 2)), (Zfloor (IZR (low + high) / 2)).
  unfold midpoint_up64, py_ceil64, midpoint_down64. rewrite Fm, !trunc_nearby, Vm. cbn [round_mode].
  split; [reflexivity|]. split; [reflexivity|].
  pose proof (Zfloor_lb (IZR (low + high) / 2)). pose proof (Zfloor_ub (IZR (low + high) / 2)).
  pose proof (Zceil_ub (IZR (low + high) / 2)). pose proof (Zceil_lb (IZR (low + high) / 2)).
  set (u := Zceil _) in *. set (d := Zfloor _) in *.
  split; [split|split]; first [apply le_IZR|apply lt_IZR]; rewrite ?minus_IZR, ?(plus_IZR (2 * d)), ?mult_IZR; lra.
Qed.
Print Assumptions C98_midpoint.

(** ** Cases that meet the hypotheses *)
(** The pressure 5025 Pa lies midway between two levels and gets the even one; the next
    double above gets the other. *)
Example C98_witness :
  nearest_level64 (float_of_Z 5025) = Some 0%Z /\
  nearest_level64 (Bsucc (float_of_Z 5025)) = Some 1%Z /\
  nearest_level64 (float_of_Z 5075) = Some 2%Z /\
  nearest_level64 (Bpred (float_of_Z 5075)) = Some 1%Z /\
  whole_steps64 86400000000 180000000 = Some 480%Z /\
  whole_steps64 86399999999 180000000 = Some 479%Z /\
  started_steps64 86400000001 180000000 = Some 481%Z /\
  started_steps64 86400000000 180000000 = Some 480%Z /\
  whole_seconds64 179999999 = Some 179%Z /\
  midpoint_up64 3 8 = Some 6%Z /\ midpoint_down64 3 8 = Some 5%Z.
Proof. repeat split; vm_compute; reflexivity. Qed.
