(** Division, truncation and remainder of floats: the number of whole periods is the exact
    one if the period is a whole number. *)
From Coq Require Import ZArith Reals Lra Lia Bool List.
From Flocq Require Import Core BinarySingleNaN.
From Verif Require Import Model.Num Model.Float64 Model.FloatWind.
From Verif Require Import Proofs.Float64Proofs Props.FloatProps.
Open Scope R_scope.

Notation fexp64 := (SpecFloat.fexp 53 1024).
#[local] Instance valid64 : Valid_exp fexp64 := fexp_correct 53 1024 eq_refl.

(** Between two powers of two, the upper one included, the number below. *)
Lemma pred_below (r : R) (E : Z) : (-1000 <= E)%Z -> bpow radix2 E < r <= bpow radix2 (E + 1) ->
  pred radix2 fexp64 r = r - bpow radix2 (E - 52).
Proof.
  intros HE [L U]. pose proof (bpow_gt_0 radix2 E) as P. rewrite pred_eq_pos by lra. unfold pred_pos.
  destruct U as [U|U].
  - assert (M : mag radix2 r = (E + 1)%Z :> Z).
    { apply mag_unique_pos. replace (E + 1 - 1)%Z with E by lia. lra. }
    rewrite M. replace (E + 1 - 1)%Z with E by lia. rewrite Req_bool_false by lra.
    rewrite ulp_neq_0 by lra. unfold cexp. rewrite M. f_equal. f_equal.
    unfold SpecFloat.fexp, SpecFloat.emin. lia.
  - rewrite U. rewrite mag_bpow. replace (E + 1 + 1 - 1)%Z with (E + 1)%Z by lia.
    rewrite Req_bool_true by reflexivity. f_equal. f_equal. unfold SpecFloat.fexp, SpecFloat.emin. lia.
Qed.

Lemma binade (r : R) : 0 < r -> exists E, bpow radix2 E < r <= bpow radix2 (E + 1).
Proof.
  intro P. destruct (mag radix2 r) as [M HM]. specialize (HM ltac:(lra)). rewrite Rabs_pos_eq in HM by lra.
  destruct HM as [[L|L] U].
  - exists (M - 1)%Z. replace (M - 1 + 1)%Z with M by lia. lra.
  - exists (M - 2)%Z. replace (M - 2 + 1)%Z with (M - 1)%Z by lia. split; [|lra].
    rewrite <- L. apply bpow_lt. lia.
Qed.

Lemma whole_format (z : Z) : (Z.abs z < 2 ^ 53)%Z -> generic_format radix2 fexp64 (IZR z).
Proof. intro H. destruct (of_Z z H) as [_ <-]. apply generic_format_B2R. Qed.

Lemma binade_low (r : R) (E : Z) : bpow radix2 (-999) <= r -> r <= bpow radix2 (E + 1) -> (-1000 <= E)%Z.
Proof.
  intros L U. destruct (Z_lt_le_dec E (-1000)) as [N|]; [exfalso|assumption].
  assert (bpow radix2 (E + 1) < bpow radix2 (-999)) by (apply bpow_lt; lia). lra.
Qed.

(** If [k] and [k * h] are numbers of the format, a quotient by [h] below [k] is not rounded
    up to [k]: the neighbours below [k * h] are far enough apart. *)
Lemma quotient_lt (t : float) (k h : R) : 0 < h ->
  bpow radix2 (-999) <= k -> bpow radix2 (-999) <= k * h ->
  generic_format radix2 fexp64 k -> generic_format radix2 fexp64 (k * h) -> B2R t < k * h ->
  Float64Proofs.rnd 53 1024 (B2R t / h) < k.
Proof.
  intros Ph Tk Tkh Fk Fkh L. pose proof (bpow_gt_0 radix2 (-999)) as P0.
  destruct (binade k ltac:(lra)) as [E BE]. destruct (binade (k * h) ltac:(lra)) as [G BG].
  pose proof (binade_low _ E Tk (proj2 BE)) as HE. pose proof (binade_low _ G Tkh (proj2 BG)) as HG.
  pose proof (pred_below _ E HE BE) as Pe. pose proof (pred_below _ G HG BG) as Pg.
  pose proof (pred_ge_gt radix2 fexp64 (B2R t) (k * h) (generic_format_B2R 53 1024 t) Fkh L) as T.
  rewrite Pg in T.
  assert (M : Float64Proofs.rnd 53 1024 (B2R t / h) <= pred radix2 fexp64 k).
  { unfold Float64Proofs.rnd. apply round_N_le_midp; [exact _|apply generic_format_pred; [exact _|exact Fk]|].
    rewrite succ_pred by (exact _ || exact Fk). rewrite Pe.
    apply Rmult_lt_reg_r with h; [lra|]. unfold Rdiv at 1. rewrite Rmult_assoc, Rinv_l, Rmult_1_r by lra.
    assert (D : bpow radix2 (E - 52) * h < 2 * bpow radix2 (G - 52)).
    { replace (E - 52)%Z with (E + -52)%Z by lia. replace (G - 52)%Z with (G + -52)%Z by lia. rewrite !bpow_plus.
      set (w := bpow radix2 (-52)). assert (Pw : 0 < w) by apply bpow_gt_0.
      rewrite bpow_plus in BG. change (bpow radix2 1) with 2 in BG.
      assert (bpow radix2 E * h < k * h) by (apply Rmult_lt_compat_r; lra). nra. }
    lra. }
  rewrite Pe in M. pose proof (bpow_gt_0 radix2 (E - 52)). lra.
Qed.

(** Nor is one above [k] rounded down to [k]. *)
Lemma succ_above (r : R) (E : Z) : (-1000 <= E)%Z -> bpow radix2 E <= r < bpow radix2 (E + 1) ->
  succ radix2 fexp64 r = r + bpow radix2 (E - 52).
Proof.
  intros HE B. pose proof (bpow_gt_0 radix2 E) as P. rewrite succ_eq_pos by lra. f_equal.
  rewrite ulp_neq_0 by lra. unfold cexp.
  assert (M : mag radix2 r = (E + 1)%Z :> Z).
  { apply mag_unique_pos. replace (E + 1 - 1)%Z with E by lia. lra. }
  rewrite M. f_equal. unfold SpecFloat.fexp, SpecFloat.emin. lia.
Qed.
Lemma binade_up (r : R) : bpow radix2 (-999) <= r -> exists E, (-1000 <= E)%Z /\ bpow radix2 E <= r < bpow radix2 (E + 1).
Proof.
  intro T. pose proof (bpow_gt_0 radix2 (-999)) as P. destruct (mag radix2 r) as [M HM]. specialize (HM ltac:(lra)).
  rewrite Rabs_pos_eq in HM by lra. exists (M - 1)%Z. replace (M - 1 + 1)%Z with M by lia. split; [|exact HM].
  destruct (Z_lt_le_dec M (-999)) as [N|]; [exfalso|lia].
  assert (bpow radix2 M < bpow radix2 (-999)) by now apply bpow_lt. lra.
Qed.
Lemma quotient_gt (t : float) (k h : R) : 0 < h ->
  bpow radix2 (-999) <= k -> bpow radix2 (-999) <= k * h ->
  generic_format radix2 fexp64 k -> generic_format radix2 fexp64 (k * h) -> k * h < B2R t ->
  k < Float64Proofs.rnd 53 1024 (B2R t / h).
Proof.
  intros Ph Tk Tkh Fk Fkh L. destruct (binade_up k Tk) as (E & HE & BE). destruct (binade_up _ Tkh) as (G & HG & BG).
  pose proof (succ_above _ E HE BE) as Se. pose proof (succ_above _ G HG BG) as Sg.
  pose proof (succ_le_lt radix2 fexp64 (k * h) (B2R t) Fkh (generic_format_B2R 53 1024 t) L) as T.
  rewrite Sg in T.
  assert (M : succ radix2 fexp64 k <= Float64Proofs.rnd 53 1024 (B2R t / h)).
  { unfold Float64Proofs.rnd. apply round_N_ge_midp; [exact _|apply generic_format_succ; [exact _|exact Fk]|].
    rewrite pred_succ by (exact _ || exact Fk). rewrite Se.
    apply Rmult_lt_reg_r with h; [lra|]. unfold Rdiv at 2. rewrite Rmult_assoc, Rinv_l, Rmult_1_r by lra.
    assert (D : bpow radix2 (E - 52) * h < 2 * bpow radix2 (G - 52)).
    { replace (E - 52)%Z with (E + -52)%Z by lia. replace (G - 52)%Z with (G + -52)%Z by lia. rewrite !bpow_plus.
      set (w := bpow radix2 (-52)). assert (Pw : 0 < w) by apply bpow_gt_0.
      rewrite bpow_plus in BG. change (bpow radix2 1) with 2 in BG.
      assert (bpow radix2 E * h <= k * h) by (apply Rmult_le_compat_r; lra). nra. }
    lra. }
  rewrite Se in M. pose proof (bpow_gt_0 radix2 (E - 52)). lra.
Qed.

(** With whole numbers. *)
Lemma big_enough (r : R) : 1 <= r -> bpow radix2 (-999) <= r.
Proof. intro H. assert (bpow radix2 (-999) <= bpow radix2 0) by (apply bpow_le; lia). change (bpow radix2 0) with 1 in *. lra. Qed.
Lemma quotient_below (t : float) (k h : Z) :
  (1 <= k)%Z -> (1 <= h)%Z -> (k * h < 2 ^ 53)%Z -> B2R t < IZR (k * h) ->
  Float64Proofs.rnd 53 1024 (B2R t / IZR h) < IZR k.
Proof.
  intros Hk Hh Hkh L. rewrite mult_IZR in L.
  assert (Ph : 1 <= IZR h) by (apply IZR_le; lia). assert (Pk : 1 <= IZR k) by (apply IZR_le; lia).
  apply quotient_lt; [lra|apply big_enough; lra|apply big_enough; nra|apply whole_format; nia| |exact L].
  rewrite <- mult_IZR. apply whole_format. nia.
Qed.
Lemma quotient_above (t : float) (k h : Z) :
  (1 <= k)%Z -> (1 <= h)%Z -> (k * h < 2 ^ 53)%Z -> IZR (k * h) < B2R t ->
  IZR k < Float64Proofs.rnd 53 1024 (B2R t / IZR h).
Proof.
  intros Hk Hh Hkh L. rewrite mult_IZR in L.
  assert (Ph : 1 <= IZR h) by (apply IZR_le; lia). assert (Pk : 1 <= IZR k) by (apply IZR_le; lia).
  apply quotient_gt; [lra|apply big_enough; lra|apply big_enough; nra|apply whole_format; nia| |exact L].
  rewrite <- mult_IZR. apply whole_format. nia.
Qed.

(** int(t / h) is the exact number of whole periods. *)
Lemma quotient_trunc (t : float) (h : Z) : is_finite t = true -> 0 <= B2R t -> (1 <= h)%Z ->
  B2R t + IZR h < bpow radix2 53 ->
  exists k, (0 <= k)%Z /\ py_int (Bdiv mode_NE t (float_of_Z h)) = Some k /\
    IZR k * IZR h <= B2R t < (IZR k + 1) * IZR h.
Proof.
  intros Ft Bt Hh Small.
  assert (Hh' : (h < 2 ^ 53)%Z) by (apply lt_IZR; change (IZR (2 ^ 53)) with (bpow radix2 53); lra).
  destruct (of_Z h ltac:(lia)) as [Fh Vh].
  assert (Ph : 1 <= IZR h) by (apply IZR_le; lia).
  set (k := Zfloor (B2R t / IZR h)). exists k.
  assert (Q0 : 0 <= B2R t / IZR h) by (apply Rmult_le_pos; [lra|]; left; apply Rinv_0_lt_compat; lra).
  assert (K0 : (0 <= k)%Z) by (unfold k; apply Zfloor_lub; exact Q0).
  pose proof (Zfloor_lb (B2R t / IZR h)) as L. pose proof (Zfloor_ub (B2R t / IZR h)) as U. fold k in L, U.
  assert (Q : B2R t / IZR h * IZR h = B2R t) by (field; lra).
  assert (B : IZR k * IZR h <= B2R t < (IZR k + 1) * IZR h) by (split; nra).
  split; [exact K0|]. split; [|exact B].
  assert (Bz : ((k + 1) * h < 2 ^ 53)%Z).
  { apply lt_IZR. rewrite mult_IZR, plus_IZR. change (IZR (2 ^ 53)) with (bpow radix2 53). lra. }
  pose proof (div_computes 53 1024 t _ Ft Fh ltac:(rewrite Vh; lra)) as C. rewrite Vh in C.
  destruct (computes_within 53 1024 _ _ 53 ltac:(lia) C) as [[Fq _] Vq].
  { rewrite Rabs_pos_eq by exact Q0. apply Rle_trans with (B2R t); [|lra]. nra. }
  unfold py_int. rewrite Fq. f_equal. apply eq_IZR. rewrite Btrunc_correct by exact _. rewrite round_FIX_IZR. f_equal.
  assert (Lo : IZR k <= Float64Proofs.rnd 53 1024 (B2R t / IZR h)).
  { pose proof (rnd_mono 53 1024 (IZR k) _ L) as M. unfold Float64Proofs.rnd at 1 in M.
    rewrite round_generic in M by (exact _ || (apply whole_format; nia)). exact M. }
  assert (Hi : Float64Proofs.rnd 53 1024 (B2R t / IZR h) < IZR (k + 1)).
  { apply quotient_below; [lia|lia|exact Bz|]. rewrite mult_IZR, plus_IZR. lra. }
  rewrite Vq. rewrite Ztrunc_floor.
  - apply Zfloor_imp. split; assumption.
  - apply Rle_trans with (IZR k); [apply IZR_le; exact K0|exact Lo].
Qed.

(** The remainder is exact. *)
Lemma bounded_parts (m : positive) (e : Z) : SpecFloat.bounded 53 1024 m e = true -> (Zpos m < 2 ^ 53)%Z /\ (-1074 <= e)%Z.
Proof.
  intro H. unfold SpecFloat.bounded, SpecFloat.canonical_mantissa in H. apply andb_true_iff in H. destruct H as [C _].
  apply Zeq_bool_eq in C. unfold SpecFloat.fexp, SpecFloat.emin in C.
  rewrite Digits.Zpos_digits2_pos in C. split; [|lia].
  pose proof (Digits.Zdigits_correct radix2 (Zpos m)) as [_ D]. rewrite Z.abs_eq in D by lia.
  eapply Z.lt_le_trans; [exact D|]. change (Zpower radix2 ?a) with (2 ^ a)%Z.
  change (Z.pow (radix_val radix2)) with (Z.pow 2). apply Z.pow_le_mono_r; lia.
Qed.

Lemma mod_exact (a b : float) (k : Z) : is_finite a = true -> is_finite b = true -> 0 <= B2R a -> 0 < B2R b ->
  IZR k * B2R b <= B2R a < (IZR k + 1) * B2R b ->
  exists r, py_mod a b = Some r /\ is_finite r = true /\ B2R r = B2R a - IZR k * B2R b.
Proof.
  intros Fa Fb Pa Pb B.
  destruct b as [sb|sb| |sb mb eb Hb]; try discriminate Fb; [cbn in Pb; lra|].
  assert (Sb : sb = false).
  { destruct sb; [|reflexivity]. pose proof (F2R_lt_0 radix2 (Float radix2 (Zneg mb) eb) eq_refl) as N. cbn -[F2R] in Pb, N. lra. }
  subst sb.
  destruct a as [sa|sa| |sa ma ea Ha]; try discriminate Fa.
  - exists (B754_zero false). split; [reflexivity|]. split; [reflexivity|]. change (B2R (B754_zero sa)) with 0 in *.
    change (B2R (B754_zero false)) with 0.
    assert (K : k = 0%Z).
    { assert (IZR k <= 0) by nra. assert (-1 < IZR k) by nra.
      apply (le_IZR k 0) in H. apply (lt_IZR (-1) k) in H0. lia. }
    subst k. lra.
  - assert (Sa : sa = false).
    { destruct sa; [|reflexivity]. pose proof (F2R_lt_0 radix2 (Float radix2 (Zneg ma) ea) eq_refl) as N. cbn -[F2R] in Pa, N. lra. }
    subst sa. unfold py_mod. set (e := Z.min ea eb).
    set (A := (Zpos ma * 2 ^ (ea - e))%Z). set (D := (Zpos mb * 2 ^ (eb - e))%Z).
    destruct (bounded_parts _ _ Ha) as [Ma Ea]. destruct (bounded_parts _ _ Hb) as [Mb Eb].
    assert (PA : (0 < A)%Z) by (unfold A; apply Z.mul_pos_pos; [lia|apply Z.pow_pos_nonneg; lia]).
    assert (PD : (0 < D)%Z) by (unfold D; apply Z.mul_pos_pos; [lia|apply Z.pow_pos_nonneg; lia]).
    pose proof (bpow_gt_0 radix2 e) as Pe.
    assert (Up : forall m x, (e <= x)%Z -> F2R (Float radix2 m x) = IZR (m * 2 ^ (x - e)) * bpow radix2 e).
    { intros m x Hx. unfold F2R. cbn [Fnum Fexp]. rewrite mult_IZR, Rmult_assoc. f_equal.
      change 2%Z with (radix_val radix2) at 1. rewrite IZR_Zpower by lia. rewrite <- bpow_plus. f_equal. lia. }
    assert (VA : B2R (B754_finite false ma ea Ha) = IZR A * bpow radix2 e) by (apply (Up (Zpos ma)); unfold e; lia).
    assert (VD : B2R (B754_finite false mb eb Hb) = IZR D * bpow radix2 e) by (apply (Up (Zpos mb)); unfold e; lia).
    rewrite VA, VD in B |- *.
    assert (K : k = (A / D)%Z).
    { apply Z.div_unique_pos with (A - D * k)%Z; [|lia]. split.
      - assert (IZR (D * k) <= IZR A) as H; [|apply le_IZR in H; lia].
        rewrite mult_IZR. apply Rmult_le_reg_r with (bpow radix2 e); [exact Pe|]. lra.
      - assert (IZR A < IZR (D * (k + 1))) as H; [|apply lt_IZR in H; lia].
        rewrite mult_IZR, plus_IZR. apply Rmult_lt_reg_r with (bpow radix2 e); [exact Pe|]. lra. }
    pose proof (Z.div_mod A D ltac:(lia)) as DM. pose proof (Z.mod_pos_bound A D PD) as MB. rewrite <- K in DM.
    set (r := (A mod D)%Z) in *.
    assert (VR : IZR A * bpow radix2 e - IZR k * (IZR D * bpow radix2 e) = IZR r * bpow radix2 e).
    { rewrite DM, plus_IZR, mult_IZR. ring. }
    rewrite VR. destruct (Z.eqb_spec r 0) as [R0|R0].
    + exists (B754_zero false). split; [reflexivity|]. split; [reflexivity|]. rewrite R0. cbn. ring.
    + cbv zeta. cbn [xorb]. eexists. split; [reflexivity|].
      assert (R53 : (r < 2 ^ 53)%Z).
      { destruct (Z.le_ge_cases ea eb) as [O|O].
        - assert (A = Zpos ma) by (unfold A, e; rewrite Z.min_l, Z.sub_diag by lia; lia).
          pose proof (Z.mod_le A D ltac:(lia) PD). lia.
        - assert (D = Zpos mb) by (unfold D, e; rewrite Z.min_r, Z.sub_diag by lia; lia). lia. }
      pose proof (binary_normalize_correct 53 1024 _ _ mode_NE r e false) as C. cbv zeta in C. cbn [round_mode] in C.
      assert (Fr : generic_format radix2 fexp64 (F2R (Float radix2 r e))).
      { apply generic_format_FLT. exists (Float radix2 r e); [reflexivity| |].
        - cbn [Fnum]. rewrite Z.abs_eq by lia. exact R53.
        - cbn [Fexp]. unfold SpecFloat.emin, e. lia. }
      rewrite round_generic in C by (exact _ || exact Fr). rewrite Rlt_bool_true in C.
      * destruct C as (V & F & _). split; [exact F|]. rewrite V. reflexivity.
      * unfold F2R. cbn [Fnum Fexp]. rewrite Rabs_pos_eq by (apply Rmult_le_pos; [apply IZR_le; lia|lra]).
        apply Rle_lt_trans with (IZR A * bpow radix2 e).
        -- apply Rmult_le_compat_r; [lra|]. apply IZR_le. unfold r. apply Z.mod_le; lia.
        -- rewrite <- VA. pose proof (finite_lt 53 1024 (B754_finite false ma ea Ha)) as L. apply Rabs_def2 in L. lra.
Qed.
