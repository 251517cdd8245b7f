(** Property C101: the numbers of an evaluation's result in double precision.  [B2R f] is the
    real number a finite [f] stands for. *)
From Coq Require Import ZArith Reals Lra Lia Bool List.
From Flocq Require Import Core BinarySingleNaN.
From Verif Require Import Model.Num Model.Float64 Model.Balloon Model.Agents Model.Eval Model.FloatEval Spec.EvalSpec.
From Verif Require Import Proofs.NumR Proofs.Float64Proofs Proofs.FloatWindProofs Props.FloatProps.
Import ListNotations.
Open Scope R_scope.

(** The sum of a list of numbers, and a reward. *)
Definition sum (l : list R) : R := fold_right Rplus 0 l.
Definition is_reward (r : float) : Prop := is_finite r = true /\ 0 <= B2R r <= 1.

Lemma sum_fold l a : fold_left Rplus l a = a + sum l.
Proof.
  revert a. induction l as [|r l IH]; intro a; cbn [fold_left sum fold_right]; [ring|].
  rewrite IH. fold (sum l). ring.
Qed.

(** With real numbers instead, these are the numbers of the model of C38: what a result
    reports about an episode. *)
Theorem C101_same_code : forall with_path z ts r, reports with_path z ts r -> ts <> [] ->
  r_cumulative_reward r = total_reward (map t_reward ts) /\
  exists inside, counts is_inside ts inside /\
    r_time_within_radius r = time_within_radius (Z.of_nat inside) (r_final_timestep r).
Proof.
  intros with_path z ts r (_ & C & F & (k & K & T) & _) Ne. unfold total_reward, time_within_radius. numR. split.
  - rewrite sum_fold, Rplus_0_l. exact C.
  - exists k. split; [exact K|]. rewrite F, <- !INR_IZR_INZ.
    assert (0 < INR (length ts)) by (apply lt_0_INR; destruct ts; [contradiction|cbn; lia]).
    rewrite <- T. field. lra.
Qed.

Section Pow.
Context (pow : float -> float -> float).
Local Instance N64 : Num float := Num_float pow.

Lemma add_step m (acc r : float) : (0 <= m < 2 ^ 50)%Z ->
  is_finite acc = true -> 0 <= B2R acc <= IZR m -> is_reward r ->
  is_finite (nadd acc r) = true /\ 0 <= B2R (nadd acc r) <= IZR (m + 1) /\
  B2R (nadd acc r) = rnd (B2R acc + B2R r).
Proof.
  intros Hm Fa Ba [Fr Br].
  assert (M : IZR m <= IZR (2 ^ 50)) by (apply IZR_le; lia).
  assert (L : Rabs (B2R acc + B2R r) <= bpow radix2 51).
  { rewrite Rabs_pos_eq by lra. change (bpow radix2 51) with 2251799813685248.
    change (IZR (2 ^ 50)) with 1125899906842624 in M. lra. }
  pose proof (add_computes 53 1024 acc r Fa Fr) as C.
  destruct (computes_within 53 1024 _ _ 51 ltac:(lia) C L) as [[F _] V].
  change (nadd acc r) with (Bplus mode_NE acc r). split; [exact F|]. split; [|exact V]. rewrite V.
  destruct (of_Z (m + 1) ltac:(lia)) as [_ V1]. split.
  - pose proof (rnd_mono 53 1024 0 (B2R acc + B2R r) ltac:(lra)) as Q.
    rewrite (rnd_of 53 1024 (B754_zero false) : rnd 0 = 0) in Q. exact Q.
  - pose proof (rnd_mono 53 1024 (B2R acc + B2R r) (IZR (m + 1)) ltac:(rewrite plus_IZR; lra)) as Q.
    rewrite <- V1, rnd_of, V1 in Q. exact Q.
Qed.

Lemma fold_sum (e : Z) (rewards : list float) : (0 <= e <= 50)%Z -> Forall is_reward rewards ->
  forall (acc : float) m, (0 <= m)%Z -> (m + Z.of_nat (length rewards) <= 2 ^ e)%Z ->
  is_finite acc = true -> 0 <= B2R acc <= IZR m ->
  let t := fold_left (fun total r => nadd total r) rewards acc in
  is_finite t = true /\ 0 <= B2R t <= IZR (m + Z.of_nat (length rewards)) /\
  Rabs (B2R t - (B2R acc + sum (map B2R rewards))) <= IZR (Z.of_nat (length rewards)) * bpow radix2 (e - 54).
Proof.
  intros He H. induction H as [|r rewards Hr H IH]; intros acc m Hm Hl Fa Ba; cbn [fold_left map sum fold_right length].
  - split; [exact Fa|]. rewrite Z.add_0_r. split; [exact Ba|]. rewrite Rplus_0_r, Rminus_diag_eq, Rabs_R0 by reflexivity.
    cbn. lra.
  - fold (sum (map B2R rewards)). cbn [length] in Hl.
    assert (E50 : (2 ^ e <= 2 ^ 50)%Z) by (apply Z.pow_le_mono_r; lia).
    destruct (add_step m acc r ltac:(lia) Fa Ba Hr) as (F1 & B1 & V1).
    destruct (IH (nadd acc r) (m + 1)%Z ltac:(lia) ltac:(lia) F1 B1) as (F2 & B2 & E2).
    split; [exact F2|]. replace (m + Z.of_nat (S (length rewards)))%Z with (m + 1 + Z.of_nat (length rewards))%Z by lia.
    split; [exact B2|].
    assert (Er : Rabs (rnd (B2R acc + B2R r) - (B2R acc + B2R r)) <= bpow radix2 (e - 54)).
    { replace (e - 54)%Z with (e - 53 - 1)%Z by lia. apply (rnd_error 53 1024); [lia|].
      destruct Hr as [_ Hr]. rewrite Rabs_pos_eq by lra.
      apply Rle_trans with (IZR (m + 1)); [rewrite plus_IZR; lra|].
      rewrite <- (IZR_Zpower radix2) by lia. apply IZR_le. cbn [radix_val radix2]. lia. }
    rewrite V1 in E2. rewrite Nat2Z.inj_succ, succ_IZR, Rmult_plus_distr_r, Rmult_1_l.
    match goal with |- Rabs (?t - _) <= _ =>
      replace (t - (B2R acc + (B2R r + sum (map B2R rewards))))
        with ((t - (rnd (B2R acc + B2R r) + sum (map B2R rewards))) + (rnd (B2R acc + B2R r) - (B2R acc + B2R r))) by ring end.
    eapply Rle_trans; [apply Rabs_triang|]. lra.
Qed.

(** The cumulative reward of an episode of n steps is a number between 0 and n.  It is the sum
    of the rewards up to an error of n 2^(e-54) if n is at most 2^e; for the episodes of at
    most 1024 steps that are common here (960 steps are two days) up to 1e-10.  If all rewards
    are 1 it is exactly n. *)
Theorem C101_total : forall (rewards : list float) e,
  Forall is_reward rewards -> (0 <= e <= 50)%Z -> (Z.of_nat (length rewards) <= 2 ^ e)%Z ->
  let n := IZR (Z.of_nat (length rewards)) in
  let t := total_reward (N:=N64) rewards in
  is_finite t = true /\ 0 <= B2R t <= n /\
  Rabs (B2R t - sum (map B2R rewards)) <= n * bpow radix2 (e - 54) /\
  ((length rewards <= 1024)%nat -> Rabs (B2R t - sum (map B2R rewards)) <= 1 / 10000000000) /\
  (Forall (fun r => B2R r = 1) rewards -> B2R t = n).
Proof.
  intros rewards e H He Hl n t.
  assert (Z0 : is_finite (nofZ (Num:=N64) 0) = true /\ B2R (nofZ (Num:=N64) 0) = 0) by (split; reflexivity).
  destruct Z0 as [F0 V0].
  assert (B0 : 0 <= B2R (nofZ (Num:=N64) 0) <= IZR 0) by (rewrite V0; lra).
  destruct (fold_sum e rewards He H (nofZ 0) 0%Z ltac:(lia) ltac:(lia) F0 B0) as (F1 & B1 & E1).
  rewrite V0, Rplus_0_l in E1. split; [exact F1|]. split; [exact B1|]. split; [exact E1|]. split.
  - intro L10.
    destruct (fold_sum 10 rewards ltac:(lia) H (nofZ 0) 0%Z ltac:(lia) ltac:(lia) F0 B0) as (_ & _ & E2).
    rewrite V0, Rplus_0_l in E2. eapply Rle_trans; [exact E2|].
    change (bpow radix2 (10 - 54)) with (/ 17592186044416).
    assert (IZR (Z.of_nat (length rewards)) <= 1024) by (apply IZR_le; lia). lra.
  - intro Ones.
    assert (K : forall l (acc : float) m, Forall is_reward l -> Forall (fun r => B2R r = 1) l ->
      (0 <= m)%Z -> (m + Z.of_nat (length l) <= 2 ^ 50)%Z -> is_finite acc = true -> B2R acc = IZR m ->
      B2R (fold_left (fun total r => nadd (Num:=N64) total r) l acc) = IZR (m + Z.of_nat (length l))).
    { induction l as [|r l IH]; intros acc m R1 O1 Hm Hn Fa Va; cbn [fold_left length].
      - now rewrite Z.add_0_r.
      - inversion R1; subst. inversion O1; subst. cbn [length] in Hn.
        destruct (add_step m acc r ltac:(lia) Fa ltac:(rewrite Va; split; [apply IZR_le; lia|lra]) ltac:(assumption)) as (Fs & _ & Vs).
        rewrite (IH (nadd acc r) (m + 1)%Z); try assumption; try lia.
        + f_equal. lia.
        + rewrite Vs, Va. match goal with E : B2R r = 1 |- _ => rewrite E end.
          rewrite <- (plus_IZR m 1). destruct (of_Z (m + 1) ltac:(lia)) as [_ V1]. rewrite <- V1. apply rnd_of. }
    assert (E50 : (2 ^ e <= 2 ^ 50)%Z) by (apply Z.pow_le_mono_r; lia).
    exact (K rewards (nofZ 0) 0%Z H Ones ltac:(lia) ltac:(lia) F0 V0).
Qed.

(** If every step's reward is 1 or at most 0.999 (as that of the default reward function is,
    but for a nanometre outside the radius, see C99), the cumulative reward is the number of
    steps only if all rewards were 1. *)
Theorem C101_perfect : forall rewards : list float,
  Forall is_reward rewards -> (length rewards <= 1024)%nat ->
  Forall (fun r => B2R r = 1 \/ B2R r <= 999 / 1000) rewards ->
  (B2R (total_reward (N:=N64) rewards) = IZR (Z.of_nat (length rewards)) <-> Forall (fun r => B2R r = 1) rewards).
Proof.
  intros rewards H L Gap.
  destruct (C101_total rewards 10 H ltac:(lia) ltac:(lia)) as (_ & _ & _ & E & Ones). specialize (E L).
  split; [|exact Ones]. intro T. rewrite T in E. clear Ones T L.
  assert (S : forall l, Forall is_reward l -> sum (map B2R l) <= IZR (Z.of_nat (length l))).
  { induction 1 as [|r l [_ Hr] Hl IH]; cbn [map sum fold_right length]; [cbn; lra|].
    fold (sum (map B2R l)). rewrite Nat2Z.inj_succ, succ_IZR. lra. }
  assert (D : Forall (fun r => B2R r = 1) rewards \/ sum (map B2R rewards) <= IZR (Z.of_nat (length rewards)) - 1 / 1000).
  { clear E. induction H as [|r l Hr Hl IH]; [left; constructor|]. inversion Gap as [|r' l' G1 G2]; subst.
    cbn [map sum fold_right length]. fold (sum (map B2R l)). rewrite Nat2Z.inj_succ, succ_IZR.
    destruct Hr as [_ Hr]. specialize (S l Hl). destruct G1 as [G1|G1]; [|right; lra].
    destruct (IH G2) as [A|A]; [left; now constructor|right; lra]. }
  destruct D as [D|D]; [exact D|]. apply Rabs_le_inv in E. lra.
Qed.

(** An episode whose rewards are, step by step, at least those of another has at least its
    cumulative reward. *)
Theorem C101_better : forall better worse : list float,
  Forall is_reward better -> Forall is_reward worse -> (Z.of_nat (length better) <= 2 ^ 50)%Z ->
  Forall2 (fun b w => B2R w <= B2R b) better worse ->
  B2R (total_reward (N:=N64) worse) <= B2R (total_reward (N:=N64) better).
Proof.
  intros better worse Hb Hw L F.
  assert (K : forall (b w : float) m, (0 <= m)%Z -> (m + Z.of_nat (length better) <= 2 ^ 50)%Z ->
    is_finite b = true -> is_finite w = true -> 0 <= B2R b <= IZR m -> 0 <= B2R w <= IZR m -> B2R w <= B2R b ->
    B2R (fold_left (fun total r => nadd (Num:=N64) total r) worse w)
      <= B2R (fold_left (fun total r => nadd (Num:=N64) total r) better b)).
  { clear L. induction F as [|rb rw better worse R F IH]; intros b w m Hm L Fb Fw Bb Bw W; [exact W|].
    inversion Hb; subst. inversion Hw; subst. cbn [fold_left length] in *.
    destruct (add_step m b rb ltac:(lia) Fb Bb ltac:(assumption)) as (F1 & B1 & V1).
    destruct (add_step m w rw ltac:(lia) Fw Bw ltac:(assumption)) as (F2 & B2 & V2).
    apply (IH ltac:(assumption) ltac:(assumption) (nadd b rb) (nadd w rw) (m + 1)%Z); try assumption; try lia.
    rewrite V1, V2. apply (rnd_mono 53 1024). lra. }
  apply (K (nofZ 0) (nofZ 0) 0%Z); try reflexivity; try lia; try (cbn; lra).
Qed.

(** ** The share of the time within the radius *)
Lemma share_value k n : (0 <= k <= n)%Z -> (1 <= n < 2 ^ 53)%Z ->
  let s := time_within_radius (N:=N64) k n in
  is_finite s = true /\ B2R s = rnd (IZR k / IZR n) /\ 0 <= IZR k / IZR n <= 1 /\
  Rabs (B2R s - IZR k / IZR n) <= bpow radix2 (-54).
Proof.
  intros Hk Hn s. destruct (of_Z k ltac:(lia)) as [Fk Vk]. destruct (of_Z n ltac:(lia)) as [Fn Vn].
  assert (Pn : 1 <= IZR n) by (apply IZR_le; lia). assert (Pk : 0 <= IZR k <= IZR n) by (split; apply IZR_le; lia).
  assert (Q : 0 <= IZR k / IZR n <= 1).
  { split; [apply Rmult_le_pos; [lra|]; left; apply Rinv_0_lt_compat; lra|].
    apply Rmult_le_reg_r with (IZR n); [lra|]. unfold Rdiv. rewrite Rmult_assoc, Rinv_l by lra. lra. }
  pose proof (div_computes 53 1024 _ _ Fk Fn ltac:(rewrite Vn; lra)) as C. rewrite Vk, Vn in C.
  assert (L : Rabs (IZR k / IZR n) <= bpow radix2 0) by (rewrite Rabs_pos_eq by lra; cbn; lra).
  destruct (computes_within 53 1024 _ _ 0 ltac:(lia) C L) as [[F _] V].
  split; [exact F|]. split; [exact V|]. split; [exact Q|].
  change (Rabs (B2R (Bdiv mode_NE (float_of_Z k) (float_of_Z n)) - IZR k / IZR n) <= bpow radix2 (-54)).
  rewrite V. apply (rnd_error 53 1024 _ 0); [lia|exact L].
Qed.

(** The documented range: the proportion of time within the radius is between 0 and 1; it is 0
    only if the balloon never was there, and 1 only if it always was; and the number of steps
    within the radius is the whole number closest to the proportion times the steps. *)
Theorem C101_share : forall k n, (0 <= k <= n)%Z -> (1 <= n <= 2 ^ 25)%Z ->
  let s := time_within_radius (N:=N64) k n in
  is_finite s = true /\ 0 <= B2R s <= 1 /\ (B2R s = 0 <-> k = 0%Z) /\ (B2R s = 1 <-> k = n) /\
  Rabs (B2R s - IZR k / IZR n) <= / 18014398509481984 /\ Rabs (B2R s * IZR n - IZR k) <= / 536870912.
Proof.
  intros k n Hk Hn s. destruct (share_value k n Hk ltac:(lia)) as (F & V & Q & E). fold s in F, V, E.
  change (bpow radix2 (-54)) with (/ 18014398509481984) in E.
  assert (Pn : 1 <= IZR n <= 33554432) by (split; apply IZR_le; lia).
  assert (Inv : / 33554432 <= / IZR n) by (apply Rinv_le_contravar; lra).
  assert (Pk : 0 <= IZR k <= IZR n) by (split; apply IZR_le; lia).
  assert (E' := E). apply Rabs_le_inv in E'.
  split; [exact F|]. split.
  { rewrite V. split.
    - pose proof (rnd_mono 53 1024 0 (IZR k / IZR n) ltac:(lra)) as B. rewrite (rnd_of 53 1024 (B754_zero false) : rnd 0 = 0) in B. exact B.
    - destruct (of_Z 1 ltac:(lia)) as [_ V1]. pose proof (rnd_mono 53 1024 (IZR k / IZR n) 1 ltac:(lra)) as B.
      rewrite <- V1, rnd_of, V1 in B. exact B. }
  split; [|split; [|split; [exact E|]]].
  - split.
    + intro Z0. rewrite Z0 in E'. destruct (Z.eq_dec k 0) as [|N]; [assumption|exfalso].
      assert (1 <= IZR k) by (apply IZR_le; lia). assert (/ 33554432 <= IZR k / IZR n) by (unfold Rdiv; nra). lra.
    + intros ->. rewrite V. unfold Rdiv. rewrite Rmult_0_l. exact (rnd_of 53 1024 (B754_zero false)).
  - split.
    + intro Z1. rewrite Z1 in E'. destruct (Z.eq_dec k n) as [|N]; [assumption|exfalso].
      assert (IZR k <= IZR n - 1) by (rewrite <- minus_IZR; apply IZR_le; lia).
      assert (IZR k / IZR n <= 1 - / 33554432).
      { apply Rle_trans with ((IZR n - 1) / IZR n).
        - apply Rmult_le_compat_r; [left; apply Rinv_0_lt_compat; lra|lra].
        - replace ((IZR n - 1) / IZR n) with (1 - / IZR n) by (field; lra). lra. }
      lra.
    + intros ->. rewrite V. replace (IZR n / IZR n) with 1 by (field; lra).
      destruct (of_Z 1 ltac:(lia)) as [_ V1]. rewrite <- V1. apply rnd_of.
  - replace (B2R s * IZR n - IZR k) with ((B2R s - IZR k / IZR n) * IZR n) by (field; lra).
    rewrite Rabs_mult, (Rabs_pos_eq (IZR n)) by lra. pose proof (Rabs_pos (B2R s - IZR k / IZR n)).
    apply Rle_trans with (/ 18014398509481984 * 33554432); [apply Rmult_le_compat; lra|lra].
Qed.

(** Comparing the proportions of two evaluations, of any lengths, gives the right answer:
    rounding neither makes different proportions equal nor equal ones different. *)
Theorem C101_compare : forall k n k' n',
  (0 <= k <= n)%Z -> (1 <= n <= 2 ^ 25)%Z -> (0 <= k' <= n')%Z -> (1 <= n' <= 2 ^ 25)%Z ->
  let s := time_within_radius (N:=N64) k n in
  let s' := time_within_radius (N:=N64) k' n' in
  (B2R s < B2R s' <-> (k * n' < k' * n)%Z) /\ (B2R s = B2R s' <-> (k * n' = k' * n)%Z).
Proof.
  assert (Strict : forall k n k' n',
    (0 <= k <= n)%Z -> (1 <= n <= 2 ^ 25)%Z -> (0 <= k' <= n')%Z -> (1 <= n' <= 2 ^ 25)%Z -> (k * n' < k' * n)%Z ->
    B2R (time_within_radius (N:=N64) k n) < B2R (time_within_radius (N:=N64) k' n')).
  { intros k n k' n' Hk Hn Hk' Hn' L.
    destruct (share_value k n Hk ltac:(lia)) as (_ & _ & _ & E). destruct (share_value k' n' Hk' ltac:(lia)) as (_ & _ & _ & E').
    change (bpow radix2 (-54)) with (/ 18014398509481984) in E, E'. apply Rabs_le_inv in E. apply Rabs_le_inv in E'.
    assert (Pn : 1 <= IZR n <= 33554432) by (split; apply IZR_le; lia).
    assert (Pn' : 1 <= IZR n' <= 33554432) by (split; apply IZR_le; lia).
    assert (G : 1 <= IZR k' * IZR n - IZR k * IZR n') by (rewrite <- !mult_IZR, <- minus_IZR; apply IZR_le; lia).
    assert (D : IZR k' / IZR n' - IZR k / IZR n = (IZR k' * IZR n - IZR k * IZR n') * / (IZR n * IZR n')) by (field; lra).
    assert (I : / 1125899906842624 <= / (IZR n * IZR n')).
    { apply Rinv_le_contravar; [nra|]. apply Rle_trans with (33554432 * 33554432); [apply Rmult_le_compat; lra|lra]. }
    assert (/ 1125899906842624 <= IZR k' / IZR n' - IZR k / IZR n) by (rewrite D; nra). lra. }
  intros k n k' n' Hk Hn Hk' Hn' s s'.
  destruct (Z.lt_trichotomy (k * n') (k' * n)) as [L|[L|L]].
  - pose proof (Strict _ _ _ _ Hk Hn Hk' Hn' L) as S. fold s s' in S. split; split; intro; lra || lia.
  - assert (S : B2R s = B2R s').
    { destruct (share_value k n Hk ltac:(lia)) as (_ & V & _ & _). destruct (share_value k' n' Hk' ltac:(lia)) as (_ & V' & _ & _).
      unfold s, s'. rewrite V, V'. f_equal.
      assert (1 <= IZR n) by (apply IZR_le; lia). assert (1 <= IZR n') by (apply IZR_le; lia).
      apply (f_equal IZR) in L. rewrite !mult_IZR in L.
      apply Rmult_eq_reg_r with (IZR n * IZR n'); [|nra].
      replace (IZR k / IZR n * (IZR n * IZR n')) with (IZR k * IZR n') by (field; lra).
      replace (IZR k' / IZR n' * (IZR n * IZR n')) with (IZR k' * IZR n) by (field; lra). exact L. }
    split; split; intro; lra || lia.
  - pose proof (Strict _ _ _ _ Hk' Hn' Hk Hn L) as S. fold s s' in S. split; split; intro; lra || lia.
Qed.
End Pow.

(** The cumulative reward should not depend on the order in which the same rewards were
    earned.  It does (in its last digits). *)
Definition speck : float := binary_normalize 53 1024 prec_64 emax_64 mode_NE 1 (-53) false.
Definition one_more_digit : float := binary_normalize 53 1024 prec_64 emax_64 mode_NE 4503599627370497 (-52) false.
Theorem C101_order_refuted : forall pow, exists a b c : float,
  is_reward a /\ is_reward b /\ is_reward c /\
  B2R (total_reward (N:=Num_float pow) [a; b; c]) = 1 /\
  B2R (total_reward (N:=Num_float pow) [c; b; a]) = 1 + / 4503599627370496.
Proof.
  intro pow. exists (float_of_Z 1), speck, speck.
  destruct (of_Z 1 ltac:(lia)) as [F1 V1].
  destruct (value speck _ _ _ ltac:(vm_compute; reflexivity)) as [Fs Vs].
  assert (Es : B2R speck = / 9007199254740992).
  { rewrite Vs. unfold F2R. cbn [Fnum Fexp cond_Zopp bpow]. vm_compute Z.pow_pos. lra. }
  assert (Rs : is_reward speck) by (split; [exact Fs|]; rewrite Es; lra).
  assert (R1 : is_reward (float_of_Z 1)) by (split; [exact F1|]; rewrite V1; lra).
  split; [exact R1|]. split; [exact Rs|]. split; [exact Rs|].
  unfold total_reward. cbn [fold_left].
  change (@nadd float (Num_float pow)) with (@Bplus 53 1024 prec_64 emax_64 mode_NE).
  change (@nofZ float (Num_float pow) 0) with (float_of_Z 0). split.
  - assert (E : Bplus mode_NE (Bplus mode_NE (Bplus mode_NE (float_of_Z 0) (float_of_Z 1)) speck) speck = float_of_Z 1)
      by (apply B2SF_inj; vm_compute; reflexivity).
    rewrite E. exact V1.
  - assert (E : Bplus mode_NE (Bplus mode_NE (Bplus mode_NE (float_of_Z 0) speck) speck) (float_of_Z 1) = one_more_digit)
      by (apply B2SF_inj; vm_compute; reflexivity).
    rewrite E. destruct (value one_more_digit _ _ _ ltac:(vm_compute; reflexivity)) as [_ Vm]. rewrite Vm.
    unfold F2R. cbn [Fnum Fexp cond_Zopp bpow]. vm_compute Z.pow_pos. lra.
Qed.

(** The hypotheses are met: three rewards of which one is a half; and an episode of two days of
    which the balloon spent a third, rounded, within the radius. *)
Definition a_half : float := binary_normalize 53 1024 prec_64 emax_64 mode_NE 1 (-1) false.
Example C101_witness : forall pow,
  Forall is_reward [float_of_Z 1; a_half; float_of_Z 1] /\
  Forall (fun r => B2R r = 1 \/ B2R r <= 999 / 1000) [float_of_Z 1; a_half; float_of_Z 1] /\
  Forall2 (fun b w => B2R w <= B2R b) [float_of_Z 1; a_half; float_of_Z 1] [a_half; a_half; float_of_Z 1] /\
  B2R (time_within_radius (N:=Num_float pow) 321 963) <> 1 / 3 /\
  B2R (time_within_radius (N:=Num_float pow) 321 963) = B2R (time_within_radius (N:=Num_float pow) 320 960).
Proof.
  intro pow. destruct (of_Z 1 ltac:(lia)) as [F1 V1].
  destruct (value a_half _ _ _ ltac:(vm_compute; reflexivity)) as [Fh Vh].
  assert (Eh : B2R a_half = / 2).
  { rewrite Vh. unfold F2R. cbn [Fnum Fexp cond_Zopp bpow]. vm_compute Z.pow_pos. lra. }
  assert (Rh : is_reward a_half) by (split; [exact Fh|]; rewrite Eh; lra).
  assert (R1 : is_reward (float_of_Z 1)) by (split; [exact F1|]; rewrite V1; lra).
  split; [apply Forall_cons; [exact R1|apply Forall_cons; [exact Rh|apply Forall_cons; [exact R1|constructor]]]|].
  split; [apply Forall_cons; [now left|apply Forall_cons; [right; rewrite Eh; lra|apply Forall_cons; [now left|constructor]]]|].
  split; [apply Forall2_cons; [rewrite V1, Eh; lra|apply Forall2_cons; [lra|apply Forall2_cons; [lra|constructor]]]|]. split.
  - change (time_within_radius (N:=Num_float pow) 321 963) with (Bdiv mode_NE (float_of_Z 321) (float_of_Z 963)).
    destruct (value (Bdiv mode_NE (float_of_Z 321) (float_of_Z 963)) _ _ _ ltac:(vm_compute; reflexivity)) as [_ Vd].
    rewrite Vd. unfold F2R. cbn [Fnum Fexp cond_Zopp bpow]. vm_compute Z.pow_pos. lra.
  - apply (C101_compare pow); lia.
Qed.

Print Assumptions C101_same_code.
Print Assumptions C101_total.
Print Assumptions C101_perfect.
Print Assumptions C101_better.
Print Assumptions C101_share.
Print Assumptions C101_compare.
Print Assumptions C101_order_refuted.
