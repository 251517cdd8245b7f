(** Proofs about the wind VAE (Model/Vae.v). *)
From Coq Require Import ZArith Reals List Bool Lia Lra Psatz.
From Verif Require Import Model.Num Model.WindField Model.Vae.
From Verif Require Import Proofs.NumR.
Import ListNotations.
Open Scope R_scope.

(** ** Sums *)
Lemma sumn_ext n f g : (forall i, (i < n)%nat -> f i = g i) -> sumn n f = sumn n g.
Proof. induction n as [|n IH]; intro H; cbn [sumn]; [reflexivity|]. rewrite IH, H by (auto with arith || lia). reflexivity. Qed.
Lemma sumn_le n f g : (forall i, (i < n)%nat -> f i <= g i) -> sumn n f <= sumn n g.
Proof.
  induction n as [|n IH]; intro H; cbn [sumn]; [lra|].
  assert (f n <= g n) by (apply H; lia). assert (sumn n f <= sumn n g) by (apply IH; intros; apply H; lia). lra.
Qed.
Lemma sumn_const n c : sumn n (fun _ => c) = INR n * c.
Proof. induction n as [|n IH]; [cbn; lra|]. rewrite S_INR. cbn [sumn]. rewrite IH. lra. Qed.
Lemma sumn_scale n f c : sumn n (fun i => f i * c) = sumn n f * c.
Proof. induction n as [|n IH]; cbn [sumn]; [lra|]. rewrite IH. lra. Qed.
Lemma sumn_nonneg n f : (forall i, (i < n)%nat -> 0 <= f i) -> 0 <= sumn n f.
Proof. intro H. rewrite <- (Rmult_0_r (INR n)), <- sumn_const. now apply sumn_le. Qed.
Lemma sumn_ge_term n f j : (forall i, (i < n)%nat -> 0 <= f i) -> (j < n)%nat -> f j <= sumn n f.
Proof.
  induction n as [|n IH]; intros H Hj; [lia|]. cbn [sumn].
  assert (0 <= f n) by (apply H; lia). assert (0 <= sumn n f) by (apply sumn_nonneg; intros; apply H; lia).
  destruct (Nat.eq_dec j n) as [->|]; [lra|]. assert (f j <= sumn n f) by (apply IH; [intros; apply H; lia|lia]). lra.
Qed.
Lemma sumn_zero n f : (forall i, (i < n)%nat -> 0 <= f i) -> sumn n f = 0 -> forall i, (i < n)%nat -> f i = 0.
Proof.
  intros H E i Hi. pose proof (sumn_ge_term n f i H Hi). specialize (H i Hi). lra.
Qed.

(** ** Resizing takes weighted averages *)
Lemma triangle_nonneg x : 0 <= triangle x.
Proof. apply Rmax_l. Qed.

Lemma resize_total n m i : (0 < n <= m)%nat -> (i < m)%nat -> 0 < sumn n (resize_weight n m i).
Proof.
  intros Hn Hi.
  assert (Hm : 0 < INR m) by (apply lt_0_INR; lia). assert (Hn' : 0 < INR n) by (apply lt_0_INR; lia).
  set (t := (INR i + / 2) * (INR n / INR m)).
  assert (T : 0 < t < INR n).
  { assert (0 <= INR i) by apply pos_INR. assert (INR i + 1 <= INR m) by (rewrite <- S_INR; apply le_INR; lia).
    assert (0 < INR n / INR m) by (apply Rdiv_lt_0_compat; assumption).
    unfold t. split; [apply Rmult_lt_0_compat; lra|].
    apply Rlt_le_trans with (INR m * (INR n / INR m)); [apply Rmult_lt_compat_r; lra|].
    right. field. lra. }
  destruct (base_Int_part t) as [B1 B2].
  assert (J0 : (0 <= Int_part t)%Z).
  { apply Z.lt_succ_r. apply lt_IZR. rewrite succ_IZR. lra. }
  assert (J1 : (Z.to_nat (Int_part t) < n)%nat).
  { apply INR_lt. rewrite INR_IZR_INZ, Z2Nat.id by assumption. lra. }
  apply Rlt_le_trans with (resize_weight n m i (Z.to_nat (Int_part t))).
  - unfold resize_weight. fold t. unfold triangle. rewrite (INR_IZR_INZ (Z.to_nat _)), Z2Nat.id by assumption.
    assert (I1 : INR n / INR m <= 1).
    { apply Rmult_le_reg_r with (INR m); [assumption|]. unfold Rdiv. rewrite Rmult_assoc, Rinv_l, Rmult_1_l, Rmult_1_r by lra.
      apply le_INR. lia. }
    rewrite (Rmax_right (INR n / INR m) 1 I1).
    apply Rlt_le_trans with (1 - Rabs ((t - / 2 - IZR (Int_part t)) / 1)); [|apply Rmax_r].
    unfold Rdiv. rewrite Rinv_1, Rmult_1_r. unfold Rabs. destruct (Rcase_abs _); lra.
  - apply sumn_ge_term; [intros; apply triangle_nonneg|exact J1].
Qed.

Lemma resize_between n m i f lo hi : (0 < n <= m)%nat -> (i < m)%nat ->
  (forall j, (j < n)%nat -> lo <= f j <= hi) -> lo <= resize1 n m f i <= hi.
Proof.
  intros Hn Hi H. unfold resize1. pose proof (resize_total n m i Hn Hi) as T.
  set (t := sumn n (resize_weight n m i)) in *.
  assert (W : forall j, 0 <= resize_weight n m i j / t).
  { intro j. apply Rmult_le_pos; [apply triangle_nonneg|]. left. apply Rinv_0_lt_compat. exact T. }
  assert (One : forall c, sumn n (fun j => resize_weight n m i j / t * c) = c).
  { intro c. rewrite sumn_scale. unfold Rdiv. rewrite sumn_scale. fold t. field. lra. }
  split; [rewrite <- (One lo)|rewrite <- (One hi)]; apply sumn_le; intros j Hj;
    apply Rmult_le_compat_l; try apply W; apply H; exact Hj.
Qed.
Lemma resize_const n m i c f : (0 < n <= m)%nat -> (i < m)%nat ->
  (forall j, (j < n)%nat -> f j = c) -> resize1 n m f i = c.
Proof.
  intros Hn Hi H. assert (c <= resize1 n m f i <= c); [|lra].
  apply resize_between; try assumption. intros j Hj. rewrite H by assumption. lra.
Qed.
Lemma resize_ext n m f g i : (forall j, (j < n)%nat -> f j = g j) -> resize1 n m f i = resize1 n m g i.
Proof. intro H. unfold resize1. apply sumn_ext. intros j Hj. now rewrite H. Qed.

(** ** The wind in terms of the stream function *)
Lemma wind_of_flow_value s f i j p t : (i < latlng_slices s)%nat -> (j < latlng_slices s)%nat ->
  let k := (p * time_slices s + t)%nat in
  wind_of_flow s f i j p t =
  mkWind ((f (i + 2)%nat (j + 1)%nat k - f i (j + 1)%nat k) / 2)
         (- ((f (i + 1)%nat (j + 2)%nat k - f (i + 1)%nat j k) / 2)).
Proof.
  intros Hi Hj k. unfold wind_of_flow, dflow_dy, dflow_dx, roll_back, roll_on. fold k.
  set (m := (latlng_slices s + 2)%nat).
  assert (M1 : forall a, (a < latlng_slices s)%nat -> ((S a + 1) mod m = a + 2)%nat).
  { intros a Ha. rewrite Nat.mod_small; unfold m; lia. }
  assert (M2 : forall a, (a < latlng_slices s)%nat -> ((S a + (m - 1)) mod m = a)%nat).
  { intros a Ha. replace (S a + (m - 1))%nat with (a + 1 * m)%nat by (unfold m; lia).
    rewrite Nat.mod_add by (unfold m; lia). apply Nat.mod_small. unfold m; lia. }
  rewrite !M1, !M2 by assumption. replace (S i) with (i + 1)%nat by lia. replace (S j) with (j + 1)%nat by lia.
  f_equal. lra.
Qed.

(** ** The losses *)
Lemma exp_ge x : 1 + x <= exp x.
Proof.
  destruct (Req_dec x 0) as [->|N]; [rewrite exp_0; lra|]. left. exact (exp_ineq1 x N).
Qed.
Lemma exp_eq x : exp x = 1 + x -> x = 0.
Proof.
  intro E. destruct (Req_dec x 0) as [|N]; [assumption|]. pose proof (exp_ineq1 x N). lra.
Qed.

Lemma kl_terms n mean logvar : kl_divergence n mean logvar =
  / 2 * sumn n (fun i => (mean i) ^ 2 + (exp (logvar i) - 1 - logvar i)).
Proof.
  unfold kl_divergence. replace (- / 2 * sumn n _) with (/ 2 * (sumn n (fun i => 1 + logvar i - mean i ^ 2 - exp (logvar i)) * -1)) by lra.
  rewrite <- sumn_scale. f_equal. apply sumn_ext. intros i _. lra.
Qed.
