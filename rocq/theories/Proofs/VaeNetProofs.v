(** Lemmas on the perceptrons of the wind VAE: their values, their bounds and their
    Lipschitz constants. *)
From Coq Require Import ZArith Reals List Bool Lia Lra Psatz.
From Verif Require Import Model.Num Model.WindField Model.Vae.
From Verif Require Import Spec.VaeSpec.
From Verif Require Import Proofs.NumR Proofs.VaeProofs.
Import ListNotations.
Open Scope R_scope.

Lemma total_app a b : total (a ++ b) = total a + total b.
Proof. induction a; cbn [total fold_right app]; unfold total in *; cbn [fold_right app]; lra. Qed.
Lemma sumn_total n f : sumn n f = total (map f (seq 0 n)).
Proof.
  induction n; [reflexivity|]. rewrite seq_S, map_app, total_app, <- IHn. cbn. lra.
Qed.
Lemma total_map_ext {A} (f g : A -> R) l : (forall x, In x l -> f x = g x) -> total (map f l) = total (map g l).
Proof. intro H. f_equal. now apply map_ext_in. Qed.

(** ** Values *)
Lemma dense_weighted d n x j :
  apply_dense d n x j = bias d j + weighted n (fun i => kernel d i j) x.
Proof.
  unfold apply_dense, weighted. rewrite sumn_total, Rplus_comm. f_equal.
  apply total_map_ext. intros i _. apply Rmult_comm.
Qed.
Lemma weighted_ext n w x y : (forall i, x i = y i) -> weighted n w x = weighted n w y.
Proof. intro H. unfold weighted. apply total_map_ext. intros i _. now rewrite H. Qed.

Lemma hidden_value (ds done rest : list dense) d0 n x :
  ds = done ++ rest ->
  forall m y, m = layer_width n (length done) ->
  (forall j, y j = unit_value (fun k i j => kernel (nth k ds d0) i j) (fun k j => bias (nth k ds d0) j) n x (length done) j) ->
  fst (hidden_layers rest m 1000 y) = layer_width n (length ds) /\
  forall j, snd (hidden_layers rest m 1000 y) j
    = unit_value (fun k i j => kernel (nth k ds d0) i j) (fun k j => bias (nth k ds d0) j) n x (length ds) j.
Proof.
  revert done. induction rest as [|d rest IH]; intros done E m y Hm Hy; cbn [hidden_layers].
  - cbn [fst snd]. rewrite app_nil_r in E. subst ds. auto.
  - assert (E' : ds = (done ++ [d]) ++ rest) by (now rewrite <- app_assoc).
    assert (L : length (done ++ [d]) = S (length done)) by (rewrite app_length; cbn [length]; lia).
    assert (N : nth (length done) ds d0 = d) by (subst ds; now rewrite app_nth2, Nat.sub_diag by lia).
    apply (IH (done ++ [d]) E'); rewrite L; [reflexivity|].
    intro j. cbn [unit_value]. unfold relu. rewrite dense_weighted, N, <- Hm, Rmax_comm. f_equal. f_equal.
    now apply weighted_ext.
Qed.

(** ** Bounds *)
Lemma sumn_abs n f : Rabs (sumn n f) <= sumn n (fun i => Rabs (f i)).
Proof.
  induction n; cbn [sumn]; [rewrite Rabs_R0; lra|]. eapply Rle_trans; [apply Rabs_triang|]. lra.
Qed.
Lemma sumn_minus n f g : sumn n (fun i => f i - g i) = sumn n f - sumn n g.
Proof. induction n; cbn [sumn]; [lra|]. rewrite IHn. lra. Qed.
(** A bound on the sums of absolute weights of units [0 .. m - 1]. *)
Definition column (d : dense) (n j : nat) : R := sumn n (fun i => Rabs (kernel d i j)).
Definition gain (d : dense) (n m : nat) : R := sumn m (column d n).
Lemma column_nonneg d n j : 0 <= column d n j.
Proof. apply sumn_nonneg. intros. apply Rabs_pos. Qed.
Lemma gain_nonneg d n m : 0 <= gain d n m.
Proof. apply sumn_nonneg. intros. apply column_nonneg. Qed.
Lemma column_gain d n m j : (j < m)%nat -> column d n j <= gain d n m.
Proof. intro H. apply (sumn_ge_term m (column d n)); [intros; apply column_nonneg|exact H]. Qed.

Lemma weights_bound d n x c j : (forall i, (i < n)%nat -> Rabs (x i) <= c) ->
  Rabs (sumn n (fun i => x i * kernel d i j)) <= column d n j * c.
Proof.
  intro H. eapply Rle_trans; [apply sumn_abs|]. unfold column. rewrite <- sumn_scale. apply sumn_le.
  intros i Hi. rewrite Rabs_mult, Rmult_comm. apply Rmult_le_compat_l; [apply Rabs_pos|]. now apply H.
Qed.
Lemma relu_lipschitz a b : Rabs (relu a - relu b) <= Rabs (a - b).
Proof. unfold relu. apply Rmax_case_strong; apply Rmax_case_strong; intros; unfold Rabs; repeat destruct Rcase_abs; lra. Qed.
Lemma relu_bound a : Rabs (relu a) <= Rabs a.
Proof. unfold relu. apply Rmax_case_strong; intros; unfold Rabs; repeat destruct Rcase_abs; lra. Qed.

Lemma dense_lipschitz d n m x y c j : (j < m)%nat -> 0 <= c -> (forall i, (i < n)%nat -> Rabs (x i - y i) <= c) ->
  Rabs (apply_dense d n x j - apply_dense d n y j) <= gain d n m * c.
Proof.
  intros Hj Hc H. unfold apply_dense.
  replace (sumn n (fun i => x i * kernel d i j) + bias d j - (sumn n (fun i => y i * kernel d i j) + bias d j))
    with (sumn n (fun i => (x i - y i) * kernel d i j)).
  - eapply Rle_trans; [apply (weights_bound d n (fun i => x i - y i) c); exact H|].
    apply Rmult_le_compat_r; [exact Hc|]. now apply column_gain.
  - rewrite (sumn_ext _ _ (fun i => x i * kernel d i j - y i * kernel d i j)) by (intros; ring).
    rewrite sumn_minus. ring.
Qed.
Lemma dense_bound d n m : exists k, 0 <= k /\ forall x c j, (j < m)%nat -> 0 <= c ->
  (forall i, (i < n)%nat -> Rabs (x i) <= c) -> Rabs (apply_dense d n x j) <= k * (c + 1).
Proof.
  exists (gain d n m + sumn m (fun j => Rabs (bias d j))).
  assert (B : 0 <= sumn m (fun j => Rabs (bias d j))) by (apply sumn_nonneg; intros; apply Rabs_pos).
  pose proof (gain_nonneg d n m) as G. split; [lra|]. intros x c j Hj Hc H. unfold apply_dense.
  eapply Rle_trans; [apply Rabs_triang|].
  pose proof (weights_bound d n x c j H) as W. pose proof (column_gain d n m j Hj) as C.
  pose proof (sumn_ge_term m (fun j => Rabs (bias d j)) j (fun i _ => Rabs_pos _) Hj) as Bj. cbn beta in Bj.
  pose proof (Rmult_le_compat_r c _ _ Hc C). pose proof (Rmult_le_pos _ _ B Hc). lra.
Qed.

Lemma hidden_width ds n w x : fst (hidden_layers ds n w x) = match ds with [] => n | _ => w end.
Proof. revert n x. induction ds as [|d ds IH]; intros; cbn [hidden_layers]; [reflexivity|]. rewrite IH. now destruct ds. Qed.

Lemma hidden_lipschitz ds w : forall n, exists k, 0 <= k /\ forall x y c, 0 <= c ->
  (forall i, (i < n)%nat -> Rabs (x i - y i) <= c) ->
  forall j, (j < fst (hidden_layers ds n w x))%nat ->
    Rabs (snd (hidden_layers ds n w x) j - snd (hidden_layers ds n w y) j) <= k * c.
Proof.
  induction ds as [|d ds IH]; intro n; cbn [hidden_layers].
  - exists 1. split; [lra|]. intros x y c Hc H j Hj. cbn [fst snd] in *. rewrite Rmult_1_l. now apply H.
  - destruct (IH w) as (k & Hk & L). exists (k * gain d n w). pose proof (gain_nonneg d n w) as G.
    split; [now apply Rmult_le_pos|]. intros x y c Hc H j Hj.
    rewrite Rmult_assoc. apply (L _ _ (gain d n w * c)); [now apply Rmult_le_pos| |exact Hj].
    intros i Hi. eapply Rle_trans; [apply relu_lipschitz|]. now apply dense_lipschitz.
Qed.
Lemma hidden_bound ds w : forall n, exists k, 0 <= k /\ forall x c, 0 <= c ->
  (forall i, (i < n)%nat -> Rabs (x i) <= c) ->
  forall j, (j < fst (hidden_layers ds n w x))%nat -> Rabs (snd (hidden_layers ds n w x) j) <= k * (c + 1).
Proof.
  induction ds as [|d ds IH]; intro n; cbn [hidden_layers].
  - exists 1. split; [lra|]. intros x c Hc H j Hj. cbn [fst snd] in *. specialize (H j Hj). lra.
  - destruct (IH w) as (k & Hk & L). destruct (dense_bound d n w) as (g & Hg & D). exists (k * (g + 1)).
    split; [apply Rmult_le_pos; lra|]. intros x c Hc H j Hj.
    apply Rle_trans with (k * (g * (c + 1) + 1)).
    + apply L; [apply Rmult_le_pos; lra| |exact Hj].
      intros i Hi. eapply Rle_trans; [apply relu_bound|]. now apply D.
    + rewrite Rmult_assoc. apply Rmult_le_compat_l; [exact Hk|]. nra.
Qed.

(** ** The decoder *)
Lemma resize_lipschitz n m i f g c : (0 < n <= m)%nat -> (i < m)%nat ->
  (forall j, (j < n)%nat -> Rabs (f j - g j) <= c) -> Rabs (resize1 n m f i - resize1 n m g i) <= c.
Proof.
  intros Hn Hi H.
  assert (E : resize1 n m f i - resize1 n m g i = resize1 n m (fun j => f j - g j) i).
  { unfold resize1. rewrite <- sumn_minus. apply sumn_ext. intros j _. ring. }
  rewrite E. apply Rabs_le. apply resize_between; [exact Hn|exact Hi|].
  intros j Hj. specialize (H j Hj). unfold Rabs in H. destruct Rcase_abs in H; lra.
Qed.
Lemma decode_output_lipschitz s x y c : (5 <= latlng_slices s)%nat ->
  (forall q, (q < num_flow_field_units s)%nat -> Rabs (x q - y q) <= c) ->
  forall i j p t, (i < latlng_slices s)%nat -> (j < latlng_slices s)%nat ->
  (p < pressure_slices s)%nat -> (t < time_slices s)%nat ->
  Rabs (u (decode_output s x i j p t) - u (decode_output s y i j p t)) <= c /\
  Rabs (v (decode_output s x i j p t) - v (decode_output s y i j p t)) <= c.
Proof.
  intros Hs H i j p t Hi Hj Hp Ht. unfold decode_output.
  rewrite !wind_of_flow_value by assumption. cbn [u v]. set (k := (p * time_slices s + t)%nat).
  assert (Hk : (k < num_flow_fields s)%nat) by (unfold k, num_flow_fields; nia).
  assert (B : forall a b, (a < latlng_slices s + 2)%nat -> (b < latlng_slices s + 2)%nat ->
    Rabs (resized s (flow_fields s x) a b k - resized s (flow_fields s y) a b k) <= c).
  { intros a b Ha Hb. unfold resized. cbv zeta. apply resize_lipschitz; [unfold FLOW_FIELD_WIDTH; lia|lia|].
    intros a' Ha'. apply resize_lipschitz; [unfold FLOW_FIELD_WIDTH; lia|lia|].
    intros b' Hb'. unfold flow_fields. apply H. unfold num_flow_field_units, FLOW_FIELD_WIDTH in *. nia. }
  pose proof (B (i + 2)%nat (j + 1)%nat ltac:(lia) ltac:(lia)) as B1. pose proof (B i (j + 1)%nat ltac:(lia) ltac:(lia)) as B2.
  pose proof (B (i + 1)%nat (j + 2)%nat ltac:(lia) ltac:(lia)) as B3. pose proof (B (i + 1)%nat j ltac:(lia) ltac:(lia)) as B4.
  split; unfold Rabs in *; repeat destruct Rcase_abs; repeat destruct Rcase_abs in *; lra.
Qed.
