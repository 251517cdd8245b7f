(** Proofs about the recurrent network. *)
From Coq Require Import ZArith Reals List Bool Lia Lra.
From Verif Require Import Model.Num Model.Vae Model.Mlp Model.R2d2 Spec.R2d2Spec.
From Verif Require Import Proofs.VaeProofs Proofs.VaeNetProofs.
Import ListNotations.
Open Scope R_scope.

(** ** Sums and layers *)
Lemma sum_of_S n f : sum_of (S n) f = sum_of n f + f n.
Proof.
  unfold sum_of. rewrite seq_S, map_app. cbn [map plus]. generalize (map f (seq 0 n)). intro l.
  induction l as [|x l IH]; cbn; [lra|]. rewrite IH. lra.
Qed.
Lemma sum_of_sumn n f : sum_of n f = sumn n f.
Proof. induction n as [|n IH]; [reflexivity|]. rewrite sum_of_S, IH. reflexivity. Qed.
Lemma sum_of_ext n f g : (forall i, (i < n)%nat -> f i = g i) -> sum_of n f = sum_of n g.
Proof. intro H. rewrite !sum_of_sumn. now apply sumn_ext. Qed.
Lemma sum_of_le n f g : (forall i, (i < n)%nat -> f i <= g i) -> sum_of n f <= sum_of n g.
Proof. intro H. rewrite !sum_of_sumn. now apply sumn_le. Qed.
Lemma sum_of_abs n f : Rabs (sum_of n f) <= sum_of n (fun i => Rabs (f i)).
Proof. rewrite !sum_of_sumn. apply sumn_abs. Qed.
Lemma sumn_split n m f : sumn (n + m) f = sumn n f + sumn m (fun i => f (n + i)%nat).
Proof.
  induction m as [|m IH]; [rewrite Nat.add_0_r; cbn; lra|]. rewrite Nat.add_succ_r. cbn [sumn]. rewrite IH. lra.
Qed.

Lemma sumn_1 f : sumn 1 f = f O. Proof. cbn. lra. Qed.
Lemma dense_affine d n x y j : (forall i, (i < n)%nat -> x i = y i) -> apply_dense d n x j = affine d n y j.
Proof.
  intro H. unfold apply_dense, affine. rewrite sum_of_sumn, Rplus_comm. f_equal. apply sumn_ext. intros i Hi. rewrite H by exact Hi. lra.
Qed.
Lemma relu_rectified x : relu x = rectified x. Proof. unfold relu, rectified. apply Rmax_comm. Qed.
Lemma forward_tower L n x0 m : forall a x,
  (forall i, x i = tower L n a x0 i) -> forall j,
  forward (map L (seq a m)) (L (a + m)%nat) (match a with O => n | _ => 600 end)%nat 600 x j =
  affine (L (a + m)%nat) (match (a + m)%nat with O => n | _ => 600 end)%nat (tower L n (a + m) x0) j.
Proof.
  induction m as [|m IH]; intros a x H j.
  - rewrite Nat.add_0_r. cbn [seq map forward]. apply dense_affine. auto.
  - cbn [seq map forward]. rewrite Nat.add_succ_r.
    refine (IH (S a) _ _ j). intro i. cbn [tower]. rewrite relu_rectified. f_equal. apply dense_affine. auto.
Qed.
Lemma sigmoid_logistic x : sigmoid x = logistic x. Proof. unfold sigmoid, logistic, Rdiv. apply Rmult_1_l. Qed.
Lemma tanh_hyperbolic x : tanh x = hyperbolic x.
Proof.
  unfold tanh, hyperbolic, sinh, cosh. pose proof (exp_pos x). pose proof (exp_pos (- x)). field. lra.
Qed.
Lemma logistic_bounds x : 0 < logistic x < 1.
Proof.
  unfold logistic. pose proof (exp_pos (- x)). split; [apply Rinv_0_lt_compat; lra|].
  rewrite <- Rinv_1. apply Rinv_lt_contravar; lra.
Qed.
Lemma hyperbolic_bounds x : -1 < hyperbolic x < 1.
Proof.
  unfold hyperbolic. pose proof (exp_pos x). pose proof (exp_pos (- x)).
  split; [apply Rmult_lt_reg_r with (exp x + exp (- x))|apply Rmult_lt_reg_r with (exp x + exp (- x))]; try lra;
    unfold Rdiv; rewrite Rmult_assoc, Rinv_l by lra; lra.
Qed.

Section Network.
Context (inputs num_actions : nat) (ps : r2d2_params).
Notation call := (call inputs num_actions ps).
Notation unroll := (unroll inputs num_actions ps).

(** ** Rows *)
Definition embed_row (o : oar) : features :=
  join (600 + num_actions) (join 600 (torso_row inputs ps (o_observation o)) (one_hot (o_action o))) (fun _ => tanh (o_reward o)).
Lemma embed_rows batch : embed inputs num_actions ps batch = Some (map embed_row batch).
Proof.
  unfold embed. cbn [torso]. f_equal. rewrite map_map. induction batch as [|o l IH]; [reflexivity|]. cbn [map combine fst snd].
  now rewrite IH.
Qed.
Definition step_row (os : oar * lstm_state) : lstm_state := lstm_row num_actions ps (embed_row (fst os)) (snd os).
Lemma core_rows batch state : length batch = length state ->
  core num_actions ps (map embed_row batch) state =
  Some (map lstm_hidden (map step_row (combine batch state)), map step_row (combine batch state)).
Proof.
  intro L. unfold core. rewrite map_length, L, Nat.eqb_refl. 
  assert (E : map (fun xs => lstm_row num_actions ps (fst xs) (snd xs)) (combine (map embed_row batch) state) =
    map step_row (combine batch state)).
  { clear L. revert state. induction batch as [|o l IH]; intros [|s st]; try reflexivity. cbn [map combine]. now rewrite IH. }
  cbv zeta. now rewrite E.
Qed.
Lemma core_refuses batch state : length batch <> length state -> core num_actions ps (map embed_row batch) state = None.
Proof. intro L. unfold core. rewrite map_length. apply Nat.eqb_neq in L. now rewrite L. Qed.
Definition q_row (s : lstm_state) : features := head_row num_actions ps (lstm_hidden s).
Lemma call_rows batch state : length batch = length state ->
  call batch state = Some (map q_row (map step_row (combine batch state)), map step_row (combine batch state)).
Proof.
  intro L. unfold R2d2.call. rewrite embed_rows, core_rows by exact L. cbn [duelling_head]. now rewrite !map_map.
Qed.
Lemma call_refuses batch state : length batch <> length state -> call batch state = None.
Proof. intro L. unfold R2d2.call. now rewrite embed_rows, core_refuses. Qed.

(** ** Unrolling *)
Lemma split_concat {X} b (xss : list (list X)) : Forall (fun l => length l = b) xss ->
  split_leading (length xss) b (concat xss) = xss.
Proof.
  induction 1 as [|l xss H _ IH]; [reflexivity|]. cbn [length split_leading concat].
  rewrite firstn_app, skipn_app, <- H, Nat.sub_diag, firstn_all, skipn_all. cbn [firstn skipn app].
  rewrite app_nil_r, H, IH. reflexivity.
Qed.
Lemma batch_apply_rows {X Y} (f : list X -> option (list Y)) (g : X -> Y) xss b :
  (forall xs, f xs = Some (map g xs)) -> Forall (fun l => length l = b) xss ->
  batch_apply f xss = Some (map (map g) xss).
Proof.
  intros H R. unfold batch_apply. rewrite H, concat_map. f_equal. 
  destruct xss as [|l xss]; [reflexivity|]. cbn [hd]. inversion R as [|? ? Hl R']; subst.
  rewrite <- (map_length (map g)). apply split_concat. constructor; [now rewrite map_length|].
  apply Forall_map. eapply Forall_impl; [|exact R']. intros xs E. cbn. now rewrite map_length.
Qed.
Lemma step_length batch state : length batch = length state -> length (map step_row (combine batch state)) = length state.
Proof. intro L. rewrite map_length, combine_length. lia. Qed.
Lemma loop_steps steps b : Forall (fun l => length l = b) steps -> forall state, length state = b ->
  exists hs st, unroll_loop num_actions ps (map (map embed_row) steps) state = Some (hs, st) /\
    Forall (fun l => length l = b) hs /\ length st = b /\
    step_by_step inputs num_actions ps steps state = Some (map (map (head_row num_actions ps)) hs, st).
Proof.
  induction 1 as [|batch steps L _ IH]; intros state Ls.
  - exists [], state. repeat split; auto.
  - cbn [map unroll_loop step_by_step]. rewrite core_rows, call_rows by lia.
    destruct (IH (map step_row (combine batch state))) as (hs & st & E1 & E2 & E3 & E4).
    { rewrite step_length; lia. }
    rewrite E1, E4. eexists (_ :: hs), st. split; [reflexivity|]. split.
    { constructor; [|exact E2]. rewrite map_length, step_length; lia. }
    split; [exact E3|]. cbn [map]. rewrite (map_map lstm_hidden). reflexivity.
Qed.
Lemma unroll_steps steps b state : steps <> [] -> Forall (fun l => length l = b) steps -> length state = b ->
  exists qs st, unroll steps state = Some (qs, st) /\ step_by_step inputs num_actions ps steps state = Some (qs, st).
Proof.
  intros N R L. unfold R2d2.unroll. rewrite (batch_apply_rows _ embed_row _ b embed_rows R).
  destruct (loop_steps steps b R state L) as (hs & st & E1 & E2 & _ & E4).
  assert (S : static_unroll num_actions ps (map (map embed_row) steps) state = Some (hs, st)).
  { destruct steps; [congruence|]. exact E1. }
  rewrite S, (batch_apply_rows _ (head_row num_actions ps) _ b) by (reflexivity || exact E2). eauto.
Qed.
Lemma steps_app a b : forall state,
  step_by_step inputs num_actions ps (a ++ b) state =
  match step_by_step inputs num_actions ps a state with
  | None => None
  | Some (qs, st) =>
      match step_by_step inputs num_actions ps b st with None => None | Some (qs', st') => Some (qs ++ qs', st') end
  end.
Proof.
  induction a as [|x a IH]; intro state; cbn [app step_by_step].
  - destruct (step_by_step _ _ _ b state) as [[? ?]|]; reflexivity.
  - destruct (call x state) as [[q st]|]; [|reflexivity]. rewrite IH.
    destruct (step_by_step _ _ _ a st) as [[qs st1]|]; [|reflexivity].
    destruct (step_by_step _ _ _ b st1) as [[qs' st']|]; reflexivity.
Qed.

(** ** Rows are independent *)
Lemma rows_map {X Y} (f : X -> Y) d d' ns l : (forall i, In i ns -> (i < length l)%nat) -> rows d' ns (map f l) = map f (rows d ns l).
Proof.
  intro H. unfold rows. rewrite map_map. apply map_ext_in. intros i I. rewrite (nth_indep _ d' (f d)) by (rewrite map_length; auto).
  apply map_nth.
Qed.
Lemma rows_combine {X Y} (d : X) (d' : Y) ns l l' : length l = length l' ->
  combine (rows d ns l) (rows d' ns l') = rows (d, d') ns (combine l l').
Proof.
  intro L. unfold rows. induction ns as [|i ns IH]; [reflexivity|]. cbn [map combine]. rewrite IH, combine_nth by exact L. reflexivity.
Qed.
Lemma call_select ns batch state qs st o s : length batch = length state -> (forall i, In i ns -> (i < length state)%nat) ->
  forall q, call batch state = Some (qs, st) -> call (rows o ns batch) (rows s ns state) = Some (rows q ns qs, rows s ns st).
Proof.
  intros L H q E. rewrite call_rows in E by exact L. injection E as <- <-.
  rewrite call_rows by (unfold rows; now rewrite !map_length). rewrite rows_combine by exact L.
  assert (Lc : length (combine batch state) = length state) by (rewrite combine_length; lia).
  rewrite <- (rows_map step_row (o, s) s) by (intros; rewrite Lc; auto).
  rewrite <- (rows_map q_row s q) by (intros; rewrite map_length, Lc; auto). reflexivity.
Qed.
Lemma steps_select ns b o s q : forall steps, Forall (fun l => length l = b) steps ->
  (forall i, In i ns -> (i < b)%nat) -> forall state qs st, length state = b ->
  step_by_step inputs num_actions ps steps state = Some (qs, st) ->
  step_by_step inputs num_actions ps (map (rows o ns) steps) (rows s ns state) = Some (map (rows q ns) qs, rows s ns st).
Proof.
  intros steps R H. induction R as [|batch steps L R IH]; intros state qs st Ls E; cbn [map step_by_step] in *.
  - injection E as <- <-. reflexivity.
  - destruct (call batch state) as [[q1 st1]|] eqn:E1; [|discriminate].
    destruct (step_by_step _ _ _ steps st1) as [[qs1 st2]|] eqn:E2; [|discriminate]. injection E as <- <-.
    assert (L1 : length st1 = b).
    { rewrite call_rows in E1 by lia. injection E1 as _ <-. rewrite step_length; lia. }
    rewrite (call_select ns batch state q1 st1 o s ltac:(lia) ltac:(intros; rewrite Ls; auto) q E1).
    now rewrite (IH _ _ _ L1 E2).
Qed.

(** ** The equations *)
Lemma sum_hot (n : nat) (a : Z) (f : nat -> R) :
  sumn n (fun i => one_hot a i * f i) = sum_of n (fun i => if (Z.of_nat i =? a)%Z then f i else 0).
Proof. rewrite sum_of_sumn. apply sumn_ext. intros i _. unfold one_hot. destruct (_ =? _)%Z; lra. Qed.
Lemma gated o h j :
  apply_dense (lstm_gates ps) (embedding_size num_actions + 512) (join (embedding_size num_actions) (embed_row o) h) j =
  gate inputs num_actions ps o h j.
Proof.
  unfold apply_dense, gate, embedding_size. rewrite !sumn_split, sumn_1. rewrite Rplus_comm.
  set (W := kernel (lstm_gates ps)).
  assert (E1 : sumn 600 (fun i => join (600 + num_actions + 1) (embed_row o) h i * W i j) =
     sum_of 600 (fun i => W i j * seen inputs ps (o_observation o) i)).
  { rewrite sum_of_sumn. apply sumn_ext. intros i Hi. unfold join, embed_row, join.
    repeat (match goal with |- context [Nat.ltb ?a ?b] => destruct (Nat.ltb_spec a b); [|lia] end).
    rewrite Rmult_comm. f_equal. unfold torso_row, seen. exact (forward_tower (torso_linear ps) inputs (o_observation o) 7 0 _ (fun i => eq_refl) i). }
  assert (E2 : sumn num_actions (fun i => join (600 + num_actions + 1) (embed_row o) h (600 + i)%nat * W (600 + i)%nat j) =
     sum_of num_actions (fun a => if (Z.of_nat a =? o_action o)%Z then W (600 + a)%nat j else 0)).
  { rewrite <- sum_hot. apply sumn_ext. intros i Hi. unfold join, embed_row, join.
    destruct (Nat.ltb_spec (600 + i) (600 + num_actions + 1)); [|lia].
    destruct (Nat.ltb_spec (600 + i) (600 + num_actions)); [|lia].
    destruct (Nat.ltb_spec (600 + i) 600); [lia|]. now replace (600 + i - 600)%nat with i by lia. }
  assert (E3 : join (600 + num_actions + 1) (embed_row o) h (600 + num_actions + 0)%nat = hyperbolic (o_reward o)).
  { unfold join, embed_row, join. destruct (Nat.ltb_spec (600 + num_actions + 0) (600 + num_actions + 1)); [|lia].
    destruct (Nat.ltb_spec (600 + num_actions + 0) (600 + num_actions)); [lia|]. apply tanh_hyperbolic. }
  assert (E4 : sumn 512 (fun i => join (600 + num_actions + 1) (embed_row o) h (600 + num_actions + 1 + i)%nat * W (600 + num_actions + 1 + i)%nat j) =
     sum_of 512 (fun i => W (600 + num_actions + 1 + i)%nat j * h i)).
  { rewrite sum_of_sumn. apply sumn_ext. intros i Hi. unfold join at 1.
    destruct (Nat.ltb_spec (600 + num_actions + 1 + i) (600 + num_actions + 1)); [lia|].
    replace (600 + num_actions + 1 + i - (600 + num_actions + 1))%nat with i by lia. apply Rmult_comm. }
  rewrite E1, E2, E3, E4. rewrite Nat.add_0_r. lra.
Qed.
Lemma step_row_equations o s : lstm_step inputs num_actions ps o s (step_row (o, s)).
Proof.
  intros k Hk. unfold step_row, lstm_row. cbn [fst snd lstm_hidden lstm_cell].
  rewrite !gated, !sigmoid_logistic, !tanh_hyperbolic. auto.
Qed.
Lemma head_mlp_perceptron h out x a : head_mlp h out x a = perceptron h out x a.
Proof. unfold head_mlp, perceptron. apply dense_affine. intros i _. rewrite relu_rectified. f_equal. now apply dense_affine. Qed.
Lemma head_row_duelling h a :
  head_row num_actions ps h a = value ps h + advantage ps h a - sum_of num_actions (advantage ps h) / INR num_actions.
Proof.
  unfold head_row, value. rewrite !head_mlp_perceptron, sum_of_sumn.
  rewrite (sumn_ext num_actions _ (advantage ps h)) by (intros; apply head_mlp_perceptron).
  fold (advantage ps h a). lra.
Qed.

(** ** Bounds *)
Lemma affine_reach d n x most j : (forall i, (i < n)%nat -> Rabs (x i) <= most i) -> Rabs (affine d n x j) <= reach d n most j.
Proof.
  intro H. unfold affine, reach. eapply Rle_trans; [apply Rabs_triang|]. apply Rplus_le_compat_l.
  eapply Rle_trans; [apply sum_of_abs|]. apply sum_of_le. intros i Hi. rewrite Rabs_mult.
  apply Rmult_le_compat_l; [apply Rabs_pos|auto].
Qed.
Lemma perceptron_bound h out x a : (forall i, (i < 512)%nat -> Rabs (x i) <= 1) ->
  Rabs (perceptron h out x a) <= perceptron_reach h out a.
Proof.
  intro H. apply affine_reach. intros j _. eapply Rle_trans; [|apply affine_reach; exact H].
  unfold rectified, Rmax, Rabs. destruct (Rle_dec _ _); repeat destruct (Rcase_abs _); lra.
Qed.
Lemma q_bound h a : num_actions <> O -> (forall i, (i < 512)%nat -> Rabs (h i) <= 1) ->
  Rabs (head_row num_actions ps h a) <= q_reach num_actions ps a.
Proof.
  intros N H. rewrite head_row_duelling. unfold q_reach.
  pose proof (perceptron_bound (value_hidden ps) (value_out ps) h 0 H) as B1.
  pose proof (perceptron_bound (advantage_hidden ps) (advantage_out ps) h a H) as B2.
  assert (B3 : Rabs (sum_of num_actions (advantage ps h) / INR num_actions) <=
     sum_of num_actions (perceptron_reach (advantage_hidden ps) (advantage_out ps)) / INR num_actions).
  { assert (P : 0 < INR num_actions) by (apply lt_0_INR; lia). unfold Rdiv. rewrite Rabs_mult, (Rabs_pos_eq (/ _)) by (left; now apply Rinv_0_lt_compat).
    apply Rmult_le_compat_r; [left; now apply Rinv_0_lt_compat|]. eapply Rle_trans; [apply sum_of_abs|].
    apply sum_of_le. intros i _. now apply perceptron_bound. }
  unfold value, advantage in *. revert B1 B2 B3. unfold Rabs. repeat destruct (Rcase_abs _); lra.
Qed.
Lemma step_bounded o s s' : lstm_step inputs num_actions ps o s s' -> forall k, (k < 512)%nat ->
  Rabs (lstm_hidden s' k) < 1 /\ Rabs (lstm_cell s' k) <= Rabs (lstm_cell s k) + 1.
Proof.
  intros H k Hk. destruct (H k Hk) as [-> ->].
  match goal with |- Rabs (logistic ?a * hyperbolic ?b) < 1 /\ _ =>
    pose proof (logistic_bounds a); pose proof (hyperbolic_bounds b); generalize dependent (logistic a); generalize dependent (hyperbolic b) end.
  intros t Ht l Hl.
  match goal with |- _ /\ Rabs (logistic ?a * ?x + logistic ?b * hyperbolic ?c) <= _ =>
    pose proof (logistic_bounds a); pose proof (logistic_bounds b); pose proof (hyperbolic_bounds c);
    generalize dependent (logistic a); generalize dependent (logistic b); generalize dependent (hyperbolic c); generalize dependent x end.
  intros x u Hu m Hm n Hn. split.
  - rewrite Rabs_mult, (Rabs_pos_eq l) by lra. assert (Rabs t < 1) by (apply Rabs_def1; lra). pose proof (Rabs_pos t). nra.
  - eapply Rle_trans; [apply Rabs_triang|]. rewrite !Rabs_mult, (Rabs_pos_eq n), (Rabs_pos_eq m) by lra.
    assert (Rabs u < 1) by (apply Rabs_def1; lra). pose proof (Rabs_pos u). pose proof (Rabs_pos x). nra.
Qed.
End Network.
