(** Lemmas on the perceptrons of agents/networks.py: their values, and that reverse-mode
    differentiation computes their gradient. *)
From Coq Require Import ZArith Reals List Bool Lia Lra Psatz.
From Verif Require Import Model.Num Model.Vae Model.Loading Model.Agents Model.Mlp.
From Verif Require Import Spec.VaeSpec Spec.LearningSpec.
From Verif Require Import Proofs.NumR Proofs.VaeProofs Proofs.VaeNetProofs.
Import ListNotations.
Open Scope R_scope.

(** ** Derivatives *)
Lemma dl_ext f g x l : (forall t, f t = g t) -> derivable_pt_lim f x l -> derivable_pt_lim g x l.
Proof.
  intros E H eps He. destruct (H eps He) as [d Hd]. exists d. intros h Hh Hl.
  rewrite <- !E. now apply Hd.
Qed.
Lemma dl_eq f x l l' : l = l' -> derivable_pt_lim f x l -> derivable_pt_lim f x l'.
Proof. now intros ->. Qed.
Lemma dl_const c x : derivable_pt_lim (fun _ => c) x 0.
Proof. apply derivable_pt_lim_const. Qed.
Lemma dl_add f g x l m : derivable_pt_lim f x l -> derivable_pt_lim g x m ->
  derivable_pt_lim (fun t => f t + g t) x (l + m).
Proof. intros. now apply (derivable_pt_lim_plus f g). Qed.
Lemma dl_mul f g x l m : derivable_pt_lim f x l -> derivable_pt_lim g x m ->
  derivable_pt_lim (fun t => f t * g t) x (l * g x + f x * m).
Proof. intros. now apply (derivable_pt_lim_mult f g). Qed.
Lemma dl_scale c f x l : derivable_pt_lim f x l -> derivable_pt_lim (fun t => c * f t) x (c * l).
Proof. intros. now apply (derivable_pt_lim_scal f c). Qed.
Lemma dl_line a d x : derivable_pt_lim (fun t => a + t * d) x d.
Proof.
  apply dl_eq with (0 + (1 * d + x * 0)); [lra|]. apply dl_add; [apply dl_const|].
  apply (dl_mul (fun t => t) (fun _ => d)); [apply derivable_pt_lim_id|apply dl_const].
Qed.
Lemma dl_sumn n f x l : (forall j, (j < n)%nat -> derivable_pt_lim (f j) x (l j)) ->
  derivable_pt_lim (fun t => sumn n (fun j => f j t)) x (sumn n l).
Proof.
  induction n; intro H; cbn [sumn]; [apply dl_const|].
  apply (dl_add (fun t => sumn n (fun j => f j t)) (f n)); [apply IHn; intros; apply H; lia|apply H; lia].
Qed.
Lemma dl_relu f x l : f x <> 0 -> derivable_pt_lim f x l ->
  derivable_pt_lim (fun t => relu (f t)) x (if Rltb 0 (f x) then l else 0).
Proof.
  intros N H.
  assert (D : derivable_pt_lim relu (f x) (if Rltb 0 (f x) then 1 else 0)).
  { intros eps He. assert (P : 0 < Rabs (f x)) by now apply Rabs_pos_lt.
    exists (mkposreal _ P). cbn. intros h Hh Hl. unfold relu.
    destruct (Rltb_spec 0 (f x)) as [C|C].
    - rewrite (Rabs_right (f x)) in Hl by lra. apply Rabs_def2 in Hl.
      rewrite !Rmax_left by lra. replace ((f x + h - f x) / h - 1) with 0 by (field; exact Hh).
      rewrite Rabs_R0. exact He.
    - assert (C' : f x < 0) by (destruct (Rtotal_order (f x) 0) as [?|[?|?]]; lra).
      rewrite (Rabs_left (f x)) in Hl by lra. apply Rabs_def2 in Hl.
      rewrite !Rmax_right by lra. replace ((0 - 0) / h - 0) with 0 by (field; exact Hh).
      rewrite Rabs_R0. exact He. }
  pose proof (derivable_pt_lim_comp f relu x l _ H D) as C.
  eapply dl_eq; [|exact C]. destruct (Rltb 0 (f x)); lra.
Qed.
Lemma dl_dense d D inputs (xt : R -> features) x0 xdot j :
  (forall i, xt 0 i = x0 i) ->
  (forall i, (i < inputs)%nat -> derivable_pt_lim (fun t => xt t i) 0 (xdot i)) ->
  derivable_pt_lim (fun t => apply_dense (dense_add d D t) inputs (xt t) j) 0
    (sumn inputs (fun i => xdot i * kernel d i j + x0 i * kernel D i j) + bias D j).
Proof.
  intros E H. unfold apply_dense, dense_add. cbn [kernel bias].
  apply (dl_add (fun t => sumn inputs (fun i => xt t i * (kernel d i j + t * kernel D i j)))
           (fun t => bias d j + t * bias D j)); [|apply dl_line].
  apply dl_sumn. intros i Hi.
  eapply dl_eq; [|apply (dl_mul (fun t => xt t i) (fun t => kernel d i j + t * kernel D i j) 0);
                  [apply H; exact Hi|apply dl_line]].
  cbn beta. rewrite E. lra.
Qed.

(** ** Sums *)
Lemma sumn_plus n f g : sumn n (fun i => f i + g i) = sumn n f + sumn n g.
Proof. induction n; cbn [sumn]; [lra|]. rewrite IHn. lra. Qed.
Lemma sumn_left n f c : sumn n (fun i => c * f i) = c * sumn n f.
Proof. rewrite (sumn_ext n _ (fun i => f i * c)); [rewrite sumn_scale; lra|intros; lra]. Qed.
Lemma sumn_swap n m f : sumn n (fun i => sumn m (fun j => f i j)) = sumn m (fun j => sumn n (fun i => f i j)).
Proof.
  induction n; cbn [sumn]; [now induction m; cbn [sumn]; lra|].
  rewrite IHn, <- sumn_plus. reflexivity.
Qed.
Lemma sumn_first n f : sumn (S n) f = f 0%nat + sumn n (fun k => f (S k)).
Proof. induction n; [cbn [sumn]; lra|]. cbn [sumn] in *. lra. Qed.
Lemma sumn_at n a c f : (a < n)%nat -> sumn n (fun j => at_index a c j * f j) = c * f a.
Proof.
  unfold at_index. induction n; intro H; [lia|]. cbn [sumn].
  destruct (Nat.eq_dec a n) as [<-|N].
  - rewrite Nat.eqb_refl, (sumn_ext a _ (fun _ => 0)).
    + rewrite sumn_const. lra.
    + intros i Hi. destruct (Nat.eqb_spec i a); [lia|lra].
  - rewrite IHn by lia. destruct (Nat.eqb_spec n a); [lia|lra].
Qed.

(** ** Reverse mode *)
Fixpoint smooth (hs : list dense) (inputs width : nat) (x : features) : Prop :=
  match hs with
  | [] => True
  | d :: hs' => (forall j, (j < width)%nat -> apply_dense d inputs x j <> 0) /\
                smooth hs' width width (fun j => relu (apply_dense d inputs x j))
  end.
Definition ddot (n m : nat) (d e : dense) : R :=
  sumn n (fun i => sumn m (fun j => kernel d i j * kernel e i j)) + sumn m (fun j => bias d j * bias e j).
Fixpoint pdot (gs : list dense) (go : dense) (Ds : list dense) (Do : dense) (inputs width outputs : nat) : R :=
  match gs, Ds with
  | g :: gs', D :: Ds' => ddot inputs width g D + pdot gs' go Ds' Do width width outputs
  | _, _ => ddot inputs outputs go Do
  end.

Lemma apply_dense_ext d n x y j : (forall i, (i < n)%nat -> x i = y i) -> apply_dense d n x j = apply_dense d n y j.
Proof. intro H. unfold apply_dense. f_equal. apply sumn_ext. intros i Hi. now rewrite H. Qed.
Lemma apply_dense_add0 d D n x j : apply_dense (dense_add d D 0) n x j = apply_dense d n x j.
Proof.
  unfold apply_dense, dense_add. cbn [kernel bias]. f_equal; [|lra].
  apply sumn_ext. intros. lra.
Qed.
Lemma smooth_ext hs : forall n w x y, (forall i, x i = y i) -> smooth hs n w x -> smooth hs n w y.
Proof.
  induction hs as [|d hs IH]; intros n w x y E; cbn [smooth]; [trivial|]. intros [A B]. split.
  - intros j Hj. rewrite <- (apply_dense_ext d n x y) by auto. now apply A.
  - eapply IH; [|exact B]. intro i. cbn beta. f_equal. apply apply_dense_ext. auto.
Qed.

(** The contribution of one dense layer to the scalar product. *)
Lemma layer_dual n m (d D : dense) (x xdot c : features) :
  sumn m (fun j => c j * (sumn n (fun i => xdot i * kernel d i j + x i * kernel D i j) + bias D j))
  = ddot n m (mkDense (fun i j => x i * c j) c) D
    + sumn n (fun i => sumn m (fun j => c j * kernel d i j) * xdot i).
Proof.
  unfold ddot. cbn [kernel bias].
  rewrite (sumn_ext m _ (fun j => sumn n (fun i => c j * (xdot i * kernel d i j))
             + sumn n (fun i => c j * (x i * kernel D i j)) + c j * bias D j)).
  2:{ intros j _. rewrite sumn_plus, !sumn_left. lra. }
  rewrite !sumn_plus, (sumn_swap m n), (sumn_swap m n).
  rewrite (sumn_ext n (fun i => sumn m (fun j => c j * (xdot i * kernel d i j)))
             (fun i => sumn m (fun j => c j * kernel d i j) * xdot i)).
  2:{ intros i _. rewrite <- sumn_scale. apply sumn_ext. intros. lra. }
  rewrite (sumn_ext n (fun i => sumn m (fun j => c j * (x i * kernel D i j)))
             (fun i => sumn m (fun j => x i * c j * kernel D i j))).
  2:{ intros i _. apply sumn_ext. intros. lra. }
  lra.
Qed.

Lemma backward_deriv : forall hs Ds out Do inputs width outputs (xt : R -> features) x0 xdot ct,
  length Ds = length hs ->
  (forall i, xt 0 i = x0 i) ->
  (forall i, (i < inputs)%nat -> derivable_pt_lim (fun t => xt t i) 0 (xdot i)) ->
  smooth hs inputs width x0 ->
  let '(gs, go, dx) := backward hs out inputs width outputs x0 ct in
  length gs = length hs /\
  derivable_pt_lim
    (fun t => sumn outputs (fun j => ct j *
       forward (layers_add hs Ds t) (dense_add out Do t) inputs width (xt t) j)) 0
    (pdot gs go Ds Do inputs width outputs + sumn inputs (fun i => dx i * xdot i)).
Proof.
  induction hs as [|d hs IH]; intros Ds out Do inputs width outputs xt x0 xdot ct L E H S.
  - destruct Ds; [|discriminate]. cbn [backward layers_add forward pdot]. split; [reflexivity|].
    rewrite <- (layer_dual inputs outputs out Do x0 xdot ct).
    apply (dl_sumn outputs (fun j t => ct j * apply_dense (dense_add out Do t) inputs (xt t) j)).
    intros j Hj. apply dl_scale. now apply dl_dense.
  - destruct Ds as [|D Ds]; [discriminate|]. injection L as L. destruct S as [S1 S2].
    cbn [backward layers_add forward].
    set (pre := apply_dense d inputs x0) in *.
    set (predot := fun j => sumn inputs (fun i => xdot i * kernel d i j + x0 i * kernel D i j) + bias D j).
    specialize (IH Ds out Do width width outputs
      (fun t j => relu (apply_dense (dense_add d D t) inputs (xt t) j))
      (fun j => relu (pre j)) (fun j => if Rltb 0 (pre j) then predot j else 0) ct L).
    destruct (backward hs out width width outputs (fun j => relu (pre j)) ct) as [[gs go] dh] eqn:B.
    assert (E0 : forall j, apply_dense (dense_add d D 0) inputs (xt 0) j = pre j).
    { intro j. rewrite apply_dense_add0. unfold pre. apply apply_dense_ext. auto. }
    destruct IH as [Lg IH].
    + intro j. cbn beta. now rewrite E0.
    + intros j Hj. cbn beta.
      pose proof (dl_relu (fun t => apply_dense (dense_add d D t) inputs (xt t) j) 0 (predot j)) as R.
      cbn beta in R. rewrite E0 in R. apply R; [now apply S1|]. now apply dl_dense.
    + exact S2.
    + split; [cbn [length]; now rewrite Lg|]. cbn [pdot].
      eapply dl_eq; [|exact IH].
      rewrite (sumn_ext width (fun i => dh i * (if Rltb 0 (pre i) then predot i else 0))
                 (fun j => (if Rltb 0 (pre j) then dh j else 0) * predot j)).
      2:{ intros j _. destruct (Rltb 0 (pre j)); lra. }
      unfold predot. rewrite layer_dual. lra.
Qed.

(** ** Values *)
Lemma unit_shift w b inputs width x k : forall j,
  unit_of w b inputs width x (S k) j
  = unit_of (fun k => w (S k)) (fun k => b (S k)) width width (unit_of w b inputs width x 1) k j.
Proof.
  induction k; intro j; [reflexivity|].
  cbn [unit_of fan_in]. cbn [unit_of fan_in] in IHk. f_equal. f_equal.
  destruct k; apply weighted_ext; intro i; [reflexivity|]; apply IHk.
Qed.
Lemma sum_shift w b inputs width x k j :
  sum_of w b inputs width x (S k) j
  = sum_of (fun k => w (S k)) (fun k => b (S k)) width width (unit_of w b inputs width x 1) k j.
Proof.
  unfold sum_of. cbn [fan_in]. f_equal. destruct k; apply weighted_ext; intro i; [reflexivity|]; apply unit_shift.
Qed.
Lemma weighted_ext_w n w w' x : (forall i, w i = w' i) -> weighted n w x = weighted n w' x.
Proof. intro H. unfold weighted. apply total_map_ext. intros i _. now rewrite H. Qed.
Lemma unit_ext w b w' b' inputs width x y k : 
  (forall k i j, w k i j = w' k i j) -> (forall k j, b k j = b' k j) -> (forall i, x i = y i) ->
  forall j, unit_of w b inputs width x k j = unit_of w' b' inputs width y k j.
Proof.
  intros Hw Hb Hx. induction k; intro j; cbn [unit_of]; [apply Hx|].
  rewrite Hb. f_equal. f_equal. erewrite weighted_ext_w by (intro; apply Hw). now apply weighted_ext.
Qed.
Lemma sum_ext w b w' b' inputs width x y k j : 
  (forall k i j, w k i j = w' k i j) -> (forall k j, b k j = b' k j) -> (forall i, x i = y i) ->
  sum_of w b inputs width x k j = sum_of w' b' inputs width y k j.
Proof.
  intros Hw Hb Hx. unfold sum_of. rewrite Hb. f_equal.
  erewrite weighted_ext_w by (intro; apply Hw). apply weighted_ext. now apply unit_ext.
Qed.

(** The weights and offsets of a list of layers. *)
Definition nodense : dense := mkDense (fun _ _ => 0) (fun _ => 0).
Definition w_of (ds : list dense) : weights := fun k => kernel (nth k ds nodense).
Definition b_of (ds : list dense) : offsets := fun k => bias (nth k ds nodense).

Lemma forward_ext hs : forall out n w x y, (forall i, x i = y i) -> forall j, forward hs out n w x j = forward hs out n w y j.
Proof.
  induction hs as [|d hs IH]; intros out n w x y E j; cbn [forward].
  - apply apply_dense_ext. auto.
  - apply IH. intro i. f_equal. apply apply_dense_ext. auto.
Qed.
Lemma dense_sum d ds inputs width x j :
  apply_dense d inputs x j = sum_of (w_of (d :: ds)) (b_of (d :: ds)) inputs width x 0 j.
Proof. rewrite dense_weighted. reflexivity. Qed.
Lemma first_unit d ds inputs width x j :
  relu (apply_dense d inputs x j) = unit_of (w_of (d :: ds)) (b_of (d :: ds)) inputs width x 1 j.
Proof. unfold relu. rewrite dense_weighted, Rmax_comm. reflexivity. Qed.
Lemma forward_value hs : forall out inputs width x j,
  forward hs out inputs width x j
  = sum_of (w_of (hs ++ [out])) (b_of (hs ++ [out])) inputs width x (length hs) j.
Proof.
  induction hs as [|d hs IH]; intros out inputs width x j; cbn [forward app length].
  - apply dense_sum.
  - rewrite IH, sum_shift. apply sum_ext; try reflexivity. intro i. apply first_unit.
Qed.
Lemma smooth_kinks hs out : forall inputs width x,
  off_the_kinks (w_of (hs ++ [out])) (b_of (hs ++ [out])) (length hs) inputs width x -> smooth hs inputs width x.
Proof.
  induction hs as [|d hs IH]; intros inputs width x H; cbn [smooth]; [trivial|]. split.
  - intros j Hj. rewrite (dense_sum d (hs ++ [out]) inputs width). apply (H 0%nat j); [cbn; lia|exact Hj].
  - apply IH. intros k j Hk Hj. specialize (H (S k) j). cbn [app length] in H.
    rewrite sum_shift in H. intro C. apply H; [lia|exact Hj|]. rewrite <- C.
    apply sum_ext; try reflexivity. intro i. symmetry. apply first_unit.
Qed.

(** ** Scalar products *)
Lemma below_sumn n f : sum_below n f = sumn n f.
Proof. symmetry. apply sumn_total. Qed.
Lemma product_sumn h inputs width actions w b w' b' :
  scalar_product h inputs width actions w b w' b'
  = sumn (S h) (fun k => ddot (fan_in inputs width k) (fan_out h width actions k)
                           (mkDense (w k) (b k)) (mkDense (w' k) (b' k))).
Proof.
  unfold scalar_product. rewrite below_sumn. apply sumn_ext. intros k _. unfold ddot. cbn [kernel bias].
  rewrite !below_sumn. f_equal. apply sumn_ext. intros i _. apply below_sumn.
Qed.
Lemma pdot_product gs : forall go Ds Do inputs width outputs,
  length Ds = length gs ->
  pdot gs go Ds Do inputs width outputs
  = scalar_product (length gs) inputs width outputs (w_of (gs ++ [go])) (b_of (gs ++ [go]))
      (w_of (Ds ++ [Do])) (b_of (Ds ++ [Do])).
Proof.
  induction gs as [|g gs IH]; intros go [|D Ds] Do inputs width outputs L; try discriminate;
    rewrite product_sumn; cbn [pdot length app].
  - cbn [sumn]. unfold fan_in, fan_out, w_of, b_of. cbn [nth Nat.eqb]. unfold ddot. cbn [kernel bias]. lra.
  - rewrite sumn_first. injection L as L. rewrite IH by exact L. rewrite product_sumn. f_equal.
    apply sumn_ext. intros k _. destruct k; reflexivity.
Qed.
Lemma scalar_sym h n w a x y x' y' : scalar_product h n w a x y x' y' = scalar_product h n w a x' y' x y.
Proof.
  rewrite !product_sumn. apply sumn_ext. intros k _. unfold ddot. cbn [kernel bias]. f_equal.
  - apply sumn_ext. intros i _. apply sumn_ext. intros. apply Rmult_comm.
  - apply sumn_ext. intros. apply Rmult_comm.
Qed.

(** ** The sum of two parameter sets *)
Lemma layers_add_length ds : forall es c, length es = length ds -> length (layers_add ds es c) = length ds.
Proof. induction ds as [|d ds IH]; intros [|e es] c L; try discriminate; [reflexivity|]. cbn. rewrite IH; auto. Qed.
Lemma nth_layers_add ds : forall es d e c k, length es = length ds -> 
  nth k (layers_add ds es c ++ [dense_add d e c]) nodense
  = if (k <? S (length ds))%nat then dense_add (nth k (ds ++ [d]) nodense) (nth k (es ++ [e]) nodense) c else nodense.
Proof.
  induction ds as [|x ds IH]; intros [|y es] d e c k L; try discriminate; cbn [layers_add app length].
  - destruct k as [|[|k]]; reflexivity.
  - destruct k as [|k]; [reflexivity|]. cbn [nth]. injection L as L. rewrite IH by exact L. reflexivity.
Qed.
Lemma dense_add_nodense : forall c i j, kernel (dense_add nodense nodense c) i j = 0 /\ bias (dense_add nodense nodense c) j = 0.
Proof. intros. cbn. lra. Qed.
Lemma w_of_add ds es d e c k i j : length es = length ds ->
  w_of (layers_add ds es c ++ [dense_add d e c]) k i j
  = w_of (ds ++ [d]) k i j + c * w_of (es ++ [e]) k i j.
Proof.
  intro L. unfold w_of. rewrite nth_layers_add by exact L. destruct (Nat.ltb_spec k (S (length ds))); [reflexivity|].
  rewrite !nth_overflow by (rewrite app_length; cbn; lia). cbn. lra.
Qed.
Lemma b_of_add ds es d e c k j : length es = length ds ->
  b_of (layers_add ds es c ++ [dense_add d e c]) k j
  = b_of (ds ++ [d]) k j + c * b_of (es ++ [e]) k j.
Proof.
  intro L. unfold b_of. rewrite nth_layers_add by exact L. destruct (Nat.ltb_spec k (S (length ds))); [reflexivity|].
  rewrite !nth_overflow by (rewrite app_length; cbn; lia). cbn. lra.
Qed.
Lemma product_add h n w a x y x' y' u v c :
  scalar_product h n w a (fun k i j => x k i j + c * x' k i j) (fun k j => y k j + c * y' k j) u v
  = scalar_product h n w a x y u v + c * scalar_product h n w a x' y' u v.
Proof.
  rewrite !product_sumn, <- sumn_left, <- sumn_plus. apply sumn_ext. intros k _. unfold ddot. cbn [kernel bias].
  set (N := fan_in n w k). set (M := fan_out h w a k).
  rewrite (sumn_ext N _ (fun i => sumn M (fun j => x k i j * u k i j) + c * sumn M (fun j => x' k i j * u k i j))).
  2:{ intros i _. rewrite <- sumn_left, <- sumn_plus. apply sumn_ext. intros; lra. }
  rewrite (sumn_ext M (fun j => (y k j + c * y' k j) * v k j) (fun j => y k j * v k j + c * (y' k j * v k j))).
  2:{ intros; lra. }
  rewrite !sumn_plus, !sumn_left. lra.
Qed.
Lemma product_ext h n w a x y x' y' u v :
  (forall k i j, x k i j = x' k i j) -> (forall k j, y k j = y' k j) ->
  scalar_product h n w a x y u v = scalar_product h n w a x' y' u v.
Proof.
  intros Hx Hy. rewrite !product_sumn. apply sumn_ext. intros k _. unfold ddot. cbn [kernel bias]. f_equal.
  - apply sumn_ext. intros i _. apply sumn_ext. intros. now rewrite Hx.
  - apply sumn_ext. intros. now rewrite Hy.
Qed.
