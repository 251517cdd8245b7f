(** Lemmas about the Gaussian-process regressor: the Cholesky factor exists, the two
    triangular solves invert it, and the weights they yield minimise the expected error. *)
From Coq Require Import ZArith Reals List Bool Lia Lra Psatz Permutation.
From Verif Require Import Model.Num Model.WindGP Model.GaussianProcess Proofs.NumR Proofs.Kernels.
Import ListNotations.
Open Scope R_scope.

(** ** The kernel *)
Definition coordinates : list (loc -> R) :=
  [fun l => lx l / DISTANCE_SCALING; fun l => ly l / DISTANCE_SCALING;
   fun l => lp l / PRESSURE_SCALING; fun l => lt l / TIME_SCALING].
Lemma kernel_dist2 a b : kernel a b = SIGMA_EXP_SQUARED * exp (- sqrt (dist2 coordinates a b)).
Proof. reflexivity. Qed.
Lemma kernel_sym a b : kernel a b = kernel b a.
Proof.
  rewrite !kernel_dist2. do 3 f_equal. f_equal. unfold dist2. cbn [map total fold_right coordinates]. ring.
Qed.
Lemma sigma_value : SIGMA_EXP_SQUARED = 12.96.
Proof. unfold SIGMA_EXP_SQUARED. lra. Qed.
Lemma kernel_self a : kernel a a = 12.96.
Proof.
  rewrite kernel_dist2. replace (dist2 coordinates a a) with 0.
  - rewrite sqrt_0, Ropp_0, exp_0, sigma_value. lra.
  - unfold dist2. cbn [map total fold_right coordinates]. ring.
Qed.
Lemma kernel_bounds a b : 0 < kernel a b <= 12.96.
Proof.
  rewrite kernel_dist2, sigma_value. pose proof (exp_pos (- sqrt (dist2 coordinates a b))).
  assert (exp (- sqrt (dist2 coordinates a b)) <= 1).
  { rewrite <- exp_0. pose proof (sqrt_pos (dist2 coordinates a b)) as S. destruct S as [S|S].
    - left. apply exp_increasing. lra.
    - right. rewrite <- S. f_equal. lra. }
  lra.
Qed.
Lemma kernel_quadratic (l : list (loc * R)) :
  0 <= sum_of (fun p => sum_of (fun q => snd p * snd q * kernel (fst p) (fst q)) l) l.
Proof.
  apply pd_quadratic. apply (pd_ext (fun a b => 12.96 * exp (- sqrt (dist2 coordinates a b)))).
  - intros. now rewrite kernel_dist2, sigma_value.
  - apply pd_scale; [lra|apply pd_exp_dist].
Qed.
Global Opaque kernel.

(** ** Vectors *)
Lemma dot_comm a : forall b, dot a b = dot b a.
Proof. induction a as [|p a IH]; intros [|q b]; cbn; try reflexivity. rewrite IH. ring. Qed.
Lemma dot_nil_r a : dot a [] = 0.
Proof. now destruct a. Qed.
Lemma subtract_length b c l : length (subtract b c l) = length b.
Proof. revert l. induction b as [|p b IH]; intros [|q l]; cbn; auto. Qed.
Lemma dot_subtract b c : forall l z, length b = length l -> dot (subtract b c l) z = dot b z - c * dot l z.
Proof.
  induction b as [|p b IH]; intros [|q l] z E; try discriminate; cbn [subtract].
  - cbn. ring.
  - destruct z as [|r z]; cbn [dot]; [ring|]. rewrite IH by (now injection E). ring.
Qed.
Lemma dot_self_nonneg a : 0 <= dot a a.
Proof. induction a as [|p a IH]; cbn; [lra|]. nra. Qed.
Lemma subtract_neq a : forall b, length a = length b -> a <> b -> 0 < dot (subtract a 1 b) (subtract a 1 b).
Proof.
  induction a as [|p a IH]; intros [|q b] E N; try discriminate; [now elim N|]. cbn [subtract dot].
  pose proof (dot_self_nonneg (subtract a 1 b)) as D. destruct (Req_dec p q) as [->|H].
  - assert (a <> b) by congruence. specialize (IH b ltac:(now injection E) H). nra.
  - assert (0 < (p - 1 * q) * (p - 1 * q)); [|lra]. replace (1 * q) with q by ring.
    destruct (Rtotal_order p q) as [T|[T|T]]; [nra|now elim H|nra].
Qed.
Lemma square_zero t : t * t <= 0 -> t = 0.
Proof. intro H. pose proof (Rle_0_sqr t) as Q. unfold Rsqr in Q. assert (T : t * t = 0) by lra. apply Rmult_integral in T. now destruct T. Qed.
Lemma cross p q x y t : 0 <= x -> 0 <= y -> t * t <= x * y -> 2 * (p * q * t) <= p * p * y + q * q * x.
Proof.
  intros A B H. destruct A as [A|A].
  - pose proof (Rle_0_sqr (q * x - p * t)) as Q. unfold Rsqr in Q.
    apply (Rmult_le_reg_l x); [exact A|].
    assert (p * p * (t * t) <= p * p * (x * y)) by (apply Rmult_le_compat_l; [apply Rle_0_sqr|exact H]). lra.
  - subst x. rewrite Rmult_0_l in H. rewrite (square_zero t H). pose proof (Rle_0_sqr p) as P; unfold Rsqr in P. nra.
Qed.
Lemma cauchy a : forall b, dot a b * dot a b <= dot a a * dot b b.
Proof.
  induction a as [|p a IH]; intros [|q b]; cbn [dot]; try lra.
  specialize (IH b). pose proof (dot_self_nonneg a) as A. pose proof (dot_self_nonneg b) as B.
  pose proof (cross p q _ _ _ A B IH). lra.
Qed.

(** ** Triangular factors *)
Fixpoint shape (L : list row) : Prop :=
  match L with
  | [] => True
  | (l, d) :: L' => length l = length L' /\ 0 < d /\ shape L'
  end.
Fixpoint lower (L : list row) (z : list R) : list R :=
  match L, z with
  | (l, d) :: L', z0 :: z' => (dot l z' + d * z0) :: lower L' z'
  | _, _ => []
  end.
Fixpoint upper (L : list row) (a : list R) : list R :=
  match L, a with
  | (l, d) :: L', a0 :: a' => (d * a0) :: subtract (upper L' a') (- a0) l
  | _, _ => []
  end.
Fixpoint gram (xs : list loc) (a : list R) : list R :=
  match xs, a with
  | x :: xs', a0 :: a' =>
      ((kernel x x + SIGMA_NOISE_SQUARED) * a0 + dot (map (kernel x) xs') a') ::
      subtract (gram xs' a') (- a0) (map (kernel x) xs')
  | _, _ => []
  end.

Lemma solve_lower_length L : forall b, length b = length L -> length (solve_lower L b) = length L.
Proof. induction L as [|[l d] L IH]; intros [|p b] E; try discriminate; cbn; auto. Qed.
Lemma solve_upper_length L : forall b, length b = length L -> length (solve_upper L b) = length L.
Proof.
  induction L as [|[l d] L IH]; intros [|p b] E; try discriminate; cbn; auto.
  rewrite IH; [reflexivity|]. rewrite subtract_length. now injection E.
Qed.
Lemma lower_length L : forall z, length z = length L -> length (lower L z) = length L.
Proof. induction L as [|[l d] L IH]; intros [|p b] E; try discriminate; cbn; auto. Qed.
Lemma upper_length L : forall z, length z = length L -> length (upper L z) = length L.
Proof.
  induction L as [|[l d] L IH]; intros [|p b] E; try discriminate; cbn; auto.
  rewrite subtract_length, IH; [reflexivity|now injection E].
Qed.
Lemma gram_length xs : forall a, length a = length xs -> length (gram xs a) = length xs.
Proof.
  induction xs as [|x xs IH]; intros [|p a] E; try discriminate; cbn; auto.
  rewrite subtract_length, IH; [reflexivity|now injection E].
Qed.

Lemma subtract_cancel b c : forall l, subtract (subtract b c l) (- c) l = b.
Proof.
  induction b as [|p b IH]; intros [|q l]; cbn [subtract]; try reflexivity.
  rewrite IH. f_equal. ring.
Qed.
Lemma lower_solve L : shape L -> forall b, length b = length L -> lower L (solve_lower L b) = b.
Proof.
  induction L as [|[l d] L IH]; intros S [|p b] E; try discriminate; [reflexivity|].
  destruct S as (_ & D & S). cbn [solve_lower lower]. rewrite IH by (assumption || now injection E).
  f_equal. field. lra.
Qed.
Lemma upper_solve L : shape L -> forall b, length b = length L -> upper L (solve_upper L b) = b.
Proof.
  induction L as [|[l d] L IH]; intros S [|p b] E; try discriminate; [reflexivity|].
  destruct S as (_ & D & S). cbn [solve_upper upper].
  rewrite IH by (assumption || (rewrite subtract_length; now injection E)).
  rewrite subtract_cancel. f_equal. field. lra.
Qed.
Lemma adjoint L : shape L -> forall z a, length z = length L -> length a = length L ->
  dot (lower L z) a = dot z (upper L a).
Proof.
  induction L as [|[l d] L IH]; intros S [|z0 z] [|a0 a] E F; try discriminate; [reflexivity|].
  destruct S as (Ll & D & S). injection E as E. injection F as F. cbn [lower upper dot].
  rewrite (IH S z a E F), (dot_comm z (subtract _ _ _)), dot_subtract by (rewrite upper_length; auto).
  rewrite (dot_comm (upper L a) z). ring.
Qed.
Lemma subtract_swap a : forall b c d e l, length a = length b -> length a = length l -> length a = length l ->
  subtract (subtract a c b) (- (d - c * e)) l = subtract (subtract a (- d) l) c (subtract b (- e) l).
Proof.
  induction a as [|p a IH]; intros [|q b] c d e [|r l] E F _; try discriminate; [reflexivity|].
  cbn [subtract]. rewrite (IH b c d e l) by (first [now injection E|now injection F]). f_equal. ring.
Qed.
Lemma upper_subtract L : shape L -> forall a c b, length a = length L -> length b = length L ->
  upper L (subtract a c b) = subtract (upper L a) c (upper L b).
Proof.
  induction L as [|[l d] L IH]; intros S [|a0 a] c [|b0 b] E F; try discriminate; [reflexivity|].
  destruct S as (Ll & D & S). injection E as E. injection F as F. cbn [subtract upper].
  rewrite (IH S a c b E F). f_equal; [ring|].
  rewrite subtract_swap by (rewrite ?upper_length; auto). reflexivity.
Qed.
Lemma lower_subtract L : shape L -> forall a c b, length a = length L -> length b = length L ->
  lower L (subtract a c b) = subtract (lower L a) c (lower L b).
Proof.
  induction L as [|[l d] L IH]; intros S [|a0 a] c [|b0 b] E F; try discriminate; [reflexivity|].
  destruct S as (Ll & D & S). injection E as E. injection F as F. cbn [subtract lower].
  rewrite (IH S a c b E F). f_equal. rewrite (dot_comm l), dot_subtract by congruence.
  rewrite (dot_comm a l), (dot_comm b l). ring.
Qed.

(** ** The quadratic form of the kernel matrix *)
Definition quad (l : list (loc * R)) : R :=
  sum_of (fun p => sum_of (fun q => snd p * snd q * kernel (fst p) (fst q)) l) l.
Lemma sum_of_cons {A} (f : A -> R) a l : sum_of f (a :: l) = f a + sum_of f l.
Proof. reflexivity. Qed.
Lemma dot_sum x xs : forall a, length a = length xs ->
  dot (map (kernel x) xs) a = sum_of (fun q => snd q * kernel x (fst q)) (combine xs a).
Proof.
  induction xs as [|y xs IH]; intros [|a0 a] E; try discriminate; [reflexivity|].
  cbn [map dot combine]. rewrite sum_of_cons. cbn [fst snd]. rewrite IH by (now injection E). ring.
Qed.
Lemma quad_cons x a0 l :
  quad ((x, a0) :: l) = a0 * a0 * kernel x x + 2 * a0 * sum_of (fun q => snd q * kernel x (fst q)) l + quad l.
Proof.
  unfold quad. rewrite !sum_of_cons. cbn [fst snd].
  rewrite (sum_of_ext (fun p => sum_of _ (_ :: l))
    (fun p => a0 * (snd p * kernel x (fst p)) + sum_of (fun q => snd p * snd q * kernel (fst p) (fst q)) l)).
  - rewrite sum_of_add, sum_of_scale.
    rewrite (sum_of_ext (fun q => a0 * snd q * _) (fun q => a0 * (snd q * kernel x (fst q)))) by (intros; ring).
    rewrite sum_of_scale. ring.
  - intro p. rewrite sum_of_cons. cbn [fst snd]. rewrite (kernel_sym (fst p) x). ring.
Qed.
Lemma gram_form xs : forall a, length a = length xs ->
  dot a (gram xs a) = quad (combine xs a) + SIGMA_NOISE_SQUARED * dot a a.
Proof.
  induction xs as [|x xs IH]; intros [|a0 a] E; try discriminate.
  - unfold quad; cbn. ring.
  - injection E as E. cbn [gram dot combine]. rewrite quad_cons, (dot_comm a (subtract _ _ _)).
    rewrite dot_subtract by (rewrite gram_length, map_length; auto).
    rewrite (dot_comm (gram xs a)), IH, <- dot_sum by exact E. ring.
Qed.
Lemma noise_pos : 0 < SIGMA_NOISE_SQUARED.
Proof. unfold SIGMA_NOISE_SQUARED. lra. Qed.
Lemma gram_positive xs a : length a = length xs -> SIGMA_NOISE_SQUARED * dot a a <= dot a (gram xs a).
Proof. intro E. rewrite gram_form by exact E. pose proof (kernel_quadratic (combine xs a)). unfold quad. lra. Qed.

(** ** The factorisation succeeds and is one *)
Lemma cholesky_factors xs : exists L, cholesky xs = Some L /\ shape L /\ length L = length xs /\
  forall a, length a = length xs -> lower L (upper L a) = gram xs a.
Proof.
  induction xs as [|x xs (L & EL & S & Len & G)].
  - exists []. repeat split; auto.
  - set (c := map (kernel x) xs). set (l := solve_lower L c).
    assert (Lc : length c = length L) by (unfold c; rewrite map_length; auto).
    assert (Ll : length l = length L) by now apply solve_lower_length.
    set (w := solve_upper L l). assert (Lw : length w = length L) by now apply solve_upper_length.
    assert (Hl : lower L l = c) by now apply lower_solve.
    assert (Hw : upper L w = l) by now apply upper_solve.
    assert (Hg : gram xs w = c) by (rewrite <- G by congruence; rewrite Hw; exact Hl).
    assert (Hd : dot l l = dot c w) by (rewrite <- Hw at 2; rewrite <- adjoint, Hl by assumption; reflexivity).
    set (pivot := kernel x x + SIGMA_NOISE_SQUARED - dot l l).
    assert (Hp : 0 < pivot).
    { pose proof (gram_positive (x :: xs) (- (1) :: w) ltac:(cbn; congruence)) as Q.
      cbn [gram dot] in Q. fold c in Q. rewrite Hg in Q.
      rewrite (dot_comm w (subtract _ _ _)), dot_subtract in Q by reflexivity.
      pose proof (dot_self_nonneg w). pose proof noise_pos. unfold pivot. rewrite Hd. nra. }
    exists ((l, sqrt pivot) :: L). split; [|split; [|split]].
    + cbn [cholesky]. rewrite EL. fold c. fold l. fold pivot.
      destruct (Rleb pivot 0) eqn:B; [apply Rleb_iff in B; lra|reflexivity].
    + cbn. split; [exact Ll|]. split; [now apply sqrt_lt_R0|exact S].
    + cbn. now rewrite Len.
    + intros [|a0 a] E; [discriminate|]. injection E as E. cbn [upper lower gram]. fold c.
      rewrite lower_subtract by (rewrite ?upper_length; auto; congruence).
      rewrite G, Hl by exact E. f_equal.
      rewrite (dot_comm l), dot_subtract by (rewrite upper_length; congruence).
      rewrite (dot_comm (upper L a)), <- adjoint, Hl by congruence.
      assert (Q : sqrt pivot * (sqrt pivot * a0) = pivot * a0) by (rewrite <- Rmult_assoc, sqrt_def by lra; reflexivity).
      rewrite Q. unfold pivot. ring.
Qed.
Lemma gram_symmetric xs a b : length a = length xs -> length b = length xs -> dot (gram xs a) b = dot a (gram xs b).
Proof.
  intros A B. destruct (cholesky_factors xs) as (L & _ & S & Len & G). rewrite <- !G by assumption.
  rewrite adjoint by (rewrite ?upper_length; congruence).
  rewrite (dot_comm a), adjoint by (rewrite ?upper_length; congruence). apply dot_comm.
Qed.
Lemma gram_subtract xs a c b : length a = length xs -> length b = length xs ->
  gram xs (subtract a c b) = subtract (gram xs a) c (gram xs b).
Proof.
  intros A B. destruct (cholesky_factors xs) as (L & _ & S & Len & G).
  rewrite <- !G by (rewrite ?subtract_length; assumption).
  rewrite upper_subtract, lower_subtract by (rewrite ?upper_length; congruence). reflexivity.
Qed.

(** ** Fitting and predicting *)
(** The expected error of weights, in the order of storage. *)
Definition loss (xs : list loc) (r : loc) (w : list R) : R :=
  12.96 - 2 * dot (map (kernel r) xs) w + quad (combine xs w) + SIGMA_NOISE_SQUARED * dot w w.

Lemma loss_best xs r w : length w = length xs -> gram xs w = map (kernel r) xs ->
  loss xs r w = 12.96 - dot (map (kernel r) xs) w /\
  forall w', length w' = length xs -> w' <> w -> loss xs r w < loss xs r w'.
Proof.
  intros E G.
  assert (Q : forall v, length v = length xs -> loss xs r v = 12.96 - 2 * dot (map (kernel r) xs) v + dot v (gram xs v)).
  { intros v Ev. unfold loss. rewrite gram_form by exact Ev. ring. }
  split; [rewrite Q, G, (dot_comm w) by exact E; ring|].
  intros w' E' N. rewrite !Q by assumption.
  pose proof (gram_positive xs (subtract w' 1 w) ltac:(now rewrite subtract_length)) as P.
  pose proof (subtract_neq w' w ltac:(congruence) N) as D. pose proof noise_pos as S.
  rewrite gram_subtract in P by assumption.
  revert D P. generalize (dot (subtract w' 1 w) (subtract w' 1 w)). intros q D P.
  rewrite dot_subtract in P by congruence.
  rewrite (dot_comm w' (subtract _ _ _)), (dot_comm w (subtract _ _ _)), !dot_subtract in P
    by (rewrite !gram_length; auto).
  rewrite (gram_symmetric xs w' w E' E) in P. rewrite G in *.
  rewrite (dot_comm (gram xs w') w'), (dot_comm w' (map _ _)) in P.
  rewrite (dot_comm w (map _ _)).
  assert (0 < SIGMA_NOISE_SQUARED * q) by (apply Rmult_lt_0_compat; assumption).
  lra.
Qed.

Definition best (xs : list loc) (r : loc) : list R :=
  match cholesky xs with
  | Some L => solve_upper L (solve_lower L (map (kernel r) xs))
  | None => []
  end.
Lemma best_spec xs r : length (best xs r) = length xs /\ gram xs (best xs r) = map (kernel r) xs.
Proof.
  unfold best. destruct (cholesky_factors xs) as (L & -> & S & Len & G).
  assert (K : length (map (kernel r) xs) = length L) by (rewrite map_length; auto).
  assert (K' : length (solve_lower L (map (kernel r) xs)) = length L) by now apply solve_lower_length.
  assert (K'' : length (solve_upper L (solve_lower L (map (kernel r) xs))) = length L) by now apply solve_upper_length.
  split; [congruence|]. rewrite <- G by congruence. rewrite upper_solve, lower_solve by assumption. reflexivity.
Qed.

(** The square bound: quad >= (k . w)^2 / 12.96. *)
Lemma quad_bound xs r w : length w = length xs ->
  dot (map (kernel r) xs) w * dot (map (kernel r) xs) w <= 12.96 * quad (combine xs w).
Proof.
  intro E. set (t := dot (map (kernel r) xs) w).
  pose proof (kernel_quadratic ((r, - t / 12.96) :: combine xs w)) as Q. fold (quad ((r, - t / 12.96) :: combine xs w)) in Q.
  rewrite quad_cons, <- dot_sum, kernel_self in Q by exact E. fold t in Q. nra.
Qed.
Lemma loss_bound xs r w : length w = length xs ->
  (12.96 - dot (map (kernel r) xs) w) * (12.96 - dot (map (kernel r) xs) w) <=
  12.96 * (loss xs r w - SIGMA_NOISE_SQUARED * dot w w).
Proof. intro E. pose proof (quad_bound xs r w E) as Q. unfold loss. lra. Qed.
Lemma loss_positive xs r w : length w = length xs -> 0 < loss xs r w.
Proof.
  intro E. pose proof (loss_bound xs r w E) as Q. pose proof (cauchy (map (kernel r) xs) w) as C.
  revert Q C. generalize (dot (map (kernel r) xs) w), (loss xs r w). intros t o Q C.
  pose proof (dot_self_nonneg w) as D. pose proof noise_pos as S.
  pose proof (Rle_0_sqr (12.96 - t)) as T. unfold Rsqr in T.
  destruct D as [D|D].
  - assert (0 < SIGMA_NOISE_SQUARED * dot w w) by (apply Rmult_lt_0_compat; assumption). lra.
  - rewrite <- D, Rmult_0_r in C, Q. rewrite (square_zero t C) in Q. lra.
Qed.
Lemma kernel_norm xs r : dot (map (kernel r) xs) (map (kernel r) xs) <= INR (length xs) * (12.96 * 12.96).
Proof.
  induction xs as [|x xs IH]; [cbn; lra|]. cbn [map dot length]. rewrite S_INR.
  pose proof (kernel_bounds r x). assert (kernel r x * kernel r x <= 12.96 * 12.96) by nra. lra.
Qed.

Lemma map_combine_snd {A B C} (f : B -> C) (l : list A) : forall l', length l' = length l ->
  map (fun m => f (snd m)) (combine l l') = map f l'.
Proof.
  induction l as [|a l IH]; intros [|b l'] E; try discriminate; [reflexivity|].
  cbn [combine map snd]. rewrite IH by (now injection E). reflexivity.
Qed.
Lemma map_combine_fst {A B} (l : list A) : forall l' : list B, length l' = length l -> map fst (combine l l') = l.
Proof.
  induction l as [|a l IH]; intros [|b l'] E; try discriminate; [reflexivity|].
  cbn [combine map fst]. rewrite IH by (now injection E). reflexivity.
Qed.

Lemma fit_predict places ys r : places <> [] -> length ys = length places ->
  exists m, gp_fit (combine places ys) = Some m /\
    gp_predict m r =
    ((dot (best (rev places) r) (rev (map fst ys)), dot (best (rev places) r) (rev (map snd ys))),
     (sqrt (loss (rev places) r (best (rev places) r)), sqrt (loss (rev places) r (best (rev places) r)))).
Proof.
  intros N E.
  assert (M : forall f : R * R -> R, map (fun m => f (snd m)) (rev (combine places ys)) = rev (map f ys)).
  { intros f. rewrite map_rev. f_equal. now apply map_combine_snd. }
  assert (X : map fst (rev (combine places ys)) = rev places).
  { rewrite map_rev. f_equal. now apply map_combine_fst. }
  unfold gp_fit. destruct (combine places ys) as [|m0 ms] eqn:Ec; [destruct places; [now elim N|]; destruct ys; discriminate|].
  rewrite <- Ec in *. rewrite X, !M.
  destruct (best_spec (rev places) r) as (Lb & Gb).
  destruct (loss_best (rev places) r _ Lb Gb) as (Eb & _).
  pose proof (loss_positive (rev places) r _ Lb) as Pb. revert Lb Gb Eb Pb. unfold best.
  destruct (cholesky_factors (rev places)) as (L & -> & S & Len & G). intros Lb Gb Eb Pb.
  eexists. split; [reflexivity|]. unfold gp_predict. cbn [X_train L_ alpha_u alpha_v].
  set (k := map (kernel r) (rev places)) in *. set (V := solve_lower L k) in *. set (W := solve_upper L V) in *.
  assert (Lk : length k = length L) by (unfold k; rewrite map_length; auto).
  assert (LV : length V = length L) by now apply solve_lower_length.
  assert (HV : lower L V = k) by now apply lower_solve.
  assert (HW : upper L W = V) by now apply upper_solve.
  assert (VV : dot V V = dot k W) by (rewrite <- HW at 2; rewrite <- adjoint, HV by congruence; reflexivity).
  assert (Mean : forall y, length y = length L -> dot k (solve_upper L (solve_lower L y)) = dot W y).
  { intros y Ly. assert (Lz : length (solve_lower L y) = length L) by now apply solve_lower_length.
    assert (La : length (solve_upper L (solve_lower L y)) = length L) by now apply solve_upper_length.
    rewrite <- Gb, gram_symmetric, <- G by congruence. rewrite upper_solve, lower_solve by assumption. reflexivity. }
  rewrite !Mean by (rewrite rev_length, map_length, Len, rev_length; exact E).
  rewrite sigma_value, VV. rewrite <- Eb. destruct (Rltb (loss (rev places) r W) 0) eqn:B; [apply Rltb_iff in B; lra|].
  reflexivity.
Qed.
