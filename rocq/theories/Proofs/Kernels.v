(** Positive definite kernels: those that are built from products f(x) f(y) by sums and
    limits.  The result needed: exp(-r), where r is a weighted Euclidean distance, is one. *)
From Coq Require Import ZArith Reals List Lia Lra Psatz.
Import ListNotations.
Open Scope R_scope.

Inductive pd {X : Type} : (X -> X -> R) -> Prop :=
| pd_rank f : pd (fun x y => f x * f y)
| pd_sum k k' : pd k -> pd k' -> pd (fun x y => k x y + k' x y)
| pd_limit (ks : nat -> X -> X -> R) k :
    (forall n, pd (ks n)) -> (forall x y, Un_cv (fun n => ks n x y) (k x y)) -> pd k.

Lemma cv_const c : Un_cv (fun _ => c) c.
Proof. intros eps H. exists 0%nat. intros n _. unfold R_dist. rewrite Rminus_diag_eq, Rabs_R0 by reflexivity. exact H. Qed.
Lemma cv_ext (u v : nat -> R) l : (forall n, u n = v n) -> Un_cv u l -> Un_cv v l.
Proof. intros E H eps He. destruct (H eps He) as (N & K). exists N. intros n Hn. rewrite <- E. now apply K. Qed.

Section Kernels.
Context {X : Type}.
Implicit Types k : X -> X -> R.

Lemma pd_ext k k' : (forall x y, k x y = k' x y) -> pd k -> pd k'.
Proof.
  intros E H. apply (pd_limit (fun _ => k)); [auto|]. intros x y. rewrite <- E. apply cv_const.
Qed.
Lemma pd_rank_mult f k : pd k -> pd (fun x y => (f x * f y) * k x y).
Proof.
  induction 1 as [g|k k' _ IH _ IH'|ks k _ IH C].
  - apply (pd_ext (fun x y => (f x * g x) * (f y * g y))); [intros; ring|]. apply (pd_rank (fun x => f x * g x)).
  - apply (pd_ext (fun x y => f x * f y * k x y + f x * f y * k' x y)); [intros; ring|]. now apply pd_sum.
  - apply (pd_limit (fun n x y => f x * f y * ks n x y)); [exact IH|]. intros x y.
    apply CV_mult; [apply cv_const|apply C].
Qed.
Lemma pd_mult k k' : pd k -> pd k' -> pd (fun x y => k x y * k' x y).
Proof.
  intros H H'. induction H as [f|k1 k2 _ IH1 _ IH2|ks k _ IH C].
  - now apply pd_rank_mult.
  - apply (pd_ext (fun x y => k1 x y * k' x y + k2 x y * k' x y)); [intros; ring|]. now apply pd_sum.
  - apply (pd_limit (fun n x y => ks n x y * k' x y)); [exact IH|]. intros x y.
    apply CV_mult; [apply C|apply cv_const].
Qed.
Lemma pd_const c : 0 <= c -> pd (fun _ _ : X => c).
Proof.
  intro H. apply (pd_ext (fun _ _ => sqrt c * sqrt c)); [intros; now apply sqrt_def|].
  apply (pd_rank (fun _ => sqrt c)).
Qed.
Lemma pd_scale c k : 0 <= c -> pd k -> pd (fun x y => c * k x y).
Proof. intros H K. apply (pd_mult (fun _ _ => c)); [now apply pd_const|exact K]. Qed.
Lemma pd_pow k n : pd k -> pd (fun x y => k x y ^ n).
Proof.
  intro H. induction n as [|n IH]; cbn [pow]; [apply pd_const; lra|]. now apply pd_mult.
Qed.
Lemma pd_series (ks : nat -> X -> X -> R) k :
  (forall n, pd (ks n)) -> (forall x y, infinite_sum (fun n => ks n x y) (k x y)) -> pd k.
Proof.
  intros H S. apply (pd_limit (fun n x y => sum_f_R0 (fun i => ks i x y) n)).
  - induction n as [|n IH]; cbn [sum_f_R0]; [apply H|]. now apply (pd_sum (fun x y => sum_f_R0 (fun i => ks i x y) n)).
  - intros x y eps He. apply S. exact He.
Qed.
Lemma pd_exp k : pd k -> pd (fun x y => exp (k x y)).
Proof.
  intro H. apply (pd_series (fun n x y => / INR (fact n) * k x y ^ n)).
  - intro n. apply pd_scale; [|now apply pd_pow]. left. apply Rinv_0_lt_compat, INR_fact_lt_0.
  - intros x y. unfold exp. destruct (exist_exp (k x y)) as (e & E). exact E.
Qed.

Lemma geometric q : Rabs q < 1 -> infinite_sum (fun n => q ^ n) (/ (1 - q)).
Proof.
  intro H. pose proof (GP_infinite q H) as K. unfold Pser in K.
  intros eps He. destruct (K eps He) as (N & KN). exists N. intros n Hn. specialize (KN n Hn).
  erewrite sum_eq; [exact KN|]. intros i _. cbn beta. ring.
Qed.
Lemma infinite_sum_scale c u l : infinite_sum u l -> infinite_sum (fun n => c * u n) (c * l).
Proof.
  intros H. assert (K : Un_cv (fun n => c * sum_f_R0 u n) (c * l)).
  { apply CV_mult; [apply cv_const|]. exact H. }
  intros eps He. destruct (K eps He) as (N & KN). exists N. intros n Hn. specialize (KN n Hn). cbn beta in KN.
  rewrite scal_sum in KN.
  replace (sum_f_R0 (fun n => c * u n) n) with (sum_f_R0 (fun i => u i * c) n) by (apply sum_eq; intros; ring).
  exact KN.
Qed.

(** 1 / (a(x) + a(y)) for positive a. *)
Lemma pd_inv_sum (a : X -> R) : (forall x, 0 < a x) -> pd (fun x y => / (a x + a y)).
Proof.
  intro A. set (al := fun x => (a x - 1) / (a x + 1)).
  assert (B : forall x, Rabs (al x) < 1).
  { intro x. pose proof (A x). unfold al. apply Rabs_def1.
    - apply (Rmult_lt_reg_r (a x + 1)); [lra|]. unfold Rdiv. rewrite Rmult_assoc, Rinv_l by lra. lra.
    - apply (Rmult_lt_reg_r (a x + 1)); [lra|]. unfold Rdiv. rewrite Rmult_assoc, Rinv_l by lra. lra. }
  assert (P : forall x y, Rabs (al x * al y) < 1).
  { intros x y. rewrite Rabs_mult. pose proof (B x). pose proof (B y).
    pose proof (Rabs_pos (al x)). pose proof (Rabs_pos (al y)). nra. }
  apply (pd_series (fun n x y => (2 * (/ (a x + 1) * / (a y + 1))) * (al x * al y) ^ n)).
  - intro n. apply pd_mult; [apply pd_scale; [lra|]; apply (pd_rank (fun x => / (a x + 1)))|].
    apply pd_pow, pd_rank.
  - intros x y. replace (/ (a x + a y)) with (2 * (/ (a x + 1) * / (a y + 1)) * / (1 - al x * al y)).
    + apply infinite_sum_scale, geometric, P.
    + pose proof (A x). pose proof (A y). unfold al. field. repeat split; lra.
Qed.

(** The squared distance of the vectors (c x), c in cs. *)
Definition total (l : list R) : R := fold_right Rplus 0 l.
Definition inner (cs : list (X -> R)) (x y : X) : R := total (map (fun c => c x * c y) cs).
Definition dist2 (cs : list (X -> R)) (x y : X) : R := total (map (fun c => (c x - c y) * (c x - c y)) cs).

Lemma pd_inner cs : pd (inner cs).
Proof.
  induction cs as [|c cs IH]; [apply (pd_const 0); lra|].
  apply (pd_sum (fun x y => c x * c y) (inner cs)); [apply pd_rank|exact IH].
Qed.
Lemma inner_cons c cs x y : inner (c :: cs) x y = c x * c y + inner cs x y.
Proof. reflexivity. Qed.
Lemma dist2_cons c cs x y : dist2 (c :: cs) x y = (c x - c y) * (c x - c y) + dist2 cs x y.
Proof. reflexivity. Qed.
Lemma inner_nil x y : inner [] x y = 0.
Proof. reflexivity. Qed.
Lemma dist2_nil x y : dist2 [] x y = 0.
Proof. reflexivity. Qed.
Lemma inner_nonneg cs x : 0 <= inner cs x x.
Proof. induction cs as [|c cs IH]; [rewrite inner_nil; lra|]. rewrite inner_cons. pose proof (Rle_0_sqr (c x)) as S; unfold Rsqr in S. lra. Qed.
Lemma dist2_nonneg cs x y : 0 <= dist2 cs x y.
Proof. induction cs as [|c cs IH]; [rewrite dist2_nil; lra|]. rewrite dist2_cons. pose proof (Rle_0_sqr (c x - c y)) as S; unfold Rsqr in S. lra. Qed.
Lemma dist2_inner cs x y : dist2 cs x y = inner cs x x + inner cs y y - 2 * inner cs x y.
Proof. induction cs as [|c cs IH]; [rewrite dist2_nil, !inner_nil; lra|]. rewrite dist2_cons, !inner_cons, IH. ring. Qed.
Lemma inner_bound cs x y : 2 * Rabs (inner cs x y) <= inner cs x x + inner cs y y.
Proof.
  assert (H : forall s, s = 1 \/ s = -1 -> 0 <= inner cs x x + inner cs y y + s * (2 * inner cs x y)).
  { intros s S. induction cs as [|c cs IH]; [rewrite !inner_nil; destruct S; subst; lra|]. rewrite !inner_cons.
    destruct S; subst; [pose proof (Rle_0_sqr (c x + c y)) as Q|pose proof (Rle_0_sqr (c x - c y)) as Q]; unfold Rsqr in Q; nra. }
  pose proof (H 1 (or_introl eq_refl)). pose proof (H (-1) (or_intror eq_refl)).
  unfold Rabs. destruct (Rcase_abs _); lra.
Qed.

Lemma pd_inv_dist2 cs c : 0 < c -> pd (fun x y => / (c + dist2 cs x y)).
Proof.
  intro C. set (a := fun x => c / 2 + inner cs x x).
  assert (A : forall x, 0 < a x) by (intro x; unfold a; pose proof (inner_nonneg cs x); lra).
  pose proof (pd_inv_sum a A) as I.
  assert (Q : forall x y, Rabs (2 * inner cs x y * / (a x + a y)) < 1).
  { intros x y. pose proof (A x). pose proof (A y). pose proof (inner_bound cs x y).
    rewrite Rabs_mult, Rabs_mult, (Rabs_right 2) by lra.
    rewrite (Rabs_right (/ _)) by (left; apply Rinv_0_lt_compat; lra).
    apply (Rmult_lt_reg_r (a x + a y)); [lra|]. rewrite Rmult_assoc, Rinv_l by lra. unfold a in *. lra. }
  apply (pd_series (fun n x y => / (a x + a y) * (2 * inner cs x y * / (a x + a y)) ^ n)).
  - intro n. apply pd_mult; [exact I|]. apply pd_pow, pd_mult; [|exact I]. apply pd_scale; [lra|apply pd_inner].
  - intros x y. pose proof (A x). pose proof (A y). pose proof (dist2_nonneg cs x y) as D.
    replace (/ (c + dist2 cs x y)) with (/ (a x + a y) * / (1 - 2 * inner cs x y * / (a x + a y))).
    + apply infinite_sum_scale, geometric, Q.
    + replace (c + dist2 cs x y) with (a x + a y - 2 * inner cs x y) in *
        by (rewrite dist2_inner; unfold a; lra).
      field. rewrite dist2_inner in D. unfold a in *. split; lra.
Qed.

(** exp(-c d / (d + t^2)), and products of such. *)
Lemma pd_exp_ratio cs c t : 0 <= c -> 0 < t ->
  pd (fun x y => exp (- (c * (dist2 cs x y / (dist2 cs x y + t * t))))).
Proof.
  intros C T.
  apply (pd_ext (fun x y => exp (- c) * exp (c * (t * t) * / (t * t + dist2 cs x y)))).
  - intros x y. rewrite <- exp_plus. f_equal. pose proof (dist2_nonneg cs x y). field. nra.
  - apply pd_scale; [left; apply exp_pos|]. apply pd_exp, pd_scale; [nra|]. apply pd_inv_dist2. nra.
Qed.
Fixpoint ratios (h d : R) (n : nat) : R :=
  match n with O => 0 | S m => ratios h d m + d / (d + (INR (S m) * h) * (INR (S m) * h)) end.
Lemma pd_exp_ratios cs c h n : 0 <= c -> 0 < h -> pd (fun x y => exp (- (c * ratios h (dist2 cs x y) n))).
Proof.
  intros C H. induction n as [|n IH].
  - apply (pd_ext (fun _ _ => 1)); [intros; cbn [ratios]; rewrite Rmult_0_r, Ropp_0, exp_0; reflexivity|].
    apply pd_const; lra.
  - apply (pd_ext (fun x y => exp (- (c * ratios h (dist2 cs x y) n)) *
      exp (- (c * (dist2 cs x y / (dist2 cs x y + (INR (S n) * h) * (INR (S n) * h))))))).
    + intros x y. rewrite <- exp_plus. f_equal. cbn [ratios]. ring.
    + apply pd_mult; [exact IH|]. apply pd_exp_ratio; [exact C|]. apply Rmult_lt_0_compat; [apply lt_0_INR; lia|exact H].
Qed.
End Kernels.

(** The sums approximate r * atan: a Riemann sum of r^2 / (r^2 + t^2). *)
Lemma step_bounds r a b : 0 < r -> 0 <= a -> a < b ->
  (b - a) * (r * r / (r * r + b * b)) <= r * atan (b / r) - r * atan (a / r) <= (b - a) * (r * r / (r * r + a * a)).
Proof.
  intros Hr Ha Hab.
  destruct (MVT_cor2 (fun t => r * atan (t / r)) (fun t => r * r / (r * r + t * t)) a b Hab) as (c & Ec & Hc).
  { intros c _. replace (r * r / (r * r + c * c)) with (r * (/ (1 + (c / r)²) * (1 / r))) by (unfold Rsqr; field; split; [nra|lra]).
    apply (derivable_pt_lim_scal (fun t => atan (t / r))).
    apply (derivable_pt_lim_comp (fun t => t / r) atan).
    - replace (1 / r) with (1 * / r + c * 0) by (field; lra).
      apply (derivable_pt_lim_mult (fun t => t) (fun _ => / r)); [apply derivable_pt_lim_id|apply (derivable_pt_lim_const (/ r))].
    - replace (/ (1 + (c / r)²)) with (/ (1 + (c / r) ^ 2)) by (unfold Rsqr; f_equal; ring). apply derivable_pt_lim_atan. }
  cbn beta in Ec. rewrite Ec. rewrite (Rmult_comm _ (b - a)).
  assert (0 < r * r) by nra.
  split; apply Rmult_le_compat_l; try lra; unfold Rdiv; apply Rmult_le_compat_l; try lra;
    apply Rinv_le_contravar; nra.
Qed.

Lemma ratios_bounds r h n : 0 < r -> 0 < h ->
  h * ratios h (r * r) n <= r * atan (INR n * h / r) <= h * ratios h (r * r) n + h.
Proof.
  intros Hr Hh.
  assert (P : 0 < r * r) by nra.
  assert (K : h * ratios h (r * r) n <= r * atan (INR n * h / r) /\
    r * atan (INR n * h / r) + h * (r * r / (r * r + (INR n * h) * (INR n * h))) <= h * ratios h (r * r) n + h).
  { induction n as [|n IH].
    - cbn [ratios INR]. rewrite !Rmult_0_l, Rplus_0_r. unfold Rdiv at 1 2. rewrite Rmult_0_l, atan_0.
      replace (r * r / (r * r)) with 1 by (field; lra). split; lra.
    - cbn [ratios]. destruct IH as (A & B).
      assert (N : 0 <= INR n * h) by (apply Rmult_le_pos; [apply pos_INR|lra]).
      assert (E : INR (S n) * h - INR n * h = h) by (rewrite S_INR; ring).
      destruct (step_bounds r (INR n * h) (INR (S n) * h) Hr N ltac:(lra)) as (L & U). rewrite E in L, U.
      split; lra. }
  destruct K as (A & B). split; [exact A|].
  assert (0 <= h * (r * r / (r * r + (INR n * h) * (INR n * h)))).
  { apply Rmult_le_pos; [lra|]. left. apply Rdiv_lt_0_compat; nra. }
  lra.
Qed.
Lemma atan_le x : 0 < x -> 0 < atan x <= x.
Proof.
  intro H. destruct (step_bounds 1 0 x Rlt_0_1 (Rle_refl _) H) as (L & U).
  unfold Rdiv in L, U. rewrite !Rinv_1, !Rmult_1_r, !Rmult_1_l, !Rmult_0_l, atan_0 in *.
  assert (0 < (x - 0) * / (1 + x * x)).
  { apply Rmult_lt_0_compat; [lra|]. apply Rinv_0_lt_compat. nra. }
  rewrite Rplus_0_r, Rinv_1 in U. lra.
Qed.

(** The square root as the limit of the sums. *)
Lemma root_limit d : 0 <= d ->
  Un_cv (fun m => / INR (S m) * ratios (/ INR (S m)) d (S m * S m)) (PI / 2 * sqrt d).
Proof.
  intro D. destruct D as [D|<-].
  - set (r := sqrt d). assert (R0 : 0 < r) by now apply sqrt_lt_R0.
    assert (E : d = r * r) by (symmetry; apply sqrt_def; lra). rewrite E.
    intros eps He.
    destruct (archimed_cor1 (eps / (1 + r * r)) ltac:(apply Rdiv_lt_0_compat; nra)) as (N & HN & N0).
    exists N. intros m Hm. unfold R_dist.
    set (h := / INR (S m)). assert (M : 0 < INR (S m)) by (apply lt_0_INR; lia).
    assert (Hh : 0 < h) by now apply Rinv_0_lt_compat.
    assert (Hs : h * (1 + r * r) < eps).
    { assert (Q : h <= / INR N) by (apply Rinv_le_contravar; [apply lt_0_INR; lia|apply le_INR; lia]).
      apply (Rmult_lt_reg_r (/ (1 + r * r))); [apply Rinv_0_lt_compat; nra|].
      rewrite Rmult_assoc, Rinv_r by nra. unfold Rdiv in HN. lra. }
    destruct (ratios_bounds r h (S m * S m) R0 Hh) as (L & U).
    assert (Q : INR (S m * S m) * h / r = / (h * r)).
    { rewrite mult_INR. unfold h. field. split; [lra|]. lra. }
    rewrite Q, (atan_inv (h * r)) in L, U by nra.
    destruct (atan_le (h * r) ltac:(nra)) as (A & B).
    unfold Rabs. destruct (Rcase_abs _); nra.
  - rewrite sqrt_0, Rmult_0_r. apply (cv_ext (fun _ => 0)); [|apply cv_const].
    intro m. generalize (/ INR (S m)), (S m * S m)%nat. intros h n.
    replace (ratios h 0 n) with 0; [ring|]. induction n as [|n IH]; cbn [ratios]; [reflexivity|].
    rewrite <- IH. unfold Rdiv. ring.
Qed.

Theorem pd_exp_dist {X} (cs : list (X -> R)) : pd (fun x y => exp (- sqrt (dist2 cs x y))).
Proof.
  pose proof PI_RGT_0 as HP.
  apply (pd_limit (fun m x y => exp (- ((2 / PI * / INR (S m)) * ratios (/ INR (S m)) (dist2 cs x y) (S m * S m))))).
  - intro m. assert (0 < INR (S m)) by (apply lt_0_INR; lia).
    apply pd_exp_ratios; [|now apply Rinv_0_lt_compat].
    left. apply Rmult_lt_0_compat; [apply Rdiv_lt_0_compat; lra|now apply Rinv_0_lt_compat].
  - intros x y.
    apply (continuity_seq exp (fun m => - ((2 / PI * / INR (S m)) * ratios (/ INR (S m)) (dist2 cs x y) (S m * S m)))).
    + apply derivable_continuous_pt, derivable_pt_exp.
    + replace (- sqrt (dist2 cs x y)) with (- (2 / PI) * (PI / 2 * sqrt (dist2 cs x y))) by (field; lra).
      apply (cv_ext (fun m => - (2 / PI) * (/ INR (S m) * ratios (/ INR (S m)) (dist2 cs x y) (S m * S m)))).
      * intro m. ring.
      * apply CV_mult; [apply cv_const|]. apply root_limit, dist2_nonneg.
Qed.

(** Quadratic forms of such kernels are not negative. *)
Definition sum_of {A} (f : A -> R) (l : list A) : R := fold_right (fun a s => f a + s) 0 l.
Lemma sum_of_ext {A} (f g : A -> R) l : (forall a, f a = g a) -> sum_of f l = sum_of g l.
Proof. intro E. induction l as [|a l IH]; cbn [sum_of fold_right]; [reflexivity|]. unfold sum_of in IH. now rewrite E, IH. Qed.
Lemma sum_of_add {A} (f g : A -> R) l : sum_of (fun a => f a + g a) l = sum_of f l + sum_of g l.
Proof. unfold sum_of. induction l as [|a l IH]; cbn; [lra|]. rewrite IH. ring. Qed.
Lemma sum_of_scale {A} c (f : A -> R) l : sum_of (fun a => c * f a) l = c * sum_of f l.
Proof. unfold sum_of. induction l as [|a l IH]; cbn; [lra|]. rewrite IH. ring. Qed.
Lemma sum_of_cv {A} (fs : nat -> A -> R) f l : (forall a, Un_cv (fun n => fs n a) (f a)) ->
  Un_cv (fun n => sum_of (fs n) l) (sum_of f l).
Proof.
  intro H. induction l as [|a l IH]; [apply (cv_const 0)|].
  apply (CV_plus (fun n => fs n a) (fun n => sum_of (fs n) l)); [apply H|exact IH].
Qed.
Theorem pd_quadratic {X} (k : X -> X -> R) : pd k -> forall l : list (X * R),
  0 <= sum_of (fun p => sum_of (fun q => snd p * snd q * k (fst p) (fst q)) l) l.
Proof.
  intros H l. induction H as [f|k k' _ IH _ IH'|ks k _ IH C].
  - rewrite (sum_of_ext _ (fun p => sum_of (fun q => snd q * f (fst q)) l * (snd p * f (fst p)))).
    + rewrite sum_of_scale. apply Rle_0_sqr.
    + intro p. rewrite Rmult_comm, <- sum_of_scale. apply sum_of_ext. intro q. ring.
  - rewrite (sum_of_ext _ (fun p => sum_of (fun q => snd p * snd q * k (fst p) (fst q)) l +
      sum_of (fun q => snd p * snd q * k' (fst p) (fst q)) l)).
    + rewrite sum_of_add. lra.
    + intro p. rewrite <- sum_of_add. apply sum_of_ext. intro q. ring.
  - assert (K : Un_cv (fun n => sum_of (fun p => sum_of (fun q => snd p * snd q * ks n (fst p) (fst q)) l) l)
      (sum_of (fun p => sum_of (fun q => snd p * snd q * k (fst p) (fst q)) l) l)).
    { apply sum_of_cv. intro p. apply sum_of_cv. intro q. apply CV_mult; [apply cv_const|apply C]. }
    destruct (Rle_lt_dec 0 (sum_of (fun p => sum_of (fun q => snd p * snd q * k (fst p) (fst q)) l) l)) as [G|G]; [exact G|].
    exfalso. destruct (K (- (sum_of (fun p => sum_of (fun q => snd p * snd q * k (fst p) (fst q)) l) l)) ltac:(lra)) as (N & KN).
    specialize (KN N (le_n _)). specialize (IH N). unfold R_dist in KN. apply Rabs_def2 in KN. lra.
Qed.
