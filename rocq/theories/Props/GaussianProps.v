(** Property C94: the wind belief is the best linear one. *)
From Coq Require Import ZArith Reals List Bool Lia Lra Psatz Permutation.
From Verif Require Import Model.Num Model.WindField Model.WindGP Model.GaussianProcess
  Spec.BeliefSpec Spec.GaussianSpec Proofs.NumR Proofs.Kernels Proofs.GaussianProofs Props.WindGPProps.
Import ListNotations.
Open Scope R_scope.

(** ** Specification *)
Definition place_of (l : loc) : place := at_place (lx l) (ly l) (lp l) (lt l).
(** The expected squared error at [r] of giving weight w_i to what was measured at the
    i-th place. *)
Definition error_of (places : list loc) (r : loc) (w : list R) : R :=
  expected_error (place_of r) (combine (map place_of places) w).
(** [w] are the weights of the least expected error: strictly better than any others. *)
Definition best_weights (places : list loc) (r : loc) (w : list R) : Prop :=
  length w = length places /\
  forall w', length w' = length places -> w' <> w -> error_of places r w < error_of places r w'.
(** The regressor, trained on [data], predicts at [r] the error [mean] with variance [var]. *)
Definition predicts (data : list (loc * (R * R))) (r : loc) (mean : R * R) (var : R) : Prop :=
  exists m s, fit matern_regressor data = Some m /\ predict matern_regressor m r = (mean, (s, s)) /\
    0 <= s /\ var = s ^ 2.

(** ** Lemmas *)
Lemma sum_over_of {A} (l : list A) f : sum_over l f = sum_of f l.
Proof. unfold sum_over. induction l as [|a l IH]; [reflexivity|]. cbn [map fold_right]. now rewrite IH. Qed.
Lemma sum_of_map {A B} (g : A -> B) f l : sum_of f (map g l) = sum_of (fun a => f (g a)) l.
Proof. induction l as [|a l IH]; [reflexivity|]. cbn [map]. now rewrite !sum_of_cons, IH. Qed.
Lemma sum_of_perm {A} (f : A -> R) l l' : Permutation l l' -> sum_of f l = sum_of f l'.
Proof. induction 1; rewrite ?sum_of_cons; [reflexivity|now rewrite IHPermutation|ring|congruence]. Qed.
Lemma sum_of_app {A} (f : A -> R) l l' : sum_of f (l ++ l') = sum_of f l + sum_of f l'.
Proof. induction l as [|a l IH]; [cbn [app]; change (sum_of f []) with 0; ring|]. cbn [app]. rewrite !sum_of_cons, IH. ring. Qed.
Lemma sum_of_zero {A} (f : A -> R) l : (forall a, In a l -> f a = 0) -> sum_of f l = 0.
Proof.
  induction l as [|a l IH]; intro H; [reflexivity|]. rewrite sum_of_cons, H, IH; [ring| |now left].
  intros; apply H; now right.
Qed.

Lemma covariance_kernel a b : covariance (place_of a) (place_of b) = kernel a b.
Proof.
  rewrite kernel_dist2. unfold covariance, separation, place_of. cbn [east north pressure_at seconds_at].
  change (3.6 ^ 2) with SIGMA_EXP_SQUARED. do 3 f_equal. f_equal. unfold dist2. cbn [map total fold_right coordinates].
  unfold DISTANCE_SCALING, PRESSURE_SCALING, TIME_SCALING. lra.
Qed.
Lemma combine_map_l {A B C} (g : A -> B) (l : list A) : forall l' : list C,
  combine (map g l) l' = map (fun p => (g (fst p), snd p)) (combine l l').
Proof. induction l as [|a l IH]; intros [|c l']; cbn; try reflexivity. now rewrite IH. Qed.
Lemma dot_combine xs : forall w, length w = length xs -> dot w w = sum_of (fun p : loc * R => snd p * snd p) (combine xs w).
Proof.
  induction xs as [|x xs IH]; intros [|a w] E; try discriminate; [reflexivity|].
  cbn [dot combine]. rewrite sum_of_cons. cbn [snd]. now rewrite IH by (now injection E).
Qed.
(** The expected error as a function of the weighted places. *)
Definition cost (r : loc) (l : list (loc * R)) : R :=
  12.96 - 2 * sum_of (fun p => snd p * kernel r (fst p)) l + quad l +
  SIGMA_NOISE_SQUARED * sum_of (fun p => snd p * snd p) l.
Lemma cost_perm r l l' : Permutation l l' -> cost r l = cost r l'.
Proof.
  intro P. unfold cost, quad. rewrite !(sum_of_perm _ l l' P).
  rewrite (sum_of_ext (fun p => sum_of _ l) (fun p => sum_of (fun q => snd p * snd q * kernel (fst p) (fst q)) l'));
    [reflexivity|]. intro p. now apply sum_of_perm.
Qed.
Lemma error_cost places r w : error_of places r w = cost r (combine places w).
Proof.
  unfold error_of, expected_error, cost, quad. rewrite !sum_over_of, combine_map_l, !sum_of_map. cbn [fst snd].
  rewrite covariance_kernel, kernel_self. unfold SIGMA_NOISE_SQUARED.
  rewrite (sum_of_ext (fun a => snd a * covariance _ _) (fun p => snd p * kernel r (fst p)))
    by (intro p; now rewrite covariance_kernel, kernel_sym).
  rewrite (sum_of_ext (fun p => sum_over _ _) (fun p => sum_of (fun q => snd p * snd q * kernel (fst p) (fst q)) (combine places w))).
  - reflexivity.
  - intro p. rewrite sum_over_of, sum_of_map. apply sum_of_ext. intro q. cbn [fst snd]. now rewrite covariance_kernel.
Qed.
Lemma error_loss places r w : length w = length places -> error_of places r w = loss places r w.
Proof. intro E. rewrite error_cost. unfold cost, loss. rewrite dot_sum, (dot_combine places) by exact E. reflexivity. Qed.
Lemma combine_rev {A B} (l : list A) : forall l' : list B, length l' = length l ->
  combine (rev l) (rev l') = rev (combine l l').
Proof.
  assert (S : forall (a : list A) (b : list B) x y, length a = length b -> combine (a ++ [x]) (b ++ [y]) = combine a b ++ [(x, y)]).
  { induction a as [|p a IH]; intros [|q b] x y E; try discriminate; [reflexivity|]. cbn. f_equal. apply IH. now injection E. }
  induction l as [|a l IH]; intros [|b l'] E; try discriminate; [reflexivity|]. injection E as E.
  cbn [rev combine]. rewrite S by (rewrite !rev_length; auto). now rewrite IH.
Qed.
Lemma error_rev places r w : length w = length places -> error_of (rev places) r (rev w) = error_of places r w.
Proof.
  intro E. rewrite !error_cost, combine_rev by exact E. apply cost_perm, Permutation_sym, Permutation_rev.
Qed.
Lemma best_rev places r : best_weights places r (rev (best (rev places) r)).
Proof.
  destruct (best_spec (rev places) r) as (L & G). destruct (loss_best (rev places) r _ L G) as (_ & B).
  rewrite rev_length in L. split; [now rewrite rev_length|]. intros w' E N.
  rewrite <- (error_rev places r w' E), <- error_rev by (now rewrite rev_length).
  rewrite rev_involutive, !error_loss by (rewrite ?rev_length; auto). apply B; [rewrite !rev_length; exact E|].
  intro C. apply N. rewrite <- C. now rewrite rev_involutive.
Qed.
Lemma best_unique places r w w' : best_weights places r w -> best_weights places r w' -> w = w'.
Proof.
  intros (L & B) (L' & B'). destruct (list_eq_dec Req_EM_T w w') as [E|E]; [exact E|].
  specialize (B w' L' ltac:(congruence)). specialize (B' w L E). lra.
Qed.
Lemma estimate_dot w : forall ys, length w = length ys -> estimate w ys = dot w ys.
Proof.
  unfold estimate. induction w as [|a w IH]; intros [|y ys] E; try discriminate; [reflexivity|].
  cbn [combine dot]. rewrite sum_over_of, sum_of_cons, <- sum_over_of, IH by (now injection E). reflexivity.
Qed.
Lemma dot_app a : forall b c d, length a = length b -> dot (a ++ c) (b ++ d) = dot a b + dot c d.
Proof.
  induction a as [|p a IH]; intros [|q b] c d E; try discriminate; cbn [app dot]; [ring|].
  rewrite IH by (now injection E). ring.
Qed.
Lemma dot_rev a : forall b, length a = length b -> dot (rev a) (rev b) = dot a b.
Proof.
  induction a as [|p a IH]; intros [|q b] E; try discriminate; [reflexivity|]. injection E as E.
  cbn [rev]. rewrite dot_app, IH by (rewrite ?rev_length; exact E). cbn. ring.
Qed.
Lemma error_positive places r w : length w = length places -> 0 < error_of places r w.
Proof. intro E. rewrite error_loss by exact E. now apply loss_positive. Qed.

(** ** Theorems *)
(** The predicted error is the linear estimate of least expected error, its variance
    that least expected error: the weights depend on the places only, they are the
    only best ones, and both components use them. *)
Theorem C94_best (places : list loc) (r : loc) : places <> [] ->
  exists w, best_weights places r w /\ 0 < error_of places r w /\
  forall values, length values = length places ->
  exists m, fit matern_regressor (combine places values) = Some m /\
    predict matern_regressor m r =
    ((estimate w (map fst values), estimate w (map snd values)),
     (sqrt (error_of places r w), sqrt (error_of places r w))).
Proof.
  intro N. exists (rev (best (rev places) r)). split; [apply best_rev|].
  destruct (best_spec (rev places) r) as (L & _). rewrite rev_length in L.
  split; [apply error_positive; now rewrite rev_length|].
  intros values E. destruct (fit_predict places values r N E) as (m & F & P). exists m. split; [exact F|].
  change (predict matern_regressor m r) with (gp_predict m r). rewrite P.
  rewrite <- !(dot_rev (best (rev places) r) (rev _)), !rev_involutive by (rewrite rev_length, map_length; congruence).
  rewrite <- !estimate_dot by (rewrite rev_length, map_length; congruence).
  rewrite <- (error_loss (rev places)) by (rewrite rev_length; exact L).
  rewrite <- (error_rev places) by (now rewrite rev_length). now rewrite rev_involutive.
Qed.

(** Training succeeds on any data but none: repeated or nearly equal places do no harm. *)
Lemma split_data {A B} (data : list (A * B)) : combine (map fst data) (map snd data) = data.
Proof. induction data as [|[a b] l IH]; [reflexivity|]. cbn. now rewrite IH. Qed.
Theorem C94_fits (data : list (loc * (R * R))) : (exists m, fit matern_regressor data = Some m) <-> data <> [].
Proof.
  split.
  - intros (m & H) ->. discriminate.
  - intro N. rewrite <- (split_data data).
    assert (N' : map fst data <> []) by (destruct data; [now elim N|discriminate]).
    destruct (fit_predict (map fst data) (map snd data) (mkLoc 0 0 0 0) N' ltac:(now rewrite !map_length)) as (m & F & _).
    exists m. exact F.
Qed.

(** [predicts] is functional and total on non-empty data, and is what C94_best says. *)
Lemma predicts_best data r mean var : predicts data r mean var <->
  data <> [] /\ exists w, best_weights (map fst data) r w /\
    mean = (estimate w (map (fun m => fst (snd m)) data), estimate w (map (fun m => snd (snd m)) data)) /\
    var = error_of (map fst data) r w.
Proof.
  assert (K : data <> [] -> exists w, best_weights (map fst data) r w /\ predicts data r
     (estimate w (map (fun m => fst (snd m)) data), estimate w (map (fun m => snd (snd m)) data)) (error_of (map fst data) r w)).
  { intro N. destruct (C94_best (map fst data) r ltac:(destruct data; [now elim N|discriminate])) as (w & B & P & H).
    destruct (H (map snd data) ltac:(now rewrite !map_length)) as (m & F & Q). rewrite split_data in F.
    rewrite !map_map in Q. exists w. split; [exact B|]. exists m, (sqrt (error_of (map fst data) r w)).
    split; [exact F|]. split; [exact Q|]. split; [apply sqrt_pos|]. rewrite pow2_sqrt by lra. reflexivity. }
  split.
  - intros (m & s & F & Q & S & ->). assert (N : data <> []) by (apply C94_fits; eauto).
    split; [exact N|]. destruct (K N) as (w & B & (m' & s' & F' & Q' & S' & E')). exists w. split; [exact B|].
    rewrite F in F'. injection F' as <-. rewrite Q in Q'. injection Q' as -> ->. split; [reflexivity|]. now rewrite E'.
  - intros (N & w & B & -> & ->). destruct (K N) as (w' & B' & P). now rewrite (best_unique _ _ _ _ B B').
Qed.
Theorem C94_total (data : list (loc * (R * R))) (r : loc) : data <> [] -> exists mean var, predicts data r mean var.
Proof.
  intro N. destruct (C94_best (map fst data) r ltac:(destruct data; [now elim N|discriminate])) as (w & B & _).
  eexists _, _. apply predicts_best. split; [exact N|]. exists w. split; [exact B|]. split; reflexivity.
Qed.

(** The order of the measurements does not matter. *)
Lemma permute_data (data data' : list (loc * (R * R))) : Permutation data data' ->
  forall w : list R, length w = length data -> exists w', length w' = length data' /\
    Permutation (combine data w) (combine data' w').
Proof.
  intros P w E. rewrite <- (map_combine_fst data w E) in P.
  apply Permutation_sym, Permutation_map_inv in P. destruct P as (l3 & -> & P).
  exists (map snd l3). rewrite !map_length, split_data. auto.
Qed.
Lemma estimate_data w (f : loc * (R * R) -> R) data : length w = length data ->
  estimate w (map f data) = sum_of (fun p => snd p * f (fst p)) (combine data w).
Proof.
  intro E. rewrite estimate_dot by (now rewrite map_length). revert w E.
  induction data as [|d data IH]; intros [|a w] E; try discriminate; [reflexivity|].
  cbn [map dot combine]. rewrite sum_of_cons, IH by (now injection E). reflexivity.
Qed.
Lemma combine_fst_data (data : list (loc * (R * R))) (w : list R) :
  combine (map fst data) w = map (fun p => (fst (fst p), snd p)) (combine data w).
Proof. apply combine_map_l. Qed.
Theorem C94_order (data data' : list (loc * (R * R))) (r : loc) (mean : R * R) (var : R) :
  Permutation data data' -> predicts data r mean var -> predicts data' r mean var.
Proof.
  intros P H. apply predicts_best in H. destruct H as (N & w & (L & B) & -> & ->).
  rewrite map_length in L. destruct (permute_data data data' P w L) as (w' & L' & Q).
  assert (C : error_of (map fst data') r w' = error_of (map fst data) r w).
  { rewrite !error_cost, !combine_fst_data. apply cost_perm, Permutation_map, Permutation_sym, Q. }
  assert (W : best_weights (map fst data') r w').
  { pose proof (best_rev (map fst data') r) as Bv. set (v := rev _) in Bv. destruct Bv as (Lv & Bv).
    destruct (list_eq_dec Req_EM_T w' v) as [E|E]; [rewrite E; split; assumption|].
    specialize (Bv w' ltac:(now rewrite map_length) E). rewrite map_length in Lv.
    destruct (permute_data data' data (Permutation_sym P) v Lv) as (v' & Lv' & Qv).
    assert (Cv : error_of (map fst data) r v' = error_of (map fst data') r v).
    { rewrite !error_cost, !combine_fst_data. apply cost_perm, Permutation_map, Permutation_sym, Qv. }
    exfalso. destruct (list_eq_dec Req_EM_T v' w) as [->|E']; [lra|].
    specialize (B v' ltac:(now rewrite map_length) E'). lra. }
  apply predicts_best. split; [intros ->; apply N, Permutation_nil, Permutation_sym, P|].
  exists w'. rewrite !estimate_data, C by assumption. split; [exact W|].
  split; [|reflexivity]. now rewrite !(sum_of_perm _ _ _ Q).
Qed.

Lemma combine_pad (l : list loc) (extra : list (loc * (R * R))) : forall w, length w = length l ->
  combine (l ++ map fst extra) (w ++ map (fun _ => 0) extra) = combine l w ++ map (fun m => (fst m, 0)) extra.
Proof.
  induction l as [|a l IH]; intros [|b w] L; try discriminate.
  - cbn [app combine]. induction extra as [|m e IH]; [reflexivity|]. cbn. now rewrite IH.
  - cbn [app combine]. rewrite IH by (now injection L). reflexivity.
Qed.
Lemma cost_pad r (extra : list (loc * (R * R))) l : cost r (map (fun m => (fst m, 0)) extra ++ l) = cost r l.
Proof.
  induction extra as [|m e IH]; [reflexivity|]. rewrite <- IH. cbn [map app]. unfold cost.
  rewrite quad_cons, !sum_of_cons. cbn [fst snd]. ring.
Qed.
(** More measurements never make the belief less certain. *)
Theorem C94_more (data data' extra : list (loc * (R * R))) (r : loc) (mean mean' : R * R) (var var' : R) :
  Permutation data' (data ++ extra) ->
  predicts data r mean var -> predicts data' r mean' var' -> var' <= var.
Proof.
  intros P H H'. apply (C94_order _ _ _ _ _ P) in H'. clear P data'.
  apply predicts_best in H. destruct H as (_ & w & (L & _) & _ & ->).
  apply predicts_best in H'. destruct H' as (_ & w' & (L' & B') & _ & ->).
  rewrite map_app in *. set (v := w ++ map (fun _ => 0) extra).
  assert (Ev : error_of (map fst data ++ map fst extra) r v = error_of (map fst data) r w).
  { rewrite !error_cost. unfold v.
    assert (A : combine (map fst data ++ map fst extra) (w ++ map (fun _ => 0) extra) =
      combine (map fst data) w ++ map (fun m => (fst m, 0)) extra).
    { now apply combine_pad. }
    rewrite A, (cost_perm r _ _ (Permutation_app_comm _ _)). apply cost_pad. }
  rewrite <- Ev. destruct (list_eq_dec Req_EM_T v w') as [->|E]; [lra|].
  left. apply B'; [|exact E]. unfold v. rewrite !app_length, !map_length in *. lia.
Qed.

(** The variance lies below that of the prior, and above that of as many measurements
    taken at the queried place itself, which is reached. *)
Lemma bound_algebra a t d n : 0 < n -> 0 <= d -> t * t <= n * (12.96 * 12.96) * d ->
  (12.96 - t) * (12.96 - t) <= 12.96 * (a - 0.05 * d) -> 12.96 * 0.05 / (0.05 + 12.96 * n) <= a.
Proof.
  intros N D C H. set (s := 0.05 + 12.96 * n). assert (S : 0 < s) by (unfold s; lra).
  apply (Rmult_le_reg_r s); [exact S|]. unfold Rdiv. rewrite Rmult_assoc, Rinv_l, Rmult_1_r by lra.
  (* (12.96 - t)^2 / 12.96 + 0.05 t^2 / (n 12.96^2) <= a *)
  assert (K : 12.96 * n * ((12.96 - t) * (12.96 - t)) + 0.05 * (t * t) <= 12.96 * 12.96 * n * a).
  { assert (n * ((12.96 - t) * (12.96 - t)) <= n * (12.96 * (a - 0.05 * d))) by (apply Rmult_le_compat_l; lra). lra. }
  pose proof (Rle_0_sqr (t * s - 12.96 * (12.96 * n))) as Q. unfold Rsqr in Q.
  (* multiply K by s: s (12.96 n (12.96 - t)^2 + 0.05 t^2) = (t s - 12.96^2 n)^2 + 0.05 12.96^2 n 12.96 ... *)
  assert (E : s * (12.96 * n * ((12.96 - t) * (12.96 - t)) + 0.05 * (t * t)) =
    (t * s - 12.96 * (12.96 * n)) * (t * s - 12.96 * (12.96 * n)) + 0.05 * (12.96 * n) * (12.96 * 12.96)) by (unfold s; ring_simplify; lra).
  assert (K' : s * (12.96 * n * ((12.96 - t) * (12.96 - t)) + 0.05 * (t * t)) <= s * (12.96 * 12.96 * n * a)) by (apply Rmult_le_compat_l; lra).
  rewrite E in K'.
  apply (Rmult_le_reg_l (12.96 * 12.96 * n)); [lra|]. lra.
Qed.
Theorem C94_bounds (data : list (loc * (R * R))) (r : loc) (mean : R * R) (var : R) :
  predicts data r mean var ->
  12.96 * 0.05 / (0.05 + 12.96 * INR (length data)) <= var < 12.96.
Proof.
  intro H. apply predicts_best in H. destruct H as (N & w & B & _ & ->). destruct B as (L & B).
  assert (Hn : (0 < length data)%nat) by (destruct data; [now elim N|cbn; lia]).
  split.
  - rewrite error_loss by exact L.
    pose proof (loss_bound _ r w L) as Q. pose proof (cauchy (map (kernel r) (map fst data)) w) as C.
    pose proof (kernel_norm (map fst data) r) as K. rewrite map_length in K. unfold SIGMA_NOISE_SQUARED in Q.
    apply (bound_algebra _ (dot (map (kernel r) (map fst data)) w) (dot w w)); [now apply lt_0_INR|apply dot_self_nonneg| |exact Q].
    pose proof (dot_self_nonneg w). eapply Rle_trans; [exact C|]. apply Rmult_le_compat_r; assumption.
  - (* a small weight on the first measurement alone already helps *)
    destruct data as [|[x e] data]; [now elim N|]. cbn [map fst] in *.
    set (c := kernel r x / (12.96 + 0.05)). set (v := c :: map (fun _ => 0) data).
    pose proof (kernel_bounds r x) as Kb.
    assert (Ev : error_of (x :: map fst data) r v < 12.96).
    { rewrite error_loss by (cbn; now rewrite !map_length). unfold loss, v. cbn [map dot combine].
      assert (Z : forall (f : loc -> R) (l : list (loc * (R * R))), dot (map f (map fst l)) (map (fun _ => 0) l) = 0)
        by (intros f l; induction l as [|m l IH]; [reflexivity|]; cbn [map dot]; rewrite IH; ring).
      rewrite quad_cons, Z, <- dot_sum, Z by (now rewrite !map_length).
      assert (Z2 : forall l : list (loc * (R * R)), dot (map (fun _ => 0) l) (map (fun _ => 0) l) = 0)
        by (intro l; induction l as [|m l IH]; [reflexivity|]; cbn [map dot]; rewrite IH; ring).
      assert (Z3 : quad (combine (map fst data) (map (fun _ => 0) data)) = 0).
      { unfold quad. apply sum_of_zero. intros [p a] Hp. apply sum_of_zero. intros q _.
        apply in_combine_r, in_map_iff in Hp. destruct Hp as (? & <- & _). cbn. ring. }
      rewrite Z2, Z3, kernel_self. unfold SIGMA_NOISE_SQUARED.
      assert (E : c * (12.96 + 0.05) = kernel r x) by (unfold c; field; lra).
      assert (0 < c) by (apply Rdiv_lt_0_compat; lra).
      assert (0 < c * kernel r x) by (apply Rmult_lt_0_compat; lra).
      replace (c * c * 12.96) with (c * (c * (12.96 + 0.05)) - 0.05 * (c * c)) by lra. rewrite E. lra. }
    destruct (list_eq_dec Req_EM_T v w) as [<-|E]; [exact Ev|].
    specialize (B v ltac:(cbn; now rewrite !map_length) E). lra.
Qed.

(** One measurement: the weight is the covariance over the variance of the measurement. *)
Lemma error_one x r a : error_of [x] r [a] = 12.96 - 2 * a * kernel r x + 13.01 * (a * a).
Proof. rewrite error_loss by reflexivity. unfold loss, quad, SIGMA_NOISE_SQUARED. cbn. rewrite kernel_self. lra. Qed.
Theorem C94_one (x r : loc) (e mean : R * R) (var : R) :
  let share := covariance (place_of x) (place_of r) / 13.01 in
  predicts [(x, e)] r mean var <->
  mean = (share * fst e, share * snd e) /\ var = 12.96 - share * covariance (place_of x) (place_of r).
Proof.
  intro share. rewrite predicts_best. cbn [map fst snd].
  assert (K : kernel r x = 13.01 * share) by (unfold share; rewrite covariance_kernel, kernel_sym; field; lra).
  assert (B : best_weights [x] r [share]).
  { split; [reflexivity|]. intros [|a [|b w]] E N; try discriminate. rewrite !error_one, K.
    assert (a <> share) by congruence.
    assert (0 < (a - share) * (a - share)); [|lra].
    destruct (Rtotal_order a share) as [T|[T|T]]; [nra|now elim H|nra]. }
  assert (V : error_of [x] r [share] = 12.96 - share * covariance (place_of x) (place_of r)).
  { rewrite error_one, covariance_kernel, (kernel_sym x r), K. lra. }
  split.
  - intros (_ & w & Bw & -> & ->). rewrite (best_unique _ _ _ _ Bw B). unfold estimate, sum_over. cbn. rewrite !Rplus_0_r. auto.
  - intros (-> & ->). split; [discriminate|]. exists [share]. split; [exact B|]. unfold estimate, sum_over. cbn. rewrite !Rplus_0_r. auto.
Qed.

(** Where n measurements have been taken, the variance is at most 0.648 / (0.05 + 12.96 n):
    less than the noise of a single one, and the smallest there can be (C94_bounds). *)
Lemma repeated r c : forall es : list (R * R),
  sum_of (fun p => snd p * kernel r (fst p)) (map (fun _ => (r, c)) es) = INR (length es) * c * 12.96 /\
  sum_of (fun p => snd p * snd p) (map (fun _ => (r, c)) es) = INR (length es) * (c * c) /\
  quad (map (fun _ => (r, c)) es) = (INR (length es) * c) * (INR (length es) * c) * 12.96.
Proof.
  induction es as [|e es (A & B & C)]; [unfold quad; cbn; repeat split; ring|].
  cbn [map length]. rewrite quad_cons, !sum_of_cons, A, B, C, S_INR. cbn [fst snd]. rewrite kernel_self.
  repeat split; ring.
Qed.
Theorem C94_measured (data rest : list (loc * (R * R))) (es : list (R * R)) (r : loc) (mean : R * R) (var : R) :
  es <> [] -> Permutation data (map (fun e => (r, e)) es ++ rest) -> predicts data r mean var ->
  var <= 12.96 * 0.05 / (0.05 + 12.96 * INR (length es)) < 0.05.
Proof.
  intros N P H. assert (Hn : 1 <= INR (length es)).
  { destruct es; [now elim N|]. cbn [length]. rewrite S_INR. pose proof (pos_INR (length es)). lra. }
  set (n := INR (length es)) in *. set (s := 0.05 + 12.96 * n). assert (S : 0 < s) by (unfold s; lra).
  split.
  - destruct (C94_total (map (fun e => (r, e)) es) r ltac:(destruct es; [now elim N|discriminate])) as (mean1 & var1 & H1).
    eapply Rle_trans; [exact (C94_more _ _ _ _ _ _ _ _ P H1 H)|].
    apply predicts_best in H1. destruct H1 as (_ & w & (L & B) & _ & ->).
    assert (Hc : exists c, c * s = 12.96 /\ 12.96 * 0.05 / s = 0.05 * c) by (exists (12.96 / s); split; field; lra).
    destruct Hc as (c & Hc & Hf). set (v := map (fun _ => c) es).
    assert (Ev : error_of (map fst (map (fun e => (r, e)) es)) r v = 12.96 * 0.05 / s).
    { rewrite error_cost. unfold v.
      assert (Q : combine (map fst (map (fun e => (r, e)) es)) (map (fun _ => c) es) = map (fun _ => (r, c)) es)
        by (clear; induction es as [|e es IH]; [reflexivity|]; cbn [map combine fst]; rewrite IH; reflexivity).
      rewrite Q. unfold cost, SIGMA_NOISE_SQUARED. destruct (repeated r c es) as (-> & -> & ->). fold n.
      rewrite Hf.
      replace (12.96 - 2 * (n * c * 12.96) + n * c * (n * c) * 12.96 + 0.05 * (n * (c * c)))
        with (12.96 - 2 * (n * c * 12.96) + n * c * (c * s)) by (unfold s; ring).
      rewrite Hc. unfold s in Hc. lra. }
    rewrite <- Ev. destruct (list_eq_dec Req_EM_T v w) as [->|E]; [lra|].
    left. apply B; [|exact E]. unfold v. now rewrite !map_length.
  - apply (Rmult_lt_reg_r s); [exact S|]. unfold Rdiv. rewrite Rmult_assoc, Rinv_l by lra. unfold s. lra.
Qed.

(** Far from all measurements (covariance with each at most c) the belief returns to
    the prior: no error, variance 12.96. *)
Lemma norm_bound (f : loc -> R) c xs : (forall x, In x xs -> 0 <= f x <= c) ->
  dot (map f xs) (map f xs) <= INR (length xs) * (c * c).
Proof.
  induction xs as [|x xs IH]; intro H; [cbn; lra|]. cbn [map dot length]. rewrite S_INR.
  specialize (IH (fun y Hy => H y (or_intror Hy))). destruct (H x (or_introl eq_refl)).
  assert (f x * f x <= c * c) by (apply Rmult_le_compat; lra). lra.
Qed.
Lemma shrink s a b : 0 < s -> 0 <= a -> 0 <= b -> (s * a) * (s * a) <= a * b -> s * s * a <= b.
Proof.
  intros S A B H. destruct A as [A|<-]; [|lra]. apply (Rmult_le_reg_l a); [exact A|]. lra.
Qed.
Lemma square_le a b : 0 <= b -> a * a <= b * b -> a <= b.
Proof. intros B H. destruct (Rle_lt_dec a b) as [L|L]; [exact L|]. nra. Qed.
Theorem C94_far (data : list (loc * (R * R))) (r : loc) (mean : R * R) (var c : R) :
  (forall m, In m data -> covariance (place_of (fst m)) (place_of r) <= c) -> predicts data r mean var ->
  let n := INR (length data) in
  0.05 * (12.96 - var) <= n * c ^ 2 /\
  (0.05 * fst mean) ^ 2 <= n * c ^ 2 * sum_over data (fun m => fst (snd m) ^ 2) /\
  (0.05 * snd mean) ^ 2 <= n * c ^ 2 * sum_over data (fun m => snd (snd m) ^ 2).
Proof.
  intros Hc H n. apply predicts_best in H. destruct H as (N & w & B & -> & ->). cbn [fst snd].
  set (xs := map fst data) in *. set (W := best (rev xs) r).
  assert (E : w = rev W) by (apply (best_unique xs r); [exact B|apply best_rev]).
  destruct (best_spec (rev xs) r) as (L & G). fold W in L, G.
  destruct (loss_best _ r W L G) as (Ev & _).
  set (k := map (kernel r) (rev xs)) in *.
  assert (Kn : dot k k <= n * (c * c)).
  { unfold k. replace n with (INR (length (rev xs))) by (unfold xs, n; rewrite rev_length, map_length; reflexivity).
    apply norm_bound. intros x Hx. apply in_rev in Hx. apply in_map_iff in Hx. destruct Hx as (m & <- & Hm).
    pose proof (kernel_bounds r (fst m)). specialize (Hc m Hm). rewrite covariance_kernel, kernel_sym in Hc. lra. }
  pose proof (gram_positive (rev xs) W L) as P. rewrite G in P.
  pose proof (dot_self_nonneg W) as W0. pose proof (dot_self_nonneg k) as K0. pose proof noise_pos as S0.
  pose proof (cauchy W k) as CS.
  assert (Wk : SIGMA_NOISE_SQUARED * SIGMA_NOISE_SQUARED * dot W W <= dot k k).
  { apply shrink; try assumption. eapply Rle_trans; [|exact CS].
    apply Rmult_le_compat; try assumption; apply Rmult_le_pos; lra. }
  assert (Sq : forall f : loc * (R * R) -> R, (0.05 * estimate w (map f data)) ^ 2 <= n * c ^ 2 * sum_over data (fun m => f m ^ 2)).
  { intro f. assert (Lw : length w = length data) by (rewrite E, rev_length, L; unfold xs; rewrite rev_length, map_length; reflexivity).
    rewrite estimate_dot by (rewrite map_length; exact Lw).
    pose proof (cauchy w (map f data)) as C2.
    assert (Ws : dot w w = dot W W) by (rewrite E, dot_rev; reflexivity). rewrite Ws in C2.
    assert (Fs : sum_over data (fun m => f m ^ 2) = dot (map f data) (map f data)).
    { rewrite sum_over_of. clear. induction data as [|d l IH]; [reflexivity|]. rewrite sum_of_cons, IH. cbn. ring. }
    rewrite Fs. pose proof (dot_self_nonneg (map f data)) as F0. unfold SIGMA_NOISE_SQUARED in Wk.
    assert (Q : 0.05 * 0.05 * dot W W * dot (map f data) (map f data) <= n * (c * c) * dot (map f data) (map f data))
      by (apply Rmult_le_compat_r; lra).
    replace ((0.05 * dot w (map f data)) ^ 2) with (0.05 * 0.05 * (dot w (map f data) * dot w (map f data))) by ring.
    lra. }
  split; [|split; apply Sq].
  assert (Er : error_of xs r w = 12.96 - dot k W).
  { rewrite <- (error_rev xs r w), E, rev_involutive by (rewrite E, rev_length, L; now rewrite rev_length).
    rewrite error_loss by exact L. exact Ev. }
  rewrite Er. unfold SIGMA_NOISE_SQUARED in *.
  assert (Q : 0.05 * dot W k <= dot k k).
  { apply square_le; [exact K0|].
    replace (0.05 * dot W k * (0.05 * dot W k)) with (0.05 * 0.05 * (dot W k * dot W k)) by ring.
    assert (0.05 * 0.05 * dot W W * dot k k <= dot k k * dot k k) by (apply Rmult_le_compat_r; assumption). lra. }
  rewrite (dot_comm k W). lra.
Qed.

(** The prediction depends on the measured errors linearly; errors of zero keep the forecast. *)
Theorem C94_linear (places : list loc) (r : loc) (ys zs : list (R * R)) (a b : R) (my mz : R * R) (vy vz : R) :
  length ys = length places -> length zs = length places ->
  predicts (combine places ys) r my vy -> predicts (combine places zs) r mz vz ->
  let mix (p q : R * R) := (a * fst p + b * fst q, a * snd p + b * snd q) in
  vy = vz /\ predicts (combine places (map (fun p => mix (fst p) (snd p)) (combine ys zs))) r (mix my mz) vy.
Proof.
  intros Ly Lz Hy Hz mix. set (us := map (fun p => mix (fst p) (snd p)) (combine ys zs)).
  assert (Lu : length us = length places) by (unfold us; rewrite map_length, combine_length, Ly, Lz; apply Nat.min_id).
  apply predicts_best in Hy. destruct Hy as (N & w & Bw & -> & ->).
  apply predicts_best in Hz. destruct Hz as (_ & w' & Bw' & -> & ->).
  rewrite (map_combine_fst places ys Ly), (map_combine_fst places zs Lz) in *. rewrite (best_unique _ _ _ _ Bw' Bw). split; [reflexivity|].
  apply predicts_best. rewrite map_combine_fst by assumption.
  split; [intro C; apply N; destruct places; [reflexivity|]; destruct us; discriminate|].
  exists w. split; [exact Bw|]. split; [|reflexivity].
  assert (Lw : length w = length places) by apply Bw.
  rewrite !(map_combine_snd fst), !(map_combine_snd snd) by assumption.
  assert (Q : forall f : R * R -> R, (forall p q, f (mix p q) = a * f p + b * f q) ->
    estimate w (map f us) = a * estimate w (map f ys) + b * estimate w (map f zs)).
  { intros f Hf. rewrite !estimate_dot by (rewrite map_length; congruence). unfold us. rewrite map_map.
    assert (Lq : length ys = length w) by congruence. assert (Lq' : length zs = length w) by congruence.
    clear - Hf Lq Lq'. revert ys zs Lq Lq'. induction w as [|c w IH]; intros [|y ys] [|z zs] L1 L2; try discriminate.
    - cbn. ring.
    - cbn [combine map dot fst snd]. rewrite Hf, IH by (first [now injection L1|now injection L2]). ring. }
  unfold mix at 1. cbn [fst snd]. rewrite !(Q fst), !(Q snd) by reflexivity. reflexivity.
Qed.

(** ** The belief object with this regressor *)
Section Belief.
Context (gf : R -> R -> R -> Z -> option wind) (gc : R -> R -> list R -> Z -> option (list wind)).

(** After any history, at any place and time: the forecast, if nothing was learnt since
    the last reset; otherwise the forecast plus the best linear estimate from the recent
    lessons, with its expected squared error as a share of the prior's.  If there were
    lessons but none recent, the query raises. *)
Theorem C94_belief (h : list event) (x y p : R) (t : Z) (mean : R * R) (dev : R) (rec : list measurement) :
  columns_agree gf gc -> recent_of t (since_reset h []) rec ->
  let here := mkLoc x y p (IZR t / 1000000) in
  let places := map fst (lessons gf rec) in
  query matern_regressor gc (told gf h) x y p t = Some (mean, dev) <->
  exists f, gf x y p t = Some f /\
    ((lessons gf (since_reset h []) = [] /\ mean = (u f, v f) /\ dev = 0) \/
     (places <> [] /\ exists w, best_weights places here w /\
        mean = (estimate w (map (fun m => fst (snd m)) (lessons gf rec)) + u f,
                estimate w (map (fun m => snd (snd m)) (lessons gf rec)) + v f) /\
        dev = error_of places here w / 12.96)).
Proof.
  intros Hc Hr here places. rewrite (C37_belief matern_regressor gf gc h x y p t mean dev rec Hc Hr).
  fold here. assert (Sub : lessons gf rec <> [] -> lessons gf (since_reset h []) <> []).
  { revert Hr. generalize (since_reset h []). intros ms Hr. induction Hr as [|m ms rec' _ _ IH|m ms rec' _ _ IH]; [auto| |];
      unfold lessons in *; cbn [flat_map]; destruct (lesson gf m); try discriminate; cbn [app]; auto. }
  assert (Np : places <> [] <-> lessons gf rec <> []) by (unfold places; destruct (lessons gf rec); cbn; split; congruence).
  assert (Dv : forall s, ((s / 3.6) ^ 2 + (s / 3.6) ^ 2) / 2 = s ^ 2 / 12.96) by (intro s; lra).
  split; intros (f & Ef & [A|A]); exists f; (split; [exact Ef|]); [now left| |now left|]; right.
  - destruct A as (_ & m & eu & ev & su & sv & F & Q & -> & ->).
    assert (N : lessons gf rec <> []) by (apply C94_fits; eauto). split; [now apply Np|].
    assert (Hs : su = sv /\ 0 <= su) by (injection Q as _ _ <- <-; split; [reflexivity|apply sqrt_pos]).
    destruct Hs as (<- & S0). assert (H : predicts (lessons gf rec) here (eu, ev) (su ^ 2)) by (exists m, su; auto).
    apply predicts_best in H. destruct H as (_ & w & B & Em & Es). exists w. split; [exact B|].
    injection Em as -> ->. split; [reflexivity|]. now rewrite Dv, Es.
  - destruct A as (N & w & B & -> & ->). apply Np in N. split; [now apply Sub|].
    assert (H : predicts (lessons gf rec) here (estimate w (map (fun m => fst (snd m)) (lessons gf rec)),
      estimate w (map (fun m => snd (snd m)) (lessons gf rec))) (error_of places here w))
      by (apply predicts_best; split; [exact N|]; exists w; auto).
    destruct H as (m & s & F & Q & S0 & Es). eexists m, _, _, s, s. split; [exact F|]. split; [exact Q|].
    split; [reflexivity|]. now rewrite Dv, Es.
Qed.

(** So the normalised deviation is zero before any lesson, and strictly between zero
    and one afterwards. *)
Theorem C94_deviation (h : list event) (x y p : R) (t : Z) (mean : R * R) (dev : R) :
  columns_agree gf gc -> query matern_regressor gc (told gf h) x y p t = Some (mean, dev) ->
  (lessons gf (since_reset h []) = [] -> dev = 0) /\ (lessons gf (since_reset h []) <> [] -> 0 < dev < 1).
Proof.
  intros Hc H. destruct (C37_recent_exists t (since_reset h [])) as (rec & Hr).
  apply (C94_belief h x y p t mean dev rec Hc Hr) in H. destruct H as (f & _ & [(E & _ & ->)|(N & w & B & _ & ->)]).
  - split; [reflexivity|]. intro C. now elim C.
  - assert (N' : lessons gf rec <> []) by (intro C; apply N; now rewrite C).
    assert (K : predicts (lessons gf rec) (mkLoc x y p (IZR t / 1000000))
       (estimate w (map (fun m => fst (snd m)) (lessons gf rec)), estimate w (map (fun m => snd (snd m)) (lessons gf rec)))
       (error_of (map fst (lessons gf rec)) (mkLoc x y p (IZR t / 1000000)) w))
      by (apply predicts_best; split; [exact N'|]; exists w; auto).
    destruct (C94_bounds _ _ _ _ K) as (_ & U). pose proof (error_positive _ (mkLoc x y p (IZR t / 1000000)) w (proj1 B)) as P.
    split; [|intros _; unfold Rdiv; split; lra].
    intro C. exfalso. apply N'. clear - C Hr. revert C Hr. generalize (since_reset h []). intros ms C Hr.
    induction Hr as [|m ms rec' _ _ IH|m ms rec' _ _ IH]; [reflexivity| |]; unfold lessons in *; cbn [flat_map] in *;
      destruct (lesson gf m); try discriminate; cbn [app] in *; auto.
Qed.
End Belief.
Print Assumptions C94_best.
Print Assumptions C94_fits.
Print Assumptions C94_total.
Print Assumptions C94_order.
Print Assumptions C94_more.
Print Assumptions C94_bounds.
Print Assumptions C94_one.
Print Assumptions C94_measured.
Print Assumptions C94_far.
Print Assumptions C94_linear.
Print Assumptions C94_belief.
Print Assumptions C94_deviation.

(** Two measurements at the same place and a third 357 km further east and 326 Pa higher:
    training succeeds; at the common place the variance of the first two alone is exactly
    0.648 / 25.97, and the third only lowers it.  A single measurement of an error of
    (13.01, -26.02) m/s is believed as (12.96, -25.92) where it was taken. *)
Definition spot : loc := mkLoc 1000 (-2000) 9000 3600.
Definition elsewhere : loc := mkLoc 358000 (-2000) 9326 3600.
Definition two : list (loc * (R * R)) := [(spot, (2, 1)); (spot, (4, 3))].
Example C94_witness :
  (exists mean, predicts two spot mean (0.648 / 25.97)) /\
  (exists mean var, predicts ((elsewhere, (9, 9)) :: two) spot mean var /\ var <= 0.648 / 25.97) /\
  (exists var, predicts [(spot, (13.01, -26.02))] spot (12.96, -25.92) var) /\
  covariance (place_of spot) (place_of elsewhere) = 12.96 * exp (- sqrt 2).
Proof.
  destruct (C94_total two spot ltac:(discriminate)) as (mean & var & H).
  destruct (C94_total ((elsewhere, (9, 9)) :: two) spot ltac:(discriminate)) as (mean' & var' & H').
  assert (E : var = 0.648 / 25.97).
  { destruct (C94_bounds _ _ _ _ H) as (L & _).
    destruct (C94_measured two [] [(2, 1); (4, 3)] spot mean var ltac:(discriminate) (Permutation_refl _) H) as (U & _).
    cbn [length two] in L, U. change (INR 2) with 2 in L, U. lra. }
  split; [exists mean; now rewrite <- E|]. split; [exists mean', var'; split; [exact H'|]|].
  - rewrite <- E. refine (C94_more _ _ [(elsewhere, (9, 9))] _ _ _ _ _ _ H H').
    apply (Permutation_cons_append two (elsewhere, (9, 9))).
  - split.
    + eexists. apply C94_one. split; [|reflexivity]. rewrite covariance_kernel, kernel_self. cbn [fst snd]. f_equal; lra.
    + unfold covariance, separation, place_of, spot, elsewhere. cbn [lx ly lp lt east north pressure_at seconds_at].
      replace (((1000 - 358000) / 357000) ^ 2 + ((-2000 - -2000) / 357000) ^ 2 + ((9000 - 9326) / 326) ^ 2 +
        ((3600 - 3600) / (9.6 * 3600)) ^ 2) with 2 by (cbn [pow]; lra). lra.
Qed.
(** The belief object itself: one measurement in the static field, queried an hour later
    at another level. *)
Example C94_belief_witness : exists mean dev,
  query matern_regressor still_column (told still one_measurement) 0 0 9000 (3600 * 1000000) = Some (mean, dev) /\ 0 < dev < 1.
Proof.
  assert (Hc : columns_agree still still_column) by (intros x y ps e _; reflexivity).
  set (rec := [mkMeas 0 0 7000 0 12 1]).
  assert (Hr : recent_of (3600 * 1000000) (since_reset one_measurement []) rec)
    by (constructor; [unfold recent; cbn; lia|constructor]).
  destruct (C94_best (map fst (lessons still rec)) (mkLoc 0 0 9000 (IZR (3600 * 1000000) / 1000000)) ltac:(discriminate)) as (w & B & _).
  eexists _, _. split.
  - apply (C94_belief still still_column one_measurement 0 0 9000 _ _ _ rec Hc Hr). eexists. split; [reflexivity|].
    right. split; [discriminate|]. exists w. split; [exact B|]. split; reflexivity.
  - apply (C94_deviation still still_column one_measurement 0 0 9000 (3600 * 1000000) (estimate w (map (fun m => fst (snd m)) (lessons still rec)) + u (static_forecast 9000),
                estimate w (map (fun m => snd (snd m)) (lessons still rec)) + v (static_forecast 9000)) _ Hc); [|discriminate].
    apply (C94_belief still still_column one_measurement 0 0 9000 _ _ _ rec Hc Hr). eexists. split; [reflexivity|].
    right. split; [discriminate|]. exists w. split; [exact B|]. split; reflexivity.
Qed.
