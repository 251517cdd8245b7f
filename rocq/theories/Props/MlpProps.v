(** Property C82: the MLP agent and the networks of the agents. *)
From Coq Require Import ZArith Reals List Bool Lia Lra Psatz.
From Verif Require Import Model.Num Model.Vae Model.Loading Model.Agents Model.Mlp.
From Verif Require Import Spec.VaeSpec Spec.LearningSpec.
From Verif Require Import Proofs.NumR Proofs.VaeProofs Proofs.VaeNetProofs Proofs.MlpProofs Props.LoadingProps.
Import ListNotations.
Open Scope R_scope.

(** Entry [i, j] of the kernel, and entry [j] of the bias, of the parameters Dense_k. *)
Definition weights_of (ps : network_params) : weights :=
  fun k => kernel (nth k (hidden_params ps ++ [final_params ps]) (mkDense (fun _ _ => 0) (fun _ => 0))).
Definition offsets_of (ps : network_params) : offsets :=
  fun k => bias (nth k (hidden_params ps ++ [final_params ps]) (mkDense (fun _ _ => 0) (fun _ => 0))).
Definition depth (ps : network_params) : nat := length (hidden_params ps).
(** The value the agent's network gives action [a] for an observation. *)
Definition agent_value (m : mlp_agent) (o : features) (a : nat) : R :=
  value_of (weights_of (ma_params m)) (offsets_of (ma_params m)) (depth (ma_params m)) (ma_inputs m) (ma_width m) o a.

(** ** The networks *)
Lemma network_value ps inputs width x a :
  apply_network ps inputs width x a
  = value_of (weights_of ps) (offsets_of ps) (depth ps) inputs width x a.
Proof. unfold apply_network. rewrite forward_value. reflexivity. Qed.

(** A network is a perceptron; a new agent's has num_layers - 1 rectified hidden layers
    (none, if num_layers is less than 1). *)
Theorem C82_network :
  (forall ps inputs width x a,
     apply_network ps inputs width x a
     = value_of (weights_of ps) (offsets_of ps) (depth ps) inputs width x a) /\
  (forall actions inputs layers units gamma lr initial,
     let m := new_mlp_agent actions inputs layers units gamma lr initial in
     Z.of_nat (depth (ma_params m)) = Z.max 0 (layers - 1) /\
     ma_mode m = TRAIN).
Proof.
  split; [intros; apply network_value|]. intros. cbn. split; [|reflexivity].
  unfold depth. cbn [hidden_params]. rewrite map_length, seq_length. unfold hidden_count. lia.
Qed.

(** The quantile network: the values of the actions are the means of their quantiles, so
    they lie between the least and the greatest of them; the probabilities of an action
    are positive and add up to 1; different actions read different outputs. *)
Theorem C82_quantiles : forall ps inputs width atoms x a, (0 < atoms)%nat ->
  quantile_q_values ps inputs width atoms x a * INR atoms
    = sum_below atoms (fun i => value_of (weights_of ps) (offsets_of ps) (depth ps) inputs width x (a * atoms + i)) /\
  (forall lo hi,
     (forall i, (i < atoms)%nat -> lo <= quantile_logits ps inputs width atoms x a i <= hi) ->
     lo <= quantile_q_values ps inputs width atoms x a <= hi) /\
  (forall i, (i < atoms)%nat -> 0 < quantile_probabilities ps inputs width atoms x a i <= 1) /\
  sum_below atoms (quantile_probabilities ps inputs width atoms x a) = 1.
Proof.
  intros ps inputs width atoms x a Ha.
  assert (N : 0 < INR atoms) by now apply lt_0_INR.
  assert (T : 0 < sumn atoms (fun k => exp (quantile_logits ps inputs width atoms x a k))).
  { destruct atoms; [lia|]. cbn [sumn].
    pose proof (exp_pos (quantile_logits ps inputs width (S atoms) x a atoms)).
    pose proof (sumn_nonneg atoms (fun k => exp (quantile_logits ps inputs width (S atoms) x a k))
      ltac:(intros; left; apply exp_pos)). lra. }
  split; [|split; [|split]].
  - unfold quantile_q_values. rewrite below_sumn. unfold Rdiv. rewrite Rmult_assoc, Rinv_l, Rmult_1_r by lra.
    apply sumn_ext. intros i _. unfold quantile_logits. apply network_value.
  - intros lo hi H. unfold quantile_q_values.
    pose proof (sumn_le atoms (fun _ => lo) _ (fun i Hi => proj1 (H i Hi))) as L.
    pose proof (sumn_le atoms _ (fun _ => hi) (fun i Hi => proj2 (H i Hi))) as U.
    rewrite sumn_const in L, U. split.
    + apply Rmult_le_reg_r with (INR atoms); [exact N|]. unfold Rdiv. rewrite Rmult_assoc, Rinv_l by lra. lra.
    + apply Rmult_le_reg_r with (INR atoms); [exact N|]. unfold Rdiv. rewrite Rmult_assoc, Rinv_l by lra. lra.
  - intros i Hi. unfold quantile_probabilities. split.
    + apply Rdiv_lt_0_compat; [apply exp_pos|exact T].
    + apply Rmult_le_reg_r with (sumn atoms (fun k => exp (quantile_logits ps inputs width atoms x a k))); [exact T|].
      unfold Rdiv. rewrite Rmult_assoc, Rinv_l by lra. rewrite Rmult_1_r, Rmult_1_l.
      apply (sumn_ge_term atoms (fun k => exp (quantile_logits ps inputs width atoms x a k)) i);
        [intros; left; apply exp_pos|exact Hi].
  - rewrite below_sumn. unfold quantile_probabilities, Rdiv. rewrite sumn_scale. apply Rinv_r. lra.
Qed.

(** ** Actions *)
Lemma argmax_first (f : nat -> R) n : first_best (S n) f (argmax (map f (seq 0 (S n)))).
Proof.
  assert (E : forall i, (i < S n)%nat -> nth i (map f (seq 0 (S n))) 0 = f i).
  { intros i Hi. rewrite (nth_indep _ 0 (f 0%nat)) by (rewrite map_length, seq_length; exact Hi).
    rewrite map_nth, seq_nth by exact Hi. reflexivity. }
  cbn [seq map argmax].
  destruct (argmax_from_spec (map f (seq 1 n)) (f 0%nat) 0 1) as [[-> A]|(j & -> & Hj & Hx & M & F)].
  - split; [lia|]. split; [|lia]. intros [|c] Hc; [lra|].
    specialize (A c). rewrite map_length, seq_length in A.
    specialize (E (S c) Hc). cbn [seq map nth] in E. rewrite E in A. apply A. lia.
  - rewrite map_length, seq_length in *.
    assert (Ej : nth j (map f (seq 1 n)) 0 = f (1 + j)%nat) by (apply (E (S j)); lia).
    rewrite Ej in *. split; [lia|]. split.
    + intros [|c] Hc; [lra|]. pose proof (E (S c) Hc) as Ec. cbn [seq map nth] in Ec. rewrite <- Ec. apply M. lia.
    + intros [|c] Hc; [exact Hx|]. pose proof (E (S c) ltac:(lia)) as Ec. cbn [seq map nth] in Ec.
      rewrite <- Ec. apply F. lia.
Qed.
Lemma select_first n inputs width ps x a : select_action n inputs width ps x = Some a ->
  first_best n (value_of (weights_of ps) (offsets_of ps) (depth ps) inputs width x) a.
Proof.
  destruct n as [|n]; [discriminate|]. unfold select_action. intro E. injection E as <-.
  destruct (argmax_first (apply_network ps inputs width x) n) as (A & B & C).
  split; [exact A|]. split.
  - intros c Hc. rewrite <- !network_value. now apply B.
  - intros c Hc. rewrite <- !network_value. now apply C.
Qed.
Lemma select_some n inputs width ps x : (0 < n)%nat -> exists a, select_action n inputs width ps x = Some a.
Proof. destruct n; [lia|]. intros _. eexists. reflexivity. Qed.

(** Every action returned is one of the environment's, the network (as it was before the
    step was learnt from) gives no action a higher value for the observation, and of the
    best actions it is the first.  An agent for at least one action always answers in
    evaluation mode, and in training mode once an episode has begun. *)
Theorem C82_greedy : forall m,
  (forall o m' a, mlp_begin_episode m o = Some (m', a) ->
     exists k, a = Z.of_nat k /\ first_best (ma_num_actions m) (agent_value m o) k) /\
  (forall r o m' a, mlp_step m r o = Some (m', a) ->
     exists k, a = Z.of_nat k /\ first_best (ma_num_actions m) (agent_value m o) k) /\
  ((0 < ma_num_actions m)%nat ->
     (forall o, mlp_begin_episode m o <> None) /\
     (forall r o, ma_mode m = EVAL \/ (exists o' m' a, mlp_begin_episode m' o' = Some (m, a)) -> mlp_step m r o <> None)).
Proof.
  intro m. split; [|split].
  - intros o m' a. unfold mlp_begin_episode. destruct select_action as [k|] eqn:E; [|discriminate].
    intro H. injection H as <- <-. exists k. split; [reflexivity|]. now apply select_first.
  - intros r o m' a. unfold mlp_step. destruct select_action as [k|] eqn:E; [|discriminate].
    match goal with |- match ?x with _ => _ end = _ -> _ => destruct x; [|discriminate] end.
    intro H. injection H as <- <-. exists k. split; [reflexivity|]. now apply select_first.
  - intro N. split.
    + intro o. unfold mlp_begin_episode. destruct (select_some _ (ma_inputs m) (ma_width m) (ma_params m) o N) as [a ->]. discriminate.
    + intros r o H. unfold mlp_step. destruct (select_some _ (ma_inputs m) (ma_width m) (ma_params m) o N) as [a ->].
      destruct (ma_mode m) eqn:M; [|discriminate].
      destruct H as [H|(o' & m' & a' & H)]; [congruence|].
      unfold mlp_begin_episode in H. destruct select_action; [|discriminate]. injection H as <- _. cbn. discriminate.
Qed.
Example C82_greedy_witness :
  let d := mkDense (fun _ _ => 0) (fun j => if Nat.eqb j 0 then 0 else 1) in
  let m := new_mlp_agent 3 2 1 5 (9 / 10) (1 / 1000) (fun _ => d) in
  exists m', mlp_begin_episode m (fun _ => 0) = Some (m', 1%Z).
Proof.
  cbn. unfold apply_network. cbn [hidden_params forward final_params]. unfold apply_dense.
  cbn [sumn kernel bias Nat.eqb argmax argmax_from].
  replace (0 + 0 * 0 + 0 * 0 + 0) with 0 by lra. replace (0 + 0 * 0 + 0 * 0 + 1) with 1 by lra.
  rewrite Rltb_true by lra. rewrite Rltb_false by lra. eexists. reflexivity.
Qed.

(** ** Evaluation *)
(** What an agent can be asked for between two changes of mode. *)
Inductive request := Begin (o : features) | Reward (r : R) (o : features) | End (r : R) (terminal : bool).
Definition ask (m : mlp_agent) (q : request) : option (mlp_agent * option Z) :=
  match q with
  | Begin o => match mlp_begin_episode m o with Some (m, a) => Some (m, Some a) | None => None end
  | Reward r o => match mlp_step m r o with Some (m, a) => Some (m, Some a) | None => None end
  | End r t => match mlp_end_episode m r t with Some m => Some (m, None) | None => None end
  end.
Fixpoint answers (m : mlp_agent) (l : list request) : option (mlp_agent * list (option Z)) :=
  match l with
  | [] => Some (m, [])
  | q :: l => match ask m q with
              | None => None
              | Some (m, a) => match answers m l with None => None | Some (m, al) => Some (m, a :: al) end
              end
  end.
(** In evaluation mode nothing is learnt, whatever the agent is asked for, and each action
    depends on the observation only: rewards, the order and the earlier observations do
    not matter. *)
Theorem C82_evaluation : forall m l, ma_mode m = EVAL -> (0 < ma_num_actions m)%nat ->
  exists m' al, answers m l = Some (m', al) /\
    Forall2 (fun q answer =>
      match q with
      | Begin o | Reward _ o =>
          exists k, answer = Some (Z.of_nat k) /\ first_best (ma_num_actions m) (agent_value m o) k
      | End _ _ => answer = None
      end) l al /\
    ma_params m' = ma_params m /\ ma_mode m' = EVAL /\
    (forall o, agent_value m' o = agent_value m o).
Proof.
  intros m l. revert m. induction l as [|q l IH]; intros m Hm N; cbn [answers].
  - exists m, []. auto.
  - assert (S : exists m1 a, ask m q = Some (m1, a) /\ match q with
         | Begin o | Reward _ o => exists k, a = Some (Z.of_nat k) /\ first_best (ma_num_actions m) (agent_value m o) k
         | End _ _ => a = None end /\ ma_params m1 = ma_params m /\ ma_mode m1 = EVAL /\
         ma_num_actions m1 = ma_num_actions m /\ ma_inputs m1 = ma_inputs m /\ ma_width m1 = ma_width m).
    { destruct q as [o|r o|r t]; cbn [ask].
      - unfold mlp_begin_episode. destruct (select_some _ (ma_inputs m) (ma_width m) (ma_params m) o N) as [a E].
        rewrite E. eexists. eexists. split; [reflexivity|]. split; [|cbn; repeat split; auto].
        exists a. split; [reflexivity|]. now apply select_first.
      - unfold mlp_step. destruct (select_some _ (ma_inputs m) (ma_width m) (ma_params m) o N) as [a E].
        rewrite E, Hm. eexists. eexists. split; [reflexivity|]. split; [|cbn; repeat split; auto].
        exists a. split; [reflexivity|]. now apply select_first.
      - cbn. exists m, None. repeat split; auto. }
    destruct S as (m1 & a & -> & Ha & P1 & M1 & N1 & I1 & W1).
    assert (V1 : forall o, agent_value m1 o = agent_value m o) by (intro o; unfold agent_value; now rewrite P1, I1, W1).
    destruct (IH m1 M1 ltac:(now rewrite N1)) as (m' & al & -> & F & P' & M' & V).
    exists m', (a :: al). split; [reflexivity|]. split; [|split; [congruence|split; [exact M'|]]].
    + constructor; [exact Ha|]. clear - F V1 N1. induction F as [|q' a' l al H F IF]; constructor; [|exact IF].
      destruct q' as [o|r o|r t]; [| |exact H]; rewrite V1, N1 in H; exact H.
    + intro o. rewrite V. apply V1.
Qed.

(** ** Training *)
Definition unit_direction (dw : weights) (db : offsets) (h : nat) : list dense * dense :=
  (map (fun k => mkDense (dw k) (db k)) (seq 0 h), mkDense (dw h) (db h)).
Lemma direction_nth dw db h k : (k <= h)%nat ->
  nth k (fst (unit_direction dw db h) ++ [snd (unit_direction dw db h)]) nodense = mkDense (dw k) (db k).
Proof.
  intro H. cbn [unit_direction fst snd].
  assert (E : map (fun k => mkDense (dw k) (db k)) (seq 0 h) ++ [mkDense (dw h) (db h)]
              = map (fun k => mkDense (dw k) (db k)) (seq 0 (S h))).
  { rewrite seq_S, map_app. reflexivity. }
  rewrite E. rewrite (nth_indep _ _ (mkDense (dw 0%nat) (db 0%nat))) by (rewrite map_length, seq_length; lia).
  rewrite (map_nth (fun k => mkDense (dw k) (db k))), seq_nth by lia. reflexivity.
Qed.
Lemma sum_upto h w b w' b' inputs width x : 
  (forall k i j, (k <= h)%nat -> w k i j = w' k i j) -> (forall k j, (k <= h)%nat -> b k j = b' k j) ->
  forall j, sum_of w b inputs width x h j = sum_of w' b' inputs width x h j.
Proof.
  intros Hw Hb.
  assert (U : forall k, (k <= h)%nat -> forall j, unit_of w b inputs width x k j = unit_of w' b' inputs width x k j).
  { induction k; intros Hk j; cbn [unit_of]; [reflexivity|]. rewrite Hb by lia. f_equal. f_equal.
    rewrite (weighted_ext_w _ _ (fun i => w' k i j)) by (intro; apply Hw; lia). apply weighted_ext. apply IHk. lia. }
  intro j. unfold sum_of. rewrite Hb by lia. f_equal.
  rewrite (weighted_ext_w _ _ (fun i => w' h i j)) by (intro; apply Hw; lia). apply weighted_ext. apply U. lia.
Qed.
Lemma product_upto h n w a x y u v u' v' :
  (forall k i j, (k <= h)%nat -> u k i j = u' k i j) -> (forall k j, (k <= h)%nat -> v k j = v' k j) ->
  scalar_product h n w a x y u v = scalar_product h n w a x y u' v'.
Proof.
  intros Hx Hy. rewrite !product_sumn. apply sumn_ext. intros k Hk. unfold ddot. cbn [kernel bias]. f_equal.
  - apply sumn_ext. intros i _. apply sumn_ext. intros. rewrite Hx by lia. reflexivity.
  - apply sumn_ext. intros. rewrite Hy by lia. reflexivity.
Qed.

Lemma gradient_length ps inputs width n x ct : length (hidden_params (gradient ps inputs width n x ct)) = depth ps.
Proof.
  unfold gradient, depth. destruct ps as [hs out]. cbn [hidden_params final_params].
  enough (H : forall hs inputs x, length (fst (fst (backward hs out inputs width n x ct))) = length hs).
  { specialize (H hs inputs x). destruct backward as [[gs go] dx]. exact H. }
  induction hs0 as [|d l IH]; intros i y; cbn [backward]; [reflexivity|].
  specialize (IH width (fun j => relu (apply_dense d i y j))).
  destruct (backward l out width width n (fun j => relu (apply_dense d i y j)) ct) as [[gs go] dh]. cbn in *. now rewrite IH.
Qed.

(** The derivative of the value of action [a], times a constant. *)
Lemma gradient_value ps inputs width n x a c dw db : (a < n)%nat ->
  off_the_kinks (weights_of ps) (offsets_of ps) (depth ps) inputs width x ->
  let g := gradient ps inputs width n x (at_index a c) in
  derivable_pt_lim
    (fun t => c * value_of (fun k i j => weights_of ps k i j + t * dw k i j)
                     (fun k j => offsets_of ps k j + t * db k j) (depth ps) inputs width x a) 0
    (scalar_product (depth ps) inputs width n (weights_of g) (offsets_of g) dw db).
Proof.
  intros Ha K g. destruct ps as [hs out]. unfold depth in *. cbn [hidden_params] in *.
  pose proof (smooth_kinks hs out inputs width x K) as S.
  pose proof (backward_deriv hs (fst (unit_direction dw db (length hs))) out (snd (unit_direction dw db (length hs)))
    inputs width n (fun _ => x) x (fun _ => 0) (at_index a c)) as B.
  subst g. unfold gradient. cbn [hidden_params final_params].
  destruct (backward hs out inputs width n x (at_index a c)) as [[gs go] dx].
  assert (L : length (fst (unit_direction dw db (length hs))) = length hs).
  { cbn [unit_direction fst]. now rewrite map_length, seq_length. }
  destruct B as [Lg B]; [exact L|reflexivity|intros; apply dl_const|exact S|].
  eapply dl_eq.
  2: eapply dl_ext; [|exact B].
  - rewrite (sumn_ext inputs _ (fun _ => 0)) by (intros; lra). rewrite sumn_const.
    rewrite pdot_product by (rewrite L, Lg; reflexivity). rewrite Lg.
    rewrite (product_upto _ _ _ _ _ _ _ _ dw db).
    + unfold weights_of, offsets_of. cbn [hidden_params final_params]. fold nodense. fold (w_of (gs ++ [go])) (b_of (gs ++ [go])). lra.
    + intros k i j Hk. unfold w_of. rewrite direction_nth by exact Hk. reflexivity.
    + intros k j Hk. unfold b_of. rewrite direction_nth by exact Hk. reflexivity.
  - intro t. cbn beta. rewrite sumn_at by exact Ha. f_equal.
    rewrite forward_value. rewrite layers_add_length by exact L. unfold value_of. apply sum_upto.
    + intros k i j Hk. rewrite w_of_add by exact L. unfold w_of at 2. rewrite direction_nth by exact Hk. reflexivity.
    + intros k j Hk. rewrite b_of_add by exact L. unfold b_of at 2. rewrite direction_nth by exact Hk. reflexivity.
Qed.

Lemma weights_add p q c k i j : length (hidden_params q) = length (hidden_params p) ->
  weights_of (params_add p q c) k i j = weights_of p k i j + c * weights_of q k i j.
Proof. intro L. apply (w_of_add _ _ _ _ c k i j L). Qed.
Lemma offsets_add p q c k j : length (hidden_params q) = length (hidden_params p) ->
  offsets_of (params_add p q c) k j = offsets_of p k j + c * offsets_of q k j.
Proof. intro L. apply (b_of_add _ _ _ _ c k j L). Qed.
Lemma depth_add p q c : length (hidden_params q) = length (hidden_params p) -> depth (params_add p q c) = depth p.
Proof. intro L. unfold depth. cbn. now apply layers_add_length. Qed.

Section Step.
Context (n inputs width : nat) (s : features) (a : nat) (r : R) (o : features) (a' : nat) (gamma : R) (ps : network_params).
Let G := loss_gradient n inputs width s a r o a' gamma ps.
Let v x c := value_of (weights_of ps) (offsets_of ps) (depth ps) inputs width x c.
Let error := v s a - (r + gamma * v o a').

Lemma loss_depth : length (hidden_params G) = depth ps.
Proof.
  unfold G, loss_gradient. cbn. rewrite layers_add_length; [apply gradient_length|now rewrite !gradient_length].
Qed.
Lemma loss_is_gradient : (a < n)%nat -> (a' < n)%nat ->
  off_the_kinks (weights_of ps) (offsets_of ps) (depth ps) inputs width s ->
  off_the_kinks (weights_of ps) (offsets_of ps) (depth ps) inputs width o ->
  is_gradient (depth ps) inputs width n
    (fun w b => squared_error (value_of w b (depth ps) inputs width s a) r gamma (value_of w b (depth ps) inputs width o a'))
    (weights_of ps) (offsets_of ps) (weights_of G) (offsets_of G).
Proof.
  intros Ha Ha' Ks Ko dw db.
  pose proof (gradient_value ps inputs width n s a (2 * error) dw db Ha Ks) as Ds.
  pose proof (gradient_value ps inputs width n o a' (- (2 * error) * gamma) dw db Ha' Ko) as Do.
  cbv zeta in Ds, Do.
  set (vs := fun t => value_of (fun k i j => weights_of ps k i j + t * dw k i j)
                     (fun k j => offsets_of ps k j + t * db k j) (depth ps) inputs width s a) in *.
  set (vo := fun t => value_of (fun k i j => weights_of ps k i j + t * dw k i j)
                     (fun k j => offsets_of ps k j + t * db k j) (depth ps) inputs width o a') in *.
  assert (V0 : vs 0 = v s a /\ vo 0 = v o a').
  { unfold vs, vo, v, value_of. split; apply sum_ext; intros; lra || reflexivity. }
  (* derivatives of the two values themselves *)
  pose proof (gradient_value ps inputs width n s a 1 dw db Ha Ks) as D1.
  pose proof (gradient_value ps inputs width n o a' 1 dw db Ha' Ko) as D2. cbv zeta in D1, D2.
  fold vs in D1. fold vo in D2.
  assert (D1' : derivable_pt_lim vs 0 (scalar_product (depth ps) inputs width n
     (weights_of (gradient ps inputs width n s (at_index a 1))) (offsets_of (gradient ps inputs width n s (at_index a 1))) dw db)).
  { eapply dl_ext; [|exact D1]. intro t. unfold vs. lra. }
  assert (D2' : derivable_pt_lim vo 0 (scalar_product (depth ps) inputs width n
     (weights_of (gradient ps inputs width n o (at_index a' 1))) (offsets_of (gradient ps inputs width n o (at_index a' 1))) dw db)).
  { eapply dl_ext; [|exact D2]. intro t. unfold vo. lra. }
  set (l1 := scalar_product _ _ _ _ _ _ dw db) in D1'. set (l2 := scalar_product _ _ _ _ _ _ dw db) in D2'.
  assert (E1 : scalar_product (depth ps) inputs width n
     (weights_of (gradient ps inputs width n s (at_index a (2 * error))))
     (offsets_of (gradient ps inputs width n s (at_index a (2 * error)))) dw db = 2 * error * l1).
  { eapply uniqueness_limite; [exact Ds|]. now apply dl_scale. }
  assert (E2 : scalar_product (depth ps) inputs width n
     (weights_of (gradient ps inputs width n o (at_index a' (- (2 * error) * gamma))))
     (offsets_of (gradient ps inputs width n o (at_index a' (- (2 * error) * gamma)))) dw db = - (2 * error) * gamma * l2).
  { eapply uniqueness_limite; [exact Do|]. now apply dl_scale. }
  assert (EG : scalar_product (depth ps) inputs width n (weights_of G) (offsets_of G) dw db
               = 2 * error * l1 + - (2 * error) * gamma * l2).
  { unfold G, loss_gradient. rewrite !network_value. fold (v s a) (v o a') error.
    rewrite (product_ext _ _ _ _ _ _
      (fun k i j => weights_of (gradient ps inputs width n s (at_index a (2 * error))) k i j
                    + 1 * weights_of (gradient ps inputs width n o (at_index a' (- (2 * error) * gamma))) k i j)
      (fun k j => offsets_of (gradient ps inputs width n s (at_index a (2 * error))) k j
                    + 1 * offsets_of (gradient ps inputs width n o (at_index a' (- (2 * error) * gamma))) k j)).
    - rewrite product_add, E1, E2. lra.
    - intros. apply weights_add. now rewrite !gradient_length.
    - intros. apply offsets_add. now rewrite !gradient_length. }
  assert (DL : derivable_pt_lim (fun t => (vs t + - r + - gamma * vo t) * (vs t + - r + - gamma * vo t)) 0
     ((l1 + 0 + - gamma * l2) * (vs 0 + - r + - gamma * vo 0) + (vs 0 + - r + - gamma * vo 0) * (l1 + 0 + - gamma * l2))).
  { assert (D : derivable_pt_lim (fun t => vs t + - r + - gamma * vo t) 0 (l1 + 0 + - gamma * l2)).
    { apply (dl_add (fun t => vs t + - r) (fun t => - gamma * vo t)); [|now apply dl_scale].
      apply (dl_add vs (fun _ => - r)); [exact D1'|apply dl_const]. }
    exact (dl_mul _ _ _ _ _ D D). }
  eapply dl_eq; [|eapply dl_ext; [|exact DL]].
  - rewrite EG. destruct V0 as [-> ->]. unfold error. lra.
  - intro t. cbn beta. unfold squared_error. fold (vs t) (vo t). lra.
Qed.
End Step.

(** The loss function of train is the squared error of the value of an observation and an
    action against the reward plus the discounted value of the next, and what train
    differentiates it to is its gradient. *)
Theorem C82_loss : forall n inputs width s a r o a' gamma ps,
  loss_fn inputs width s a r o a' gamma ps
  = squared_error (apply_network ps inputs width s a) r gamma (apply_network ps inputs width o a') /\
  ((a < n)%nat -> (a' < n)%nat ->
   off_the_kinks (weights_of ps) (offsets_of ps) (depth ps) inputs width s ->
   off_the_kinks (weights_of ps) (offsets_of ps) (depth ps) inputs width o ->
   is_gradient (depth ps) inputs width n
     (fun w b => squared_error (value_of w b (depth ps) inputs width s a) r gamma (value_of w b (depth ps) inputs width o a'))
     (weights_of ps) (offsets_of ps)
     (weights_of (loss_gradient n inputs width s a r o a' gamma ps))
     (offsets_of (loss_gradient n inputs width s a r o a' gamma ps))).
Proof. intros. split; [reflexivity|]. intros. now apply loss_is_gradient. Qed.
Print Assumptions C82_loss.

(** A training step is a step of gradient descent on the squared error of the value of
    the last observation and action, against the reward plus the discounted value of the
    new observation and the action returned for it: all parameters move by the learning
    rate times their partial derivatives (wherever max(0, .) has one), and the target
    counts as a function of the parameters. *)
Theorem C82_training_step : forall m r o m' a s last,
  ma_mode m = TRAIN -> ma_last m = Some (s, last) -> (last < ma_num_actions m)%nat ->
  mlp_step m r o = Some (m', a) ->
  let w := weights_of (ma_params m) in
  let b := offsets_of (ma_params m) in
  let h := depth (ma_params m) in
  let n := ma_inputs m in
  let width := ma_width m in
  off_the_kinks w b h n width s -> off_the_kinks w b h n width o ->
  exists gw gb,
    is_gradient h n width (ma_num_actions m)
      (fun w b => squared_error (value_of w b h n width s last) r (ma_gamma m)
                    (value_of w b h n width o (Z.to_nat a))) w b gw gb /\
    (forall k i j, weights_of (ma_params m') k i j = w k i j - ma_learning_rate m * gw k i j) /\
    (forall k j, offsets_of (ma_params m') k j = b k j - ma_learning_rate m * gb k j) /\
    depth (ma_params m') = h /\
    ma_last m' = Some (o, Z.to_nat a) /\ ma_mode m' = TRAIN.
Proof.
  intros m r o m' a s last Hm Hl Hlast H w b h n width Ks Ko.
  unfold mlp_step in H. destruct select_action as [c|] eqn:Es; [|discriminate]. rewrite Hm, Hl in H.
  injection H as <- <-. rewrite Nat2Z.id. cbn [ma_params ma_last ma_mode].
  pose proof (select_first _ _ _ _ _ _ Es) as (Hc & _).
  exists (weights_of (loss_gradient (ma_num_actions m) n width s last r o c (ma_gamma m) (ma_params m))),
         (offsets_of (loss_gradient (ma_num_actions m) n width s last r o c (ma_gamma m) (ma_params m))).
  pose proof (loss_depth (ma_num_actions m) n width s last r o c (ma_gamma m) (ma_params m)) as L.
  split; [now apply loss_is_gradient|]. split; [|split; [|split]].
  - intros. unfold train. rewrite weights_add by exact L. unfold w, n, width. lra.
  - intros. unfold train. rewrite offsets_add by exact L. unfold b, n, width. lra.
  - unfold train. now apply depth_add.
  - auto.
Qed.

(** An agent with one hidden layer of one unit, whose sums are 1 and 2 for the two
    observations of the step. *)
Example C82_training_witness :
  let d := mkDense (fun _ _ => 1) (fun _ => 0) in
  let m := new_mlp_agent 3 1 2 1 (9 / 10) (1 / 1000) (fun _ => d) in
  exists m1 a m2 a', mlp_begin_episode m (fun _ => 1) = Some (m1, a) /\ mlp_step m1 0 (fun _ => 2) = Some (m2, a') /\
    ma_mode m1 = TRAIN /\ depth (ma_params m1) = 1%nat /\
    off_the_kinks (weights_of (ma_params m1)) (offsets_of (ma_params m1)) 1 1 1 (fun _ => 1) /\
    off_the_kinks (weights_of (ma_params m1)) (offsets_of (ma_params m1)) 1 1 1 (fun _ => 2).
Proof.
  intros d m. unfold m, new_mlp_agent, mlp_begin_episode, mlp_step. cbn [select_action ma_num_actions].
  eexists. eexists. eexists. eexists. split; [reflexivity|].
  cbn [ma_num_actions ma_mode ma_last ma_inputs ma_width ma_params]. split; [reflexivity|].
  split; [reflexivity|]. split; [reflexivity|]. split; intros [|k] [|j] Hk Hj; try lia.
  - unfold sum_of, weighted, total, weights_of, offsets_of, ma_params, d. change (hidden_count 2) with 1%nat. cbn [hidden_params final_params app nth seq map fold_right fan_in unit_of kernel bias]. lra.
  - unfold sum_of, weighted, total, weights_of, offsets_of, ma_params, d. change (hidden_count 2) with 1%nat. cbn [hidden_params final_params app nth seq map fold_right fan_in unit_of kernel bias]. lra.
Qed.

(** ** Descent *)
(** Wherever max(0, .) has derivatives and the gradient is not zero, a training step with
    a small enough learning rate makes the squared error of its transition smaller. *)
Theorem C82_descent : forall n inputs width gamma ps s last r o gw gb,
  let agent lr := mkMlpAgent n inputs width gamma lr ps (Some (s, last)) TRAIN in
  let w := weights_of ps in
  let b := offsets_of ps in
  let h := depth ps in
  forall a, (exists lr m', mlp_step (agent lr) r o = Some (m', a)) -> (last < n)%nat ->
  off_the_kinks w b h inputs width s -> off_the_kinks w b h inputs width o ->
  is_gradient h inputs width n
    (fun w b => squared_error (value_of w b h inputs width s last) r gamma (value_of w b h inputs width o (Z.to_nat a)))
    w b gw gb ->
  0 < scalar_product h inputs width n gw gb gw gb ->
  exists lr0, 0 < lr0 /\ forall lr, 0 < lr < lr0 ->
    exists m', mlp_step (agent lr) r o = Some (m', a) /\
      squared_error (agent_value m' s last) r gamma (agent_value m' o (Z.to_nat a))
      < squared_error (agent_value (agent lr) s last) r gamma (agent_value (agent lr) o (Z.to_nat a)).
Proof.
  intros n inputs width gamma ps s last r o gw gb agent w b h a (lr1 & m1 & H1) Hlast Ks Ko HG Pos.
  assert (E : exists c, a = Z.of_nat c /\ (c < n)%nat /\ forall lr, exists m', mlp_step (agent lr) r o = Some (m', a) /\
     ma_params m' = train n inputs width lr s last r o c gamma ps /\ ma_inputs m' = inputs /\ ma_width m' = width).
  { unfold mlp_step, agent in *. cbn [ma_num_actions ma_inputs ma_width ma_params ma_mode ma_last ma_gamma ma_learning_rate] in *.
    destruct select_action as [c|] eqn:Es; [|discriminate]. injection H1 as _ <-. exists c. split; [reflexivity|].
    pose proof (select_first _ _ _ _ _ _ Es) as (Hc & _). split; [exact Hc|].
    intro lr. eexists. split; [reflexivity|]. cbn. repeat split. }
  destruct E as (c & -> & Hc & E). rewrite Nat2Z.id in *.
  set (G := loss_gradient n inputs width s last r o c gamma ps) in *.
  pose proof (loss_depth n inputs width s last r o c gamma ps) as L. fold G in L.
  pose proof (loss_is_gradient n inputs width s last r o c gamma ps Hlast Hc Ks Ko) as HG'. fold G in HG'.
  fold h w b in HG'.
  (* the descent direction *)
  set (loss := fun w b => squared_error (value_of w b h inputs width s last) r gamma (value_of w b h inputs width o c)) in *.
  set (dw := fun k i j => - weights_of G k i j). set (db := fun k j => - offsets_of G k j).
  assert (D : derivable_pt_lim (fun t => loss (fun k i j => w k i j + t * dw k i j) (fun k j => b k j + t * db k j)) 0
     (scalar_product h inputs width n (weights_of G) (offsets_of G) dw db)) by apply HG'.
  assert (Eq : forall u v, scalar_product h inputs width n gw gb u v
                           = scalar_product h inputs width n (weights_of G) (offsets_of G) u v).
  { intros u v. eapply uniqueness_limite; [apply HG|apply HG']. }
  assert (N : scalar_product h inputs width n (weights_of G) (offsets_of G) dw db < 0).
  { rewrite scalar_sym. unfold dw, db.
    rewrite (product_ext _ _ _ _ _ _ (fun k i j => 0 + -1 * weights_of G k i j) (fun k j => 0 + -1 * offsets_of G k j))
      by (intros; lra).
    rewrite (product_add h inputs width n (fun _ _ _ => 0) (fun _ _ => 0)).
    assert (Z0 : forall u v, scalar_product h inputs width n (fun _ _ _ => 0) (fun _ _ => 0) u v = 0).
    { intros u v. rewrite product_sumn. rewrite (sumn_ext _ _ (fun _ => 0)); [rewrite sumn_const; lra|].
      intros k _. unfold ddot. cbn [kernel bias].
      rewrite (sumn_ext _ _ (fun _ => 0)), (sumn_ext (fan_out h width n k) _ (fun _ => 0)).
      - rewrite !sumn_const. lra.
      - intros; lra.
      - intros. rewrite (sumn_ext _ _ (fun _ => 0)) by (intros; lra). rewrite sumn_const. lra. }
    rewrite Z0. rewrite <- Eq, scalar_sym, <- Eq. lra. }
  set (l := scalar_product _ _ _ _ _ _ dw db) in *.
  destruct (D (- l / 2) ltac:(lra)) as [d Hd]. exists d. split; [apply cond_pos|].
  intros lr Hlr. destruct (E lr) as (m' & Hm' & Pm & Im & Wm). exists m'. split; [exact Hm'|].
  specialize (Hd lr ltac:(lra) ltac:(rewrite Rabs_right; lra)). rewrite Rplus_0_l in Hd.
  apply Rabs_def2 in Hd. destruct Hd as [Hd _].
  set (f := fun t => loss (fun k i j => w k i j + t * dw k i j) (fun k j => b k j + t * db k j)) in *.
  assert (F0 : f 0 = squared_error (agent_value (agent lr) s last) r gamma (agent_value (agent lr) o c)).
  { unfold f, loss, agent_value, agent. cbn [ma_params ma_inputs ma_width]. unfold value_of. f_equal;
      apply sum_ext; intros; unfold w, b; lra || reflexivity. }
  assert (F1 : f lr = squared_error (agent_value m' s last) r gamma (agent_value m' o c)).
  { unfold f, loss, agent_value. rewrite Pm, Im, Wm. unfold train. fold G. rewrite depth_add by exact L. fold h.
    unfold value_of. f_equal; apply sum_ext; intros; try reflexivity.
    - rewrite weights_add by exact L. unfold w, dw. lra.
    - rewrite offsets_add by exact L. unfold b, db. lra.
    - rewrite weights_add by exact L. unfold w, dw. lra.
    - rewrite offsets_add by exact L. unfold b, db. lra. }
  rewrite <- F0, <- F1.
  change ((f lr - f 0) / lr - l < - l / 2) in Hd. clearbody f l. clear - Hd N Hlr.
  assert (Q : (f lr - f 0) / lr < l / 2) by lra.
  apply Rmult_lt_compat_r with (r := lr) in Q; [|lra]. unfold Rdiv at 1 in Q. rewrite Rmult_assoc, Rinv_l in Q by lra.
  assert (l / 2 * lr < 0) by nra. lra.
Qed.

(** ** The target *)
(** The last layer's bias, exactly (also at the kinks): the entry of the last action moves
    against the error, and, unless it is the same action, the entry of the next action
    moves with it, so that the target moves towards the value. *)
Lemma final_bias hs : forall out inputs width n x ct,
  snd (fst (backward hs out inputs width n x ct)) = mkDense (kernel (snd (fst (backward hs out inputs width n x ct)))) ct.
Proof.
  induction hs as [|d hs IH]; intros; cbn [backward]; [reflexivity|].
  specialize (IH out width width n (fun j => relu (apply_dense d inputs x j)) ct).
  destruct (backward hs out width width n (fun j => relu (apply_dense d inputs x j)) ct) as [[gs go] dh]. exact IH.
Qed.
Lemma gradient_bias ps inputs width n x ct j : offsets_of (gradient ps inputs width n x ct) (depth ps) j = ct j.
Proof.
  pose proof (gradient_length ps inputs width n x ct) as L. unfold offsets_of.
  rewrite <- L, app_nth2, Nat.sub_diag by lia. cbn [nth]. unfold gradient.
  pose proof (final_bias (hidden_params ps) (final_params ps) inputs width n x ct) as F.
  destruct backward as [[gs go] dx]. cbn in *. now rewrite F.
Qed.
Theorem C82_target_moves : forall m r o m' a s last,
  ma_mode m = TRAIN -> ma_last m = Some (s, last) -> mlp_step m r o = Some (m', a) ->
  let next := Z.to_nat a in
  let error := agent_value m s last - (r + ma_gamma m * agent_value m o next) in
  let bias_of m j := offsets_of (ma_params m) (depth (ma_params m)) j in
  forall j, bias_of m' j = bias_of m j
    - (if Nat.eqb j last then 2 * ma_learning_rate m * error else 0)
    + (if Nat.eqb j next then 2 * ma_learning_rate m * ma_gamma m * error else 0).
Proof.
  intros m r o m' a s last Hm Hl H next error bias_of j.
  unfold mlp_step in H. destruct select_action as [c|] eqn:Es; [|discriminate]. rewrite Hm, Hl in H.
  injection H as <- <-. unfold bias_of. cbn [ma_params]. unfold next in *. rewrite Nat2Z.id in *. clear next.
  pose proof (loss_depth (ma_num_actions m) (ma_inputs m) (ma_width m) s last r o c (ma_gamma m) (ma_params m)) as L.
  unfold train. rewrite depth_add by exact L. rewrite offsets_add by exact L. unfold loss_gradient.
  rewrite offsets_add by now rewrite !gradient_length. rewrite !gradient_bias, !network_value.
  unfold error, agent_value, at_index. clear. rewrite ?Nat2Z.id.
  destruct (Nat.eqb j last), (Nat.eqb j c); lra.
Qed.
(** SARSA's update holds the target fixed: the value of the next action alone is not
    learnt from the reward.  This agent's is not like that. *)
Theorem C82_sarsa_refuted :
  exists m o0 r o m1 a0 m2 a1,
    (mlp_begin_episode m o0 = Some (m1, a0) /\ mlp_step m1 r o = Some (m2, a1)) /\
    a0 <> a1 /\ ma_mode m = TRAIN /\ ma_gamma m = 9 / 10 /\ ma_learning_rate m = 1 / 1000 /\
    agent_value m1 o (Z.to_nat a1) < agent_value m2 o (Z.to_nat a1).
Proof.
  set (d := mkDense (fun _ j => if Nat.eqb j 0 then 1 else -1) (fun _ => 0)).
  exists (new_mlp_agent 2 1 1 5 (9 / 10) (1 / 1000) (fun _ => d)), (fun _ => 1), 0, (fun _ => -1).
  assert (S1 : select_action 2 1 5 (mkNetwork [] d) (fun _ => 1) = Some 0%nat).
  { unfold select_action. cbn [seq map argmax argmax_from]. unfold apply_network. cbn [forward hidden_params final_params]. unfold apply_dense, d. cbn [sumn kernel bias Nat.eqb]. rewrite Rltb_false by lra. reflexivity. }
  assert (S2 : select_action 2 1 5 (mkNetwork [] d) (fun _ => -1) = Some 1%nat).
  { unfold select_action. cbn [seq map argmax argmax_from]. unfold apply_network. cbn [forward hidden_params final_params]. unfold apply_dense, d. cbn [sumn kernel bias Nat.eqb]. rewrite Rltb_true by lra. reflexivity. }
  set (m := new_mlp_agent 2 1 1 5 (9 / 10) (1 / 1000) (fun _ => d)).
  set (m1 := mkMlpAgent 2 1 5 (9 / 10) (1 / 1000) (mkNetwork [] d) (Some ((fun _ => 1), 0%nat)) TRAIN).
  set (ps2 := train 2 1 5 (1 / 1000) (fun _ => 1) 0 0 (fun _ => -1) 1 (9 / 10) (mkNetwork [] d)).
  exists m1, 0%Z, (mkMlpAgent 2 1 5 (9 / 10) (1 / 1000) ps2 (Some ((fun _ => -1), 1%nat)) TRAIN), 1%Z.
  split; [split|].
  - unfold mlp_begin_episode. change (ma_params m) with (mkNetwork [] d). cbn [m new_mlp_agent ma_num_actions ma_inputs ma_width].
    rewrite S1. reflexivity.
  - unfold mlp_step. cbn [m1 ma_params ma_num_actions ma_inputs ma_width]. rewrite S2. reflexivity.
  - split; [discriminate|]. split; [reflexivity|]. split; [reflexivity|]. split; [reflexivity|].
    unfold agent_value. rewrite <- !network_value. unfold m1, ps2. cbn [ma_params ma_inputs ma_width]. change (Z.to_nat 1) with 1%nat.
    unfold train, loss_gradient, gradient, apply_network. cbn [hidden_params final_params backward params_add layers_add forward].
    unfold apply_dense, dense_add, at_index, d. cbn [sumn kernel bias Nat.eqb]. lra.
Qed.

(** With a single layer the error of the transition shrinks by an exact factor, so a
    training step never makes it worse if the learning rate times the squared difference
    of the two (discounted) feature vectors is at most 1. *)
Theorem C82_linear : forall m r o m' a s last,
  ma_mode m = TRAIN -> ma_last m = Some (s, last) -> (last < ma_num_actions m)%nat ->
  depth (ma_params m) = 0%nat -> mlp_step m r o = Some (m', a) ->
  let next := Z.to_nat a in
  let error m := agent_value m s last - (r + ma_gamma m * agent_value m o next) in
  let feature x c i j := if Nat.eqb j c then x i else 0 in
  error m' = error m * (1 - 2 * ma_learning_rate m *
    sum_below (ma_num_actions m) (fun j =>
      sum_below (ma_inputs m) (fun i => (feature s last i j - ma_gamma m * feature o next i j) ^ 2)
      + (feature (fun _ => 1) last 0%nat j - ma_gamma m * feature (fun _ => 1) next 0%nat j) ^ 2)).
Proof.
  intros m r o m' a s last Hm Hl Hlast Hd H next error feature.
  unfold mlp_step in H. destruct select_action as [c|] eqn:Es; [|discriminate]. rewrite Hm, Hl in H.
  injection H as <- <-. unfold next in *. rewrite Nat2Z.id in *. clear next.
  pose proof (select_first _ _ _ _ _ _ Es) as (Hc & _).
  unfold error, agent_value. cbn [ma_params ma_inputs ma_width ma_gamma]. rewrite <- !network_value.
  destruct m as [n inp wid gamma lr ps lst mode]. cbn [ma_num_actions ma_inputs ma_width ma_gamma ma_learning_rate ma_params ma_last ma_mode] in *.
  destruct ps as [hs out]. destruct hs; [|discriminate]. clear Es Hl Hm.
  unfold train, loss_gradient. unfold apply_network. cbn [hidden_params final_params forward].
  set (e := apply_dense out inp s last - (r + gamma * apply_dense out inp o c)).
  unfold gradient. cbn [hidden_params final_params backward params_add layers_add forward].
  (* the change of a value *)
  assert (Chg : forall x j, apply_dense (dense_add out (dense_add
        (mkDense (fun i j => s i * at_index last (2 * e) j) (at_index last (2 * e)))
        (mkDense (fun i j => o i * at_index c (- (2 * e) * gamma) j) (at_index c (- (2 * e) * gamma))) 1) (- lr)) inp x j
      = apply_dense out inp x j - 2 * lr * e * (sumn inp (fun i => x i * (feature s last i j - gamma * feature o c i j))
          + (feature (fun _ => 1) last 0%nat j - gamma * feature (fun _ => 1) c 0%nat j))).
  { intros x j. unfold apply_dense, dense_add. cbn [kernel bias].
    rewrite (sumn_ext inp _ (fun i => x i * kernel out i j + (- 2 * lr * e) * (x i * (feature s last i j - gamma * feature o c i j)))).
    2:{ intros i _. unfold feature, at_index. destruct (Nat.eqb j last), (Nat.eqb j c); lra. }
    rewrite sumn_plus, sumn_left. unfold feature, at_index. destruct (Nat.eqb j last), (Nat.eqb j c); lra. }
  rewrite !Chg. fold e.
  assert (S1 : sum_below n (fun j =>
      sum_below inp (fun i => (feature s last i j - gamma * feature o c i j) ^ 2)
      + (feature (fun _ => 1) last 0%nat j - gamma * feature (fun _ => 1) c 0%nat j) ^ 2)
    = (sumn inp (fun i => s i * (feature s last i last - gamma * feature o c i last))
        + (feature (fun _ => 1) last 0%nat last - gamma * feature (fun _ => 1) c 0%nat last))
      - gamma * (sumn inp (fun i => o i * (feature s last i c - gamma * feature o c i c))
        + (feature (fun _ => 1) last 0%nat c - gamma * feature (fun _ => 1) c 0%nat c))).
  { rewrite below_sumn.
    rewrite (sumn_ext n _ (fun j => at_index last 1 j * (sumn inp (fun i => s i * (feature s last i j - gamma * feature o c i j))
          + (feature (fun _ => 1) last 0%nat j - gamma * feature (fun _ => 1) c 0%nat j))
        + at_index c (- gamma) j * (sumn inp (fun i => o i * (feature s last i j - gamma * feature o c i j))
          + (feature (fun _ => 1) last 0%nat j - gamma * feature (fun _ => 1) c 0%nat j)))).
    - rewrite sumn_plus, !sumn_at by assumption. lra.
    - intros j _. rewrite below_sumn.
      rewrite (sumn_ext inp _ (fun i => at_index last 1 j * (s i * (feature s last i j - gamma * feature o c i j))
         + at_index c (- gamma) j * (o i * (feature s last i j - gamma * feature o c i j)))).
      + rewrite sumn_plus, !sumn_left. unfold feature, at_index. destruct (Nat.eqb j last), (Nat.eqb j c); lra.
      + intros i _. unfold feature, at_index. destruct (Nat.eqb j last), (Nat.eqb j c); lra. }
  rewrite S1, !Nat2Z.id. unfold e. ring.
Qed.

(** ** Histories *)
(** An episode: the first observation, then rewards with observations. *)
Fixpoint play (m : mlp_agent) (l : list (R * features)) : option (mlp_agent * list Z) :=
  match l with
  | [] => Some (m, [])
  | (r, o) :: l =>
      match mlp_step m r o with
      | None => None
      | Some (m, a) => match play m l with None => None | Some (m, al) => Some (m, a :: al) end
      end
  end.
Definition episode (m : mlp_agent) (o : features) (l : list (R * features)) (r : R) (terminal : bool)
  : option (mlp_agent * list Z) :=
  match mlp_begin_episode m o with
  | None => None
  | Some (m, a) =>
      match play m l with
      | None => None
      | Some (m, al) => match mlp_end_episode m r terminal with None => None | Some m => Some (m, a :: al) end
      end
  end.
(** The parameters after an episode come from the ones before by one training step for
    each pair of consecutive observations, in order, each with the actions executed; the
    action for an observation is chosen before the step into it is learnt from.  *)
Fixpoint learnt (n inputs width : nat) (lr gamma : R) (p : network_params) (s : features) (a : nat)
    (l : list (R * features)) (al : list nat) (p' : network_params) : Prop :=
  match l, al with
  | [], [] => p' = p
  | (r, o) :: l, c :: al =>
      first_best n (value_of (weights_of p) (offsets_of p) (depth p) inputs width o) c /\
      learnt n inputs width lr gamma (train n inputs width lr s a r o c gamma p) o c l al p'
  | _, _ => False
  end.
Theorem C82_history : forall m o l r terminal m' al,
  ma_mode m = TRAIN -> episode m o l r terminal = Some (m', al) ->
  exists a cs, al = map Z.of_nat (a :: cs) /\ first_best (ma_num_actions m) (agent_value m o) a /\
    learnt (ma_num_actions m) (ma_inputs m) (ma_width m) (ma_learning_rate m) (ma_gamma m) (ma_params m) o a l cs
      (ma_params m').
Proof.
  intros m o l r terminal m' al Hm. unfold episode, mlp_begin_episode.
  destruct select_action as [a|] eqn:Es; [|discriminate].
  pose proof (select_first _ _ _ _ _ _ Es) as Fa.
  set (m0 := mkMlpAgent _ _ _ _ _ _ _ _).
  destruct (play m0 l) as [[m1 cl]|] eqn:P; [|discriminate]. cbn [mlp_end_episode]. intro H. injection H as <- <-.
  assert (G : forall l m0 s a m1 cl, play m0 l = Some (m1, cl) -> ma_last m0 = Some (s, a) -> ma_mode m0 = TRAIN ->
    exists cs, cl = map Z.of_nat cs /\
      learnt (ma_num_actions m0) (ma_inputs m0) (ma_width m0) (ma_learning_rate m0) (ma_gamma m0) (ma_params m0) s a l cs
        (ma_params m1)).
  { clear. induction l as [|[r o] l IH]; intros m0 s a m1 cl; cbn [play].
    - intro H. injection H as <- <-. intros _ _. exists []. now split.
    - destruct (mlp_step m0 r o) as [[m2 c]|] eqn:St; [|discriminate].
      destruct (play m2 l) as [[m3 cl']|] eqn:P; [|discriminate]. intro H. injection H as <- <-. intros Hl Hm.
      unfold mlp_step in St. destruct select_action as [k|] eqn:Es; [|discriminate]. rewrite Hm, Hl in St.
      injection St as <- <-. destruct (IH _ o k _ _ P eq_refl eq_refl) as (cs & -> & L).
      exists (k :: cs). split; [reflexivity|]. cbn [learnt]. split; [now apply select_first|]. exact L. }
  destruct (G l m0 o a m1 cl P eq_refl Hm) as (cs & -> & L). exists a, cs. split; [reflexivity|]. split; [exact Fa|]. exact L.
Qed.
(** What the end of an episode is told (the reward of its last step, and whether it was
    terminal) has no effect: the last reward of every episode is never learnt from. *)
Theorem C82_last_reward : forall m o l r terminal r' terminal',
  episode m o l r terminal = episode m o l r' terminal'.
Proof. reflexivity. Qed.
(** set_mode decides which of the two it is from then on, and nothing else: an agent sent to
    evaluation keeps its parameters whatever it is asked, and answers as it would have
    before; sent back to training it learns from where it was, the last action included. *)
Theorem C82_set_mode : forall m mode,
  ma_mode (mlp_set_mode m mode) = mode /\
  ma_params (mlp_set_mode m mode) = ma_params m /\ ma_last (mlp_set_mode m mode) = ma_last m /\
  (forall o, agent_value (mlp_set_mode m mode) o = agent_value m o) /\
  (forall l m' al, answers (mlp_set_mode m EVAL) l = Some (m', al) -> (0 < ma_num_actions m)%nat ->
     ma_params m' = ma_params m) /\
  mlp_set_mode (mlp_set_mode m mode) (ma_mode m) = m.
Proof.
  intros m mode. repeat (split; [reflexivity|]). split; [|destruct m; reflexivity].
  intros l m' al E N. destruct (C82_evaluation (mlp_set_mode m EVAL) l eq_refl N) as (m2 & al2 & E2 & _ & Q & _).
  rewrite E in E2. injection E2 as -> _. exact Q.
Qed.

Print Assumptions C82_set_mode.
Print Assumptions C82_network.
Print Assumptions C82_quantiles.
Print Assumptions C82_greedy.
Print Assumptions C82_evaluation.
Print Assumptions C82_training_step.
Print Assumptions C82_descent.
Print Assumptions C82_target_moves.
Print Assumptions C82_sarsa_refuted.
Print Assumptions C82_linear.
Print Assumptions C82_history.
Print Assumptions C82_last_reward.
