(** Properties C57 (generated winds), C59 (training objective). *)
From Coq Require Import ZArith Reals List Bool Lia Lra Psatz.
From Verif Require Import Model.Num Model.WindField Model.Vae.
From Verif Require Import Spec.VaeSpec Spec.WindSpec.
From Verif Require Import Proofs.NumR Proofs.WindProofs Proofs.VaeProofs Props.WindProps.
Import ListNotations.
Open Scope R_scope.

(** ** C57 *)
(** On the decoder's array, with the axes named as in its code (the second one is x, the
    first one y), the wind is incompressible at every interior point of every slice,
    whatever the parameters and the latents. *)
Theorem C57_decoded_divergence : forall s ps n latents p t h i j,
  (S (S i) < latlng_slices s)%nat -> (S (S j) < latlng_slices s)%nat ->
  let w a b := decode s ps n latents a b p t in
  divergence h (u (w (S i) (S (S j)))) (u (w (S i) j)) (v (w (S (S i)) (S j))) (v (w i (S j))) = 0.
Proof.
  intros s ps n latents p t h i j Hi Hj. cbv zeta. unfold decode, decode_output, divergence.
  rewrite !wind_of_flow_value by lia. cbn [u v]. set (f := resized _ _).
  replace (S i + 2)%nat with (i + 3)%nat by lia. replace (S (S j) + 1)%nat with (j + 3)%nat by lia.
  replace (S (S i) + 1)%nat with (i + 3)%nat by lia. replace (S j + 2)%nat with (j + 3)%nat by lia.
  replace (S i)%nat with (i + 1)%nat by lia. replace (S j)%nat with (j + 1)%nat by lia.
  unfold Rdiv. ring.
Qed.

(** The wind is bounded by the spread of the perceptron's outputs. *)
Theorem C57_bounded : forall ps n latents lo hi,
  (forall q, (q < 4410)%nat -> lo <= decoder_mlp ps n latents q <= hi) ->
  forall i j p t, (i < 21)%nat -> (j < 21)%nat -> (p < 10)%nat -> (t < 9)%nat ->
  let w := decode default_shape ps n latents i j p t in
  Rabs (u w) <= (hi - lo) / 2 /\ Rabs (v w) <= (hi - lo) / 2.
Proof.
  intros ps n latents lo hi H i j p t Hi Hj Hp Ht. cbv zeta. unfold decode, decode_output.
  rewrite wind_of_flow_value by assumption. cbn [u v]. cbn [time_slices default_shape].
  set (z := decoder_mlp ps n latents) in *.
  assert (B : forall a b, (a < 23)%nat -> (b < 23)%nat ->
    lo <= resized default_shape (flow_fields default_shape z) a b (p * 9 + t) <= hi).
  { intros a b Ha Hb. unfold resized. apply resize_between; [unfold FLOW_FIELD_WIDTH; cbn; lia|cbn; lia|].
    intros a' Ha'. apply resize_between; [unfold FLOW_FIELD_WIDTH; cbn; lia|cbn; lia|].
    intros b' Hb'. unfold flow_fields. apply H. unfold FLOW_FIELD_WIDTH, num_flow_fields in *.
    cbn [pressure_slices time_slices default_shape] in *. lia. }
  split; apply Rabs_le.
  - pose proof (B (i + 2)%nat (j + 1)%nat ltac:(lia) ltac:(lia)). pose proof (B i (j + 1)%nat ltac:(lia) ltac:(lia)). lra.
  - pose proof (B (i + 1)%nat (j + 2)%nat ltac:(lia) ltac:(lia)). pose proof (B (i + 1)%nat j ltac:(lia) ltac:(lia)). lra.
Qed.

(** *** The wind as queried *)
(** A stream function with a crease along the second axis. *)
Definition creased (q : nat) : R := Rabs (INR (q / 630) - 3).
Definition zero_dense : dense := mkDense (fun _ _ => 0) (fun _ => 0).
Definition creased_params : decoder_params :=
  mkParams [zero_dense; zero_dense; zero_dense] (mkDense (fun _ _ => 0) creased).

Lemma creased_output z q : decoder_mlp creased_params 64 z q = creased q.
Proof.
  unfold decoder_mlp, creased_params, apply_dense. cbn [hidden_layers hidden output_layer kernel bias].
  rewrite (sumn_ext _ _ (fun _ => 0)) by (intros; apply Rmult_0_r). rewrite sumn_const. lra.
Qed.

Lemma creased_flow z i j : (i < 23)%nat -> (j < 23)%nat ->
  resized default_shape (flow_fields default_shape (decoder_mlp creased_params 64 z)) i j 0 =
  resize1 7 23 (fun a => Rabs (INR a - 3)) i.
Proof.
  intros Hi Hj. unfold resized. change (latlng_slices default_shape + 2)%nat with 23%nat.
  apply resize_ext. intros a Ha. apply resize_const; [unfold FLOW_FIELD_WIDTH; lia|exact Hj|].
  intros b Hb. unfold flow_fields. rewrite creased_output. unfold creased.
  unfold FLOW_FIELD_WIDTH in *. change (num_flow_fields default_shape) with 90%nat.
  replace (((a * 7 + b) * 90 + 0) / 630)%nat with a; [reflexivity|].
  apply (Nat.div_unique _ 630 a (b * 90)); lia.
Qed.

Ltac weights :=
  unfold resize1, resize_weight, triangle; cbn [sumn];
  repeat rewrite INR_IZR_INZ; cbn [Z.of_nat Pos.of_succ_nat Pos.succ];
  rewrite (Rmax_right (7 / 23) 1) by lra;
  repeat match goal with
  | |- context [Rabs ?x] => first [rewrite (Rabs_right x) by lra | rewrite (Rabs_left x) by lra]
  end;
  repeat match goal with
  | |- context [Rmax 0 ?x] => first [rewrite (Rmax_right 0 x) by lra | rewrite (Rmax_left 0 x) by lra]
  end;
  field.

Lemma crease_9 : resize1 7 23 (fun a => Rabs (INR a - 3)) 9 = 14 / 23.
Proof. weights. Qed.
Lemma crease_11 : resize1 7 23 (fun a => Rabs (INR a - 3)) 11 = 0.
Proof. weights. Qed.
Lemma crease_13 : resize1 7 23 (fun a => Rabs (INR a - 3)) 13 = 14 / 23.
Proof. weights. Qed.

(** As queried through the wind field, where the first axis is x, the wind is not
    incompressible: here is a decoder, with the layers of the code, whose forecast
    around the station has a divergence, at 5000 Pa, when the episode starts. *)
Theorem C57_queried_refuted : exists ps, length (hidden ps) = 3%nat /\
  forall latents, exists east west north south,
    let forecast x y := grid_forecast default_shape (Some (decode default_shape ps 64 latents)) x y 5000 0 in
    forecast 50000 0 = Some east /\ forecast (-50000) 0 = Some west /\
    forecast 0 50000 = Some north /\ forecast 0 (-50000) = Some south /\
    divergence 50000 (u east) (u west) (v north) (v south) = 14 / 23 / 100000.
Proof.
  exists creased_params. split; [reflexivity|]. intro latents. cbv zeta.
  set (fd := decode default_shape creased_params 64 latents).
  destruct C35_environment_grid as (W & G1 & G2 & G3).
  assert (F : forall x y i j, (i < 21)%nat -> (j < 21)%nat -> x / 1000 = -500 + 50 * INR i -> y / 1000 = -500 + 50 * INR j ->
    exists w, grid_forecast default_shape (Some fd) x y 5000 0 = Some w /\
      u w = u (fd i j 0%nat 0%nat) /\ v w = v (fd i j 0%nat 0%nat)).
  { intros x y i j Hi Hj Ex Ey.
    destruct (grid_forecast_value default_shape fd x y 5000 0 W ltac:(lia)) as (w & _ & _ & _ & _ & E & _).
    exists w. split; [exact E|].
    assert (V : forall part, part = u \/ part = v -> part w = part (fd i j 0%nat 0%nat)).
    { intros part Hp. destruct (C35_exact_and_bounded default_shape fd x y 5000 0 w part W Hp E) as [Q _].
      apply Q; try assumption; cbn [latlng_slices pressure_slices time_slices default_shape]; try lia.
      - rewrite G1. exact Ex.
      - rewrite G1. exact Ey.
      - rewrite G2. cbn. lra.
      - rewrite G3. unfold hours. cbn. lra. }
    split; apply V; [now left|now right]. }
  destruct (F 50000 0 11%nat 10%nat) as (e & E1 & E2 & _); [lia|lia|cbn; lra|cbn; lra|].
  destruct (F (-50000) 0 9%nat 10%nat) as (w & E3 & E4 & _); [lia|lia|cbn; lra|cbn; lra|].
  destruct (F 0 50000 10%nat 11%nat) as (n & E5 & _ & E6); [lia|lia|cbn; lra|cbn; lra|].
  destruct (F 0 (-50000) 10%nat 9%nat) as (so & E7 & _ & E8); [lia|lia|cbn; lra|cbn; lra|].
  exists e, w, n, so. split; [exact E1|]. split; [exact E3|]. split; [exact E5|]. split; [exact E7|].
  rewrite E2, E4, E6, E8. unfold fd, decode, decode_output. rewrite !wind_of_flow_value by (cbn; lia).
  cbn [u v]. change (0 * time_slices default_shape + 0)%nat with 0%nat.
  rewrite !creased_flow by lia. cbn [Nat.add].
  rewrite crease_9, crease_11, crease_13. unfold divergence. lra.
Qed.
Print Assumptions C57_decoded_divergence.
Print Assumptions C57_bounded.
Print Assumptions C57_queried_refuted.

(** ** C59 *)
Theorem C59_kl : forall n mean logvar,
  kl_divergence n mean logvar = total (map (fun i => normal_kl (mean i) (exp (logvar i))) (seq 0 n)) /\
  0 <= kl_divergence n mean logvar /\
  (kl_divergence n mean logvar = 0 <-> forall i, (i < n)%nat -> mean i = 0 /\ logvar i = 0).
Proof.
  intros n mean logvar.
  assert (T : forall i, 0 <= mean i ^ 2 + (exp (logvar i) - 1 - logvar i)).
  { intro i. pose proof (exp_ge (logvar i)). pose proof (pow2_ge_0 (mean i)). lra. }
  split; [|rewrite kl_terms; split].
  - rewrite kl_terms. induction n as [|n IH]; [cbn; lra|]. rewrite seq_S, map_app. cbn [map Nat.add sumn].
    rewrite Rmult_plus_distr_l, IH. generalize (map (fun i => normal_kl (mean i) (exp (logvar i))) (seq 0 n)). intro l.
    assert (A : forall l x, total (l ++ [x]) = total l + x).
    { clear. intros l x. unfold total. induction l as [|a l IH]; cbn [app fold_right]; [lra|rewrite IH; lra]. }
    rewrite A. unfold normal_kl. rewrite ln_exp. lra.
  - pose proof (sumn_nonneg n _ (fun i _ => T i)). lra.
  - split.
    + intros E i Hi.
      assert (Z : mean i ^ 2 + (exp (logvar i) - 1 - logvar i) = 0).
      { apply (sumn_zero n (fun i => mean i ^ 2 + (exp (logvar i) - 1 - logvar i))); [intros; apply T|lra|exact Hi]. }
      pose proof (exp_ge (logvar i)). pose proof (pow2_ge_0 (mean i)). split.
      * assert (M : mean i * mean i = 0) by (cbn in *; lra). apply Rmult_integral in M. tauto.
      * apply exp_eq. lra.
    + intro H. rewrite (sumn_ext n _ (fun _ => 0)); [rewrite sumn_const; lra|].
      intros i Hi. destruct (H i Hi) as [-> ->]. rewrite exp_0. lra.
Qed.

Theorem C59_squared_error : forall n a b,
  0 <= mean_square_error n a b /\
  (mean_square_error n a b = 0 <-> forall i, (i < n)%nat -> a i = b i).
Proof.
  intros n a b. unfold mean_square_error. assert (T : forall i, 0 <= (a i - b i) ^ 2) by (intro; apply pow2_ge_0).
  split; [apply sumn_nonneg; intros; apply T|]. split.
  - intros E i Hi. pose proof (sumn_zero n _ (fun i _ => T i) E i Hi) as Z. cbn in Z.
    assert (M : (a i - b i) * (a i - b i) = 0) by lra. apply Rmult_integral in M. lra.
  - intro H. rewrite (sumn_ext n _ (fun _ => 0)); [rewrite sumn_const; lra|].
    intros i Hi. rewrite (H i Hi). cbn. lra.
Qed.

(** The schedule starts at the start value, grows by the factor every [frequency]
    epochs and only then, and is capped. *)
Theorem C59_step_schedule : forall start increment frequency max_val,
  0 <= start -> 1 <= increment -> (0 < frequency)%nat ->
  let sched := step_schedule start increment frequency max_val in
  sched 0%nat = Rmin start max_val /\
  (forall e, sched e <= max_val) /\
  (forall e e', (e <= e')%nat -> sched e <= sched e') /\
  (forall k r, (r < frequency)%nat -> sched (k * frequency + r)%nat = Rmin (start * increment ^ k) max_val) /\
  (forall e, start * increment ^ (e / frequency) <= max_val -> increment * start * increment ^ (e / frequency) <= max_val ->
     sched (e + frequency)%nat = increment * sched e).
Proof.
  intros start inc fr mx Hs Hi Hf sched. unfold sched, step_schedule.
  split; [rewrite Nat.div_0_l by lia; rewrite pow_O, Rmult_1_r; reflexivity|].
  split; [intro e; apply Rmin_r|].
  split; [|split].
  - intros e e' He. assert (start * inc ^ (e / fr) <= start * inc ^ (e' / fr)).
    { apply Rmult_le_compat_l; [exact Hs|]. apply Rle_pow; [exact Hi|]. apply Nat.div_le_mono; lia. }
    unfold Rmin. destruct (Rle_dec _ _), (Rle_dec _ _); lra.
  - intros k r Hr. rewrite Nat.div_add_l by lia. rewrite (Nat.div_small r fr) by exact Hr. rewrite Nat.add_0_r. reflexivity.
  - intros e H1 H2. replace (e + fr)%nat with (e + 1 * fr)%nat by lia. rewrite Nat.div_add by lia.
    rewrite Nat.add_1_r. cbn [pow]. rewrite (Rmin_left (start * inc ^ (e / fr))) by exact H1. rewrite Rmin_left; lra.
Qed.

(** The encoder's input squashing keeps the order and the sign, and stays inside (-1, 1). *)
Theorem C59_squash : forall cap, 0 < cap ->
  (forall x, Rabs (squash x cap) < 1) /\
  (forall x, squash (- x) cap = - squash x cap) /\
  (forall x y, x < y -> squash x cap < squash y cap).
Proof.
  intros cap Hc.
  assert (E : forall x, squash x cap = x / (cap + Rabs x)).
  { intro x. unfold squash, sign. f_equal. destruct (Rltb_spec 0 x); [rewrite Rabs_right by lra; lra|].
    destruct (Rltb_spec x 0); [rewrite Rabs_left by lra; lra|]. rewrite Rabs_right by lra. lra. }
  split; [|split].
  - intro x. rewrite E. unfold Rdiv. rewrite Rabs_mult. pose proof (Rabs_pos x).
    rewrite (Rabs_right (/ _)) by (left; apply Rinv_0_lt_compat; lra).
    apply Rmult_lt_reg_r with (cap + Rabs x); [lra|]. rewrite Rmult_assoc, Rinv_l by lra. lra.
  - intro x. rewrite !E, Rabs_Ropp. lra.
  - intros x y H. rewrite !E. pose proof (Rabs_pos x). pose proof (Rabs_pos y).
    apply Rmult_lt_reg_r with ((cap + Rabs x) * (cap + Rabs y)); [apply Rmult_lt_0_compat; lra|].
    replace (x / (cap + Rabs x) * ((cap + Rabs x) * (cap + Rabs y))) with (x * (cap + Rabs y)) by (field; lra).
    replace (y / (cap + Rabs y) * ((cap + Rabs x) * (cap + Rabs y))) with (y * (cap + Rabs x)) by (field; lra).
    unfold Rabs in *. destruct (Rcase_abs x), (Rcase_abs y); nra.
Qed.
Example C59_schedule_witness :
  step_schedule 1 2 10 100 25 = 4 /\ step_schedule 1 2 10 100 1000 = 100.
Proof.
  unfold step_schedule. replace (25 / 10)%nat with 2%nat by reflexivity.
  split; [rewrite Rmin_left; lra|]. apply Rmin_right. replace (1000 / 10)%nat with 100%nat by reflexivity.
  apply Rle_trans with (1 * 2 ^ 7); [lra|]. apply Rmult_le_compat_l; [lra|]. apply Rle_pow; [lra|lia].
Qed.
Print Assumptions C59_kl.
Print Assumptions C59_squared_error.
Print Assumptions C59_step_schedule.
Print Assumptions C59_squash.

(** ** C72 *)
Section Resume.
Context {O : Type} (steps : O -> nat) (trained : R -> O -> O -> Prop)
  (kl_schedule : nat -> R) (B N : nat).
(** [lineage e o]: [o] was freshly initialised and then trained on [B] batches with the
    coefficient of epoch 1, ..., on [B] batches with that of epoch [e]. *)
Inductive lineage : nat -> O -> Prop :=
| lineage_fresh o : steps o = 0%nat -> lineage 0 o
| lineage_epoch e o o' : lineage e o -> batches trained (kl_schedule (S e)) B o o' -> lineage (S e) o'.

Context (B_pos : (0 < B)%nat) (counts : forall kl o o', trained kl o o' -> steps o' = S (steps o)).

Lemma batches_steps kl n o o' : batches trained kl n o o' -> steps o' = (n + steps o)%nat.
Proof. induction 1 as [|n o o1 o2 H _ IH]; [reflexivity|]. rewrite IH, (counts _ _ _ H). lia. Qed.
Lemma lineage_steps e o : lineage e o -> steps o = (e * B)%nat.
Proof. induction 1 as [o E|e o o' _ IH H]; [exact E|]. rewrite (batches_steps _ _ _ _ H), IH. lia. Qed.

Lemma saved_kept bound es saved o out saved' :
  epochs_run trained kl_schedule B bound es saved o out saved' -> saved <> None -> saved' <> None.
Proof. induction 1; intro Hs; try exact Hs. apply IHepochs_run. discriminate. Qed.

Lemma run_lineage n e saved o out saved' : lineage e o -> (e = 0%nat /\ saved = None \/ saved = Some o) ->
  epochs_run trained kl_schedule B true (seq (S e) n) saved o out saved' ->
  (saved' = None /\ (out = finished -> n = 0%nat) \/
   exists e' o', saved' = Some o' /\ lineage e' o' /\ (e <= e' <= e + n)%nat /\ (out = finished -> e' = (e + n)%nat)) /\
  out <> name_error.
Proof.
  revert e saved o. induction n as [|n IH]; intros e saved o L Sv H; cbn [seq] in H; inversion H; subst; clear H.
  - split; [|discriminate]. destruct Sv as [[-> ->]| ->]; [left; split; reflexivity|].
    right. exists e, o. repeat split; try assumption; lia.
  - split; [|discriminate]. destruct Sv as [[-> ->]| ->]; [left; split; [reflexivity|discriminate]|].
    right. exists e, o. repeat split; try assumption; try lia; try discriminate.
  - split; [|discriminate]. destruct Sv as [[-> ->]| ->]; [left; split; [reflexivity|discriminate]|].
    right. exists e, o. repeat split; try assumption; try lia; try discriminate.
  - discriminate.
  - assert (L' : lineage (S e) o') by (eapply lineage_epoch; eassumption).
    destruct (IH (S e) (Some o') o' L' (or_intror eq_refl) H8) as [[[-> F]|(e' & o2 & E & L2 & R1 & F)] NE].
    + (* a saved checkpoint is not lost *)
      elim (saved_kept _ _ _ _ _ _ H8 ltac:(discriminate)). reflexivity.
    + split; [|exact NE]. right. exists e', o2. repeat split; try assumption; try lia; try (intro Hf; specialize (F Hf); lia).
Qed.

(** If the three names were bound: however often training is killed and restarted on its
    checkpoint directory, the checkpoint saved there has been trained through the
    epochs 1, 2, ..., e, once each and in this order; and if the last call finished,
    through all N - 1 of them. *)
Lemma resume_exact outs saved :
  train_history steps trained kl_schedule B N true None outs saved ->
  (saved = None \/ exists e o, saved = Some o /\ lineage e o /\ (1 <= e < N)%nat) /\
  (hd_error outs = Some finished -> (2 <= N)%nat -> exists o, saved = Some o /\ lineage (N - 1) o) /\
  ~ In name_error outs.
Proof.
  induction 1 as [|outs saved fresh out saved' Hh IH Hf Hr].
  - split; [now left|]. split; [discriminate|intros []].
  - destruct IH as (IH & _ & NE).
    assert (Start : exists e o, starting_optimizer steps saved None fresh = o /\ lineage e o /\
      (e = 0%nat /\ saved = None \/ saved = Some o) /\ (e = 0 \/ 1 <= e < N)%nat).
    { destruct IH as [->|(e & o & -> & L & R1)].
      - exists 0%nat, fresh. repeat split; [|constructor; exact Hf|left; split; reflexivity|left; reflexivity].
        unfold starting_optimizer. cbn [restore]. destruct (_ =? _)%nat; reflexivity.
      - exists e, o. repeat split; [|exact L|right; reflexivity|right; exact R1].
        unfold starting_optimizer. cbn [restore]. destruct (_ =? _)%nat; reflexivity. }
    destruct Start as (e & o & Eo & L & Sv & Re). unfold train_run in Hr. rewrite Eo in Hr.
    assert (Fe : first_epoch steps B o = S e).
    { unfold first_epoch. rewrite (lineage_steps _ _ L), Nat.div_mul by lia. lia. }
    rewrite Fe in Hr. destruct (run_lineage _ _ _ _ _ _ L Sv Hr) as [D NE'].
    split; [|split].
    + destruct D as [[-> _]|(e' & o' & -> & L' & R1 & _)]; [now left|].
      destruct (Nat.eq_dec e' 0) as [->|].
      * left. (* nothing was saved *)
        assert (e = 0)%nat by lia. subst e. destruct Sv as [[_ ->]| ->].
        2:{ destruct IH as [?|(e2 & o2 & E2 & L2 & R2)]; [discriminate|]. injection E2 as <-.
            pose proof (lineage_steps _ _ L). pose proof (lineage_steps _ _ L2). nia. }
        exfalso. pose proof (lineage_steps _ _ L') as S0.
        (* a checkpoint saved by this run has at least B steps *)
        assert (G : forall es sv o out sv', epochs_run trained kl_schedule B true es sv o out sv' ->
          (forall o1, sv = Some o1 -> (B <= steps o1)%nat) -> forall o1, sv' = Some o1 -> (B <= steps o1)%nat).
        { clear -counts B_pos. induction 1; intros Hs o1 E; try (apply Hs; exact E). 
          apply IHepochs_run; [|exact E]. intros o2 E2. injection E2 as <-.
          rewrite (batches_steps _ _ _ _ H). lia. }
        specialize (G _ _ _ _ _ Hr ltac:(discriminate) _ eq_refl). lia.
      * right. exists e', o'. repeat split; try assumption; lia.
    + intros Hd HN. cbn in Hd. injection Hd as ->. destruct D as [[-> F]|(e' & o' & -> & L' & R1 & F)].
      * specialize (F eq_refl). destruct Sv as [[-> _]| ->]; [lia|].
        elim (saved_kept _ _ _ _ _ _ Hr ltac:(discriminate)). reflexivity.
      * specialize (F eq_refl). exists o'. split; [reflexivity|]. replace (N - 1)%nat with e' by lia. exact L'.
    + intros [E|Hin]; [apply NE'; exact E|apply NE; exact Hin].
Qed.
End Resume.

Theorem C72_resume_if_bound : forall O (steps : O -> nat) (trained : R -> O -> O -> Prop) kl_schedule B N,
  (0 < B)%nat -> (forall kl o o', trained kl o o' -> steps o' = S (steps o)) ->
  forall outs saved, train_history steps trained kl_schedule B N true None outs saved ->
  (saved = None \/ exists e o, saved = Some o /\ lineage steps trained kl_schedule B e o /\ (1 <= e < N)%nat) /\
  (hd_error outs = Some finished -> (2 <= N)%nat ->
     exists o, saved = Some o /\ lineage steps trained kl_schedule B (N - 1) o) /\
  ~ In name_error outs.
Proof. intros O steps trained kl B N HB Hc. exact (resume_exact steps trained kl B N HB Hc). Qed.

(** As the code stands, no call ever saves a checkpoint, and none that has an epoch to
    train finishes. *)
Theorem C72_checkpoints_refuted : forall O (steps : O -> nat) (trained : R -> O -> O -> Prop) kl_schedule B N bootstrap outs saved,
  train_history steps trained kl_schedule B N false bootstrap outs saved ->
  saved = None /\
  ((forall o, bootstrap = Some o -> (first_epoch steps B o < N)%nat) -> (2 <= N)%nat -> (0 < B)%nat -> ~ In finished outs).
Proof.
  intros O steps trained kl B N bs. induction 1 as [|outs saved fresh out saved' _ [-> IH] Hf Hr].
  - split; [reflexivity|intros _ _ _ []].
  - unfold train_run in Hr. split; [inversion Hr; congruence|].
    intros Hb HN HB [->|Hin]; [|apply IH; assumption].
    assert (First : (first_epoch steps B (starting_optimizer steps None bs fresh) < N)%nat).
    { unfold starting_optimizer. cbn [restore]. rewrite Hf. cbn [Nat.eqb].
      destruct bs as [o|]; cbn [restore]; [apply Hb; reflexivity|].
      unfold first_epoch. rewrite Hf, Nat.div_0_l by lia. lia. }
    set (o := starting_optimizer _ _ _ _) in *. destruct (N - first_epoch steps B o)%nat eqn:E; [lia|].
    cbn [seq] in Hr. inversion Hr; congruence.
Qed.
(** Such calls: training always gets to the end of its first epoch. *)
Example C72_witness : exists outs,
  train_history (O := nat) (fun o => o) (fun _ o o' => o' = S o) (fun _ => 1) 2 3 false None outs None /\
  In name_error outs.
Proof.
  exists [name_error]. split; [|now left].
  eapply history_next with (fresh := 0%nat); [constructor|reflexivity|].
  cbn. eapply run_unbound with (o' := 2%nat); [|reflexivity].
  repeat (econstructor; [reflexivity|]). constructor.
Qed.
Example C72_witness_bound : exists saved,
  train_history (O := nat) (fun o => o) (fun _ o o' => o' = S o) (fun _ => 1) 2 3 true None [finished; killed] (Some saved).
Proof.
  exists 4%nat.
  eapply history_next with (fresh := 0%nat) (saved := Some 2%nat); [|reflexivity|].
  - eapply history_next with (fresh := 0%nat); [constructor|reflexivity|].
    cbn. eapply run_saved with (o' := 2%nat); [|reflexivity|apply run_killed].
    repeat (econstructor; [reflexivity|]). constructor.
  - cbn. eapply run_saved with (o' := 4%nat); [|reflexivity|apply run_end].
    repeat (econstructor; [reflexivity|]). constructor.
Qed.
Print Assumptions C72_resume_if_bound.
Print Assumptions C72_checkpoints_refuted.
