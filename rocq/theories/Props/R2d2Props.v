(** Property C93: the recurrent network. *)
From Coq Require Import ZArith Reals List Bool Lia Lra.
From Verif Require Import Model.Num Model.Vae Model.Mlp Model.R2d2.
From Verif Require Import Spec.R2d2Spec.
From Verif Require Import Proofs.VaeProofs Proofs.R2d2Proofs.
Import ListNotations.
Open Scope R_scope.

Section R2d2Props.
(** The length of an observation, the number of actions, and any parameters. *)
Context (inputs num_actions : nat) (ps : r2d2_params).
Notation call := (call inputs num_actions ps).
Notation unroll := (unroll inputs num_actions ps).
Notation step_by_step := (step_by_step inputs num_actions ps).

(** A call for as many rows as there are states returns; each row is treated by the
    equations of the network.  Other calls raise. *)
Theorem C93_equations : forall batch state,
  (length batch = length state ->
   exists qs state', call batch state = Some (qs, state') /\
     length qs = length batch /\ length state' = length state /\
     forall i o s, nth_error batch i = Some o -> nth_error state i = Some s ->
     exists q s', nth_error qs i = Some q /\ nth_error state' i = Some s' /\
       lstm_step inputs num_actions ps o s s' /\
       forall a, q a = value ps (lstm_hidden s') + advantage ps (lstm_hidden s') a
                       - sum_of num_actions (advantage ps (lstm_hidden s')) / INR num_actions) /\
  (length batch <> length state -> call batch state = None).
Proof.
  intros batch state. split; [|apply call_refuses].
  intro L. rewrite call_rows by exact L. eexists _, _. split; [reflexivity|].
  assert (Lc : length (combine batch state) = length state) by (rewrite combine_length; lia).
  split; [rewrite !map_length; lia|]. split; [rewrite map_length; lia|]. intros i o s Ho Hs.
  assert (C : nth_error (combine batch state) i = Some (o, s)).
  { clear Lc L. revert batch state Ho Hs. induction i as [|i IH]; intros [|o' batch] [|s' state]; try discriminate; cbn.
    - now intros [= ->] [= ->].
    - apply IH. }
  exists (q_row num_actions ps (step_row inputs num_actions ps (o, s))), (step_row inputs num_actions ps (o, s)).
  split; [now rewrite !nth_error_map, C|]. split; [now rewrite nth_error_map, C|].
  split; [apply step_row_equations|]. intro a. apply head_row_duelling.
Qed.

(** Duelling: the values of the actions average to the value of the state, and differ as
    the advantages do, so the best actions are those of the greatest advantage. *)
Theorem C93_duelling : forall h q, num_actions <> O ->
  (forall a, q a = value ps h + advantage ps h a - sum_of num_actions (advantage ps h) / INR num_actions) ->
  sum_of num_actions q / INR num_actions = value ps h /\
  forall a b, q a - q b = advantage ps h a - advantage ps h b.
Proof.
  intros h q N H. assert (P : 0 < INR num_actions) by (apply lt_0_INR; lia). split.
  - rewrite (sum_of_ext num_actions q (fun a => advantage ps h a + (value ps h - sum_of num_actions (advantage ps h) / INR num_actions))).
    + rewrite !sum_of_sumn. set (m := value ps h - sumn num_actions (advantage ps h) / INR num_actions).
      assert (E : sumn num_actions (fun a => advantage ps h a + m) = sumn num_actions (advantage ps h) + INR num_actions * m).
      { generalize num_actions. intro n. induction n as [|n IH]; [cbn; lra|]. rewrite S_INR. cbn [sumn]. rewrite IH. lra. }
      rewrite E. unfold m. field. lra.
    + intros i _. rewrite H. lra.
  - intros a b. rewrite !H. lra.
Qed.

(** Unrolling a sequence (one step or more, as the learner does) gives what the actor gets
    by one call after the other. *)
Theorem C93_unroll : forall steps b state, steps <> [] ->
  (forall batch, In batch steps -> length batch = b) -> length state = b ->
  unroll steps state <> None /\ unroll steps state = step_by_step steps state.
Proof.
  intros steps b state N H L. destruct (unroll_steps inputs num_actions ps steps b state N) as (qs & st & E1 & E2).
  - now apply Forall_forall.
  - exact L.
  - rewrite E1, E2. split; [discriminate|reflexivity].
Qed.

(** A sequence can be unrolled in parts, going on from the state reached (as with stored
    states). *)
Theorem C93_parts : forall first second b state, first <> [] -> second <> [] ->
  (forall batch, In batch (first ++ second) -> length batch = b) -> length state = b ->
  exists qs middle qs' last,
    unroll first state = Some (qs, middle) /\ unroll second middle = Some (qs', last) /\
    unroll (first ++ second) state = Some (qs ++ qs', last).
Proof.
  intros f s b state Nf Ns H L.
  assert (R : Forall (fun l : list oar => length l = b) f /\ Forall (fun l : list oar => length l = b) s).
  { split; apply Forall_forall; intros x I; apply H, in_or_app; auto. }
  destruct R as [Rf Rs]. destruct (unroll_steps inputs num_actions ps f b state Nf Rf L) as (qs & st & E1 & E2).
  assert (Ls : length st = b).
  { destruct (loop_steps inputs num_actions ps f b Rf state L) as (hs & st' & _ & _ & L' & E). rewrite E2 in E. now injection E as _ ->. }
  destruct (unroll_steps inputs num_actions ps s b st Ns Rs Ls) as (qs' & st' & E3 & E4).
  exists qs, st, qs', st'. split; [exact E1|]. split; [exact E3|].
  destruct (unroll_steps inputs num_actions ps (f ++ s) b state) as (q & l & E5 & E6).
  - destruct f; [congruence|discriminate].
  - now apply Forall_app.
  - exact L.
  - rewrite E5, <- E6, steps_app, E2, E4. reflexivity.
Qed.

(** The rows of a batch do not influence each other: unrolling any selection of them, in any
    order, gives the same for these. *)
Theorem C93_rows : forall numbers steps b state qs state' o s q, steps <> [] ->
  (forall batch, In batch steps -> length batch = b) -> length state = b ->
  (forall i, In i numbers -> (i < b)%nat) ->
  unroll steps state = Some (qs, state') ->
  unroll (map (rows o numbers) steps) (rows s numbers state) = Some (map (rows q numbers) qs, rows s numbers state').
Proof.
  intros ns steps b state qs st o s q N H L Hn E.
  destruct (C93_unroll steps b state N H L) as [_ E1]. rewrite E1 in E.
  assert (R : Forall (fun l : list oar => length l = b) steps) by now apply Forall_forall.
  pose proof (steps_select inputs num_actions ps ns b o s q steps R Hn state qs st L E) as E2. rewrite <- E2.
  apply (C93_unroll _ (length ns)).
  - destruct steps; [congruence|discriminate].
  - intros batch I. apply in_map_iff in I. destruct I as (x & <- & _). unfold rows. apply map_length.
  - unfold rows. apply map_length.
Qed.

(** Whatever is observed, done and rewarded, for however long: from the initial state, the
    hidden state stays within (-1, 1), the cells within the number of steps, and the values
    of the actions within a bound that depends on the parameters of the head alone. *)
Theorem C93_bounded : forall steps b qs state', num_actions <> O ->
  (forall batch, In batch steps -> length batch = b) ->
  step_by_step steps (initial_state b) = Some (qs, state') ->
  (forall batch q a, In batch qs -> In q batch -> Rabs (q a) <= q_reach num_actions ps a) /\
  (forall s k, In s state' -> (k < 512)%nat ->
     Rabs (lstm_hidden s k) < 1 /\ Rabs (lstm_cell s k) <= INR (length steps)).
Proof.
  intros steps b qs st' N H E.
  assert (G : forall steps, (forall batch, In batch steps -> length batch = b) -> forall m state qs st, length state = b ->
    (forall s k, In s state -> (k < 512)%nat -> Rabs (lstm_hidden s k) < 1 /\ Rabs (lstm_cell s k) <= m) ->
    step_by_step steps state = Some (qs, st) ->
    (forall batch q a, In batch qs -> In q batch -> Rabs (q a) <= q_reach num_actions ps a) /\
    (forall s k, In s st -> (k < 512)%nat -> Rabs (lstm_hidden s k) < 1 /\ Rabs (lstm_cell s k) <= m + INR (length steps))).
  { clear steps qs st' H E. intro steps. induction steps as [|batch steps IH]; intros H m state qs st L B E; cbn [R2d2Spec.step_by_step] in E.
    - injection E as <- <-. split; [intros ? ? ? []|]. cbn [length INR]. rewrite Rplus_0_r. exact B.
    - assert (Lb : length batch = length state) by (rewrite (H batch); [lia|now left]).
      rewrite call_rows in E by exact Lb. set (new := map (step_row inputs num_actions ps) (combine batch state)) in E.
      destruct (step_by_step steps new) as [[qs1 st1]|] eqn:E1; [|discriminate]. injection E as <- <-.
      assert (Bn : forall s k, In s new -> (k < 512)%nat -> Rabs (lstm_hidden s k) < 1 /\ Rabs (lstm_cell s k) <= m + 1).
      { intros s k I Hk. apply in_map_iff in I. destruct I as ([o s0] & <- & I).
        destruct (step_bounded _ _ _ _ _ _ (step_row_equations inputs num_actions ps o s0) k Hk) as [B1 B2].
        apply in_combine_r in I. destruct (B s0 k I Hk) as [_ B3]. split; [exact B1|lra]. }
      assert (Ln : length new = b) by (unfold new; rewrite step_length by exact Lb; exact L).
      destruct (IH (fun x I => H x (or_intror I)) (m + 1) new qs1 st1 Ln Bn E1) as [I1 I2]. split.
      + intros x q a [<-|I] Iq; [|eauto]. apply in_map_iff in Iq. destruct Iq as (s & <- & Is).
        apply q_bound; [exact N|]. intros i Hi. left. now apply Bn.
      + intros s k I Hk. cbn [length]. rewrite S_INR. destruct (I2 s k I Hk). split; [assumption|lra]. }
  destruct (G steps H 0 (initial_state b) qs st') as [G1 G2].
  - apply repeat_length.
  - intros s k I _. apply repeat_spec in I. subst s. cbn. rewrite Rabs_R0. lra.
  - exact E.
  - split; [exact G1|]. intros s k I Hk. destruct (G2 s k I Hk). split; [assumption|lra].
Qed.

(** The torso takes single observations and batches of them, which it treats one by one, and
    refuses arrays of any other rank. *)
Theorem C93_ranks : forall t,
  match t with
  | Rank1 x => exists y, torso inputs ps t = Some (Rank1 y) /\ forall j, y j = seen inputs ps x j
  | Rank2 xs => exists ys, torso inputs ps t = Some (Rank2 ys) /\
      Forall2 (fun x y => forall j, y j = seen inputs ps x j) xs ys
  | _ => torso inputs ps t = None
  end.
Proof.
  assert (T : forall x j, torso_row inputs ps x j = seen inputs ps x j).
  { intros x j. exact (forward_tower (torso_linear ps) inputs x 7 0 _ (fun i => eq_refl) j). }
  intros [x|x|xs|xss]; try reflexivity; eexists; (split; [reflexivity|]); [intro; apply T|].
  induction xs as [|x xs IH]; constructor; [intro; apply T|exact IH].
Qed.
End R2d2Props.

(** A network that takes every state to be worth 5, on two steps of a batch of two: *)
Definition zeros : dense := mkDense (fun _ _ => 0) (fun _ => 0).
Definition fives : r2d2_params := mkR2d2 (fun _ => zeros) zeros zeros (mkDense (fun _ _ => 0) (fun _ => 5)) zeros zeros.
Definition sight (reward : R) : oar := mkOar (fun _ => 1) 2 reward.
Example C93_witness :
  exists q1 q2 q3 q4 state,
    unroll 1099 3 fives [[sight 0; sight 1]; [sight 2; sight 3]] (initial_state 2) = Some ([[q1; q2]; [q3; q4]], state) /\
    forall q a, In q [q1; q2; q3; q4] -> q a = 5.
Proof.
  assert (Z0 : forall n x, sum_of n (fun i => 0 * x i) = 0).
  { intros n x. rewrite sum_of_sumn. rewrite (sumn_ext n _ (fun _ => 0)) by (intros; lra). rewrite sumn_const. lra. }
  assert (Q : forall h a, head_row 3 fives h a = 5).
  { intros h a. rewrite head_row_duelling.
    assert (A : forall b, advantage fives h b = 0).
    { intro b. unfold advantage, perceptron, affine, fives, zeros. cbn [advantage_hidden advantage_out kernel bias]. rewrite Z0. lra. }
    assert (V : value fives h = 5).
    { unfold value, perceptron, affine, fives. cbn [value_hidden value_out kernel bias]. rewrite Z0. lra. }
    unfold sum_of. cbn [seq map fold_right INR]. rewrite V, !A. lra. }
  destruct (C93_unroll 1099 3 fives [[sight 0; sight 1]; [sight 2; sight 3]] 2 (initial_state 2)) as [_ E].
  - discriminate.
  - intros batch [<-|[<-|[]]]; reflexivity.
  - reflexivity.
  - rewrite E. cbn [R2d2Spec.step_by_step]. rewrite !call_rows by reflexivity. eexists _, _, _, _, _. split; [reflexivity|].
    intros q a I. repeat (destruct I as [<-|I]; [apply Q|]). destruct I.
Qed.
Print Assumptions C93_equations.
Print Assumptions C93_duelling.
Print Assumptions C93_unroll.
Print Assumptions C93_parts.
Print Assumptions C93_rows.
Print Assumptions C93_bounded.
Print Assumptions C93_ranks.
