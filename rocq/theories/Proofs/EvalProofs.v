(** Proofs about the evaluation loop. *)
From Coq Require Import ZArith Reals List Bool Lia Lra.
From RecordUpdate Require Import RecordSet.
From Verif Require Import Model.Num Model.Balloon Model.Units Model.Agents Model.Eval.
From Verif Require Import Spec.EvalSpec.
From Verif Require Import Proofs.NumR.
Import ListNotations RecordSetNotations.
Open Scope R_scope.

Lemma last_cons {B} (b : B) l d : last (b :: l) d = last l b.
Proof.
  revert b d. induction l as [|c l IH]; intros b d; [reflexivity|].
  change (last (b :: c :: l) d) with (last (c :: l) d). rewrite !IH. reflexivity.
Qed.
Lemma last_snoc {B} l (b d : B) : last (l ++ [b]) d = b.
Proof. induction l as [|c l IH]; [reflexivity|]. cbn [app]. rewrite last_cons.
  destruct l; [reflexivity|]. cbn [app] in *. now rewrite last_cons in *. Qed.

(** The last flag of a list of steps. *)
Definition flag (f : info_dict -> option bool) (d0 : bool) (t : executed_step) : bool :=
  if t_done t then match f (t_info t) with Some v => v | None => false end else d0.
Definition inside (t : executed_step) : Z :=
  if balloon_is_within_radius (t_balloon t) (t_radius t) then 1 else 0.
Definition zsum (l : list Z) : Z := fold_right Z.add 0%Z l.

Section Loop.
Context (G : gym_env) (A : agent_class (g_obs G)).
Context (rp : Z) (fp : bool).
Notation locals := (locals G A).
Notation iteration := (iteration G A rp fp).
Notation loop := (loop G A rp fp).
Notation steps := (steps G A).
Notation l_env := (l_env G A). Notation l_agent := (l_agent G A). Notation l_action := (l_action G A).
Notation l_reward := (l_reward G A). Notation l_is_done := (l_is_done G A).
Notation l_total_reward := (l_total_reward G A).
Notation l_steps_within_radius := (l_steps_within_radius G A).
Notation l_flight_path := (l_flight_path G A). Notation l_step_count := (l_step_count G A).
Notation l_out_of_power := (l_out_of_power G A). Notation l_envelope_burst := (l_envelope_burst G A).
Notation l_zeropressure := (l_zeropressure G A).

(** The locals after a list of steps. *)
Definition advanced (l : locals) (ts : list executed_step) (l' : locals) : Prop :=
  l_reward l' = last (map t_reward ts) (l_reward l) /\
  l_is_done l' = last (map t_done ts) (l_is_done l) /\
  l_total_reward l' = l_total_reward l + total (map t_reward ts) /\
  l_steps_within_radius l' = (l_steps_within_radius l + zsum (map inside ts))%Z /\
  l_flight_path l' = l_flight_path l ++ (if fp then map (fun t => from_balloon_state (t_balloon t)) ts else []) /\
  l_step_count l' = (l_step_count l + Z.of_nat (length ts))%Z /\
  l_out_of_power l' = last (map (flag d_out_of_power (l_out_of_power l)) ts) (l_out_of_power l) /\
  l_envelope_burst l' = last (map (flag d_envelope_burst (l_envelope_burst l)) ts) (l_envelope_burst l) /\
  l_zeropressure l' = last (map (flag d_zeropressure (l_zeropressure l)) ts) (l_zeropressure l).

Lemma iteration_spec l l1 : iteration l = Some l1 ->
  exists o i b,
    g_step G (l_env l) (l_action l) = Some (l_env l1, (o, l_reward l1, l_is_done l1, i)) /\
    ag_step A (l_agent l) (l_reward l1) o = Some (l_agent l1, l_action l1) /\
    g_balloon G (l_env l1) = Some b /\ rp <> 0%Z /\
    advanced l [mkStep (l_reward l1) (l_is_done l1) i b (g_radius G (l_env l1))] l1.
Proof.
  unfold iteration, Eval.iteration.
  destruct (g_step G (l_env l) (l_action l)) as [[e [[[o r] d] i]]|] eqn:E1; [|discriminate].
  destruct (ag_step A (l_agent l) r o) as [[a action]|] eqn:E2; [|discriminate].
  destruct (g_balloon G e) as [b|] eqn:E3; [|discriminate].
  destruct (Z.eqb_spec rp 0) as [|N]; [discriminate|].
  intros [= <-]. exists o, i, b.
  destruct d; cbn -[balloon_is_within_radius advanced];
    (split; [reflexivity|]; split; [exact E2|]; split; [exact E3|]; split; [exact N|]);
    unfold advanced, flag, inside, zsum, total; cbn -[balloon_is_within_radius];
    repeat split; try lia; try lra; try (destruct fp; [reflexivity|now rewrite app_nil_r]).
Qed.

Lemma advanced_cons l t l1 ts l' :
  t_done t = false -> advanced l [t] l1 -> advanced l1 ts l' -> advanced l (t :: ts) l'.
Proof.
  intros Ht (A1&A2&A3&A4&A5&A6&A7&A8&A9) (B1&B2&B3&B4&B5&B6&B7&B8&B9).
  cbn [map last total fold_right zsum length] in A1,A2,A3,A4,A5,A6,A7,A8,A9.
  unfold flag in A7,A8,A9. rewrite Ht in A7,A8,A9.
  unfold advanced. cbn [map length]. rewrite !last_cons.
  unfold flag at 2 4 6. rewrite Ht.
  rewrite A1 in B1. rewrite A2 in B2. rewrite A7 in B7. rewrite A8 in B8. rewrite A9 in B9.
  repeat split; try assumption; [now rewrite B2, Ht|..].
  - rewrite B3, A3. unfold total. cbn. lra.
  - rewrite B4, A4. unfold zsum. cbn [fold_right map]. lia.
  - rewrite B5, A5, <- app_assoc. destruct fp; reflexivity.
  - rewrite B6, A6. lia.
Qed.
Lemma advanced_nil l : advanced l [] l.
Proof. unfold advanced, total, zsum. cbn.
  repeat split; try lra; try lia. destruct fp; now rewrite app_nil_r. Qed.

(** The steps before the last do not end the episode; the last does, unless there
    were as many as allowed. *)
Definition stopped (fuel : nat) (ts : list executed_step) : Prop :=
  (length ts <= fuel)%nat /\
  (forall ts0 t, ts = ts0 ++ [t] ->
     (forall t', In t' ts0 -> t_done t' = false) /\ (t_done t = true \/ length ts = fuel)) /\
  (ts = [] -> fuel = O).

Lemma stopped_cons fuel t ts : t_done t = false -> stopped fuel ts -> stopped (S fuel) (t :: ts).
Proof.
  intros Ht (L & H & N). split; [cbn; lia|]. split; [|discriminate].
  intros ts0 u E. destruct ts0 as [|t0 ts0]; cbn [app] in E; injection E as <- E.
  - subst ts. split; [intros t' []|]. right. rewrite (N eq_refl). reflexivity.
  - destruct (H _ _ E) as [H1 H2]. split.
    + intros t' [<-|I]; [assumption|]. now apply H1.
    + destruct H2; [now left|right]. cbn. lia.
Qed.
Lemma stopped_inv fuel t ts : stopped fuel (t :: ts) -> 
  exists f, fuel = S f /\ (t_done t = false -> stopped f ts) /\ (t_done t = true -> ts = []).
Proof.
  intros (L & H & _). destruct fuel as [|f]; [cbn in L; lia|]. exists f. split; [reflexivity|].
  destruct (@exists_last _ (t :: ts) ltac:(discriminate)) as [ts0 [u E]].
  destruct (H _ _ E) as [H1 H2]. split; intro D.
  - split; [cbn in L; lia|]. split.
    + intros ts1 u1 ->.
      change (t :: ts1 ++ [u1]) with ((t :: ts1) ++ [u1]) in E. apply app_inj_tail in E.
      destruct E as [<- <-]. split; [intros t' I; apply H1; now right|].
      destruct H2 as [|H2]; [now left|right]. cbn [length] in H2. lia.
    + intros ->. destruct ts0 as [|x ts0]; cbn in E.
      * injection E as <-. destruct H2 as [H2|H2]; [congruence|]. cbn in H2. lia.
      * destruct ts0; discriminate.
  - destruct ts0 as [|x ts0]; cbn in E; injection E as <- E; [assumption|].
    rewrite (H1 t) in D by now left. discriminate.
Qed.

Lemma loop_spec max fuel l l' : loop fuel max l = Some l' ->
  Z.of_nat fuel = (max - l_step_count l)%Z ->
  exists ts, steps (l_env l) (l_agent l) (l_action l) ts (l_env l') (l_agent l') /\
    stopped fuel ts /\ advanced l ts l'.
Proof.
  revert l. induction fuel as [|fuel IH]; intros l E Hf; cbn [Eval.loop] in E.
  - injection E as <-. exists []. split; [constructor|]. split; [|apply advanced_nil].
    repeat split; cbn; try lia; intros; destruct ts0; discriminate.
  - destruct (Z.ltb_spec (l_step_count l) max) as [_|]; [|lia].
    destruct (iteration l) as [l1|] eqn:E1; [|discriminate].
    destruct (iteration_spec _ _ E1) as (o & i & b & S1 & S2 & S3 & _ & Ad).
    set (t := mkStep _ _ i b _) in Ad. destruct (l_is_done l1) eqn:D.
    + injection E as <-. exists [t]. split; [|split; [|assumption]].
      * econstructor; eauto. constructor.
      * split; [cbn; lia|]. split; [|discriminate]. intros ts0 u Eu.
        destruct ts0 as [|x [|]]; cbn in Eu; [|discriminate..].
        injection Eu as <-. split; [intros ? []|]. left. reflexivity.
    + pose proof Ad as (_&_&_&_&_&A6&_).
      destruct (IH l1 E) as (ts & Hs & Hst & Had).
      { rewrite A6. cbn [length]. lia. }
      exists (t :: ts). split; [|split].
      * econstructor; eauto.
      * apply stopped_cons; [reflexivity|assumption].
      * eapply advanced_cons; [reflexivity|exact Ad|exact Had].
Qed.

Lemma loop_complete max ts : forall fuel l e' a', rp <> 0%Z ->
  steps (l_env l) (l_agent l) (l_action l) ts e' a' -> stopped fuel ts ->
  Z.of_nat fuel = (max - l_step_count l)%Z ->
  exists l', loop fuel max l = Some l' /\ l_env l' = e' /\ l_agent l' = a'.
Proof.
  induction ts as [|t ts IH]; intros fuel l e' a' Hrp H Hst Hf.
  - inversion H; subst. destruct Hst as (_ & _ & N). rewrite (N eq_refl) in *.
    exists l. auto.
  - destruct (stopped_inv _ _ _ Hst) as (f & -> & Hn & Hd).
    inversion H as [|e a action e1 o r d i a1 action1 b ts' e2 a2 S1 S2 S3 Hs]; subst.
    cbn [Eval.loop]. destruct (Z.ltb_spec (l_step_count l) max) as [_|]; [|lia].
    unfold Eval.iteration. rewrite S1, S2, S3. destruct (Z.eqb_spec rp 0) as [|_]; [lia|].
    cbn [t_done] in Hn, Hd. destruct d.
    + rewrite (Hd eq_refl) in *. inversion Hs; subst. cbn. eauto.
    + cbn [Eval.l_is_done set]. apply IH; cbn; auto. lia.
Qed.


Lemma stopped_same e a action ts e1 a1 : steps e a action ts e1 a1 ->
  forall fuel ts' e2 a2, steps e a action ts' e2 a2 -> stopped fuel ts -> stopped fuel ts' -> ts = ts'.
Proof.
  induction 1 as [|e a action e1 o r d i a1 action1 b ts e2 a2 S1 S2 S3 Hs IH]; intros fuel ts' f2 b2 H' St St'.
  - destruct St as (_ & _ & N). rewrite (N eq_refl) in St'. destruct St' as (L & _).
    destruct ts'; [reflexivity|cbn in L; lia].
  - destruct (stopped_inv _ _ _ St) as (f & -> & Hn & Hd).
    inversion H' as [|? ? ? f1 o' r' d' i' b1 action1' bb us ? ? T1 T2 T3 Ht]; subst.
    { destruct St' as (_ & _ & N). discriminate (N eq_refl). }
    rewrite S1 in T1. injection T1 as <- <- <- <- <-. rewrite S2 in T2. injection T2 as <- <-.
    rewrite S3 in T3. injection T3 as <-. f_equal.
    destruct (stopped_inv _ _ _ St') as (f' & [= <-] & Hn' & Hd'). cbn [t_done] in *.
    destruct d; [now rewrite Hd, Hd'|]. eapply IH; eauto.
Qed.
End Loop.
