(** Property C54: saving and restoring the simulator state. *)
From Coq Require Import ZArith Reals Lra Lia Bool List PeanoNat.
From RecordUpdate Require Import RecordSet.
From Verif Require Import Model.Num Model.Prng Model.Safety Model.Balloon Model.WindField
  Model.Atmosphere Model.Env Model.SimState.
From Verif Require Import Proofs.BalloonProofs Proofs.EnvProofs.
From Verif Require Spec.Flight.
Import ListNotations.
#[local] Opaque initialize_balloon Sampling.sample_time atmosphere_reset simulate_step world_of
  U_HARMONICS V_HARMONICS.

Section SimStateProps.
Context (P : prng) (noise4d : Z -> R -> R -> R -> R -> R) (F : forecaster P).
Context (FC : feature_class P F) (draws : nat).
Notation heap := (heap P F).
Notation rarena := (rarena P F FC).
Notation ref_step := (ref_step P noise4d F FC).
Notation ref_steps := (ref_steps P noise4d F FC).
Notation ref_reset := (ref_reset P noise4d F FC draws).
Notation get_sim := (get_simulator_state P F FC).
Notation set_sim := (set_simulator_state P F FC).
Notation balloon_at := (balloon_at P F).
Notation wind_at := (wind_at P F).
Notation atmosphere_at := (atmosphere_at P F).
Notation refs := (ra_refs P F FC).
(** The balloon the arena simulates. *)
Notation current h r := (snd (balloon_at h (s_balloon (refs r)))).

Lemma step_refs h r c : refs (snd (fst (ref_step h r c))) = refs r.
Proof. unfold SimState.ref_step. destruct (arena_step _ _ _ _ _ _) as [a res]. reflexivity. Qed.
Lemma steps_refs cs h r : refs (snd (ref_steps h r cs)) = refs r.
Proof.
  revert h r. induction cs as [|c cs IH]; intros h r; [reflexivity|]. cbn.
  pose proof (step_refs h r c) as H. destruct (ref_step h r c) as [[h1 r1] res]. cbn in H. now rewrite IH.
Qed.

(** Restoring what was saved before some steps has no effect at all: the saved
    state is the live one. *)
Theorem C54_restore_is_a_no_op : forall (h : heap) (r : rarena) cs,
  let saved := get_sim r in
  let '(h', r') := ref_steps h r cs in
  set_sim r' saved = r' /\ balloon_at h' (s_balloon saved) = balloon_at h' (s_balloon (refs r')).
Proof.
  intros h r cs. cbv zeta. pose proof (steps_refs cs h r) as H.
  destruct (ref_steps h r cs) as [h' r']. cbn in H.
  unfold get_simulator_state, set_simulator_state. rewrite <- H. split; [|reflexivity].
  destruct r'; reflexivity.
Qed.

(** So a restored balloon is never back at the saved instant once a step has
    been simulated. *)
Theorem C54_refuted : forall (h : heap) (r : rarena) c h' r' o,
  ref_step h r c = (h', r', Returned o) ->
  let restored := set_sim r' (get_sim r) in
  time_elapsed (current h' restored) <> time_elapsed (current h r).
Proof.
  intros h r c h' r' o E. cbv zeta.
  unfold SimState.ref_step in E. destruct (arena_step _ _ _ _ _ _) as [a res] eqn:Ea.
  injection E as <- <- ->.
  destruct (arena_step_simulates _ _ _ _ _ _ _ _ Ea) as (ce & s & s' & wv & eff & Hb & Hb' & _ & Hs & _).
  rewrite Hb'. cbn in Hb. injection Hb as Hb. cbn. unfold update. rewrite Nat.eqb_refl. cbn. rewrite Hb. cbn.
  destruct (call_clock_whole s (Flight.mkCall (world_of (atmosphere_at h (s_atmosphere (refs r))) ce)
     (u wv, v wv) c AGENT_TIME_STEP STRIDE) 180 10 eq_refl eq_refl ltac:(lia) ltac:(lia) s' _ Hs) as [H _].
  destruct (H eff eq_refl) as (_ & H1 & H2). cbn [Flight.c_delta Flight.c_stride] in H1, H2.
  unfold AGENT_TIME_STEP, STRIDE in H1, H2.
  destruct (bstatus s'); [destruct (H1 eq_refl); lia|..];
    (destruct H2 as (k & Hk & Ht & _); [discriminate|]; lia).
Qed.

(** Across a reset the balloon does come back, but into the weather of the new
    episode: those two objects were changed in place. *)
Theorem C54_reset_changes_saved_weather : forall (h : heap) (r : rarena) k h' r' o,
  (s_balloon (refs r) < next_free P F h)%nat ->
  ref_reset h r k = (h', r', Returned o) ->
  let restored := set_sim r' (get_sim r) in
  current h' restored = current h r /\
  atmosphere_at h' (s_atmosphere (refs restored)) = atmosphere_at h' (s_atmosphere (refs r')) /\
  wind_at h' (s_wind (refs restored)) = wind_at h' (s_wind (refs r')).
Proof.
  intros h r k h' r' o Hf E. cbv zeta. unfold SimState.ref_reset in E.
  destruct (arena_reset _ _ _ _ _ _ _) as [a res] eqn:Ea.
  destruct (initialize_balloon _ _ _ _ _) as [b0|] eqn:Ei.
  2:{ injection E as <- <- ->. exfalso. revert Ei Ea. unfold arena_reset.
      destruct (initialize_balloon P draws _ (atmosphere_reset _) _) as [[c s]|] eqn:Ej.
      - destruct (negb _); [discriminate|]. cbn -[observe_and_get_features].
        destruct (fc_new _ _ _ _ _) as [f|]; [|discriminate].
        intros Ei Ea. match type of Ea with observe_and_get_features _ _ _ _ ?b = _ => set (b1 := b) in Ea end.
        assert (Hat : a_atmosphere P F FC (fst (observe_and_get_features P noise4d F FC b1)) = a_atmosphere P F FC b1).
        { unfold observe_and_get_features. destruct (a_balloon P F FC b1) as [[c1 s1]|]; [|reflexivity].
          destruct (a_features P F FC b1) as [f0|]; [|reflexivity].
          destruct (wind_at_balloon P noise4d F FC b1 s1) as [w0|]; [|reflexivity].
          destruct (fc_observe _ _ _ _ _ _ _ _ _) as [f1 [|]]; [|reflexivity].
          destruct (fc_get_features _ _ _ _ _ _) as [f2 [|]]; reflexivity. }
        rewrite Ea in Hat. cbn [fst] in Hat. rewrite Hat in Ei. exact (eq_ind None (fun z => match z with None => True | Some _ => False end) I _ (eq_trans (eq_sym Ei) Ej)).
      - discriminate. }
  destruct (a_balloon P F FC a) as [b|] eqn:Eb.
  - injection E as <- <- ->. cbn. unfold update.
    unfold get_simulator_state. assert (Q : Nat.eqb (s_balloon (refs r)) (next_free P F h) = false) by (apply Nat.eqb_neq; lia). rewrite Q. repeat split.
  - injection E as <- <- ->. cbn. auto.
Qed.

(** ** With deep copies made by the client *)
Definition well_formed (h : heap) (r : rarena) : Prop :=
  (s_balloon (refs r) < next_free P F h)%nat /\ (s_wind (refs r) < next_free P F h)%nat /\
  (s_atmosphere (refs r) < next_free P F h)%nat.

Lemma arena_step_ignores_features a a' c :
  a_balloon P F FC a = a_balloon P F FC a' -> a_wind P F FC a = a_wind P F FC a' ->
  a_atmosphere P F FC a = a_atmosphere P F FC a' ->
  a_balloon P F FC (fst (arena_step P noise4d F FC a c)) =
  a_balloon P F FC (fst (arena_step P noise4d F FC a' c)).
Proof.
  intros Hb Hw Ha. unfold arena_step, wind_at_balloon. rewrite Hw, Hb, Ha.
  destruct (a_balloon P F FC a') as [[ce s]|] eqn:E; [|cbn; congruence].
  destruct (ground_truth _ _ _ _ _ _ _ _) as [wv|]; [|cbn; congruence].
  destruct (simulate_step _ _ _ _ _ _) as [s' [eff|]]; [|reflexivity].
  rewrite !observe_balloon. reflexivity.
Qed.

Lemma step_elsewhere h r c p : p <> s_balloon (refs r) ->
  let h' := fst (fst (ref_step h r c)) in
  balloon_at h' p = balloon_at h p /\ wind_at h' = wind_at h /\ atmosphere_at h' = atmosphere_at h.
Proof.
  intro Hp. cbv zeta. unfold SimState.ref_step. destruct (arena_step _ _ _ _ _ _) as [a res]. cbn.
  destruct (a_balloon P F FC a); cbn; [|auto]. unfold update.
  destruct (Nat.eqb_spec p (s_balloon (refs r))); [contradiction|auto].
Qed.
Lemma steps_elsewhere cs h r p : p <> s_balloon (refs r) ->
  let h' := fst (ref_steps h r cs) in
  balloon_at h' p = balloon_at h p /\ wind_at h' = wind_at h /\ atmosphere_at h' = atmosphere_at h.
Proof.
  revert h r. induction cs as [|c cs IH]; intros h r Hp; cbn; [auto|].
  pose proof (step_elsewhere h r c p Hp) as H1. pose proof (step_refs h r c) as H2.
  destruct (ref_step h r c) as [[h1 r1] res]. cbn in *.
  destruct (IH h1 r1) as (A & B & C); [now rewrite H2|]. destruct H1 as (A1 & B1 & C1).
  repeat split; congruence.
Qed.
Lemma step_same_balloon h r h1 r1 c :
  balloon_at h (s_balloon (refs r)) = balloon_at h1 (s_balloon (refs r1)) ->
  wind_at h (s_wind (refs r)) = wind_at h1 (s_wind (refs r1)) ->
  atmosphere_at h (s_atmosphere (refs r)) = atmosphere_at h1 (s_atmosphere (refs r1)) ->
  let '(h', r', _) := ref_step h r c in
  let '(h1', r1', _) := ref_step h1 r1 c in
  balloon_at h' (s_balloon (refs r')) = balloon_at h1' (s_balloon (refs r1')) /\
  wind_at h' (s_wind (refs r')) = wind_at h1' (s_wind (refs r1')) /\
  atmosphere_at h' (s_atmosphere (refs r')) = atmosphere_at h1' (s_atmosphere (refs r1')).
Proof.
  intros Hb Hw Ha.
  assert (H : a_balloon P F FC (fst (arena_step P noise4d F FC (deref P F FC h r) c)) =
              a_balloon P F FC (fst (arena_step P noise4d F FC (deref P F FC h1 r1) c))).
  { apply arena_step_ignores_features; cbn; congruence. }
  unfold SimState.ref_step. destruct (arena_step _ _ _ _ (deref P F FC h r) c) as [a ra].
  destruct (arena_step _ _ _ _ (deref P F FC h1 r1) c) as [a1 ra1]. cbn in H |- *. rewrite H.
  destruct (a_balloon P F FC a1); cbn; [|auto]. unfold update. rewrite !Nat.eqb_refl. auto.
Qed.

(** A client that deep-copies what get_simulator_state returned, steps as it
    likes and restores the copy gets back the balloon, the wind and the atmosphere
    of the saved instant, and any further actions produce the balloon states they
    would have produced then.  (Not the feature constructor's memory.) *)
Theorem C54_deep_copy : forall (h : heap) (r : rarena) cs ds,
  well_formed h r ->
  let '(h1, saved) := deepcopy P F h (get_sim r) in
  let '(h2, r2) := ref_steps h1 r cs in
  let restored := set_sim r2 saved in
  balloon_at h2 (s_balloon (refs restored)) = balloon_at h (s_balloon (refs r)) /\
  wind_at h2 (s_wind (refs restored)) = wind_at h (s_wind (refs r)) /\
  atmosphere_at h2 (s_atmosphere (refs restored)) = atmosphere_at h (s_atmosphere (refs r)) /\
  let '(h3, r3) := ref_steps h2 restored ds in
  let '(h4, r4) := ref_steps h r ds in
  balloon_at h3 (s_balloon (refs r3)) = balloon_at h4 (s_balloon (refs r4)).
Proof.
  intros h r cs ds (W1 & W2 & W3). unfold deepcopy. cbv zeta.
  set (h1 := mkHeap _ _ _ _ _ _). set (saved := mkSim _ _ _).
  assert (N : s_balloon saved <> s_balloon (refs r)) by (cbn; lia).
  pose proof (steps_elsewhere cs h1 r (s_balloon saved) N) as H.
  destruct (ref_steps h1 r cs) as [h2 r2]. cbn in H. destruct H as (A & B & C).
  cbn. rewrite A, B, C. unfold update. rewrite !Nat.eqb_refl.
  split; [reflexivity|]. split; [reflexivity|]. split; [reflexivity|].
  assert (G : forall ds (ha : heap) (ra : rarena) (hb : heap) (rb : rarena),
    balloon_at ha (s_balloon (refs ra)) = balloon_at hb (s_balloon (refs rb)) ->
    wind_at ha (s_wind (refs ra)) = wind_at hb (s_wind (refs rb)) ->
    atmosphere_at ha (s_atmosphere (refs ra)) = atmosphere_at hb (s_atmosphere (refs rb)) ->
    let '(h3, r3) := ref_steps ha ra ds in let '(h4, r4) := ref_steps hb rb ds in
    balloon_at h3 (s_balloon (refs r3)) = balloon_at h4 (s_balloon (refs r4))).
  { clear. induction ds as [|d ds IH]; intros ha ra hb rb H1 H2 H3; cbn; [exact H1|].
    pose proof (step_same_balloon ha ra hb rb d H1 H2 H3) as Q.
    destruct (ref_step ha ra d) as [[ha' ra'] x1], (ref_step hb rb d) as [[hb' rb'] x2].
    destruct Q as (Q1 & Q2 & Q3). now apply IH. }
  apply G; cbn; [rewrite A|rewrite B|rewrite C]; cbn; unfold update; rewrite Nat.eqb_refl; reflexivity.
Qed.
End SimStateProps.
Print Assumptions C54_restore_is_a_no_op.
Print Assumptions C54_refuted.
Print Assumptions C54_reset_changes_saved_weather.
Print Assumptions C54_deep_copy.
