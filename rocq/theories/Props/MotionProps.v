(** Property C79: the equations of motion behind a step of the environment. *)
From Coq Require Import ZArith Reals Lra Lia Bool List.
From RecordUpdate Require Import RecordSet.
From Verif Require Import Model.Num Model.Prng Model.Safety Model.Acs Model.Balloon Model.WindField
  Model.Atmosphere Model.StableInit Model.Env.
From Verif Require Import Spec.PrngSpec Spec.Envelope Spec.Buoyancy Spec.Episodes Spec.Motion.
From Verif Require Import Proofs.NumR Proofs.BalloonProofs Proofs.SafetyProofs Proofs.EnvProofs Proofs.MotionProofs
  Proofs.ExampleFlight.
From Verif Require Import Props.AtmosphereProps Props.StableInitProps Props.EnvProps Props.VehicleProps Props.SoundStartProps.
Import ListNotations RecordSetNotations.
#[local] Opaque simulate_step world_of atmosphere_reset simulate_substep.
Open Scope R_scope.

(** What the number of an action means. *)
Definition meaning (action : Z) : option control :=
  if Z.eqb action 0 then Some pump else if Z.eqb action 1 then Some hold
  else if Z.eqb action 2 then Some vent else None.

Section MotionProps.
Context (P : prng) (noise4d : Z -> R -> R -> R -> R -> R) (F : forecaster P).
Context (FC : feature_class P F).
Context (reward_fn : wind_field P F -> atmosphere -> R * R -> bstate R -> option R).
Context (draws : nat).
Notation env := (env P F FC).
Notation env_step := (env_step P noise4d F FC reward_fn).
Notation env_reset := (env_reset P noise4d F FC draws).
Notation after := (after P noise4d F FC reward_fn draws).
Notation arena e := (e_arena P F FC e).

Definition in_flight (e : env) : Prop := exists center s alpha,
  a_balloon P F FC (arena e) = Some (center, s) /\ airworthy s /\
  0 <= alpha <= 1 /\ a_atmosphere P F FC (arena e) = atmosphere_reset alpha.

(** Between resets the balloon stands still or simulates; the atmosphere stays. *)
Lemma env_step_balloon (e : env) z :
  a_atmosphere P F FC (arena (fst (env_step e z))) = a_atmosphere P F FC (arena e) /\
  (a_balloon P F FC (arena (fst (env_step e z))) = a_balloon P F FC (arena e) \/
   exists center s s' wind c r, a_balloon P F FC (arena e) = Some (center, s) /\
     simulate_step (world_of (a_atmosphere P F FC (arena e)) center) wind c AGENT_TIME_STEP STRIDE s = (s', r) /\
     a_balloon P F FC (arena (fst (env_step e z))) = Some (center, s')).
Proof.
  unfold Env.env_step. destruct (command_of_int z) as [c|]; [|cbn; auto].
  unfold arena_step. destruct (a_balloon P F FC (arena e)) as [[center s]|] eqn:Eb; [|cbn; auto].
  destruct (wind_at_balloon _ _ _ _ _ _) as [wv|]; [|cbn; auto].
  destruct (simulate_step _ _ _ _ _ s) as [s' [eff|x]] eqn:Es.
  - match goal with |- context [observe_and_get_features P noise4d F FC ?b] => set (a1 := b) end.
    pose proof (observe_balloon P noise4d F FC a1) as H1.
    assert (H2 : a_atmosphere P F FC (fst (observe_and_get_features P noise4d F FC a1)) = a_atmosphere P F FC (arena e)).
    { unfold observe_and_get_features. destruct (a_balloon P F FC a1) as [[c1 s1]|]; [|reflexivity].
      destruct (a_features P F FC a1) as [f0|]; [|reflexivity].
      destruct (wind_at_balloon P noise4d F FC a1 s1) as [w0|]; [|reflexivity].
      destruct (fc_observe _ _ _ _ _ _ _ _ _) as [f [|]]; [|reflexivity].
      destruct (fc_get_features _ _ _ _ _ _) as [f' [|]]; reflexivity. }
    assert (K : forall e' : env, a_balloon P F FC (arena e') = a_balloon P F FC (fst (observe_and_get_features P noise4d F FC a1)) ->
      a_atmosphere P F FC (arena e') = a_atmosphere P F FC (fst (observe_and_get_features P noise4d F FC a1)) ->
      a_atmosphere P F FC (arena e') = a_atmosphere P F FC (arena e) /\
      (a_balloon P F FC (arena e') = Some (center, s) \/
       exists center0 s0 s'0 wind c0 r, Some (center, s) = Some (center0, s0) /\
       simulate_step (world_of (a_atmosphere P F FC (arena e)) center0) wind c0 AGENT_TIME_STEP STRIDE s0 = (s'0, r) /\
       a_balloon P F FC (arena e') = Some (center0, s'0))).
    { intros e' B A. rewrite B, A, H1, H2. split; [reflexivity|]. right.
      exists center, s, s', (u wv, v wv), c, (Executed eff). split; [reflexivity|]. split; [exact Es|reflexivity]. }
    destruct (observe_and_get_features P noise4d F FC a1) as [a2 [o|]]; [|apply K; reflexivity].
    cbn [fst] in *. destruct (a_balloon P F FC a2) as [[c2 s2]|] eqn:Eb2; [|apply K; [exact Eb2|reflexivity]].
    destruct (reward_fn _ _ _ _); apply K; try reflexivity; exact Eb2.
  - cbn. split; [reflexivity|]. right. exists center, s, s', (u wv, v wv), c, (Balloon.Raised x). auto.
Qed.

Lemma ran_euler alpha center wind a k s s' : 0 <= alpha <= 1 -> airworthy s ->
  ran (world_of (atmosphere_reset alpha) center) wind a (10 * 1000000) k s s' ->
  airworthy s' /\
  exists f : nat -> condition, f 0%nat = condition_of s /\ f k = condition_of s' /\
    forall j, (j < k)%nat ->
      ten_seconds (profile_of (atmosphere_reset alpha)) (sun_of center) (upwelling_infrared s) (fst wind) (snd wind)
        (control_of a) (f j) (f (S j)).
Proof.
  intros Ha Hs H. induction H as [s|s s' H Hb|k s s1 s' H Hb Hr IH].
  - split; [exact Hs|]. exists (fun _ => condition_of s).
    split; [reflexivity|]. split; [reflexivity|]. intros j Hj. lia.
  - destruct (substep_euler _ _ _ _ _ _ Ha Hs H) as [A T]. split; [exact A|].
    exists (fun j => match j with O => condition_of s | _ => condition_of s' end).
    split; [reflexivity|]. split; [reflexivity|].
    intros j Hj. replace j with 0%nat by lia. exact T.
  - destruct (substep_euler _ _ _ _ _ _ Ha Hs H) as [A T]. destruct (IH A) as (A' & f & F0 & Fk & Ff).
    split; [exact A'|]. exists (fun j => match j with O => condition_of s | S j => f j end).
    split; [reflexivity|]. split; [exact Fk|].
    assert (I : upwelling_infrared s1 = upwelling_infrared s).
    { apply substep_fields in H. destruct H as (np & h & amb & _ & _ & Ef). cbv zeta in Ef. decompose [and] Ef. assumption. }
    rewrite I in Ff. intros [|j] Hj; [rewrite F0; exact T|]. apply Ff. lia.
Qed.
Lemma simulate_euler alpha center wind c s s' r : 0 <= alpha <= 1 -> airworthy s ->
  simulate_step (world_of (atmosphere_reset alpha) center) wind c AGENT_TIME_STEP STRIDE s = (s', r) ->
  airworthy s'.
Proof.
  intros Ha Hs E. destruct (call_ran _ _ _ _ _ _ _ _ E) as (p & en & al & k & eff & Hr & _).
  refine (proj1 (ran_euler alpha center wind eff k _ s' Ha _ Hr)). exact Hs.
Qed.

Lemma in_flight_after (e : env) actions : in_flight e -> in_flight (after e (map (Episodes.Step) actions)).
Proof.
  revert e. induction actions as [|z actions IH]; intros e H; [exact H|]. cbn [map Episodes.after]. apply IH.
  unfold call. destruct (env_step_balloon e z) as [A B]. destruct (env_step e z) as [e' r]. cbn [fst] in *.
  destruct H as (center & s & alpha & Hb & Hs & Ha & Hat).
  destruct B as [B|(ce & s0 & s' & wind & c & r' & B0 & Es & B)].
  - exists center, s, alpha. rewrite B, A. auto.
  - rewrite Hb in B0. injection B0 as <- <-. rewrite Hat in Es.
    exists center, s', alpha. rewrite B, A. split; [reflexivity|]. split; [|auto]. exact (simulate_euler _ _ _ _ _ _ _ Ha Hs Es).
Qed.

(** A step from a state in flight. *)
Lemma step_motion (e e' : env) action o reward done i : in_flight e ->
  env_step e action = (e', Returned (o, reward, done, i)) ->
  exists center s s' alpha wind c (k : nat) (f : nat -> condition),
    a_balloon P F FC (arena e) = Some (center, s) /\ a_balloon P F FC (arena e') = Some (center, s') /\
    0 <= alpha <= 1 /\ a_atmosphere P F FC (arena e) = atmosphere_reset alpha /\
    ground_truth P noise4d F (a_wind P F FC (arena e)) (x s) (y s) (pressure s) (time_elapsed s) = Some wind /\
    (1 <= k <= 18)%nat /\ (done = false -> k = 18%nat) /\
    f 0%nat = condition_of s /\ f k = condition_of s' /\
    (forall j, (j < k)%nat ->
       ten_seconds (profile_of (atmosphere_reset alpha)) (sun_of center) (upwelling_infrared s) (u wind) (v wind)
         c (f j) (f (S j))) /\
    (navigation_is_paused s' = false -> meaning action = Some c).
Proof.
  intros (ce0 & s0 & alpha & Hb0 & Hs & Ha & Hat) E.
  destruct (C09_reported _ _ _ _ _ _ _ _ _ _ _ _ E)
    as (b & b' & B0 & B0' & _ & Hok & Rd & _ & _ & _ & _ & Tf & Tt & _).
  destruct (env_step_returns _ _ _ _ _ _ _ _ _ _ _ _ E)
    as (c & ce & s & s' & wv & eff & Hc & Hb & Hb' & Es & Hw & _).
  rewrite Hb0 in Hb. injection Hb as <- <-.
  unfold Episodes.balloon_of in B0, B0'. rewrite Hb0 in B0. rewrite Hb' in B0'. injection B0 as <-. injection B0' as <-.
  rewrite Hat in Es. pose proof (call_ran _ _ _ _ _ _ _ _ Es) as (p & en & al & k & eff' & Hr & _ & _ & _ & _ & Hx & _).
  destruct (Hx eff eq_refl) as (<- & _). clear Hx.
  set (s1 := s0 <| last_command := c |> <| power_layer := p |> <| envelope_layer := en |> <| altitude_layer := al |>) in *.
  destruct (ran_clock _ _ _ _ _ _ _ Hr) as [_ Hclock]. change (time_elapsed s1) with (time_elapsed s0) in Hclock.
  assert (Hk : (1 <= k <= 18)%nat /\ (done = false -> k = 18%nat)).
  { destruct done.
    - destruct (Tt eq_refl) as (k' & Hk' & Ht). unfold STRIDE in Hclock. split; [lia|discriminate].
    - specialize (Tf eq_refl). unfold STRIDE in Hclock. split; [lia|intros _; lia]. }
  assert (Hs1 : airworthy s1) by exact Hs.
  destruct (ran_euler alpha ce0 _ eff k s1 s' Ha Hs1 Hr) as (_ & f & F0 & Fk & Ff).
  exists ce0, s0, s', alpha, wv, (control_of eff), k, f.
  split; [exact Hb0|]. split; [exact Hb'|]. split; [exact Ha|]. split; [exact Hat|]. split; [exact Hw|].
  split; [tauto|]. split; [tauto|]. split; [exact F0|]. split; [exact Fk|]. split; [exact Ff|].
  intro Hp. destruct (simulate_step_executed _ _ _ _ _ _ _ _ Es) as (_ & s2 & HL & _ & _ & HS).
  destruct (substeps_layers _ _ _ _ _ _ _ _ HS) as (L1 & L2 & L3 & _).
  assert (Q : eff = c).
  { eapply layers_unpaused_id; [exact HL| |].
    - cbn. destruct Hs as (_ & En & _). rewrite En. discriminate.
    - unfold navigation_is_paused in *. rewrite <- L1, <- L2, <- L3. exact Hp. }
  rewrite Q. revert Hc. unfold command_of_int, meaning.
  destruct (Z.eqb action 0); [intros [= <-]; reflexivity|]. destruct (Z.eqb action 1); [intros [= <-]; reflexivity|].
  destruct (Z.eqb action 2); [intros [= <-]; reflexivity|discriminate].
Qed.

(** ** C79 *)
(** Every episode starts in flight. *)
Lemma start_in_flight (e e' : env) seed o i : lawful P ->
  env_reset e seed = (e', Returned (o, i)) -> in_flight e'.
Proof.
  intros HP E.
  destruct (C63_start _ _ _ _ _ _ _ _ _ _ HP E) as (_ & _ & _ & _ & center & s & alpha & Hb & Ha & Hat & _ & _ & _ & Hp & _ & _ & _ & _ & _ & _ & _ & _ & _ & s0 & lat & lng & Ec).
  destruct (C63_vehicle _ _ _ _ _ _ _ _ _ _ E) as (ce & b & Hb1 & V & L & _).
  destruct (C63_sound_envelope _ _ _ _ _ _ _ _ _ _ HP E) as (ce2 & b2 & Hb2 & _ & SP & _).
  rewrite Hb in Hb1, Hb2. injection Hb1 as <- <-. injection Hb2 as <- <-.
  exists center, s, alpha. split; [exact Hb|]. split; [|auto].
  pose proof V as (V1 & V2 & V3 & V4 & V5 & V6 & V7 & V8 & V9 & V10 & V11). destruct L as (En & _).
  assert (K : envelope_volume_base s0 = envelope_volume_base s /\ envelope_volume_dv_pressure s0 = envelope_volume_dv_pressure s).
  { revert Ec. unfold cold_start_to_stable_params. destruct (calculate_stable_params_for_pressure _ _ _ _ _ _ _ _ _ _ _); [|discriminate].
    intros [= <-]. split; reflexivity. }
  destruct K as [K1 K2].
  destruct (C56_cold_start s0 s lat lng alpha Ha ltac:(rewrite K1, V1; lra) ltac:(rewrite K2, V2; lra) Ec)
    as ((v & Ev & ET) & Hm & _ & _ & Law & _).
  assert (HT : 0 < ambient_temperature s).
  { rewrite ET. destruct (C15_pressure_then_height alpha (pressure s0) Ha) as [_ Q]. destruct (Q v Ev) as [_ Eh].
    destruct (C16_values_positive alpha _ v Ha Eh) as (Ht & _). exact Ht. }
  split; [exact V|]. split; [exact En|]. split; [exact HT|]. split; [|lra].
  destruct Law as [(_ & Z & _)|(G & _)]; [lra|]. rewrite K1, V1 in G. lra.
Qed.

(** Reset, then any number of steps, whatever they return; the next step, if it returns,
    went through one to eighteen ten-second Euler steps of the equations of motion, under the wind
    of the place and time where it began; all eighteen of them unless the episode ended.
    The control was the one the agent asked for, unless a safety layer says it is in charge. *)
Theorem C79_equations_of_motion : forall (e0 e1 e e' : env) seed o1 i1 actions action o reward done i,
  lawful P ->
  env_reset e0 seed = (e1, Returned (o1, i1)) ->
  e = after e1 (map (Episodes.Step) actions) ->
  env_step e action = (e', Returned (o, reward, done, i)) ->
  exists center s s' alpha wind c (k : nat) (f : nat -> condition),
    a_balloon P F FC (arena e) = Some (center, s) /\ a_balloon P F FC (arena e') = Some (center, s') /\
    0 <= alpha <= 1 /\ a_atmosphere P F FC (arena e) = atmosphere_reset alpha /\
    ground_truth P noise4d F (a_wind P F FC (arena e)) (x s) (y s) (pressure s) (time_elapsed s) = Some wind /\
    (1 <= k <= 18)%nat /\ (done = false -> k = 18%nat) /\
    f 0%nat = condition_of s /\ f k = condition_of s' /\
    (forall j, (j < k)%nat ->
       ten_seconds (profile_of (atmosphere_reset alpha)) (sun_of center) (upwelling_infrared s) (u wind) (v wind)
         c (f j) (f (S j))) /\
    (navigation_is_paused s' = false -> meaning action = Some c).
Proof.
  intros e0 e1 e e' seed o1 i1 actions action o reward done i HP E -> Es.
  exact (step_motion _ _ _ _ _ _ _ (in_flight_after _ _ (start_in_flight _ _ _ _ _ HP E)) Es).
Qed.

(** At every moment of an episode the balloon is the published one, in warm air, with a
    positive amount of gas in a positive volume: no rate above is ever divided by zero. *)
Theorem C79_airworthy : forall (e0 e1 : env) seed o1 i1 actions,
  lawful P ->
  env_reset e0 seed = (e1, Returned (o1, i1)) ->
  exists center s, a_balloon P F FC (arena (after e1 (map (Episodes.Step) actions))) = Some (center, s) /\
    published_vehicle s /\ 0 < ambient_temperature s /\ 0 < envelope_volume s /\ 0 < 6830 + mols_air s.
Proof.
  intros e0 e1 seed o1 i1 actions HP E.
  destruct (in_flight_after _ actions (start_in_flight _ _ _ _ _ HP E)) as (center & s & alpha & Hb & (V & _ & H) & _).
  exists center, s. auto.
Qed.
End MotionProps.
Print Assumptions C79_equations_of_motion.
Print Assumptions C79_airworthy.
