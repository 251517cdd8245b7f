(** Property C84: evaluations, training episodes and Acme episodes run to their end, and
    the packaged agents always have an answer. *)
From Coq Require Import ZArith Reals List Bool Lia Lra Psatz.
From Verif Require Import Model.Num Model.Prng Model.Safety Model.Balloon Model.WindField Model.WindGP Model.Atmosphere
  Model.Geometry Model.PressureRange Model.Env Model.Features Model.Agents Model.Eval Model.Exploration Model.Acme
  Model.Collectors Model.Training Model.Sampling Model.FeatureAgents Model.Mlp.
From Verif Require Import Spec.PrngSpec Spec.FeatureSpec Spec.SeekerSpec Spec.Flight Spec.LearningSpec Spec.CompleteSpec.
From Verif Require Spec.Episodes Props.MlpProps.
From Verif Require Import Proofs.NumR Proofs.AgentProofs Proofs.MlpProofs Proofs.SteadyFlight Proofs.CompleteProofs.
From Verif Require Import Props.BalloonProps Props.EnvProps Props.StartProps Props.ResetProps Props.PerciatelliResetProps
  Props.DefaultRangeProps Props.VehicleProps Props.AgentProps Props.ObservationProps Props.MotionProps Props.ProgressProps.
Import ListNotations.
Open Scope R_scope.
#[local] Opaque simulate_step world_of atmosphere_reset wind_reset.

Section General.
Context (P : prng) (noise4d : Z -> R -> R -> R -> R -> R) (F : forecaster P) (FC : feature_class P F).
Context (reward_fn : wind_field P F -> atmosphere -> R * R -> bstate R -> option R).
Context (HP : lawful P) (HS : sampling_ends P) (HF : answers F) (HC : never_raises FC).
Context (HR : forall w atm center s, reward_fn w atm center s <> None).
Notation gym := (balloon_gym P noise4d F FC reward_fn).
Notation env := (env P F FC).

(** [k] steps after a reset, and the episode goes on. *)
Definition going (k : nat) (e : env) : Prop := exists draws e0 e1 seed o1 i1 actions,
  env_reset P noise4d F FC draws e0 seed = (e1, Returned (o1, i1)) /\
  length actions = k /\ e = Episodes.after P noise4d F FC reward_fn draws e1 (map Episodes.Step actions) /\
  exists s, Episodes.balloon_of P F FC e = Some s /\ bstatus s = OK.
Lemma going_reset draws (e0 e1 : env) seed o1 i1 :
  env_reset P noise4d F FC draws e0 seed = (e1, Returned (o1, i1)) -> going 0 e1.
Proof.
  intro E. exists draws, e0, e1, seed, o1, i1, []. split; [exact E|]. split; [reflexivity|]. split; [reflexivity|].
  destruct (C63_start _ _ _ _ _ _ _ _ _ _ HP E) as (_ & _ & _ & _ & ce & s1 & alpha & Hb & _ & _ & _ & _ & _ & _ & _ & _ & Hok & _).
  exists s1. unfold Episodes.balloon_of. rewrite Hb. auto.
Qed.
Lemma going_step k (e e' : env) a o r i : going k e ->
  env_step P noise4d F FC reward_fn e a = (e', Returned (o, r, false, i)) -> going (S k) e'.
Proof.
  intros (draws & e0 & e1 & seed & o1 & i1 & actions & E & L & He & _) Es.
  exists draws, e0, e1, seed, o1, i1, (actions ++ [a]). split; [exact E|]. split; [rewrite app_length; cbn; lia|].
  split.
  { rewrite map_app, after_app. cbn [map Episodes.after Episodes.call]. rewrite <- He, Es. reflexivity. }
  destruct (C09_reported _ _ _ _ _ _ _ _ _ _ _ _ Es) as (_ & s2 & _ & B2 & _ & _ & Rd & _).
  exists s2. split; [exact B2|]. destruct (bstatus s2); [reflexivity|..]; discriminate (proj2 Rd ltac:(discriminate)).
Qed.

Lemma general_reset (e : env) seed : exists N e1 o i,
  (forall draws, (N <= draws)%nat -> env_reset P noise4d F FC draws e seed = (e1, Returned (o, i))) /\ going 0 e1 /\ True.
Proof.
  destruct (C65_reset P HP noise4d F FC HS HF HC e seed) as (N & e1 & o & i & E).
  exists N, e1, o, i. split; [exact E|]. split; [|exact I]. exact (going_reset N e e1 seed o i (E N (le_n N))).
Qed.
Lemma general_step k (e : env) a : (k < Z.to_nat 14000000)%nat -> going k e -> (0 <= a <= 2)%Z ->
  exists e' o r d i, env_step P noise4d F FC reward_fn e a = (e', Returned (o, r, d, i)) /\ True /\ (d = false -> going (S k) e').
Proof.
  intros Hk Hg Ha. pose proof Hg as (draws & e0 & e1 & seed & o1 & i1 & actions & E & L & He & s & Hb & Hok).
  destruct (env_step P noise4d F FC reward_fn e a) as [e' res] eqn:Es.
  destruct (C80_step_returns P noise4d F FC reward_fn draws e0 e1 e e' seed o1 i1 actions a res HP HF HC HR E ltac:(lia) He Es)
    as (ce & s' & Hb' & Iff).
  assert (s' = s) as -> by (unfold Episodes.balloon_of in Hb; rewrite Hb' in Hb; congruence).
  destruct (proj2 Iff (conj Ha Hok)) as [[[[o r] d] i] ->].
  exists e', o, r, d, i. split; [reflexivity|]. split; [exact I|]. intros ->. exact (going_step k e e' a o r i Hg Es).
Qed.

(** With feature constructors and reward functions that do not raise, an evaluation of an
    agent that always answers (for every observation) returns the results. *)
Theorem C84_evaluation : forall (A : agent_class (observation P F FC)) idle busy a (e : env) render_period flight_path zs max,
  obliging A (fun _ => True) idle busy -> idle (ag_set_mode A a EVAL) ->
  render_period <> 0%Z -> (0 < max <= 14000000)%Z ->
  exists N rs e' a', idle a' /\ forall draws, (N <= draws)%nat ->
    eval_agent (gym draws) A render_period flight_path a e (mkSuite zs max) = Some (rs, e', a').
Proof.
  intros A idle busy a e rp fp zs max HA Hg Hrp Hm.
  apply (evaluation_completes P noise4d F FC reward_fn going (fun _ => True) (Z.to_nat 14000000) general_reset general_step
           A idle busy HA rp fp Hrp max zs e a); [lia|exact Hg].
Qed.
(** So does the training of such an agent, with collectors that do not raise. *)
Theorem C84_training : forall (A : trainable (observation P F FC)) idle busy off on a (e : env) cs render_period n max,
  obliging (t_agent A) (fun _ => True) idle busy -> recording off on -> idle a -> off cs ->
  render_period <> 0%Z -> (max <= 14000000)%Z ->
  exists N e' a' cs', idle a' /\ off cs' /\ forall draws, (N <= draws)%nat ->
    run_episodes (gym draws) A n max render_period e a cs = Some (e', a', cs').
Proof.
  intros A idle busy off on a e cs rp n max HA HW Hg Hw Hrp Hm.
  apply (trainings_complete P noise4d F FC reward_fn going (fun _ => True) (Z.to_nat 14000000) general_reset general_step
           A idle busy HA off on HW rp Hrp max n); [lia|exact Hg|exact Hw].
Qed.
(** And the episodes of Acme's environment loop. *)
Theorem C84_acting : forall (C : actor (observation P F FC)) good c (e : env) limit,
  obliging_actor C (fun _ => True) good -> good c -> (0 < limit <= 14000000)%Z ->
  exists N e' c' (l : list (Z * timestep (observation P F FC))), good c' /\ forall draws, (N <= draws)%nat ->
    acme_episode (gym draws) C limit e c = Some (e', c', l).
Proof.
  intros C good c e limit HC' Hg Hl.
  apply (acting_completes P noise4d F FC reward_fn going (fun _ => True) (Z.to_nat 14000000) general_reset general_step
           C good HC' limit e c); [lia|exact Hg].
Qed.
End General.
Print Assumptions C84_evaluation.
Print Assumptions C84_training.
Print Assumptions C84_acting.

(** ** The default feature constructor *)
Section Charge.
Context (P : prng) (noise4d : Z -> R -> R -> R -> R -> R) (F : forecaster P) (G : regressor)
  (fcol : wind_field P F -> R -> R -> list R -> Z -> option (list wind)).
Context (reward_fn : wind_field P F -> atmosphere -> R * R -> bstate R -> option R).
Context (HP : lawful P).
Local Notation FC := (perciatelli P F G fcol).
Notation env := (env P F FC).

Definition charged (s : bstate R) : Prop := 0 <= battery_charge s <= battery_capacity s /\ (bstatus s = OK -> 0 < battery_charge s).
Lemma charged_reset draws (e0 e1 : env) seed o1 i1 :
  env_reset P noise4d F FC draws e0 seed = (e1, Returned (o1, i1)) ->
  exists s, Episodes.balloon_of P F FC e1 = Some s /\ charged s.
Proof.
  intro E. destruct (C63_start _ _ _ _ _ _ _ _ _ _ HP E)
    as (_ & _ & _ & _ & ce & s1 & alpha & Hb & _ & _ & _ & _ & _ & _ & _ & _ & Hok & _ & _ & Hc & Hcap & _).
  exists s1. unfold Episodes.balloon_of. rewrite Hb. split; [reflexivity|]. unfold charged. rewrite Hc, Hcap. lra.
Qed.
Lemma charged_step (e e' : env) a o r d i s :
  env_step P noise4d F FC reward_fn e a = (e', Returned (o, r, d, i)) ->
  Episodes.balloon_of P F FC e = Some s -> charged s ->
  exists s', Episodes.balloon_of P F FC e' = Some s' /\ charged s'.
Proof.
  intros E Hb [Hc Hpos].
  destruct (C09_reported _ _ _ _ _ _ _ _ _ _ _ _ E) as (s1 & s2 & B1 & B2 & _ & Hok & _).
  rewrite Hb in B1. injection B1 as <-. exists s2. split; [exact B2|].
  pose proof (env_step_moves P noise4d F FC reward_fn e a) as B. rewrite E in B. cbn [fst] in B.
  unfold Episodes.balloon_of in Hb, B2.
  destruct B as [B|(ce & s0 & s' & wind & c & r' & B0 & Ew & Es & B)].
  - rewrite B in B2. rewrite Hb in B2. injection B2 as <-. split; [exact Hc|exact Hpos].
  - rewrite B0 in Hb. injection Hb as ->. rewrite B in B2. injection B2 as ->.
    pose proof (C07_battery_limits s [mkCall (world_of (a_atmosphere P F FC (e_arena P F FC e)) ce) (u wind, v wind) c AGENT_TIME_STEP STRIDE]
      (conj (Hpos Hok) (proj2 Hc)) Hok) as Q.
    cbn [fly_end] in Q. unfold do_call in Q. cbn [c_world c_wind c_action c_delta c_stride] in Q. rewrite Es in Q. cbn [fst] in Q.
    destruct Q as (_ & Q1 & _ & Q2). split; [exact Q1|]. intro Hok'.
    destruct (Req_dec (battery_charge s2) 0) as [Z0|Z0]; [|lra]. apply Q2 in Z0. congruence.
Qed.

(** An observation on which the packaged agents have an answer. *)
Definition readable (o : list R) : Prop :=
  length o = 1099%nat /\ exists x, pick_action o = Some x /\ (0 <= x <= 2)%Z.
Lemma flown_readable draws l e o n s : flown P noise4d F G fcol reward_fn draws l e o -> (Z.of_nat n <= 14000000)%Z ->
  cruising P F FC n e -> Episodes.balloon_of P F FC e = Some s -> charged s -> readable o.
Proof.
  intros Fl Hn (center & s' & alpha & w & k & d & f & Hb & Al & Ha & Hat & _ & _ & _ & _ & Hd) Hs [Hc _].
  unfold Episodes.balloon_of in Hs. rewrite Hb in Hs. injection Hs as ->.
  destruct (flown_object _ _ _ _ _ _ _ _ _ _ Fl) as (ce & s' & g & before & _ & Hb' & _ & Hv & Hl & _).
  rewrite Hb in Hb'. injection Hb' as <- <-.
  destruct Al as (V & _ & Hir & Hp & _ & _).
  assert (Hcap : 0 < battery_capacity s) by (destruct V as (_ & _ & _ & _ & _ & _ & _ & _ & _ & _ & ->); lra).
  destruct (C49_on_observations P F G fcol _ _ g center s o Hv Hl ltac:(lra) Hc Hcap) as (Pl & b & range & Nb & Er & M).
  assert (Hdef : default_balloon s).
  { destruct V as (V1 & V2 & V3 & V4 & V5 & V6 & V7 & _). repeat (split; [assumption|]). assumption. }
  assert (Hd' : before_2100 (date_time s)) by (unfold before_2100; lia).
  rewrite Hat in Er.
  destruct (C76_whole_range alpha s (fst (latlng center (x s) (y s))) (snd (latlng center (x s) (y s))) Ha Hdef Hd' Hir)
    as (floor & ceiling & top & _ & _ & _ & Er' & _ & _ & T1 & T2).
  rewrite Er in Er'. injection Er' as ->. cbn [min_pressure max_pressure] in M.
  split; [exact (proj1 Pl)|]. destruct (pick_action o) as [x|].
  - exists x. split; [reflexivity|]. destruct M as (l' & _ & _ & ->). destruct (l' <? b)%Z, (b <? l')%Z; lia.
  - elim (M 80%Z). split; [unfold is_level; lia|]. unfold level_pressure. lra.
Qed.
End Charge.

Section Default.
Context (P : prng) (noise4d : Z -> R -> R -> R -> R -> R) (F : forecaster P) (G : regressor)
  (fcol : wind_field P F -> R -> R -> list R -> Z -> option (list wind)).
Context (reward_fn : wind_field P F -> atmosphere -> R * R -> bstate R -> option R).
Context (HP : lawful P) (HS : sampling_ends P) (HF : answers F) (HG : regresses G) (Hcol : column_of fcol).
Context (HR : forall w atm center s, reward_fn w atm center s <> None).
Local Notation FC := (perciatelli P F G fcol).
Notation gym := (balloon_gym P noise4d F FC reward_fn).
Notation env := (env P F FC).
Context (W : R) (K : nat).
Hypothesis wind_speed : forall w px py pp t wv, ground_truth P noise4d F w px py pp t = Some wv -> sqrt (u wv * u wv + v wv * v wv) <= W.
Hypothesis near : 200000 + 180 * W * INR K <= 4000000.
Hypothesis short : (Z.of_nat K <= 14000000)%Z.

Definition aboard (k : nat) (e : env) : Prop := exists draws e0 e1 seed o1 i1 actions l o,
  env_reset P noise4d F FC draws e0 seed = (e1, Returned (o1, i1)) /\
  length actions = k /\ e = Episodes.after P noise4d F FC reward_fn draws e1 (map Episodes.Step actions) /\
  flown P noise4d F G fcol reward_fn draws l e o /\
  exists s, Episodes.balloon_of P F FC e = Some s /\ charged s /\ bstatus s = OK.
Lemma default_reset (e : env) seed : exists N e1 o i,
  (forall draws, (N <= draws)%nat -> env_reset P noise4d F FC draws e seed = (e1, Returned (o, i))) /\ aboard 0 e1 /\ readable o.
Proof.
  destruct (C77_reset P F G fcol HG Hcol HP noise4d HS HF e seed) as (N & e1 & o & i & E).
  exists N, e1, o, i. split; [exact E|]. specialize (E N (le_n N)).
  destruct (charged_reset P noise4d F G fcol HP _ _ _ _ _ _ E) as (s & Hs & Hc).
  assert (Hok : bstatus s = OK).
  { destruct (C63_start _ _ _ _ _ _ _ _ _ _ HP E) as (_ & _ & _ & _ & ce & s1 & alpha & Hb & _ & _ & _ & _ & _ & _ & _ & _ & Hok & _).
    unfold Episodes.balloon_of in Hs. rewrite Hb in Hs. congruence. }
  pose proof (flown_reset P noise4d F G fcol reward_fn N e seed e1 o i s E Hs) as Fl.
  split.
  - exists N, e, e1, seed, o, i, [], [s], o. split; [exact E|]. split; [reflexivity|]. split; [reflexivity|]. split; [exact Fl|].
    exists s. auto.
  - apply (flown_readable P noise4d F G fcol reward_fn N [s] e1 o 0 s Fl ltac:(lia)); auto. exact (start_steady P noise4d F FC reward_fn N e e1 seed o i HP E).
Qed.
Lemma default_step k (e : env) a : (k < K)%nat -> aboard k e -> (0 <= a <= 2)%Z ->
  exists e' o r d i, env_step P noise4d F FC reward_fn e a = (e', Returned (o, r, d, i)) /\ readable o /\ (d = false -> aboard (S k) e').
Proof.
  intros Hk (draws & e0 & e1 & seed & o1 & i1 & actions & l & o0 & E & L & He & Fl & s & Hb & Hc & Hok) Ha.
  destruct (env_step P noise4d F FC reward_fn e a) as [e' res] eqn:Es.
  assert (HW : 0 <= W).
  { destruct (start_steady P noise4d F FC reward_fn draws e0 e1 seed o1 i1 HP E) as (ce2 & s2 & _ & w2 & k2 & d2 & _ & _ & _ & _ & _ & Ew & _).
    destruct (truth_defined P noise4d F HF w2 k2 d2 0 0 0 0 ltac:(lia)) as [wv Ev].
    pose proof (wind_speed _ _ _ _ _ _ Ev). pose proof (sqrt_pos (u wv * u wv + v wv * v wv)). lra. }
  assert (Near : 200000 + 180 * W * INR (S (length actions)) <= 4000000).
  { assert (INR (S (length actions)) <= INR K) by (apply le_INR; lia).
    assert (180 * W * INR (S (length actions)) <= 180 * W * INR K) by (apply Rmult_le_compat_l; lra). lra. }
  destruct (C80_bounded_wind P noise4d F G fcol reward_fn draws e0 e1 e e' seed o1 i1 actions a res W HP HF HG Hcol HR E
    (wind_speed _) ltac:(lia) Near He Es) as (ce & s' & Hb' & Iff).
  assert (s' = s) as -> by (unfold Episodes.balloon_of in Hb; rewrite Hb' in Hb; congruence).
  destruct (proj2 Iff (conj Ha Hok)) as [[[[o r] d] i] ->].
  destruct (charged_step P noise4d F G fcol reward_fn _ _ _ _ _ _ _ _ Es Hb Hc) as (s2 & Hb2 & Hc2).
  pose proof (flown_step P noise4d F G fcol reward_fn draws l e o0 a e' o r d i s2 Fl Es Hb2) as Fl2.
  assert (He' : e' = Episodes.after P noise4d F FC reward_fn draws e1 (map Episodes.Step (actions ++ [a]))).
  { rewrite map_app, after_app. cbn [map Episodes.after Episodes.call]. rewrite <- He, Es. reflexivity. }
  exists e', o, r, d, i. split; [reflexivity|]. split.
  - apply (flown_readable P noise4d F G fcol reward_fn draws (l ++ [s2]) e' o (S k) s2 Fl2 ltac:(lia)); auto. rewrite He'.
    pose proof (cruising_after P noise4d F FC reward_fn draws (actions ++ [a]) 0 e1) as Q.
    rewrite app_length in Q. cbn [length] in Q. replace (0 + (length actions + 1))%nat with (S k) in Q by lia.
    apply Q; [lia|]. exact (start_steady P noise4d F FC reward_fn draws e0 e1 seed o1 i1 HP E).
  - intros ->. exists draws, e0, e1, seed, o1, i1, (actions ++ [a]), (l ++ [s2]), o. split; [exact E|].
    split; [rewrite app_length; cbn; lia|]. split; [exact He'|]. split; [exact Fl2|]. exists s2. split; [exact Hb2|]. split; [exact Hc2|].
    destruct (C09_reported _ _ _ _ _ _ _ _ _ _ _ _ Es) as (_ & s3 & _ & B3 & _ & _ & Rd & _). rewrite Hb2 in B3. injection B3 as <-.
    destruct (bstatus s2); [reflexivity|..]; discriminate (proj2 Rd ltac:(discriminate)).
Qed.

(** Evaluation, training and Acme episodes of agents that answer for readable observations. *)
Theorem C84_default_evaluation : forall (A : agent_class (list R)) idle busy a (e : env) render_period flight_path zs max,
  obliging A readable idle busy -> idle (ag_set_mode A a EVAL) -> render_period <> 0%Z -> (0 < max <= Z.of_nat K)%Z ->
  exists N rs e' a', idle a' /\ forall draws, (N <= draws)%nat ->
    eval_agent (gym draws) A render_period flight_path a e (mkSuite zs max) = Some (rs, e', a').
Proof.
  intros A idle busy a e rp fp zs max HA Hg Hrp Hm.
  exact (evaluation_completes P noise4d F FC reward_fn aboard readable K default_reset default_step A idle busy HA rp fp Hrp max zs e a Hm Hg).
Qed.
Theorem C84_default_training : forall (A : trainable (list R)) idle busy off on a (e : env) cs render_period n max,
  obliging (t_agent A) readable idle busy -> recording off on -> idle a -> off cs -> render_period <> 0%Z -> (max <= Z.of_nat K)%Z ->
  exists N e' a' cs', idle a' /\ off cs' /\ forall draws, (N <= draws)%nat ->
    run_episodes (gym draws) A n max render_period e a cs = Some (e', a', cs').
Proof.
  intros A idle busy off on a e cs rp n max HA HW Hg Hw Hrp Hm.
  exact (trainings_complete P noise4d F FC reward_fn aboard readable K default_reset default_step A idle busy HA off on HW rp Hrp max n Hm e a cs Hg Hw).
Qed.
Theorem C84_default_acting : forall (C : actor (list R)) good c (e : env) limit,
  obliging_actor C readable good -> good c -> (0 < limit <= Z.of_nat K)%Z ->
  exists N e' c' (l : list (Z * timestep (list R))), good c' /\ forall draws, (N <= draws)%nat ->
    acme_episode (gym draws) C limit e c = Some (e', c', l).
Proof.
  intros C good c e limit HC' Hg Hl.
  exact (acting_completes P noise4d F FC reward_fn aboard readable K default_reset default_step C good HC' limit e c Hl Hg).
Qed.
End Default.

(** The station seeker has an answer for every observation of every episode, whatever
    flew it. *)
Theorem C84_seeker_answers : forall (P : prng) noise4d (F : forecaster P) G fcol reward_fn draws l e o,
  lawful P -> flown P noise4d F G fcol reward_fn draws l e o -> (Z.of_nat (length l) <= 14000000)%Z ->
  length o = 1099%nat /\ exists action, pick_action o = Some action /\ (0 <= action <= 2)%Z.
Proof.
  intros P noise4d F G fcol reward_fn draws l e o HP Fl Hl.
  assert (Q : cruising P F (perciatelli P F G fcol) (length l) e /\
              exists s, Episodes.balloon_of P F (perciatelli P F G fcol) e = Some s /\ charged s).
  { revert Hl. induction Fl as [e seed e' o i s E Hb|l e o action e' o' r d i s Hf IH E Hb]; intro Hl.
    - split; [|exact (charged_reset P noise4d F G fcol HP _ _ _ _ _ _ E)].
      pose proof (start_steady P noise4d F _ reward_fn draws e e' seed o i HP E) as (center & s0 & alpha & w & k & d & f & H1 & H2 & H3 & H4 & H5 & H6 & H7 & H8 & H9).
      exists center, s0, alpha, w, k, d, f. repeat (split; [assumption|]). cbn [length]. lia.
    - rewrite app_length in *. cbn [length] in *. destruct IH as (C & s0 & B0 & C0); [lia|].
      split; [|exact (charged_step P noise4d F G fcol reward_fn _ _ _ _ _ _ _ _ E B0 C0)].
      pose proof (cruising_step P noise4d F _ reward_fn (length l) e action ltac:(lia) C) as Q. rewrite E in Q. cbn [fst] in Q.
      replace (length l + 1)%nat with (S (length l)) by lia. exact Q. }
  destruct Q as (C & s & Hs & Hc). exact (flown_readable P noise4d F G fcol reward_fn draws l e o _ s Fl Hl C Hs Hc).
Qed.

(** ** The packaged agents answer *)
Theorem C84_station_seeker : obliging station_seeker_agent readable (fun _ => True) (fun _ => True).
Proof.
  split; cbn [station_seeker_agent ag_begin_episode ag_step ag_end_episode ag_state]; intros.
  - destruct H0 as (_ & x & -> & Hx). exists a, x. auto.
  - destruct H0 as (_ & x & -> & Hx). exists a, x. auto.
  - eauto.
Qed.
Theorem C84_random_walk : forall P, obliging (random_walk_agent P) readable (fun _ => True) (fun _ => True).
Proof.
  intro P.
  assert (Sel : forall a o, readable o -> exists x, rw_select_action P a o = Some x /\ (0 <= x <= 2)%Z).
  { intros a o [L _]. rewrite walk_select, L. eexists. split; [reflexivity|]. unfold walk_action.
    destruct (Rlt_dec _ _); [lia|]. destruct (Rlt_dec _ _); lia. }
  split; cbn [random_walk_agent ag_begin_episode ag_step ag_end_episode ag_state]; intros.
  - unfold rw_begin_episode, sample_new_target_pressure, sample_pressure. cbn [option_map].
    match goal with |- context [rw_select_action P ?b o] => destruct (Sel b o H0) as (x & -> & Hx) end. cbn. eauto.
  - unfold rw_step. match goal with |- context [rw_select_action P ?b o] => destruct (Sel b o H0) as (x & -> & Hx) end. cbn. eauto.
  - eauto.
Qed.
(** The MLP agent on any observations that are read as vectors, in both modes. *)
Definition mlp_reading {obs} (read : obs -> Mlp.features) : agent_class obs :=
  mkAgent obs mlp_agent mlp_set_mode (fun m o => mlp_begin_episode m (read o)) (fun m r o => mlp_step m r (read o)) mlp_end_episode.
Theorem C84_mlp : forall obs (read : obs -> Mlp.features),
  obliging (mlp_reading read) (fun _ => True) (fun m => (0 < ma_num_actions m <= 3)%nat)
    (fun m => (0 < ma_num_actions m <= 3)%nat /\ ma_last m <> None).
Proof.
  intros obs read.
  split; cbn [mlp_reading ag_begin_episode ag_step ag_end_episode ag_state]; intros.
  - unfold mlp_begin_episode. destruct (MlpProps.select_some (ma_num_actions a) (ma_inputs a) (ma_width a) (ma_params a) (read o) ltac:(lia)) as [k E].
    rewrite E. pose proof (MlpProps.select_first _ _ _ _ _ _ E) as [Hk _].
    do 2 eexists. split; [reflexivity|]. cbn [ma_num_actions ma_last]. split; [split; [exact H|discriminate]|lia].
  - destruct H as [Hn Hl]. unfold mlp_step.
    destruct (MlpProps.select_some (ma_num_actions a) (ma_inputs a) (ma_width a) (ma_params a) (read o) ltac:(lia)) as [k E].
    rewrite E. pose proof (MlpProps.select_first _ _ _ _ _ _ E) as [Hk _].
    destruct (ma_last a) as [[ls la]|]; [|congruence].
    destruct (ma_mode a); do 2 eexists; (split; [reflexivity|]; cbn [ma_num_actions ma_last]; split; [split; [exact Hn|discriminate]|lia]).
  - eexists. split; [reflexivity|]. exact (proj1 H).
Qed.
(** An exploring actor answers if the actor and the agent it explores with do. *)
Theorem C84_exploring_actor : forall obs (C : actor obs) P (A : agent_class obs) shown good able,
  obliging_actor C shown good -> obliging A shown able able ->
  obliging_actor (combined_actor C P A) shown (fun s => good (fst s) /\ able (exploratory_agent P A (snd s))).
Proof.
  intros obs C P A shown good able HC HA.
  assert (Up : forall m, exploratory_agent P A (update_phase P A m) = exploratory_agent P A m).
  { intro m. unfold update_phase. repeat match goal with |- context [if ?b then _ else _] => destruct b end; reflexivity. }
  split; cbn [combined_actor ac_state ac_select_action ac_observe_first ac_observe ac_update].
  - intros [c m] o [Hc Hm] Ho. unfold combined_select_action. cbn [fst snd] in *.
    destruct (obliging_select _ _ _ HC c o Hc Ho) as (c' & x & -> & Hc' & Hx). unfold mp_step.
    destruct (exploratory_phase P A (update_phase P A m)).
    + destruct (obliging_step _ _ _ _ HA (exploratory_agent P A (update_phase P A m)) 0 o) as (a' & y & -> & Ha' & Hy);
        [rewrite Up; exact Hm|exact Ho|].
      do 2 eexists. split; [reflexivity|]. cbn [fst snd exploratory_agent]. auto.
    + do 2 eexists. split; [reflexivity|]. cbn [fst snd]. rewrite Up. auto.
  - intros [c m] o [Hc Hm] Ho. unfold combined_observe_first. cbn [fst snd] in *.
    destruct (obliging_first _ _ _ HC c o Hc Ho) as (c' & -> & Hc'). unfold mp_begin_episode.
    destruct (obliging_begin _ _ _ _ HA (exploratory_agent P A m) o Hm Ho) as (a' & y & -> & Ha' & _).
    eexists. split; [reflexivity|]. cbn [fst snd exploratory_agent]. auto.
  - intros [c m] x t [Hc Hm] Ho. unfold combined_observe. cbn [fst snd] in *.
    destruct (obliging_observe _ _ _ HC c x t Hc Ho) as (c' & -> & Hc'). eexists. split; [reflexivity|]. cbn [fst snd]. auto.
  - intros [c m] [Hc Hm]. unfold combined_update. cbn [fst snd] in *.
    destruct (obliging_update _ _ _ HC c Hc) as (c' & -> & Hc'). eexists. split; [reflexivity|]. cbn [fst snd]. auto.
Qed.
Print Assumptions C84_default_evaluation.
Print Assumptions C84_default_training.
Print Assumptions C84_default_acting.
Print Assumptions C84_seeker_answers.
Print Assumptions C84_station_seeker.
Print Assumptions C84_random_walk.
Print Assumptions C84_mlp.
Print Assumptions C84_exploring_actor.

(** On the static wind field without noise, with the default features and reward: the
    station seeker's evaluation on any suite of episodes of 960 steps (two days) returns,
    and so does an Acme episode in which an actor that always stays is explored with the
    random walk. *)
Definition staying : actor (list R) :=
  mkActor (list R) unit (fun c _ => Some (c, 1%Z)) (fun c _ => Some c) (fun c _ _ => Some c) (fun c => Some c).
Example C84_witness : forall e zs,
  (exists N rs e' a', forall draws, (N <= draws)%nat ->
    eval_agent (balloon_gym witness_prng still (static_field witness_prng) witness_fc default_reward_fn draws)
      station_seeker_agent 10 true tt e (mkSuite zs 960) = Some (rs, e', a')) /\
  (forall s, exists N e' s' (l : list (Z * timestep (list R))), forall draws, (N <= draws)%nat ->
    acme_episode (acme_eval_env witness_prng still (static_field witness_prng) witness_fc draws 960)
      (combined_actor staying witness_prng (random_walk_agent witness_prng)) 960 e s = Some (e', s', l)).
Proof.
  intros e zs. destruct C65_witness as (L & S0 & _).
  assert (Near : 200000 + 180 * 10 * INR 960 <= 4000000) by (replace (INR 960) with 960 by (rewrite INR_IZR_INZ; reflexivity); lra).
  split.
  - destruct (C84_default_evaluation witness_prng still (static_field witness_prng) witness_regressor (default_forecast_column _ _)
      default_reward_fn L S0 (proj1 (C65_forecasts _)) witness_regresses (witness_column _ _) (default_reward_answers _ _)
      10 960 (fun w => ten_metres _ w) Near ltac:(lia) station_seeker_agent _ _ tt e 10%Z true zs 960%Z C84_station_seeker I ltac:(lia) ltac:(lia))
      as (N & rs & e' & a' & _ & E).
    exists N, rs, e', a'. exact E.
  - intro s. assert (HR : forall (w : wind_field witness_prng (static_field witness_prng)) (atm : atmosphere) (center : R * R) b,
      acme_reward (50 * 1000) 960 b <> None) by (intros; unfold acme_reward; cbn; discriminate).
    assert (St : obliging_actor staying readable (fun _ => True)).
    { split; cbn; intros; [exists c, 1%Z; repeat split; lia|eauto..]. }
    destruct (C84_default_acting witness_prng still (static_field witness_prng) witness_regressor (default_forecast_column _ _)
      (fun _ _ _ b => acme_reward (50 * 1000) 960 b) L S0 (proj1 (C65_forecasts _)) witness_regresses (witness_column _ _) HR
      10 960 (fun w => ten_metres _ w) Near ltac:(lia) (combined_actor staying witness_prng (random_walk_agent witness_prng)) _ s e 960%Z
      (C84_exploring_actor _ staying witness_prng (random_walk_agent witness_prng) readable (fun _ => True) (fun _ => True) St (C84_random_walk _))
      (conj I I) ltac:(lia))
      as (N & e' & s' & l & _ & E).
    exists N, e', s', l. exact E.
Qed.
