(** Property C38, continued: what the failure flags of an evaluation's results say
    about the balloon. *)
From Coq Require Import ZArith Reals List Bool Lia.
From Verif Require Import Model.Num Model.Prng Model.Safety Model.Balloon Model.WindField
  Model.Atmosphere Model.Env Model.Agents Model.Eval.
From Verif Require Import Spec.Episodes Spec.EvalSpec.
From Verif Require Import Props.EnvProps Props.EvalProps.
Import ListNotations.
Open Scope Z_scope.

#[local] Opaque initialize_balloon Sampling.sample_time atmosphere_reset simulate_step world_of
  U_HARMONICS V_HARMONICS.

Section Balloon.
(** BalloonEnv with any libraries, feature constructor, reward and agent. *)
Context (P : prng) (noise4d : Z -> R -> R -> R -> R -> R) (F : forecaster P).
Context (FC : feature_class P F).
Context (reward_fn : wind_field P F -> atmosphere -> R * R -> bstate R -> option R).
Context (draws : nat).
Notation G := (balloon_gym P noise4d F FC reward_fn draws).
Context (A : agent_class (g_obs G)) (rp : Z) (fp : bool).

Lemma gym_flags e action e1 o r d i b :
  g_step G e action = Some (e1, (o, r, d, i)) -> g_balloon G e1 = Some b ->
  (d = true <-> bstatus b <> OK) /\
  (sets (d_out_of_power i) <-> bstatus b = OUT_OF_POWER) /\
  (sets (d_envelope_burst i) <-> bstatus b = BURST) /\
  (sets (d_zeropressure i) <-> bstatus b = ZEROPRESSURE).
Proof.
  cbn [g_step g_balloon balloon_gym]. intros E B.
  destruct (env_step P noise4d F FC reward_fn e action) as [e2 [[[[o2 r2] d2] i2]|]] eqn:S; [|discriminate].
  injection E as -> -> -> -> <-.
  destruct (C09_reported P noise4d F FC reward_fn _ _ _ _ _ _ _ S) as (s & s' & _ & Hb & _ & _ & D & F1 & F2 & F3 & _).
  unfold Episodes.balloon_of in Hb.
  assert (s' = b) as ->.
  { destruct (a_balloon P F FC (e_arena P F FC e1)) as [[ce s1]|]; [|discriminate]. congruence. }
  unfold sets. cbn [d_out_of_power d_envelope_burst d_zeropressure].
  split; [exact D|]. rewrite <- F1, <- F2, <- F3.
  destruct (out_of_power i2), (envelope_burst i2), (zeropressure i2); intuition congruence.
Qed.

Definition flags_right (t : executed_step) : Prop :=
  let b := t_balloon t in
  (t_done t = true <-> bstatus b <> OK) /\
  (sets (d_out_of_power (t_info t)) <-> bstatus b = OUT_OF_POWER) /\
  (sets (d_envelope_burst (t_info t)) <-> bstatus b = BURST) /\
  (sets (d_zeropressure (t_info t)) <-> bstatus b = ZEROPRESSURE).

Lemma steps_flags e a action ts e' a' : steps G A e a action ts e' a' -> Forall flags_right ts.
Proof.
  induction 1 as [|e a action e1 o r d i a1 action1 b ts e2 a2 S _ B _ IH]; [constructor|].
  constructor; [|exact IH]. exact (gym_flags _ _ _ _ _ _ _ _ S B).
Qed.

(** A result is flagged with exactly the failure of the balloon in its last step; no
    earlier step ended with a failed balloon; and a flight without a failure has the
    length the suite allows. *)
Theorem C38_balloon_status : forall a e suite rs e' a',
  eval_agent G A rp fp a e suite = Some (rs, e', a') ->
  exists tss,
    episodes G A (max_episode_length suite) (seeds suite) e (ag_set_mode A a EVAL) tss e' a' /\
    Forall2 (fun ts r => exists ts0 t, ts = ts0 ++ [t] /\
      (forall t', In t' ts0 -> bstatus (t_balloon t') = OK) /\
      (r_out_of_power r = true <-> bstatus (t_balloon t) = OUT_OF_POWER) /\
      (r_envelope_burst r = true <-> bstatus (t_balloon t) = BURST) /\
      (r_zeropressure r = true <-> bstatus (t_balloon t) = ZEROPRESSURE) /\
      (bstatus (t_balloon t) = OK -> r_final_timestep r = max_episode_length suite)) tss rs.
Proof.
  intros a e suite rs e' a' E. destruct (C38_results _ _ _ _ _ _ _ _ _ _ E) as (_ & tss & HL & He & HF).
  exists tss. split; [exact He|]. clear E. revert HL He HF.
  generalize (ag_set_mode A a EVAL). intros a0. generalize (seeds suite). intros zs. set (max := max_episode_length suite).
  intros HL He. revert rs. clear HL.
  induction He as [e a1|z zs e a1 ts e1 a2 tss e2 a3 H1 H2 IH]; intros rs HF; cbn [List.combine] in HF.
  - inversion HF. constructor.
  - inversion HF as [|zt r l rs' Hr HF' Ez Er]. subst. constructor; [|apply IH; exact HF']. clear IH HF HF' H2.
    cbn [fst snd] in Hr.
    destruct H1 as (e0 & e00 & o & a4 & action & a5 & ts0 & t & _ & _ & _ & Hs & Hst & -> & _).
    apply steps_flags in Hs. apply Forall_app in Hs. destruct Hs as [Hs0 Hs1].
    inversion Hs1 as [|t1 l1 Ht _ Et]. subst. clear Hs1.
    destruct Hst as (ts1 & u1 & Eu & Hn & Hlen & Hlast). apply app_inj_tail in Eu. destruct Eu as [<- <-].
    destruct Hr as (_ & _ & Hf & _ & _ & Hflags & _). destruct (Hflags ts0 t eq_refl) as (G1 & G2 & G3).
    exists ts0, t. split; [reflexivity|]. destruct Ht as (D & F1 & F2 & F3).
    split.
    { intros t' I. rewrite Forall_forall in Hs0. destruct (Hs0 t' I) as (D' & _). specialize (Hn t' I).
      destruct (bstatus (t_balloon t')); [reflexivity|..]; exfalso;
        assert (t_done t' = true) by (apply D'; discriminate); congruence. }
    split; [rewrite G1, F1, D; split; [tauto|intro Q; rewrite Q; split; [discriminate|reflexivity]]|].
    split; [rewrite G2, F2, D; split; [tauto|intro Q; rewrite Q; split; [discriminate|reflexivity]]|].
    split; [rewrite G3, F3, D; split; [tauto|intro Q; rewrite Q; split; [discriminate|reflexivity]]|].
    intro Ok. rewrite Hf. destruct Hlast as [L|L]; [|exact L]. apply D in L. contradiction.
Qed.
End Balloon.
Print Assumptions C38_balloon_status.
