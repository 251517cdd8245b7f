(** Properties C80, a step of an episode never raises short of the end of the episode, and C81,
    the flight envelope of an episode. *)
From Coq Require Import ZArith Reals Lra Lia Bool List Psatz.
From RecordUpdate Require Import RecordSet.
From Verif Require Spec.Episodes.
From Verif Require Import Model.Num Model.Prng Model.Safety Model.Balloon Model.Atmosphere
  Model.Geometry Model.Solar Model.StableInit Model.Sampling Model.WindField Model.WindGP Model.Env Model.Features.
From Verif Require Import Spec.PrngSpec Spec.Envelope Spec.Buoyancy Spec.RewardSpec Spec.Flight.
From Verif Require Import Proofs.NumR Proofs.BalloonProofs Proofs.EnvProofs Proofs.MotionProofs Proofs.SteadyAir
  Proofs.SteadyFlight Proofs.ProgressProofs.
From Verif Require Import Props.AtmosphereProps Props.BalloonProps Props.StableInitProps Props.EnvProps Props.RewardProps Props.VehicleProps
  Props.SoundStartProps Props.DefaultRangeProps Props.ResetProps Props.PerciatelliResetProps Props.MotionProps.
Import ListNotations RecordSetNotations.
Open Scope R_scope.
#[local] Opaque simulate_step world_of atmosphere_reset wind_reset.

Lemma command_range z : (exists c, command_of_int z = Some c) <-> (0 <= z <= 2)%Z.
Proof.
  unfold command_of_int. destruct (Z.eqb_spec z 0), (Z.eqb_spec z 1), (Z.eqb_spec z 2);
    split; try lia; try (intros; eexists; reflexivity). intros [c H]. discriminate.
Qed.

(** The distance from the station after a displacement. *)
Lemma shift_far px py ux uy dt : 0 <= dt ->
  sqrt ((px + ux * dt) * (px + ux * dt) + (py + uy * dt) * (py + uy * dt))
  <= sqrt (px * px + py * py) + dt * sqrt (ux * ux + uy * uy).
Proof.
  intro Hdt. pose proof (triangle 0 0 (px + ux * dt) (py + uy * dt) px py) as T. unfold dist_euc, Rsqr in T.
  replace ((0 - (px + ux * dt)) * (0 - (px + ux * dt)) + (0 - (py + uy * dt)) * (0 - (py + uy * dt)))
    with ((px + ux * dt) * (px + ux * dt) + (py + uy * dt) * (py + uy * dt)) in T by ring.
  replace ((0 - px) * (0 - px) + (0 - py) * (0 - py)) with (px * px + py * py) in T by ring.
  replace ((px - (px + ux * dt)) * (px - (px + ux * dt)) + (py - (py + uy * dt)) * (py - (py + uy * dt)))
    with ((dt * dt) * (ux * ux + uy * uy)) in T by ring.
  rewrite sqrt_mult in T by nra. rewrite sqrt_square in T by exact Hdt. exact T.
Qed.

Lemma simulate_clock w wind c s s' r : simulate_step w wind c AGENT_TIME_STEP STRIDE s = (s', r) ->
  (time_elapsed s <= time_elapsed s' <= time_elapsed s + 180000000)%Z /\ (date_time s <= date_time s' <= date_time s + 180000000)%Z.
Proof.
  intro E. destruct (call_ran _ _ _ _ _ _ _ _ E) as (p & en & al & k & eff & Hr & _ & _ & Hk & _).
  destruct (ran_clock _ _ _ _ _ _ _ Hr) as [Hd Ht].
  match type of Hr with ran _ _ _ _ _ ?b _ =>
    change (date_time b) with (date_time s) in Hd; change (time_elapsed b) with (time_elapsed s) in Ht end.
  assert (Z.of_nat k <= 18)%Z.
  { destruct k as [|k]; [lia|]. specialize (Hk (Nat.neq_succ_0 k)). exact Hk. }
  unfold STRIDE in *. lia.
Qed.

Lemma simulate_aloft alpha center wind c s s' r : 0 <= alpha <= 1 -> aloft s ->
  (0 <= date_time s)%Z -> before_2100 (date_time s + 180000000) ->
  simulate_step (world_of (atmosphere_reset alpha) center) wind c AGENT_TIME_STEP STRIDE s = (s', r) -> aloft s'.
Proof.
  intros Ha Hs H0 Hd E. pose proof Hs as (_ & _ & _ & _ & _ & Hst).
  destruct (call_ran _ _ _ _ _ _ _ _ E) as (_ & _ & _ & k & _ & _ & Hbad & _).
  assert (D : bstatus s = OK \/ bstatus s <> OK) by (destruct (bstatus s); auto; right; discriminate).
  destruct D as [Hok|Hno].
  - destruct (simulate_runs alpha center wind c s Ha (Hst Hok) Hok H0 Hd) as (s'' & eff & E' & Al).
    rewrite E in E'. injection E' as -> _. exact Al.
  - destruct (Hbad Hno) as (_ & -> & _). exact Hs.
Qed.

Section Progress.
Context (P : prng) (noise4d : Z -> R -> R -> R -> R -> R) (F : forecaster P).
Context (FC : feature_class P F).
Context (reward_fn : wind_field P F -> atmosphere -> R * R -> bstate R -> option R).
Context (draws : nat).
Notation env := (env P F FC).
Notation env_step := (env_step P noise4d F FC reward_fn).
Notation env_reset := (env_reset P noise4d F FC draws).
Notation after := (Episodes.after P noise4d F FC reward_fn draws).
Notation arena e := (e_arena P F FC e).
Notation balloon e := (a_balloon P F FC (e_arena P F FC e)).

(** ** What holds during an episode, [n] steps after its reset *)
Definition cruising (n : nat) (e : env) : Prop := exists center s alpha w k d f,
  balloon e = Some (center, s) /\ aloft s /\
  0 <= alpha <= 1 /\ a_atmosphere P F FC (arena e) = atmosphere_reset alpha /\
  a_wind P F FC (arena e) = wind_reset P F w k d /\ a_features P F FC (arena e) = Some f /\
  Rabs (fst center) <= 10 * PI / 180 /\
  (0 <= time_elapsed s)%Z /\ (0 <= date_time s < 1419984000000000 + Z.of_nat n * 180000000)%Z.

Lemma observe_keeps (a : Env.arena P F FC) :
  let a' := fst (observe_and_get_features P noise4d F FC a) in
  a_atmosphere P F FC a' = a_atmosphere P F FC a /\ a_wind P F FC a' = a_wind P F FC a /\
  a_balloon P F FC a' = a_balloon P F FC a /\
  ((exists f, a_features P F FC a = Some f) -> exists f, a_features P F FC a' = Some f).
Proof.
  unfold observe_and_get_features. destruct (a_balloon P F FC a) as [[center s]|] eqn:Eb; [|cbn; auto].
  destruct (a_features P F FC a) as [f0|] eqn:Ef; [|cbn; rewrite Ef; auto].
  destruct (wind_at_balloon P noise4d F FC a s) as [w0|]; [|cbn; rewrite Ef; auto].
  destruct (fc_observe _ _ _ _ _ _ _ _ _) as [f1 [|]]; [|cbn; repeat (split; [auto|]); eauto].
  destruct (fc_get_features _ _ _ _ _ _) as [f2 [|]]; cbn; repeat (split; [auto|]); eauto.
Qed.

(** Every episode starts so. *)
Lemma start_steady (e e' : env) seed o i : lawful P ->
  env_reset e seed = (e', Returned (o, i)) -> cruising 0 e'.
Proof.
  intros HP E.
  destruct (C63_start _ _ _ _ _ _ _ _ _ _ HP E) as (_ & _ & _ & _ & center & s & alpha & Hb & Ha & Hat & _ & Hlat & _ & Hp & Hh
    & Hir & Hok & Ht & Hdate & _ & _ & _ & _ & s0 & lat & lng & Ec).
  destruct (C63_vehicle _ _ _ _ _ _ _ _ _ _ E) as (ce & b & Hb1 & V & L & _).
  destruct (C63_sound_envelope _ _ _ _ _ _ _ _ _ _ HP E) as (ce2 & b2 & Hb2 & _ & SP & HT).
  rewrite Hb in Hb1, Hb2. injection Hb1 as <- <-. injection Hb2 as <- <-.
  assert (W : exists w k d f, a_wind P F FC (arena e') = wind_reset P F w k d /\ a_features P F FC (arena e') = Some f).
  { revert E. unfold Env.env_reset. set (ex := match seed with Some z => _ | None => _ end). clearbody ex.
    cbv zeta. unfold arena_reset. cbv zeta.
    destruct (initialize_balloon _ _ _ _ _) as [[center' s']|]; [|discriminate].
    destruct (negb _); [discriminate|].
    destruct (fc_new _ _ _ _ _) as [f|]; [|discriminate].
    match goal with |- context [observe_and_get_features P noise4d F FC ?b] => set (a1 := b) end.
    destruct (observe_keeps a1) as (_ & Kw & _ & Kf).
    destruct (observe_and_get_features P noise4d F FC a1) as [a2 [o2|]]; [|discriminate].
    cbn [fst] in *. destruct (Kf (ex_intro _ f eq_refl)) as [f' Ef].
    destruct (a_balloon P F FC a2) as [[? ?]|]; [|discriminate].
    intro E. injection E as <- _ _. do 3 eexists. exists f'. split; [exact Kw|exact Ef]. }
  destruct W as (w & k & d & f & Ew & Ef).
  exists center, s, alpha, w, k, d, f. split; [exact Hb|].
  enough (S : steady s).
  { pose proof S as (S1 & S2 & S3 & S4 & _ & _ & _ & S5 & _).
    split; [split; [exact S1|split; [exact S2|split; [exact S3|split; [exact S5|split; [lra|intros _; exact S]]]]]|].
    split; [exact Ha|]. split; [exact Hat|]. split; [exact Ew|]. split; [exact Ef|].
    split; [pose proof PI_RGT_0; apply Rabs_le; lra|]. split; [lia|]. cbn [Z.of_nat]. lia. }
  pose proof V as (V1 & V2 & V3 & V4 & V5 & V6 & V7 & V8 & V9 & V10 & V11). destruct L as (En & _).
  assert (K : envelope_volume_base s0 = envelope_volume_base s /\ envelope_volume_dv_pressure s0 = envelope_volume_dv_pressure s /\
              mols_lift_gas s0 = mols_lift_gas s /\ pressure s0 = pressure s).
  { revert Ec. unfold cold_start_to_stable_params. destruct (calculate_stable_params_for_pressure _ _ _ _ _ _ _ _ _ _ _); [|discriminate].
    intros [= <-]. repeat split; reflexivity. }
  destruct K as (K1 & K2 & K3 & K4).
  destruct (C56_cold_start s0 s lat lng alpha Ha ltac:(rewrite K1, V1; lra) ltac:(rewrite K2, V2; lra) Ec)
    as ((v & Ev & ET) & Hm & _ & _ & Law & _).
  rewrite K4 in Ev. destruct Hh as (v' & Ev' & Hh). rewrite Ev in Ev'. injection Ev' as <-.
  assert (Hp2 : pressure s <= 12750).
  { apply Rnot_lt_le. intro Lt. pose proof (low_height alpha _ v Ha Ev Lt). lra. }
  destruct (air_lookup alpha (pressure s) Ha ltac:(lra)) as (h & t & El & Ht2).
  assert (Et : t = ambient_temperature s).
  { unfold profile_of in El. rewrite Ev in El. injection El as _ <-. symmetry. exact ET. }
  rewrite K1, K2, K3, K4, V1, V2, V7 in Law. destruct Law as [(_ & Z0 & _)|(G1 & G2 & G3 & G4)]; [lra|].
  assert (B1 : (pressure s + superpressure s) * envelope_volume s <= 15129 * 1852).
  { apply Rmult_le_compat; lra. }
  assert (B2 : (6830 + mols_air s) * gas_constant * 165 <= (6830 + mols_air s) * gas_constant * internal_temperature s).
  { apply Rmult_le_compat_l; [|lra]. unfold gas_constant. apply Rmult_le_pos; lra. }
  assert (B3 : (pressure s + superpressure s) * envelope_volume s <= 1.6 * (1.08 * pressure s + 2381) * 1852).
  { apply Rmult_le_compat; lra. }
  assert (N : mols_air s <= 14820) by (unfold gas_constant in *; lra).
  unfold steady. split; [exact V|]. split; [exact En|]. split; [exact Hir|]. split; [lra|]. split; [lra|].
  split; [lra|]. split; [lra|]. split; [lra|]. split; [lra|]. split; [lra|]. rewrite <- G4. exact B3.
Qed.

(** The wind and the feature constructor during steps. *)
Lemma env_step_keeps (e : env) z :
  a_wind P F FC (arena (fst (env_step e z))) = a_wind P F FC (arena e) /\
  ((exists f, a_features P F FC (arena e) = Some f) -> exists f, a_features P F FC (arena (fst (env_step e z))) = Some f).
Proof.
  unfold Env.env_step. destruct (command_of_int z) as [c|]; [|cbn; auto].
  unfold arena_step. destruct (balloon e) as [[center s]|] eqn:Eb; [|cbn; auto].
  destruct (wind_at_balloon _ _ _ _ _ _) as [wv|]; [|cbn; auto].
  destruct (simulate_step _ _ _ _ _ s) as [s' [eff|x]] eqn:Es; [|cbn; auto].
  match goal with |- context [observe_and_get_features P noise4d F FC ?b] => set (a1 := b) end.
  destruct (observe_keeps a1) as (_ & Kw & _ & Kf). change (a_wind P F FC a1) with (a_wind P F FC (arena e)) in Kw.
  change (a_features P F FC a1) with (a_features P F FC (arena e)) in Kf.
  destruct (observe_and_get_features P noise4d F FC a1) as [a2 [o|]]; [|cbn; auto].
  cbn [fst] in *. destruct (a_balloon P F FC a2) as [[c2 s2]|]; [|cbn; auto].
  destruct (reward_fn _ _ _ _); cbn; auto.
Qed.

(** The wind that moves the balloon is the true wind where it is. *)
Lemma env_step_moves (e : env) z :
  balloon (fst (env_step e z)) = balloon e \/
  exists center s s' wind c r, balloon e = Some (center, s) /\
    ground_truth P noise4d F (a_wind P F FC (arena e)) (x s) (y s) (pressure s) (time_elapsed s) = Some wind /\
    simulate_step (world_of (a_atmosphere P F FC (arena e)) center) (u wind, v wind) c AGENT_TIME_STEP STRIDE s = (s', r) /\
    balloon (fst (env_step e z)) = Some (center, s').
Proof.
  unfold Env.env_step. destruct (command_of_int z) as [c|]; [|cbn; auto].
  unfold arena_step. destruct (balloon e) as [[center s]|] eqn:Eb; [|cbn; auto].
  destruct (wind_at_balloon _ _ _ _ _ _) as [wv|] eqn:Ew; [|cbn; auto].
  destruct (simulate_step _ _ _ _ _ s) as [s' r] eqn:Es. right. exists center, s, s', wv, c, r.
  split; [reflexivity|]. split; [exact Ew|]. split; [exact Es|]. destruct r as [eff|x]; [|reflexivity].
  match goal with |- context [observe_and_get_features P noise4d F FC ?b] => set (a1 := b) end.
  destruct (observe_keeps a1) as (_ & _ & Kb & _). change (a_balloon P F FC a1) with (Some (center, s')) in Kb.
  destruct (observe_and_get_features P noise4d F FC a1) as [a2 [o|]]; [|exact Kb].
  cbn [fst] in *. destruct (a_balloon P F FC a2) as [[c2 s2]|] eqn:E2; [|discriminate].
  destruct (reward_fn _ _ _ _); cbn; rewrite E2; exact Kb.
Qed.

Lemma cruising_step n (e : env) z : (Z.of_nat n < 14000000)%Z -> cruising n e -> cruising (S n) (fst (env_step e z)).
Proof.
  intros Hn (center & s & alpha & w & k & d & f & Hb & Hs & Ha & Hat & Hw & Hf & Hc & Ht & Hd).
  destruct (env_step_balloon P noise4d F FC reward_fn e z) as [A B]. destruct (env_step_keeps e z) as [W FE].
  destruct (FE (ex_intro _ f Hf)) as [f' Hf'].
  destruct B as [B|(ce & s0 & s' & wind & c & r' & B0 & Es & B)].
  - exists center, s, alpha, w, k, d, f'. rewrite B, A, W. repeat (split; [assumption|]). lia.
  - rewrite Hb in B0. injection B0 as <- <-. rewrite Hat in Es.
    pose proof (simulate_clock _ _ _ _ _ _ Es) as [C1 C2].
    exists center, s', alpha, w, k, d, f'. rewrite B, A, W. split; [reflexivity|].
    split. { eapply simulate_aloft; [exact Ha|exact Hs| | |exact Es]; [lia|unfold before_2100; lia]. }
    repeat (split; [assumption|]). lia.
Qed.
Lemma cruising_after actions : forall n (e : env), (Z.of_nat (n + length actions) <= 14000000)%Z -> cruising n e ->
  cruising (n + length actions) (after e (map Episodes.Step actions)).
Proof.
  induction actions as [|z actions IH]; intros n e Hl H; cbn [length map Episodes.after] in *.
  - rewrite Nat.add_0_r. exact H.
  - replace (n + S (length actions))%nat with (S n + length actions)%nat in * by lia. apply IH; [exact Hl|].
    unfold Episodes.call. pose proof (cruising_step n e z ltac:(lia) H) as C.
    destruct (env_step e z) as [e' r]. exact C.
Qed.

(** ** C81: whatever the policy, and whatever the calls returned, the balloon of an episode stays
    between 44 and 320 hPa; while the episode lasts its superpressure is positive and at most the
    maximum, the air around it between 165 and 300 K, the gas between 165 and 400 K, and the ballast
    between nothing and 15200 mol. *)
Theorem C81_flight_envelope : forall (e0 e1 : env) seed o1 i1 actions,
  lawful P ->
  env_reset e0 seed = (e1, Returned (o1, i1)) ->
  (Z.of_nat (length actions) <= 14000000)%Z ->
  exists center s, balloon (after e1 (map Episodes.Step actions)) = Some (center, s) /\
    4400 <= pressure s <= 32000 /\ superpressure s <= 4 * pressure s /\
    (bstatus s = OK ->
       0 < superpressure s <= 2380 /\ envelope_volume s = 1804 + 0.0199 * superpressure s /\
       165 <= ambient_temperature s <= 300 /\ 165 <= internal_temperature s <= 400 /\
       0 <= mols_air s <= 15200).
Proof.
  intros e0 e1 seed o1 i1 actions HP E Hl.
  destruct (cruising_after actions 0 e1 Hl (start_steady _ _ _ _ _ HP E))
    as (center & s & _ & _ & _ & _ & _ & Hb & (_ & _ & _ & Hp & Hsp & Hs) & _).
  exists center, s. split; [exact Hb|]. split; [exact Hp|]. split; [exact Hsp|].
  intro Hok. destruct (Hs Hok) as (_ & _ & _ & A1 & A2 & A3 & A4 & _ & A5 & _). auto.
Qed.

(** ** One more step *)
Definition moved (e : env) (center : R * R) (s : bstate R) : Env.arena P F FC :=
  mkArena P F FC (a_rng P F FC (arena e)) (a_atmosphere P F FC (arena e)) (a_wind P F FC (arena e))
    (Some (center, s)) (a_features P F FC (arena e)).
Lemma step_runs n (e : env) z c : answers F -> (Z.of_nat n < 14000000)%Z -> cruising n e ->
  command_of_int z = Some c ->
  forall center s, balloon e = Some (center, s) -> bstatus s = OK ->
  exists s', aloft s' /\
    (0 <= time_elapsed s < time_elapsed s')%Z /\ before_2100 (date_time s') /\
    arena_step P noise4d F FC (arena e) c =
      observe_and_get_features P noise4d F FC (moved e center s').
Proof.
  intros HF Hn (ce & b & alpha & w & k & d & f & Hb & Hs & Ha & Hat & Hw & Hf & Hc & Ht & Hd) Ez center s Hb' Hok.
  rewrite Hb in Hb'. injection Hb' as -> ->.
  unfold arena_step. rewrite Hb. unfold wind_at_balloon. rewrite Hw.
  destruct (truth_defined P noise4d F HF w k d (x s) (y s) (pressure s) (time_elapsed s) Ht) as [wv ->].
  pose proof Hs as (_ & _ & _ & _ & _ & Hst).
  destruct (simulate_runs alpha center (u wv, v wv) c s Ha (Hst Hok) Hok ltac:(lia) ltac:(unfold before_2100; lia))
    as (s' & eff & Es & Al).
  rewrite Hat, Es. exists s'. split; [exact Al|].
  pose proof (simulate_clock _ _ _ _ _ _ Es) as [C1 C2].
  split; [|split; [unfold before_2100; lia|reflexivity]].
  destruct (call_ran _ _ _ _ _ _ _ _ Es) as (p & en & al & j & eff' & Hr & _ & _ & _ & _ & Hx & _).
  destruct (Hx eff eq_refl) as (_ & _ & _ & _ & _ & Hj). specialize (Hj eq_refl).
  destruct (ran_clock _ _ _ _ _ _ _ Hr) as [_ Hcl].
  match type of Hr with ran _ _ _ _ _ ?bb _ => change (time_elapsed bb) with (time_elapsed s) in Hcl end.
  unfold STRIDE in Hcl. lia.
Qed.
Lemma step_refused (e : env) center s c : balloon e = Some (center, s) -> bstatus s <> OK ->
  exists a, arena_step P noise4d F FC (arena e) c = (a, Raised) /\ exists s', a_balloon P F FC a = Some (center, s').
Proof.
  intros Hb Hno. unfold arena_step. rewrite Hb. destruct (wind_at_balloon _ _ _ _ _ _) as [wv|]; [|exists (arena e); split; [reflexivity|]; exists s; exact Hb].
  destruct (simulate_step _ _ _ _ _ s) as [s' r] eqn:Es.
  destruct (call_ran _ _ _ _ _ _ _ _ Es) as (_ & _ & _ & k & _ & _ & Hbad & _).
  destruct (Hbad Hno) as (_ & _ & ->). eexists. split; [reflexivity|]. exists s'. reflexivity.
Qed.

(** ** C80, for feature constructors and reward functions that do not raise: from reset on
    a step returns exactly if the action is one of the three and the episode has not ended. *)
Theorem C80_step_returns : forall (e0 e1 e e' : env) seed o1 i1 actions action r,
  lawful P -> answers F -> never_raises FC ->
  (forall w atm center s, reward_fn w atm center s <> None) ->
  env_reset e0 seed = (e1, Returned (o1, i1)) ->
  (Z.of_nat (length actions) < 14000000)%Z ->
  e = after e1 (map Episodes.Step actions) ->
  env_step e action = (e', r) ->
  exists center s, balloon e = Some (center, s) /\
    ((exists answer, r = Returned answer) <-> (0 <= action <= 2)%Z /\ bstatus s = OK).
Proof.
  intros e0 e1 e e' seed o1 i1 actions action r HP HF (_ & C2 & C3) HR E Hl -> Es.
  pose proof (cruising_after actions 0 e1 ltac:(lia) (start_steady _ _ _ _ _ HP E)) as Cr. cbn [Nat.add] in Cr.
  set (e := after e1 (map Episodes.Step actions)) in *. clearbody e.
  pose proof Cr as (center & s & _ & _ & _ & _ & f & Hb & _ & _ & _ & _ & Hf & _).
  exists center, s. split; [exact Hb|]. revert Es. unfold Env.env_step.
  pose proof (command_range action) as Rg. destruct (command_of_int action) as [c|] eqn:Ec.
  2: { intros [= <- <-]. split; [intros [a [=]]|]. intros [H _]. apply Rg in H. destruct H as [c [=]]. }
  assert (Hz : (0 <= action <= 2)%Z) by (apply Rg; eauto).
  assert (D : bstatus s = OK \/ bstatus s <> OK) by (destruct (bstatus s); auto; right; discriminate).
  destruct D as [Hok|Hno].
  - destruct (step_runs _ e action c HF Hl Cr Ec center s Hb Hok) as (s' & Al & Hs' & _ & ->).
    pose proof Cr as (ce & b & _ & w & k & d & f' & Hb' & Hs & _ & _ & Hw & Hf' & _ & Ht & _).
    enough (O : exists a o, observe_and_get_features P noise4d F FC (moved e center s') = (a, Returned o)
                 /\ a_balloon P F FC a = Some (center, s')).
    { destruct O as (a & o & -> & Ea). cbv zeta. rewrite Ea.
      destruct (reward_fn _ _ _ _) as [rw|] eqn:Er; [|elim (HR _ _ _ _ Er)].
      intros [= <- <-]. split; [intros _; auto|eauto]. }
    unfold observe_and_get_features, moved. cbn [a_balloon a_features a_wind a_atmosphere set]. rewrite Hf'.
    match goal with |- context [wind_at_balloon P noise4d F FC ?b s'] => set (a1 := b) end.
    assert (Gt : exists tw, wind_at_balloon P noise4d F FC a1 s' = Some tw).
    { unfold wind_at_balloon. change (a_wind P F FC a1) with (a_wind P F FC (arena e)). rewrite Hw.
      apply (truth_defined P noise4d F HF). lia. }
    destruct Gt as [tw ->].
    match goal with |- context [fc_observe P F FC ?ww ?b ?ff ?cc ?ss ?v] => pose proof (C2 ww b ff cc ss v) as N2;
      destruct (fc_observe P F FC ww b ff cc ss v) as [f1 [[]|]]; [|elim N2; reflexivity] end.
    match goal with |- context [fc_get_features P F FC ?ww ?b ?ff] => pose proof (C3 ww b ff) as N3;
      destruct (fc_get_features P F FC ww b ff) as [f2 [o|]]; [|elim N3; reflexivity] end.
    eexists. exists o. split; reflexivity.
  - destruct (step_refused e center s c Hb Hno) as (a & -> & _). intros [= <- <-].
    split; [intros [a0 [=]]|]. intros [_ H]. contradiction.
Qed.

(** So a loop that steps until an episode is done, with any policy, never meets an exception. *)
Lemma after_app (e : env) l l' : after e (l ++ l') = after (after e l) l'.
Proof. revert e. induction l as [|o l IH]; intro e; [reflexivity|]. cbn [app Episodes.after]. apply IH. Qed.
Theorem C80_until_done : forall (e0 e1 e e' : env) seed o1 i1 actions a action o reward i,
  lawful P -> answers F -> never_raises FC ->
  (forall w atm center s, reward_fn w atm center s <> None) ->
  env_reset e0 seed = (e1, Returned (o1, i1)) ->
  (Z.of_nat (length actions) + 1 < 14000000)%Z ->
  e = after e1 (map Episodes.Step actions) ->
  env_step e a = (e', Returned (o, reward, false, i)) ->
  (0 <= action <= 2)%Z ->
  exists e'' answer, env_step e' action = (e'', Returned answer).
Proof.
  intros e0 e1 e e' seed o1 i1 actions a action o reward i HP HF HC HR E Hl He Es Hz.
  destruct (env_step e' action) as [e'' r] eqn:E2.
  destruct (C80_step_returns e0 e1 e' e'' seed o1 i1 (actions ++ [a]) action r HP HF HC HR E) as (center & s & Hb & I).
  - rewrite app_length. cbn [length]. lia.
  - rewrite map_app, after_app, <- He. cbn [map Episodes.after Episodes.call]. rewrite Es. reflexivity.
  - exact E2.
  - destruct (C09_reported _ _ _ _ _ _ _ _ _ _ _ _ Es) as (_ & s2 & _ & B2 & _ & _ & Rd & _).
    unfold Episodes.balloon_of in B2. rewrite Hb in B2. injection B2 as <-.
    destruct (proj2 I) as [answer ->]; [|eauto]. split; [exact Hz|].
    destruct (bstatus s); auto; exfalso; assert (false = true) by (apply Rd; discriminate); discriminate.
Qed.
End Progress.
Print Assumptions C81_flight_envelope.
Print Assumptions C80_step_returns.
Print Assumptions C80_until_done.

(** ** The default feature constructor *)
Section Perciatelli.
Context (P : prng) (noise4d : Z -> R -> R -> R -> R -> R) (F : forecaster P) (G : regressor)
  (fcol : wind_field P F -> R -> R -> list R -> Z -> option (list wind)).
Context (reward_fn : wind_field P F -> atmosphere -> R * R -> bstate R -> option R).
Context (draws : nat).
Local Notation FC := (perciatelli P F G fcol).
Notation env := (env P F FC).
Notation env_step := (env_step P noise4d F FC reward_fn).
Notation env_reset := (env_reset P noise4d F FC draws).
Notation after := (Episodes.after P noise4d F FC reward_fn draws).
Notation arena e := (e_arena P F FC e).
Notation balloon e := (a_balloon P F FC (e_arena P F FC e)).

Definition watching (a : Env.arena P F FC) : Prop := exists f, a_features P F FC a = Some f /\ @observing P F f.
Lemma observe_watching (a : Env.arena P F FC) : watching a -> watching (fst (observe_and_get_features P noise4d F FC a)).
Proof.
  intros (f & Ef & Hf). unfold observe_and_get_features. destruct (a_balloon P F FC a) as [[center s]|]; [|exists f; auto].
  rewrite Ef. destruct (wind_at_balloon P noise4d F FC a s) as [w0|]; [|exists f; auto].
  cbn [fc_observe fc_get_features perciatelli].
  pose proof (observing_more (a_wind P F FC a) f center s w0 Hf) as Hm.
  destruct (constructor_observe _ _ _ _ _ _ _) as [f1 [[]|]]; cbn [fst] in Hm; [|exists f1; split; [reflexivity|exact Hm]].
  destruct (get_features _ _ _ _ _ _ _); exists f1; (split; [reflexivity|exact Hm]).
Qed.
Lemma reset_watching (e e' : env) seed r : env_reset e seed = (e', Returned r) -> watching (arena e').
Proof.
  unfold Env.env_reset. set (ex := match seed with Some z => _ | None => _ end). clearbody ex.
  cbv zeta. unfold arena_reset. cbv zeta.
  destruct (initialize_balloon _ _ _ _ _) as [[center' s']|]; [|discriminate].
  destruct (negb _); [discriminate|]. cbn [fc_new perciatelli].
  match goal with |- context [observe_and_get_features P noise4d F FC ?b] => set (a1 := b) end.
  assert (W : watching a1) by (exists new_constructor; split; [reflexivity|constructor]).
  apply observe_watching in W.
  destruct (observe_and_get_features P noise4d F FC a1) as [a2 [o2|]]; [|discriminate]. cbn [fst] in W.
  destruct (a_balloon P F FC a2) as [[? ?]|]; [|discriminate]. intros [= <- _]. exact W.
Qed.
Lemma step_watching (e : env) z : watching (arena e) -> watching (arena (fst (env_step e z))).
Proof.
  intro W. unfold Env.env_step. destruct (command_of_int z) as [c|]; [|exact W].
  unfold arena_step. destruct (balloon e) as [[center s]|]; [|exact W].
  destruct (wind_at_balloon _ _ _ _ _ _) as [wv|]; [|exact W].
  destruct (simulate_step _ _ _ _ _ s) as [s' [eff|x]]; [|exact W].
  match goal with |- context [observe_and_get_features P noise4d F FC ?b] => set (a1 := b) end.
  assert (W1 : watching a1) by exact W. apply observe_watching in W1.
  destruct (observe_and_get_features P noise4d F FC a1) as [a2 [o|]]; [|exact W1].
  cbn [fst] in *. destruct (a_balloon P F FC a2) as [[c2 s2]|]; [|exact W1].
  destruct (reward_fn _ _ _ _); exact W1.
Qed.
Lemma watching_after actions : forall e : env, watching (arena e) -> watching (arena (after e (map Episodes.Step actions))).
Proof.
  induction actions as [|z actions IH]; intros e W; [exact W|]. cbn [map Episodes.after]. apply IH.
  unfold Episodes.call. pose proof (step_watching e z W) as W'. destruct (env_step e z) as [e' r]. exact W'.
Qed.

(** From reset on, a step returns exactly if its action is one of the three, the episode has
    not ended, and the balloon ends up at a latitude below 60 degrees. *)
Theorem C80_default_features : forall (e0 e1 e e' : env) seed o1 i1 actions action r,
  lawful P -> answers F -> regresses G -> column_of fcol ->
  (forall w atm center s, reward_fn w atm center s <> None) ->
  env_reset e0 seed = (e1, Returned (o1, i1)) ->
  (Z.of_nat (length actions) < 14000000)%Z ->
  e = after e1 (map Episodes.Step actions) ->
  env_step e action = (e', r) ->
  exists center s s', balloon e = Some (center, s) /\ balloon e' = Some (center, s') /\
    Rabs (fst center) <= 10 * PI / 180 /\
    ((exists answer, r = Returned answer) <->
     (0 <= action <= 2)%Z /\ bstatus s = OK /\ Rabs (degrees (fst (latlng center (x s') (y s')))) < 60).
Proof.
  intros e0 e1 e e' seed o1 i1 actions action r HP HF HG Hcol HR E Hl -> Es.
  pose proof (cruising_after P noise4d F FC reward_fn draws actions 0 e1 ltac:(lia) ltac:(eapply start_steady; eassumption)) as Cr.
  pose proof (watching_after actions e1 (reset_watching _ _ _ _ E)) as W.
  cbn [Nat.add] in Cr.
  set (e := after e1 (map Episodes.Step actions)) in *. clearbody e.
  pose proof Cr as (center & s & alpha & w & k & d & f & Hb & Hs & Ha & Hat & Hw & Hf & Hc & Ht & Hd).
  destruct W as (f' & Hf' & Hob). rewrite Hf in Hf'. injection Hf' as <-.
  revert Es. unfold Env.env_step.
  pose proof (command_range action) as Rg. destruct (command_of_int action) as [c|] eqn:Ec.
  2: { intros [= <- <-]. exists center, s, s. split; [exact Hb|]. split; [exact Hb|]. split; [exact Hc|].
       split; [intros [a [=]]|]. intros [H _]. apply Rg in H. destruct H as [c [=]]. }
  assert (Hz : (0 <= action <= 2)%Z) by (apply Rg; eauto).
  assert (D : bstatus s = OK \/ bstatus s <> OK) by (destruct (bstatus s); auto; right; discriminate).
  destruct D as [Hok|Hno].
  2: { assert (Q : exists a, arena_step P noise4d F FC (arena e) c = (a, Raised) /\ exists s', a_balloon P F FC a = Some (center, s')) by (eapply step_refused; eassumption).
       destruct Q as (a & -> & s' & Ea). intros [= <- <-].
       exists center, s, s'. split; [exact Hb|]. split; [exact Ea|]. split; [exact Hc|].
       split; [intros [a0 [=]]|]. intros (_ & H & _). contradiction. }
  destruct (step_runs P noise4d F FC reward_fn _ e action c HF Hl Cr Ec center s Hb Hok) as (s' & Al & Hs' & Hd' & Ear).
  rewrite Ear. clear Ear.
  unfold observe_and_get_features, moved. cbn [a_balloon a_features a_wind a_atmosphere]. rewrite Hf.
  match goal with |- context [wind_at_balloon P noise4d F FC ?b s'] => set (a1 := b) end.
  assert (Gt : exists tw, wind_at_balloon P noise4d F FC a1 s' = Some tw).
  { unfold wind_at_balloon. change (a_wind P F FC a1) with (a_wind P F FC (arena e)). rewrite Hw.
    apply (truth_defined P noise4d F HF). lia. }
  destruct Gt as [tw ->]. cbn [fc_observe fc_get_features perciatelli]. rewrite Hw, Hat.
  assert (Hfo : forall p, forecast P F (wind_reset P F w k d) (x s') (y s') p (time_elapsed s') <> None).
  { intro p. unfold forecast. apply HF. lia. }
  destruct (constructor_observe P F (wind_reset P F w k d) f center s' tw) as [c' rr] eqn:Eo.
  assert (rr = Some tt) as ->.
  { revert Eo. unfold constructor_observe, WindGP.observe.
    destruct (forecast P F (wind_reset P F w k d) (x s') (y s') (pressure s') (time_elapsed s')) eqn:Ef; [|elim (Hfo _ Ef)].
    intro E1. now injection E1 as _ <-. }
  pose proof Al as (V & _ & Hir & Hp & Hsp & _).
  assert (Hdef : default_balloon s').
  { destruct V as (V1 & V2 & V3 & V4 & V5 & V6 & V7 & _). repeat (split; [assumption|]). assumption. }
  pose proof (C77_default_balloon P F G fcol HG Hcol (wind_reset P F w k d) alpha f c' center s' tw Hob Eo Ha Hdef Hd' Hir ltac:(lra) Hfo) as Q.
  destruct (latlng center (x s') (y s')) as [lat lng] eqn:El.
  destruct (get_features P F G fcol (wind_reset P F w k d) (atmosphere_reset alpha) c') as [v|].
  - cbv zeta. cbn [a_balloon set]. change (a_balloon P F FC a1) with (Some (center, s')). cbv iota beta.
    match goal with |- context [reward_fn ?x1 ?x2 ?x3 ?x4] => destruct (reward_fn x1 x2 x3 x4) as [rw|] eqn:Er; [|elim (HR _ _ _ _ Er)] end.
    intros [= <- <-]. exists center, s, s'. split; [exact Hb|]. split; [reflexivity|]. split; [exact Hc|].
    rewrite El. cbn [fst]. split; [|eauto]. intros _. split; [exact Hz|]. split; [exact Hok|]. apply Q. eauto.
  - intros [= <- <-]. exists center, s, s'. split; [exact Hb|]. split; [reflexivity|]. split; [exact Hc|].
    rewrite El. cbn [fst]. split; [intros [a0 [=]]|]. intros (_ & _ & H).
    destruct (proj2 Q (conj H Hsp)) as [v [=]].
Qed.

(** In particular while the balloon is within 4000 km of its station. *)
Theorem C80_within_4000_km : forall (e0 e1 e e' : env) seed o1 i1 actions action r center s center' s',
  lawful P -> answers F -> regresses G -> column_of fcol ->
  (forall w atm center s, reward_fn w atm center s <> None) ->
  env_reset e0 seed = (e1, Returned (o1, i1)) ->
  (Z.of_nat (length actions) < 14000000)%Z ->
  e = after e1 (map Episodes.Step actions) ->
  env_step e action = (e', r) ->
  balloon e = Some (center, s) -> balloon e' = Some (center', s') ->
  (0 <= action <= 2)%Z -> bstatus s = OK -> sqrt (x s' * x s' + y s' * y s') <= 4000000 ->
  exists answer, r = Returned answer.
Proof.
  intros e0 e1 e e' seed o1 i1 actions action r center s center' s' HP HF HG Hcol HR E Hl He Es Hb Hb' Hz Hok Hd.
  destruct (C80_default_features _ _ _ _ _ _ _ _ _ _ HP HF HG Hcol HR E Hl He Es) as (ce & b & b' & B & B' & Hc & I).
  rewrite Hb in B. injection B as <- <-. rewrite Hb' in B'. injection B' as -> <-.
  apply I. split; [exact Hz|]. split; [exact Hok|]. apply near_latitude; assumption.
Qed.

(** How far the wind can have carried the balloon. *)
Lemma drift W actions : 0 <= W -> forall e d center s,
  (forall px py pp t w, ground_truth P noise4d F (a_wind P F FC (arena e)) px py pp t = Some w -> sqrt (u w * u w + v w * v w) <= W) ->
  balloon e = Some (center, s) -> sqrt (x s * x s + y s * y s) <= d ->
  exists s', balloon (after e (map Episodes.Step actions)) = Some (center, s') /\
    sqrt (x s' * x s' + y s' * y s') <= d + 180 * W * INR (length actions).
Proof.
  intro HW. induction actions as [|z actions IH]; intros e d center s Hw Hb Hd.
  - exists s. split; [exact Hb|]. cbn [length INR]. lra.
  - cbn [map Episodes.after]. unfold Episodes.call.
    destruct (env_step_keeps P noise4d F FC reward_fn e z) as [Kw _].
    pose proof (env_step_moves P noise4d F FC reward_fn e z) as B.
    destruct (env_step e z) as [e' r]. cbn [fst] in *.
    change (length (z :: actions)) with (S (length actions)). rewrite S_INR.
    destruct B as [B|(ce & s0 & s' & wind & c & r' & B0 & Ew & Es & B)].
    + destruct (IH e' d center s) as (s' & E' & Hd'); [rewrite Kw; exact Hw|rewrite B; exact Hb|exact Hd|].
      exists s'. split; [exact E'|]. lra.
    + rewrite Hb in B0. injection B0 as <- <-.
      destruct (IH e' (d + 180 * W) center s') as (s'' & E' & Hd'); [rewrite Kw; exact Hw|exact B| |exists s''; split; [exact E'|lra]].
      pose proof (C12_dead_reckoning s (mkCall (world_of (a_atmosphere P F FC (arena e)) center) (u wind, v wind) c AGENT_TIME_STEP STRIDE)) as Q.
      unfold do_call in Q. cbn [c_world c_wind c_action c_delta c_stride fst snd] in Q. rewrite Es in Q. cbn [fst] in Q.
      destruct Q as [X Y]. pose proof (simulate_clock _ _ _ _ _ _ Es) as [C1 _].
      specialize (Hw _ _ _ _ _ Ew).
      set (dt := IZR (time_elapsed s' - time_elapsed s) / 1000000) in *.
      assert (Hdt : 0 <= dt <= 180).
      { assert (0 <= IZR (time_elapsed s' - time_elapsed s) <= 180000000) by (split; apply IZR_le; lia). unfold dt. lra. }
      clearbody dt. rewrite X, Y.
      eapply Rle_trans; [apply shift_far; lra|].
      assert (dt * sqrt (u wind * u wind + v wind * v wind) <= 180 * W).
      { apply Rmult_le_compat; try lra. apply sqrt_pos. }
      lra.
Qed.

(** If the wind is never faster than [W] m/s, then before it can have carried the balloon
    4000 km from the station a step returns exactly if its action is one of the three and the episode
    has not ended; at 20 m/s that is for more than the first 1000 steps of every episode. *)
Theorem C80_bounded_wind : forall (e0 e1 e e' : env) seed o1 i1 actions action r W,
  lawful P -> answers F -> regresses G -> column_of fcol ->
  (forall w atm center s, reward_fn w atm center s <> None) ->
  env_reset e0 seed = (e1, Returned (o1, i1)) ->
  (forall px py pp t w, ground_truth P noise4d F (a_wind P F FC (arena e1)) px py pp t = Some w ->
     sqrt (u w * u w + v w * v w) <= W) ->
  (Z.of_nat (length actions) < 14000000)%Z ->
  200000 + 180 * W * INR (S (length actions)) <= 4000000 ->
  e = after e1 (map Episodes.Step actions) ->
  env_step e action = (e', r) ->
  exists center s, balloon e = Some (center, s) /\
    ((exists answer, r = Returned answer) <-> (0 <= action <= 2)%Z /\ bstatus s = OK).
Proof.
  intros e0 e1 e e' seed o1 i1 actions action r W HP HF HG Hcol HR E Hw Hl Hd He Es.
  destruct (C80_default_features _ _ _ _ _ _ _ _ _ _ HP HF HG Hcol HR E Hl He Es) as (center & s & s' & B & B' & Hc & I).
  exists center, s. split; [exact B|]. rewrite I. split; [tauto|]. intros [H1 H2]. split; [exact H1|]. split; [exact H2|].
  destruct (C63_start _ _ _ _ _ _ _ _ _ _ HP E) as (_ & _ & _ & _ & ce & s1 & alpha & Hb & _ & _ & D & _ & _ & _ & _ & _ & _ & Ht1 & _).
  assert (HW : 0 <= W).
  { destruct (start_steady P noise4d F FC reward_fn draws e0 e1 seed o1 i1 HP E) as (ce2 & s2 & _ & w2 & k2 & d2 & _ & _ & _ & _ & _ & Ew & _).
    destruct (truth_defined P noise4d F HF w2 k2 d2 0 0 0 0 ltac:(lia)) as [wv Ev]. rewrite <- Ew in Ev.
    pose proof (Hw _ _ _ _ _ Ev). pose proof (sqrt_pos (u wv * u wv + v wv * v wv)). lra. }
  assert (D1 : sqrt (x s1 * x s1 + y s1 * y s1) <= 200000).
  { unfold distance_km in D. replace (x s1 * x s1 + y s1 * y s1) with (x s1 ^ 2 + y s1 ^ 2) by ring. lra. }
  destruct (drift W (actions ++ [action]) HW e1 200000 ce s1 Hw Hb D1) as (sn & Bn & Dn).
  rewrite map_app, after_app in Bn. cbn [map Episodes.after] in Bn. rewrite <- He in Bn.
  unfold Episodes.call in Bn. rewrite Es in Bn. cbn [fst] in Bn. rewrite B' in Bn. injection Bn as _ <-.
  apply near_latitude; [exact Hc|]. rewrite app_length in Dn. cbn [length] in Dn.
  replace (length actions + 1)%nat with (S (length actions)) in Dn by lia. lra.
Qed.
End Perciatelli.
Print Assumptions C80_default_features.
Print Assumptions C80_within_4000_km.
Print Assumptions C80_bounded_wind.


(** The hypotheses are met: the default reward function never raises (C17), and on a static wind
    field without noise the wind is 10 m/s.  Whatever the seed, a thousand steps return until
    the episode ends; the first one does, so that C09, C10, C70 and C79 speak of something. *)
Definition witness_fc := perciatelli witness_prng (static_field witness_prng) witness_regressor
  (default_forecast_column witness_prng (static_field witness_prng)).
Definition still (_ : Z) (_ _ _ _ : R) : R := 0.
Definition witness_step := env_step witness_prng still (static_field witness_prng) witness_fc default_reward_fn.
Definition witness_reset draws := env_reset witness_prng still (static_field witness_prng) witness_fc draws.

Lemma default_reward_answers P F (w : wind_field P F) atm center s : default_reward_fn w atm center s <> None.
Proof. unfold default_reward_fn. destruct (C17_range_and_optimum (world_of atm center) s) as (r & -> & _). discriminate. Qed.

Lemma still_loop hs px py pp t : forall a b c a' b' c', noise_loop still hs px py pp t a b c = Some (a', b', c') -> a' = a.
Proof.
  induction hs as [|h hs IH]; intros a b c a' b' c'; cbn [noise_loop]; [intros [= -> _ _]; reflexivity|].
  unfold harmonic_noise, still. destruct (generator h) as [[sd off]|]; [|discriminate].
  intro E. apply IH in E. rewrite E. ring.
Qed.
Lemma still_noise m px py pp t w : wind_noise still m px py pp t = Some w -> w = mkWind 0 0.
Proof.
  unfold wind_noise, component_noise.
  destruct (noise_loop still (noise_u m) px py pp t 0 0 0) as [[[a1 a2] a3]|] eqn:Ea; [|discriminate].
  destruct (noise_loop still (noise_v m) px py pp t 0 0 0) as [[[b1 b2] b3]|] eqn:Eb; [|discriminate].
  apply still_loop in Ea, Eb. subst. intros [= <-]. f_equal; unfold Rdiv; ring.
Qed.
Lemma ten_metres P w px py pp t v0 : ground_truth P still (static_field P) w px py pp t = Some v0 ->
  sqrt (u v0 * u v0 + v v0 * v v0) <= 10.
Proof.
  unfold ground_truth. destruct (forecast _ _ _ _ _ _ _) as [f|] eqn:Ef; [|discriminate].
  destruct (wind_noise _ _ _ _ _ _) as [n|] eqn:En; [|discriminate]. apply still_noise in En. subst n.
  intros [= <-]. cbn in Ef. injection Ef as <-. unfold wind_add, static_forecast.
  assert (S : forall z, z = 100 -> sqrt z <= 10) by (intros z ->; rewrite <- (sqrt_square 10) by lra; apply sqrt_le_1; lra).
  repeat (destruct (Rltb _ _)); apply S; cbn; ring.
Qed.

Example C80_witness : forall e seed, exists n e1 o1 i1, forall draws, (n <= draws)%nat ->
  witness_reset draws e seed = (e1, Returned (o1, i1)) /\
  (exists e2 o r done i, witness_step e1 2 = (e2, Returned (o, r, done, i))) /\
  (forall actions action center s, (length actions <= 1000)%nat -> (0 <= action <= 2)%Z ->
     let e2 := Episodes.after _ still _ witness_fc default_reward_fn draws e1 (map Episodes.Step actions) in
     a_balloon _ _ _ (e_arena _ _ _ e2) = Some (center, s) -> bstatus s = OK ->
     exists e' answer, witness_step e2 action = (e', Returned answer)).
Proof.
  intros e seed. destruct C65_witness as (L & S0 & _).
  destruct (C77_reset witness_prng (static_field witness_prng) witness_regressor (default_forecast_column _ _) witness_regresses (witness_column _ _) L still S0
    (proj1 (C65_forecasts _)) e seed) as (n & e1 & o1 & i1 & E).
  exists n, e1, o1, i1. intros draws Hn. specialize (E draws Hn). split; [exact E|].
  assert (K : forall actions action center s, (length actions <= 1000)%nat -> (0 <= action <= 2)%Z ->
     let e2 := Episodes.after _ still _ witness_fc default_reward_fn draws e1 (map Episodes.Step actions) in
     a_balloon _ _ _ (e_arena _ _ _ e2) = Some (center, s) -> bstatus s = OK ->
     exists e' answer, witness_step e2 action = (e', Returned answer)).
  { intros actions action center s Hl Hz e2 Hb Hok. destruct (witness_step e2 action) as [e' r] eqn:Es.
    destruct (C80_bounded_wind witness_prng still (static_field witness_prng) witness_regressor (default_forecast_column _ _)
      default_reward_fn draws e e1 e2 e' seed o1 i1 actions action r 10 L (proj1 (C65_forecasts _)) witness_regresses (witness_column _ _)
      (default_reward_answers _ _) E) as (ce & b & B & I).
    - intros px py pp t w Ew. exact (ten_metres _ _ _ _ _ _ _ Ew).
    - lia.
    - assert (INR (S (length actions)) <= 1001) by (rewrite INR_IZR_INZ; apply IZR_le; lia). lra.
    - reflexivity.
    - exact Es.
    - change (a_balloon _ _ _ (e_arena _ _ _ e2) = Some (ce, b)) in B. rewrite Hb in B. injection B as <- <-.
      destruct (proj2 I (conj Hz Hok)) as [answer ->]. eauto. }
  split; [|exact K].
  destruct (C63_start _ _ _ _ _ _ _ _ _ _ L E) as (_ & _ & _ & _ & ce & s1 & alpha & Hb & _ & _ & _ & _ & _ & _ & _ & _ & Hok & _).
  destruct (K [] 2%Z ce s1 (Nat.le_0_l _) ltac:(lia) Hb Hok) as (e' & [[[o r] d] i] & Es). cbn [map Episodes.after] in Es.
  exists e', o, r, d, i. exact Es.
Qed.
