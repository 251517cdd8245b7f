(** Properties C09, C10, C19, C39, C63: the environment. *)
From Coq Require Import ZArith Reals Lra Lia Bool List.
From RecordUpdate Require Import RecordSet.
From Verif Require Import Model.Num Model.Prng Model.Safety Model.Acs Model.Balloon Model.WindField
  Model.Atmosphere Model.Sampling Model.StableInit Model.Solar Model.Reward Model.Env.
From Verif Require Import Spec.PrngSpec Spec.Envelope Spec.RewardSpec Spec.Episodes.
From Verif Require Import Proofs.NumR Proofs.BalloonProofs Proofs.EnvelopeProofs Proofs.EnvProofs
  Proofs.ExampleFlight.
From Verif Require Spec.Flight.
From Verif Require Import Props.RewardProps Props.SamplingProps.
Import ListNotations RecordSetNotations.
#[local] Opaque initialize_balloon Sampling.sample_time atmosphere_reset simulate_step world_of
  U_HARMONICS V_HARMONICS simulate_substep.
Open Scope R_scope.

Section EnvProps.
(** Any random number library, noise library, forecast, feature constructor and
    reward function. *)
Context (P : prng) (noise4d : Z -> R -> R -> R -> R -> R) (F : forecaster P).
Context (FC : feature_class P F).
Context (reward_fn : wind_field P F -> atmosphere -> R * R -> bstate R -> option R).
Context (draws : nat).
Notation env := (env P F FC).
Notation env_step := (env_step P noise4d F FC reward_fn).
Notation env_reset := (env_reset P noise4d F FC draws).
Notation after := (after P noise4d F FC reward_fn draws).
Notation responses := (responses P noise4d F FC reward_fn draws).
Notation usable := (usable P noise4d F FC reward_fn draws).
Notation balloon_of := (balloon_of P F FC).
Notation Step := Episodes.Step.

(** ** C09 *)
(** What a step that returns reports, and how much time it took. *)
Theorem C09_reported : forall (e e' : env) action o reward done i,
  env_step e action = (e', Returned (o, reward, done, i)) ->
  exists s s', balloon_of e = Some s /\ balloon_of e' = Some s' /\
    (0 <= action <= 2)%Z /\
    bstatus s = OK /\
    (done = true <-> bstatus s' <> OK) /\
    (out_of_power i = true <-> bstatus s' = OUT_OF_POWER) /\
    (envelope_burst i = true <-> bstatus s' = BURST) /\
    (zeropressure i = true <-> bstatus s' = ZEROPRESSURE) /\
    info_time_elapsed i = time_elapsed s' /\
    (done = false -> time_elapsed s' = time_elapsed s + 180 * 1000000)%Z /\
    (done = true -> exists k, (1 <= k <= 18)%Z /\
       (time_elapsed s' = time_elapsed s + k * 10 * 1000000)%Z) /\
    (date_time s' - date_time s = time_elapsed s' - time_elapsed s)%Z.
Proof.
  intros e e' action o reward done i E.
  destruct (env_step_returns _ _ _ _ _ _ _ _ _ _ _ _ E)
    as (c & ce & s & s' & wv & eff & Hc & Hb & Hb' & Hs & _ & Hi & Hd & _).
  exists s, s'. unfold Episodes.balloon_of. rewrite Hb, Hb'.
  split; [reflexivity|]. split; [reflexivity|].
  split. { revert Hc. unfold command_of_int.
    destruct (Z.eqb_spec action 0), (Z.eqb_spec action 1), (Z.eqb_spec action 2); try discriminate; lia. }
  assert (Hok : bstatus s = OK).
  { destruct (bstatus s) eqn:Es; [reflexivity| | |];
      rewrite (call_absorbing _ _ c _ _ s) in Hs by congruence; discriminate. }
  split; [exact Hok|].
  destruct (call_clock_whole s (Flight.mkCall (world_of (a_atmosphere P F FC (e_arena P F FC e)) ce)
     (u wv, v wv) c AGENT_TIME_STEP STRIDE) 180 10 eq_refl eq_refl ltac:(lia) ltac:(lia) s' _ Hs) as [H _].
  destruct (H eff eq_refl) as (_ & H1 & H2). cbn [Flight.c_delta Flight.c_stride] in H1, H2.
  unfold AGENT_TIME_STEP, STRIDE in H1, H2. subst i done. unfold get_info. cbn.
  repeat split; try (destruct (bstatus s'); cbn in *; congruence).
  - intro Hd. apply H1. destruct (bstatus s'); [reflexivity|discriminate..].
  - intro Hd. destruct H2 as (k & Hk & Ht & _). { destruct (bstatus s'); discriminate. }
    exists k. change (180 / 10)%Z with 18%Z in Hk. lia.
  - destruct (bstatus s') eqn:Es.
    + destruct (H1 eq_refl). lia.
    + destruct H2 as (k & Hk & Ht & Ht'); [discriminate|]. lia.
    + destruct H2 as (k & Hk & Ht & Ht'); [discriminate|]. lia.
    + destruct H2 as (k & Hk & Ht & Ht'); [discriminate|]. lia.
Qed.

(** Afterwards, until the next reset, every step raises and nothing about the
    balloon changes (except the record of the last command). *)
Theorem C09_absorbing : forall (e e' : env) action o reward i actions,
  env_step e action = (e', Returned (o, reward, true, i)) ->
  (forall r, In r (responses e' (map Step actions)) -> r = Next P F FC Raised) /\
  exists s c, balloon_of e' = Some s /\
    balloon_of (after e' (map Step actions)) = Some (s <| last_command := c |>).
Proof.
  intros e e' action o reward i actions E.
  destruct (env_step_returns _ _ _ _ _ _ _ _ _ _ _ _ E)
    as (c & ce & s & s' & wv & eff & _ & _ & Hb & _ & _ & _ & Hd & _).
  assert (Hs : bstatus s' <> OK) by (intro H; rewrite H in Hd; discriminate).
  clear E Hd e action o reward i s wv eff c. revert e' s' Hb Hs.
  induction actions as [|a actions IH]; intros e s Hb Hs; cbn [map Episodes.responses Episodes.after].
  - split; [intros r []|]. exists s, (last_command s). unfold Episodes.balloon_of. rewrite Hb.
    split; [reflexivity|]. destruct s; reflexivity.
  - destruct (env_step_absorbed P noise4d F FC reward_fn e a ce s Hb Hs) as (Er & c & Hb1).
    unfold call. destruct (env_step e a) as [e1 r1]. cbn [fst snd] in *. subst r1.
    destruct (IH e1 _ Hb1 Hs) as (H1 & s2 & c2 & H2 & H3). split.
    + intros r [<-|H]; [reflexivity|]. auto.
    + exists s, c2. rewrite H3. unfold Episodes.balloon_of in *. rewrite Hb1 in H2. rewrite Hb.
      injection H2 as <-. split; [reflexivity|]. destruct s; reflexivity.
Qed.

(** ** C10 *)
(** An intact balloon: energy left, and a superpressure between 0 and the maximum. *)
Definition intact (s : bstate R) : Prop :=
  0 < battery_charge s /\ 0 < superpressure s <= envelope_max_superpressure s.

Lemma substep_status (w : world R) wind a st s s' :
  simulate_substep w wind a st s = Some s' -> bstatus s = OK -> 0 <= envelope_max_superpressure s ->
  (bstatus s' = OK <-> intact s') /\
  (bstatus s' = OUT_OF_POWER <-> battery_charge s' <= 0) /\
  (bstatus s' = ZEROPRESSURE <-> 0 < battery_charge s' /\ superpressure s' <= 0) /\
  (bstatus s' = BURST <-> 0 < battery_charge s' /\ envelope_max_superpressure s' < superpressure s').
Proof.
  intros E Hok Hm. apply substep_fields in E. destruct E as (np & h & amb & _ & _ & Ef).
  cbv zeta in Ef. decompose [and] Ef. clear Ef.
  match goal with H : bstatus s' = _ |- _ => rename H into Hst end.
  match goal with H : envelope_max_superpressure s' = _ |- _ => rename H into Hmx end.
  unfold next_status in Hst. rewrite Hok in Hst. numR.
  rewrite <- Hmx in Hst, Hm. unfold intact.
  revert Hst. rcases; intros ->; repeat split; intros; try discriminate; try lra.
Qed.

Lemma ran_intact (w : world R) wind a st k s s' :
  ran w wind a st k s s' -> bstatus s = OK -> 0 <= envelope_max_superpressure s ->
  exists f : nat -> bstate R, f 0%nat = s /\ f k = s' /\
    (forall j, (j < k)%nat -> simulate_substep w wind a st (f j) = Some (f (S j)) /\ bstatus (f j) = OK) /\
    (forall j, (0 < j < k)%nat -> intact (f j)).
Proof.
  induction 1 as [s|s s' H Hb|k s s1 s' H Hb Hr IH]; intros Hok Hm.
  - exists (fun _ => s). repeat split; lia.
  - exists (fun j => match j with O => s | _ => s' end).
    split; [reflexivity|]. split; [reflexivity|]. split; [|intros j Hj; lia].
    intros j Hj. replace j with 0%nat by lia. auto.
  - assert (Hm1 : 0 <= envelope_max_superpressure s1).
    { pose proof (substep_fields _ _ _ _ _ _ H) as (np & h & amb & _ & _ & Ef).
      cbv zeta in Ef. decompose [and] Ef.
      match goal with H : envelope_max_superpressure s1 = _ |- _ => rewrite H end. exact Hm. }
    destruct (IH Hb Hm1) as (f & F0 & Fk & F1 & F2).
    exists (fun j => match j with O => s | S j => f j end).
    split; [reflexivity|]. split; [exact Fk|]. split.
    + intros [|j] Hj; [rewrite F0; auto|]. apply F1. lia.
    + intros [|j] Hj; [lia|]. destruct j as [|j]; [|apply F2; lia].
      rewrite F0. apply (substep_status _ _ _ _ _ _ H Hok Hm). exact Hb.
Qed.

(** A step that returns went through sub-steps of 10 s; it goes on exactly while
    the balloon is intact, so every failure that happens ends the episode and is
    reported in that very step.  Which flag: an empty battery first, then a lost
    superpressure, then a burst. *)
Theorem C10_visible : forall (e e' : env) action o reward done i,
  env_step e action = (e', Returned (o, reward, done, i)) ->
  (forall s, balloon_of e = Some s -> 0 <= envelope_max_superpressure s) ->
  exists s s' (k : nat) (f : nat -> bstate R) wind world eff,
    balloon_of e = Some s /\ balloon_of e' = Some s' /\ (1 <= k <= 18)%nat /\
    (* it begins where the balloon was: only the recorded command and what the safety
       layers remember has changed *)
    (exists c p en al, f 0%nat = s <| last_command := c |> <| power_layer := p |>
                                   <| envelope_layer := en |> <| altitude_layer := al |>) /\
    f k = s' /\
    (forall j, (j < k)%nat ->
       simulate_substep world wind eff (10 * 1000000) (f j) = Some (f (S j))) /\
    (forall j, (0 < j < k)%nat -> intact (f j)) /\
    (done = false <-> intact s') /\
    (done = false -> k = 18%nat) /\
    (out_of_power i = true <-> battery_charge s' <= 0) /\
    (zeropressure i = true <-> 0 < battery_charge s' /\ superpressure s' <= 0) /\
    (envelope_burst i = true <->
       0 < battery_charge s' /\ envelope_max_superpressure s' < superpressure s').
Proof.
  intros e e' action o reward done i E Hmax.
  destruct (C09_reported _ _ _ _ _ _ _ E)
    as (s0 & s0' & B0 & B0' & _ & Hok & Rd & Ro & Rb & Rz & _ & Tf & Tt & _).
  destruct (env_step_returns _ _ _ _ _ _ _ _ _ _ _ _ E)
    as (c & ce & s & s' & wv & eff0 & Hc & Hb & Hb' & Hs & _ & Hi & Hd & _).
  assert (s0 = s) by (unfold Episodes.balloon_of in B0; rewrite Hb in B0; congruence).
  assert (s0' = s') by (unfold Episodes.balloon_of in B0'; rewrite Hb' in B0'; congruence).
  subst s0 s0'. specialize (Hmax s B0).
  destruct (call_ran _ _ _ _ _ _ _ _ Hs) as (p & en & al & k & eff & Hr & _).
  set (s1 := s <| last_command := c |> <| power_layer := p |> <| envelope_layer := en |>
               <| altitude_layer := al |>) in *.
  destruct (ran_clock _ _ _ _ _ _ _ Hr) as [_ Hclock]. change (time_elapsed s1) with (time_elapsed s) in Hclock.
  assert (Hk : (1 <= k <= 18)%nat /\ (done = false -> k = 18%nat)).
  { destruct done.
    - destruct (Tt eq_refl) as (k' & Hk' & Ht). unfold STRIDE in Hclock. split; [lia|discriminate].
    - specialize (Tf eq_refl). unfold STRIDE in Hclock. split; [lia|intros _; lia]. }
  destruct (ran_intact _ _ _ _ _ _ _ Hr Hok Hmax) as (f & F0 & Fk & F1 & F2).
  exists s, s', k, f, (u wv, v wv), (world_of (a_atmosphere P F FC (e_arena P F FC e)) ce), eff.
  split; [exact B0|]. split; [exact B0'|]. split; [tauto|].
  split; [exists c, p, en, al; exact F0|]. split; [exact Fk|].
  split. { intros j Hj. apply F1. exact Hj. }
  split; [exact F2|].
  destruct k as [|k]; [lia|].
  destruct (F1 k ltac:(lia)) as [El Hl]. rewrite Fk in El.
  assert (Hml : 0 <= envelope_max_superpressure (f k)).
  { clear - F0 F1 Hmax. assert (G : forall j, (j <= k)%nat -> 0 <= envelope_max_superpressure (f j)); [|apply G; lia].
    induction j as [|j IH]; intro Hj; [rewrite F0; exact Hmax|].
    destruct (F1 j ltac:(lia)) as [Ej _]. apply substep_fields in Ej.
    destruct Ej as (np & h & amb & _ & _ & Ef). cbv zeta in Ef. decompose [and] Ef.
    match goal with H : envelope_max_superpressure (f (S j)) = _ |- _ => rewrite H end. apply IH. lia. }
  destruct (substep_status _ _ _ _ _ _ El Hl Hml) as (S1 & S2 & S3 & S4).
  split. { rewrite <- S1. destruct done, (bstatus s'); split; intro; try reflexivity; try discriminate;
             try (exfalso; apply (proj1 Rd); [reflexivity|]; reflexivity);
             try (exfalso; assert (X : false = true) by (apply Rd; discriminate); discriminate). }
  split; [tauto|]. rewrite Ro, Rz, Rb. auto.
Qed.

(** ** C39 *)
(** Two environments with arbitrary pasts, reset with the same seed: the reset
    returns the same (or raises in both), and if it returns, so does everything
    that is done afterwards, until the end of time. *)
Theorem C39_reproducible : forall (e e' : env) seed,
  usable e -> usable e' ->
  snd (env_reset e (Some seed)) = snd (env_reset e' (Some seed)) /\
  (snd (env_reset e (Some seed)) <> Raised ->
   forall ops, responses (fst (env_reset e (Some seed))) ops
             = responses (fst (env_reset e' (Some seed))) ops).
Proof.
  intros e e' seed H H'.
  pose proof (reproducible P noise4d F FC reward_fn draws e e' seed) as Q.
  split; [exact (proj1 (Q [] (usable_tables _ _ _ _ _ _ _ H) (usable_tables _ _ _ _ _ _ _ H')))|].
  intros N ops. exact (proj2 (Q ops (usable_tables _ _ _ _ _ _ _ H) (usable_tables _ _ _ _ _ _ _ H')) N).
Qed.

(** In particular an environment constructed with a seed behaves as one that was
    used for anything else and then reset with that seed. *)
Theorem C39_constructor : forall radius seed now1 now2 (e e' : env),
  new_env P noise4d F FC draws radius (Some seed) now1 now2 = Some e -> usable e' ->
  snd (env_reset e' (Some seed)) <> Raised /\
  forall ops, responses e ops = responses (fst (env_reset e' (Some seed))) ops.
Proof.
  intros radius seed now1 now2 e e' E H'.
  pose proof (fun ops => constructor_resets P noise4d F FC reward_fn draws
    radius seed now1 now2 e e' ops E (usable_tables _ _ _ _ _ _ _ H')) as Q.
  split; [exact (proj1 (Q []))|]. intro ops. exact (proj2 (Q ops)).
Qed.

(** env.seed(s) and then env.reset() is env.reset(seed=s). *)
Theorem C39_seed_then_reset : forall (e : env) seed,
  env_reset (env_seed P F FC e seed) None = env_reset e (Some seed).
Proof. reflexivity. Qed.

(** ** C19 *)
(** The radius given to the constructor has no influence on anything returned. *)
Theorem C19_radius_ignored : forall (e : env) radius ops,
  responses e ops = responses (e <| e_radius P F FC := radius |>) ops.
Proof. intros e radius ops. apply responses_same. split; reflexivity. Qed.
End EnvProps.
Print Assumptions C09_reported.
Print Assumptions C09_absorbing.
Print Assumptions C10_visible.
Print Assumptions C39_reproducible.
Print Assumptions C39_constructor.
Print Assumptions C19_radius_ignored.
Print Assumptions C39_seed_then_reset.

(** So it does not agree with the reward, unless it is 50 km. *)
Theorem C19_refuted : forall (P : prng) (F : forecaster P) (w : wind_field P F) atm center radius_km,
  0 <= radius_km ->
  ((forall s, last_command s <> DOWN ->
     (distance_km (x s) (y s) <= radius_km <-> default_reward_fn w atm center s = Some 1))
   <-> radius_km = 50).
Proof.
  intros P F w atm center r Hr.
  assert (K : forall s, last_command s <> DOWN ->
    (distance_km (x s) (y s) <= 50 <-> default_reward_fn w atm center s = Some 1)).
  { intros s Hs. unfold default_reward_fn.
    destruct (C17_range_and_optimum (world_of atm center) s) as (q & E & _ & _ & I). rewrite E. split.
    - intro D. f_equal. apply I. split; [exact D|]. intros [D' _]. contradiction.
    - intros [= Q]. apply I. exact Q. }
  split; [|intros ->; exact K].
  intro H. destruct (Req_dec r 50) as [|N]; [assumption|exfalso].
  set (d := (r + 50) / 2).
  set (s := demo_state <| x := d * 1000 |> : bstate R).
  assert (Hd : distance_km (x s) (y s) = d).
  { unfold distance_km. change (x s) with (d * 1000). change (y s) with 0.
    replace ((d * 1000) ^ 2 + 0 ^ 2) with ((d * 1000) * (d * 1000)) by ring.
    rewrite sqrt_square by (unfold d; lra). field. }
  assert (Hs : last_command s <> DOWN) by discriminate.
  specialize (H s Hs). specialize (K s Hs). rewrite Hd in *. rewrite <- K in H. unfold d in H.
  destruct H as [H1 H2]. destruct (Rtotal_order r 50) as [L|[L|L]]; [|contradiction|].
  - specialize (H2 ltac:(lra)). lra.
  - specialize (H1 ltac:(lra)). lra.
Qed.
Print Assumptions C19_refuted.

(** ** C10, the burst that is not reported *)
(** A balloon whose envelope bursts in the sub-step in which its battery runs
    empty: the burst flag stays false. *)
Theorem C10_every_failure_flagged_refuted : exists (w : world R) (s s' : bstate R),
  bstatus s = OK /\ intact s /\
  simulate_substep w (0, 0) STAY (10 * 1000000) s = Some s' /\
  envelope_max_superpressure s' < superpressure s' /\
  envelope_burst (get_info s') = false /\ out_of_power (get_info s') = true.
Proof.
  set (s := demo_state <| internal_temperature := 400 |> <| battery_charge := 0.1 |>
              <| superpressure := 2000 |>).
  destruct (simulate_substep (demo_world 21300) (0, 0) STAY (10 * 1000000) s) as [s'|] eqn:E.
  2:{ exfalso. revert E. Transparent simulate_substep. unfold simulate_substep, next_pressure.
      cbn [demo_world Balloon.at_pressure sun d_temperature].
      destruct (calculate_superpressure_and_volume _ _ _ _ _ _). discriminate. }
  exists (demo_world 21300), s, s'.
  split; [reflexivity|]. split; [unfold intact; cbn; numR; lra|]. split; [exact E|].
  apply substep_fields in E. destruct E as (np & h & amb & _ & _ & Ef).
  cbv zeta in Ef. decompose [and] Ef. clear Ef.
  match goal with H : bstatus s' = _ |- _ => rename H into Hst end.
  match goal with H : superpressure s' = _ |- _ => rename H into Hsp end.
  match goal with H : envelope_max_superpressure s' = _ |- _ => rename H into Hmx end.
  match goal with H : battery_charge s' = _ |- _ => rename H into Hch end.
  match goal with H : power_load s' = _ |- _ => rename H into Hpl end.
  match goal with H : solar_charging s' = _ |- _ => rename H into Hsc end.
  assert (C : battery_charge s' = 0).
  { rewrite Hch, Hpl, Hsc. unfold Balloon.MIN_SOLAR_EL_DEG. cbn [demo_world sun fst solar_power_fn acs_step].
    change (battery_charge s) with 0.1. change (battery_capacity s) with (@lit R _ 305856 100).
    change (nighttime_power_load s) with (@lit R _ 1837 10).
    unfold clip, timedelta_to_hours, total_seconds, us_per_second.
    numR. change (IZR (10 * 1000000)) with 10000000. clear - s. rcases; lra. }
  assert (Q : 2380 < superpressure s').
  { rewrite Hsp.
    pose proof (sv_law (mols_lift_gas s) (mols_air s) (internal_temperature s) (pressure s)
      (envelope_volume_base s) (envelope_volume_dv_pressure s)) as L.
    change (mols_lift_gas s) with 6830 in *. change (mols_air s) with 0 in *.
    change (internal_temperature s) with 400 in *. change (pressure s) with 6000 in *.
    change (envelope_volume_base s) with 1804 in *.
    change (envelope_volume_dv_pressure s) with (@lit R _ 199 10000) in *.
    specialize (L ltac:(lra) ltac:(lra) ltac:(numR; lra)).
    destruct (calculate_superpressure_and_volume _ _ _ _ _ _) as [V sp]. cbn [snd].
    unfold envelope_law, gas_constant in L. numR.
    destruct L as [(A & -> & B)|(A & B & -> & D)]; [exfalso; nra|]. nra. }
  change (envelope_max_superpressure s) with 2380 in Hmx.
  split; [lra|]. unfold get_info. rewrite Hst, C. unfold next_status. numR. cbn [envelope_burst out_of_power].
  rcases; split; try reflexivity; lra.
Qed.
Print Assumptions C10_every_failure_flagged_refuted.

(** ** C63 *)
Lemma initialize_balloon_some (P : prng) (HP : lawful P) draws rng alpha now center s :
  0 <= alpha <= 1 ->
  initialize_balloon P draws rng (atmosphere_reset alpha) now = Some (center, s) ->
  sqrt (x s ^ 2 + y s ^ 2) <= 200000 /\
  - (10 * PI / 180) <= fst center <= 10 * PI / 180 /\
  - (175 * PI / 180) <= snd center <= 175 * PI / 180 /\
  6500 <= pressure s /\
  (exists v, Atmosphere.at_pressure (atmosphere_reset alpha) (pressure s) = Some v /\ 15240 < v_height v) /\
  225 <= upwelling_infrared s <= 315 /\
  bstatus s = OK /\ time_elapsed s = 0%Z /\ date_time s = now /\
  battery_charge s = 2905.6 /\ battery_capacity s = 3058.56 /\ last_command s = STAY /\
  navigation_is_paused s = false /\
  exists s0 lat lng, cold_start_to_stable_params s0 lat lng (atmosphere_reset alpha) = Some s.
Proof.
  intros Ha E.
  Transparent initialize_balloon. unfold initialize_balloon in E. Opaque initialize_balloon.
  pose proof (C52_location P HP (split P rng 6 3)) as Hl.
  destruct (sample_location P (split P rng 6 3)) as [lat lng]. destruct Hl as [Hla Hln].
  destruct (C52_pressure P HP (split P rng 6 4) alpha Ha) as (p & v & Ep & Hp & Ev & Hv).
  rewrite Ep in E.
  destruct (sample_upwelling_infrared P draws LogitNormal (split P rng 6 5)) as [ir| |] eqn:Ei; try discriminate.
  destruct (C52_infrared P HP LogitNormal draws (split P rng 6 5) ir Ei) as (Hi1 & Hi2 & _).
  specialize (Hi2 eq_refl).
  set (rad := 200 * beta P (split P rng 6 1) 1.2 2.0 * 1000) in *.
  assert (Hr : 0 <= rad <= 200000).
  { unfold rad. pose proof (beta_range P HP (split P rng 6 1) 1.2 2.0 ltac:(lra) ltac:(lra)). lra. }
  set (th := uniform P (split P rng 6 2) 0 (2 * PI)) in *.
  unfold new_state in E.
  destruct (latlng (radians lat, radians lng) (cos th * rad) (sin th * rad)) as [la ln].
  destruct (SolarSearch.get_next_sunrise_sunset _ _ _ _ _) as [ss|]; [|discriminate].
  set (s0 := _ : bstate R) in E.
  destruct (cold_start_to_stable_params s0 la ln (atmosphere_reset alpha)) as [s1|] eqn:Ec; [|discriminate].
  injection E as <- <-.
  assert (Same : x s1 = cos th * rad /\ y s1 = sin th * rad /\ pressure s1 = p /\ upwelling_infrared s1 = ir /\
    bstatus s1 = OK /\ time_elapsed s1 = 0%Z /\ date_time s1 = now /\ battery_charge s1 = @lit R _ 29056 10 /\
    battery_capacity s1 = @lit R _ 305856 100 /\ last_command s1 = STAY /\ navigation_is_paused s1 = false).
  { unfold cold_start_to_stable_params in Ec.
    destruct (calculate_stable_params_for_pressure _ _ _ _ _ _ _ _ _ _ _) as [r|]; [|discriminate].
    injection Ec as <-. repeat split. }
  destruct Same as (-> & -> & -> & -> & -> & -> & -> & -> & -> & -> & ->).
  split.
  { replace ((cos th * rad) ^ 2 + (sin th * rad) ^ 2) with (rad * rad * ((sin th)² + (cos th)²))
      by (unfold Rsqr; ring).
    rewrite sin2_cos2, Rmult_1_r, sqrt_square by lra. lra. }
  pose proof PI_RGT_0. unfold radians. cbn [fst snd].
  split; [nra|]. split; [nra|]. split; [lra|]. split; [exists v; auto|]. split; [lra|].
  repeat (split; [reflexivity|]).
  exists s0, la, ln. exact Ec.
Qed.

(** Every episode starts with an intact-looking balloon within 200 km of the
    station, above the minimum altitude, at a date in 2011-2014, in equilibrium
    (C56), with the clock at 0 and no failure flag. *)
Theorem C63_start : forall (P : prng) noise4d (F : forecaster P) (FC : feature_class P F) draws
    (e e' : env P F FC) seed o i,
  lawful P ->
  env_reset P noise4d F FC draws e seed = (e', Returned (o, i)) ->
  out_of_power i = false /\ envelope_burst i = false /\ zeropressure i = false /\
  info_time_elapsed i = 0%Z /\
  exists center s alpha,
    a_balloon P F FC (e_arena P F FC e') = Some (center, s) /\
    0 <= alpha <= 1 /\ a_atmosphere P F FC (e_arena P F FC e') = atmosphere_reset alpha /\
    distance_km (x s) (y s) <= 200 /\
    - (10 * PI / 180) <= fst center <= 10 * PI / 180 /\
    - (175 * PI / 180) <= snd center <= 175 * PI / 180 /\
    6500 <= pressure s /\
    (exists v, Atmosphere.at_pressure (atmosphere_reset alpha) (pressure s) = Some v /\
       15240 < v_height v) /\
    225 <= upwelling_infrared s <= 315 /\
    bstatus s = OK /\ time_elapsed s = 0%Z /\
    (1293840000 * 1000000 <= date_time s < 1419984000 * 1000000)%Z /\
    battery_charge s = 2905.6 /\ battery_capacity s = 3058.56 /\ last_command s = STAY /\
    navigation_is_paused s = false /\
    exists s0 lat lng, cold_start_to_stable_params s0 lat lng (atmosphere_reset alpha) = Some s.
Proof.
  intros P noise4d F FC draws e e' seed o i HP E. unfold env_reset in E.
  set (e1 := match seed with Some z => _ | None => _ end) in E. clearbody e1.
  set (k := split P (e_rng P F FC e1) 2 1) in E. cbn -[arena_reset get_info] in E.
  unfold arena_reset in E. cbn -[get_info observe_and_get_features] in E.
  set (alpha := uniform P (split P k 3 1) 0 1) in *.
  assert (Ha : 0 <= alpha <= 1) by (pose proof (uniform_range P HP (split P k 3 1) 0 1 ltac:(lra)); unfold alpha; lra).
  destruct (initialize_balloon _ _ _ _ _) as [[center s]|] eqn:Ei; [|discriminate].
  destruct (initialize_balloon_some P HP _ _ _ _ _ _ Ha Ei) as
    (D & L1 & L2 & Hp & Hh & Hir & Hok & Ht & Hd & Hb & Hcap & Hc & Hn & Hcold).
  rewrite Hok in E. cbn -[get_info observe_and_get_features] in E.
  destruct (fc_new _ _ _ _ _) as [f|]; [|discriminate].
  match type of E with context [observe_and_get_features P noise4d F FC ?b] => set (a1 := b) in E end.
  pose proof (observe_balloon P noise4d F FC a1) as Hob.
  assert (Hat : a_atmosphere P F FC (fst (observe_and_get_features P noise4d F FC a1)) = atmosphere_reset alpha).
  { unfold observe_and_get_features. destruct (a_balloon P F FC a1) as [[c1 s1]|]; [|reflexivity].
    destruct (a_features P F FC a1) as [f0|]; [|reflexivity].
    destruct (wind_at_balloon P noise4d F FC a1 s1) as [w0|]; [|reflexivity].
    destruct (fc_observe _ _ _ _ _ _ _ _ _) as [f1 [|]]; [|reflexivity].
    destruct (fc_get_features _ _ _ _ _ _) as [f2 [|]]; reflexivity. }
  destruct (observe_and_get_features P noise4d F FC a1) as [a2 [o2|]]; [|discriminate].
  cbn [fst] in Hob, Hat. change (a_balloon P F FC a1) with (Some (center, s)) in Hob.
  rewrite Hob in E. injection E as <- <- <-.
  unfold get_info. cbn. rewrite Hok. repeat (split; [reflexivity|]). split; [exact Ht|].
  exists center, s, alpha.
  split; [exact Hob|]. split; [exact Ha|]. split; [exact Hat|].
  split. { unfold distance_km. lra. }
  repeat (split; [assumption|]). split; [rewrite Hd; exact (C52_default_time P HP _)|]. auto.
Qed.
Print Assumptions C63_start.
