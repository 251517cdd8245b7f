(** Energy at night, for property C88. *)
From Coq Require Import ZArith Reals Lra Lia Bool List.
From RecordUpdate Require Import RecordSet.
From Verif Require Import Model.Num Model.Safety Model.Acs Model.Balloon Model.Solar Model.Atmosphere Model.Env.
From Verif Require Import Spec.SafetySpec Spec.NightSpec.
From Verif Require Import Proofs.NumR Proofs.AcsProofs Proofs.BalloonProofs Proofs.SafetyHistory.
From Verif Require Import Props.SolarProps Props.VehicleProps.
Import RecordSetNotations.
Open Scope R_scope.

(** ** The power layer *)
Lemma pow_night s a now load charge cap D :
  next_occurrence (pow_sunrise_h s) now D -> ~ is_day (pow_sunrise_h s) (pow_sunset s) now ->
  let '(s', a') := pow_get_action s a now load charge cap in
  pow_sunrise_h s' = D /\ (D <= pow_sunset s')%Z /\
  (a' = DOWN -> 0.025 <= (charge - load * (IZR (D - now) / 1000000 / 3600)) / cap).
Proof.
  intros HD Hn. rewrite is_day_roll in Hn. unfold pow_get_action. cbv zeta.
  pose proof (next_occurrence_fun _ _ _ _ (roll_days_next now (pow_sunrise_h s)) HD) as ED. rewrite ED in *.
  destruct (Z.ltb_spec (roll_days now (pow_sunset s)) D) as [L|L]; [lia|].
  destruct (pow_paused s).
  - cbn [pow_sunrise_h pow_sunset]. split; [reflexivity|]. split; [exact L|]. intro H. destruct a; discriminate.
  - rewrite hours_R. numR. unfold Rltb.
    destruct (Rlt_dec _ (25 / 1000)) as [Lt|Ge]; cbn [pow_sunrise_h pow_sunset]; (split; [reflexivity|]; split; [exact L|]).
    + intro H. destruct a; discriminate.
    + intros _. apply Rnot_lt_le in Ge. lra.
Qed.

(** The layers after the power layer never ask for a descent it has refused. *)
Lemma layers_night w c s s1 eff D :
  power_safety_layer_enabled s = true -> night_until D s ->
  safety_layers w c s = (s1, eff) ->
  pow_sunrise_h (power_layer s1) = D /\ (D <= pow_sunset (power_layer s1))%Z /\
  (eff = Some DOWN ->
   0.025 <= (battery_charge s - nighttime_power_load s * (IZR (D - date_time s) / 1000000 / 3600)) / battery_capacity s) /\
  exists p e al, s1 = s <| power_layer := p |> <| envelope_layer := e |> <| altitude_layer := al |>.
Proof.
  intros He [HD Hn] H. unfold safety_layers in H. rewrite He in H.
  pose proof (pow_night (power_layer s) c (date_time s) (nighttime_power_load s) (battery_charge s) (battery_capacity s) D HD Hn) as K.
  destruct (pow_get_action _ _ _ _ _ _) as [p' a1].
  destruct K as (K1 & K2 & K3).
  destruct (env_get_action _ _ _ _) as [e' a2] eqn:E2.
  assert (A2 : a2 = DOWN -> a1 = DOWN).
  { unfold env_get_action in E2. destruct (env_transition _ _ _); injection E2 as _ <-; destruct a1; cbn; congruence. }
  destruct (Balloon.at_pressure w (pressure s)) as [[h t]|].
  - destruct (alt_get_action _ _ _) as [al' a3] eqn:E3.
    assert (A3 : a3 = DOWN -> a2 = DOWN).
    { unfold alt_get_action in E3. destruct (alt_transition _ _); injection E3 as _ <-; destruct a2; cbn; congruence. }
    injection H as <- <-. cbn. split; [exact K1|]. split; [exact K2|]. split; [intros [= E]; auto|].
    exists p', e', al'. destruct s; reflexivity.
  - injection H as <- <-. cbn. split; [exact K1|]. split; [exact K2|]. split; [discriminate|].
    exists p', e', (altitude_layer s). destruct s; reflexivity.
Qed.

(** ** The battery *)
(** What a command takes on top of the night load, at most. *)
Definition extra (a : command) : R := match a with DOWN => 400 | _ => 0 end.

Lemma acs_extra (s : bstate R) a : fst (acs_step s a) <= extra a.
Proof.
  destruct a; unfold acs_step; cbn [fst extra]; [|numR; lra|numR; lra].
  rewrite most_efficient_power_curve. pose proof (power_curve_range (pressure_ratio s)). lra.
Qed.

Definition sun_gives (w : world R) : Prop := forall el p, 0 <= solar_power_fn w el p.
Lemma world_gives atm center : sun_gives (world_of atm center).
Proof.
  intros el p. cbn. destruct (solar_power el p) as [q|] eqn:E; [|lra].
  destruct (C33_power_range el p) as [_ H]. destruct (H q E). lra.
Qed.

(** Sound batteries. *)
Definition charged (s : bstate R) : Prop :=
  daytime_power_load s = 120.4 /\ nighttime_power_load s = 183.7 /\ battery_capacity s = 3058.56 /\
  battery_charge s <= 3058.56 /\ (bstatus s = OUT_OF_POWER -> battery_charge s <= 0).

Lemma substep_charged w wind a s s' : sun_gives w -> charged s -> bstatus s = OK ->
  simulate_substep w wind a STRIDE s = Some s' ->
  charged s' /\ battery_charge s - (183.7 + extra a) * (10 / 3600) <= battery_charge s' /\
  power_layer s' = power_layer s /\ power_safety_layer_enabled s' = power_safety_layer_enabled s.
Proof.
  intros Hw (H1 & H2 & H3 & H4 & H5) Hok E.
  destruct (substep_energy _ _ _ _ _ _ E ltac:(lra)) as (_ & _ & Hc & _).
  pose proof (acs_extra s a) as Hx.
  unfold simulate_substep in E. destruct (next_pressure w s STRIDE); [|discriminate].
  destruct (Balloon.at_pressure w (pressure s)) as [[h t]|]; [|discriminate].
  destruct (sun w (x s) (y s) (date_time s)) as [el flux] eqn:Es. destruct (d_temperature _ _ _ _ _ _ _ _ _); [|discriminate].
  destruct (calculate_superpressure_and_volume _ _ _ _ _ _) as [nv nsp].
  destruct (acs_step s a) as [ap fl]. cbn [fst] in Hx.
  set (nc := clip _ _ _) in E.
  assert (Enc : nc = battery_charge s') by (injection E as <-; reflexivity).
  assert (Eap : acs_power s' = ap) by (injection E as <-; reflexivity).
  rewrite Eap in Hc. cbn [fst] in Hc. rewrite H1, H2, H3 in Hc.
  change (IZR STRIDE) with 10000000 in Hc.
  replace (10000000 / 1000000 / 3600) with (10 / 3600) in Hc by lra.
  assert (B : battery_charge s - (183.7 + extra a) * (10 / 3600) <= battery_charge s').
  { rewrite Hc. pose proof (Hw el (pressure s)). assert (0 <= extra a) by (destruct a; cbn; lra).
    apply Rmin_glb; [|lra]. eapply Rle_trans; [|apply Rmax_l]. destruct (Rlt_dec _ _); lra. }
  assert (C : battery_charge s' <= 3058.56) by (rewrite Hc; apply Rmin_r).
  assert (D : bstatus s' = OUT_OF_POWER -> battery_charge s' <= 0).
  { assert (S : bstatus s' = next_status s nsp nc) by (injection E as <-; reflexivity).
    rewrite S, <- Enc. unfold next_status. rewrite Hok. numR.
    destruct (Rleb nc 0) eqn:L; [apply Rleb_iff in L; auto|].
    destruct (Rleb nsp 0); [discriminate|]. destruct (Rltb (envelope_max_superpressure s) nsp); discriminate. }
  split; [|split; [exact B|]].
  - unfold charged. split; [|split; [|split; [|split; [exact C|exact D]]]]; injection E as <-; cbn; assumption.
  - injection E as <-. cbn. auto.
Qed.

Lemma ran_charged w wind a k s s' : sun_gives w -> charged s -> bstatus s = OK \/ k = 0%nat ->
  ran w wind a STRIDE k s s' ->
  charged s' /\ battery_charge s - (183.7 + extra a) * (INR k * (10 / 3600)) <= battery_charge s' /\
  power_layer s' = power_layer s /\ power_safety_layer_enabled s' = power_safety_layer_enabled s.
Proof.
  intros Hw Hs Hk Hr. revert Hs Hk.
  induction Hr as [s|s s' E Hb|k s s1 s' E Hb Hr IH]; intros Hs Hk.
  - cbn [INR]. split; [exact Hs|]. split; [lra|]. auto.
  - destruct Hk as [Hk|Hk]; [|discriminate]. destruct (substep_charged _ _ _ _ _ Hw Hs Hk E) as (C & B & L).
    cbn [INR]. split; [exact C|]. split; [lra|exact L].
  - destruct Hk as [Hk|Hk]; [|discriminate]. destruct (substep_charged _ _ _ _ _ Hw Hs Hk E) as (C & B & L1 & L2).
    destruct (IH C (or_introl Hb)) as (C' & B' & L1' & L2').
    split; [exact C'|]. split; [rewrite S_INR; lra|]. split; congruence.
Qed.

(** ** One step at night *)
Lemma night_step w wind c s s' r D m : sun_gives w -> charged s -> power_safety_layer_enabled s = true -> m <= 56.464 ->
  night_until D s -> night_energy (date_time s) D + m <= battery_charge s ->
  simulate_step w wind c AGENT_TIME_STEP STRIDE s = (s', r) ->
  charged s' /\ power_safety_layer_enabled s' = true /\ night_energy (date_time s') D + m <= battery_charge s' /\
  ((date_time s' <= D)%Z -> night_until D s').
Proof.
  intros Hw Hc He Hm Hn Hb E. unfold simulate_step in E.
  set (s0 := s <| last_command := c |>) in E.
  destruct (status_is_ok (bstatus s0)) eqn:Eok; cbn [negb] in E.
  2:{ injection E as <- _. auto. }
  assert (Hok : bstatus s = OK) by (destruct (bstatus s) eqn:Q; cbn in Eok; rewrite ?Q in Eok; try discriminate; reflexivity).
  destruct (safety_layers w c s0) as [s1 o] eqn:El.
  destruct (layers_night w c s0 s1 o D He Hn El) as (P1 & P2 & P3 & p & en & al & Es1).
  change (battery_charge s0) with (battery_charge s) in P3. change (nighttime_power_load s0) with (nighttime_power_load s) in P3.
  change (date_time s0) with (date_time s) in P3. change (battery_capacity s0) with (battery_capacity s) in P3.
  assert (F : charged s1 /\ power_safety_layer_enabled s1 = true /\ date_time s1 = date_time s /\
              battery_charge s1 = battery_charge s /\ bstatus s1 = OK).
  { rewrite Es1. unfold s0. cbn. auto. }
  destruct F as (F1 & F2 & F3 & F4 & F5).
  assert (Fin : forall s2, power_layer s2 = power_layer s1 -> (date_time s2 <= D)%Z -> night_until D s2).
  { intros s2 E2 Hd. unfold night_until. rewrite E2, P1. split.
    - split; [exact Hd|]. split; [exists 0%Z; lia|]. unfold day_us. intros; lia.
    - intros (r1 & r2 & N1 & N2 & Lt).
      assert (r1 = D).
      { eapply next_occurrence_fun; [exact N1|]. split; [exact Hd|]. split; [exists 0%Z; lia|]. unfold day_us; intros; lia. }
      destruct N2 as (_ & (k & Hk & E3) & _). unfold day_us in E3. lia. }
  assert (Stop : s' = s1 -> charged s' /\ power_safety_layer_enabled s' = true /\
     night_energy (date_time s') D + m <= battery_charge s' /\ ((date_time s' <= D)%Z -> night_until D s')).
  { intros ->. rewrite F3, F4. split; [exact F1|]. split; [exact F2|]. split; [exact Hb|]. intro. apply Fin; [reflexivity|rewrite F3; auto]. }
  destruct o as [eff|]; [|injection E as E _; apply Stop; now symmetry].
  change (int_seconds STRIDE) with 10%Z in E. change (int_seconds AGENT_TIME_STEP) with 180%Z in E.
  change (10 =? 0)%Z with false in E. change (negb (180 mod 10 =? 0))%Z with false in E. cbv iota in E.
  destruct (substeps w wind eff STRIDE (Z.to_nat (180 / 10)) s1) as [s2 b] eqn:Er.
  assert (s' = s2) by (destruct b; congruence). subst s2. clear E.
  destruct (substeps_ran _ _ _ _ _ _ _ _ Er) as (k & Hk & Hr & _).
  destruct (ran_charged _ _ _ _ _ _ Hw F1 (or_introl F5) Hr) as (C & B & L1 & L2).
  destruct (ran_clock _ _ _ _ _ _ _ Hr) as [Hd _]. rewrite F3 in Hd. rewrite F4 in B.
  split; [exact C|]. split; [congruence|]. split; [|intro; now apply Fin].
  change (Z.to_nat (180 / 10)) with 18%nat in Hk.
  assert (K : INR k <= 18) by (replace 18 with (INR 18) by (cbn; lra); now apply le_INR).
  assert (K0 : 0 <= INR k) by apply pos_INR.
  assert (N : night_energy (date_time s') D = night_energy (date_time s) D - 183.7 * (INR k * (10 / 3600))).
  { unfold night_energy. rewrite Hd. rewrite !minus_IZR, plus_IZR, mult_IZR, INR_IZR_INZ. change (IZR STRIDE) with 10000000. lra. }
  rewrite N. destruct eff; cbn [extra] in B; [|lra|lra].
  specialize (P3 eq_refl). destruct Hc as (_ & H2 & H3 & _ & _). rewrite H2, H3 in P3.
  fold (night_energy (date_time s) D) in P3.
  assert (P4 : 0.025 * 3058.56 <= battery_charge s - night_energy (date_time s) D).
  { apply Rmult_le_reg_r with (/ 3058.56); [lra|]. unfold Rdiv in P3. lra. }
  lra.
Qed.

(** ** One step at any time *)
Lemma step_charged w wind c s s' r : sun_gives w -> charged s -> power_safety_layer_enabled s = true ->
  simulate_step w wind c AGENT_TIME_STEP STRIDE s = (s', r) ->
  charged s' /\ power_safety_layer_enabled s' = true.
Proof.
  intros Hw Hc He E. destruct (call_ran _ _ _ _ _ _ _ _ E) as (p & en & al & k & eff & Hr & Hbad & _).
  match type of Hr with ran _ _ _ _ _ ?b _ => set (s1 := b) in Hr end.
  assert (Hs1 : charged s1 /\ power_safety_layer_enabled s1 = true /\ bstatus s1 = bstatus s) by (unfold s1; cbn; auto).
  clearbody s1. destruct Hs1 as (C1 & E1 & S1).
  assert (K : bstatus s1 = OK \/ k = 0%nat).
  { rewrite S1. destruct (bstatus s) eqn:Q; auto; right; destruct (Hbad ltac:(discriminate)) as (K & _); lia. }
  destruct (ran_charged _ _ _ _ _ _ Hw C1 K Hr) as (C & _ & _ & L). split; [exact C|congruence].
Qed.
