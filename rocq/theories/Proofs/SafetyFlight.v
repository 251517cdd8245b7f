(** Safety layers along a flight: the executed command is the composition of the
    three rules applied to the readings at the beginning of each step. *)
From Coq Require Import ZArith Reals Lra Lia Bool List.
From RecordUpdate Require Import RecordSet.
From Verif Require Import Model.Num Model.Safety Model.Balloon.
From Verif Require Import Spec.Flight Spec.SafetySpec.
From Verif Require Import Proofs.NumR Proofs.SafetyProofs Proofs.SafetyHistory.
Import ListNotations RecordSetNotations.
Open Scope R_scope.

Section AnyNum.
Context {T : Type} {N : Num T}.

Lemma fly_snoc (s : bstate T) cs c :
  fly s (cs ++ [c]) =
  fly s cs ++ [(fly_end s cs, c, snd (do_call (fly_end s cs) c))].
Proof.
  revert s; induction cs as [|d cs IH]; intro s; cbn; [reflexivity|].
  rewrite IH. reflexivity.
Qed.

Lemma fly_end_snoc (s : bstate T) cs c :
  fly_end s (cs ++ [c]) = fst (do_call (fly_end s cs) c).
Proof.
  revert s; induction cs as [|d cs IH]; intro s; cbn; [reflexivity|apply IH].
Qed.


(** Time never runs backwards (for non-negative strides). *)
Lemma substep_time (w : world T) wind a st s s' :
  simulate_substep w wind a st s = Some s' ->
  date_time s' = (date_time s + st)%Z /\
  time_elapsed s' = (time_elapsed s + st)%Z.
Proof.
  unfold simulate_substep. intro H.
  destruct (next_pressure w s st); [|discriminate].
  destruct (at_pressure w (pressure s)) as [[? ?]|]; [|discriminate].
  destruct (sun _ _ _ _). destruct (d_temperature _ _ _ _ _ _ _ _ _); [|discriminate].
    destruct (calculate_superpressure_and_volume _ _ _ _ _ _).
  destruct (acs_step s a).
  injection H; intro E; subst s'. cbn. auto.
Qed.

Lemma substeps_time_mono (w : world T) wind a st n s s' b :
  (0 <= st)%Z ->
  substeps w wind a st n s = (s', b) -> (date_time s <= date_time s')%Z.
Proof.
  intro Hst. revert s; induction n as [|n IH]; cbn [substeps]; intros s H.
  - injection H; intros; subst; lia.
  - destruct (simulate_substep w wind a st s) as [s1|] eqn:E.
    + apply substep_time in E. destruct E as [E _].
      destruct (status_is_ok (bstatus s1)).
      * apply IH in H. lia.
      * injection H; intros; subst; lia.
    + injection H; intros; subst; lia.
Qed.
End AnyNum.

(** One returned call, in terms of the layers. *)
Lemma call_layers (s : bstate R) c eff :
  snd (do_call s c) = Executed eff ->
  let s' := fst (do_call s c) in
  let l := (s, c, Executed eff) : leg R in
  let a1 := if power_safety_layer_enabled s
            then snd (pow_get_action (power_layer s) (c_action c) (date_time s)
                        (nighttime_power_load s) (battery_charge s)
                        (battery_capacity s))
            else c_action c in
  let a2 := snd (env_get_action (envelope_max_superpressure s)
                   (envelope_layer s) a1 (superpressure s)) in
  eff = snd (alt_get_action (altitude_layer s) a2 (leg_altitude l)) /\
  altitude_layer s' = alt_transition (altitude_layer s) (leg_altitude l) /\
  envelope_layer s' = env_transition (envelope_max_superpressure s)
                        (envelope_layer s) (superpressure s) /\
  power_layer s' = (if power_safety_layer_enabled s
                    then pow_step (power_layer s) (leg_power l)
                    else power_layer s) /\
  power_safety_layer_enabled s' = power_safety_layer_enabled s /\
  envelope_max_superpressure s' = envelope_max_superpressure s /\
  ((0 <= c_stride c)%Z -> (date_time s <= date_time s')%Z).
Proof.
  intro H. cbn zeta.
  destruct (do_call s c) as [s' o] eqn:E. cbn in H; subst o. cbn [fst].
  unfold do_call in E.
  destruct (simulate_step_executed _ _ _ _ _ _ _ _ E)
    as (_ & s1 & HL & _ & _ & HS).
  pose proof (substeps_layers _ _ _ _ _ _ _ _ HS) as (F1 & F2 & F3 & F4 & F5 & F6).
  assert (Htime : (0 <= c_stride c)%Z -> (date_time s1 <= date_time s')%Z).
  { intro; eapply substeps_time_mono; eassumption. }
  unfold safety_layers in HL.
  cbn [set power_safety_layer_enabled power_layer date_time nighttime_power_load
       battery_charge battery_capacity envelope_max_superpressure envelope_layer
       superpressure pressure altitude_layer] in HL.
  unfold leg_altitude, leg_power; cbn [fst snd].
  match type of HL with context [if power_safety_layer_enabled s then ?u else ?v] =>
    destruct (if power_safety_layer_enabled s then u else v) as [p' a1] eqn:E1
  end.
  set (A1 := if power_safety_layer_enabled s then _ else c_action c).
  assert (EA1 : A1 = a1).
  { unfold A1. destruct (power_safety_layer_enabled s).
    - change (power_layer (s <| last_command := c_action c |>))
        with (power_layer s) in E1.
      rewrite E1. reflexivity.
    - injection E1; intros; subst; reflexivity. }
  rewrite EA1.
  destruct (env_get_action _ _ a1 _) as [e' a2] eqn:E2.
  destruct (at_pressure (c_world c) (pressure s)) as [[h t]|] eqn:EP;
    [|discriminate].
  destruct (alt_get_action _ a2 h) as [al' a3] eqn:E3.
  injection HL; intros EE ES; subst eff s1. clear HL.
  cbn in F1, F2, F3, F4, F5, F6, Htime.
  cbn [fst snd] in *.
  change (envelope_layer (s <| last_command := c_action c |>))
    with (envelope_layer s) in E2.
  change (altitude_layer (s <| last_command := c_action c |>))
    with (altitude_layer s) in E3.
  rewrite E3. cbn [snd].
  split; [reflexivity|].
  split.
  { rewrite F3. unfold alt_get_action in E3.
    destruct (alt_transition (altitude_layer s) h); congruence. }
  split.
  { rewrite F2. unfold env_get_action in E2.
    destruct (env_transition _ (envelope_layer s) (superpressure s));
      congruence. }
  split.
  { rewrite F1. unfold pow_step.
    cbn [pr_now pr_night_load pr_charge pr_capacity].
    destruct (power_safety_layer_enabled s).
    - rewrite (pow_state_indep _ DOWN (c_action c)).
      change (power_layer (s <| last_command := c_action c |>))
        with (power_layer s) in E1.
      rewrite E1. reflexivity.
    - congruence. }
  repeat split; assumption.
Qed.

(** Invariant along a flight of returned calls. *)
Lemma flight_layers s0 cs sr ss :
  altitude_layer s0 = ANominal -> envelope_layer s0 = ENominal ->
  power_layer s0 = mkPow false sr ss ->
  Forall returned (fly s0 cs) ->
  Forall (fun c => (0 <= c_stride c)%Z) cs ->
  let s := fly_end s0 cs in
  let h := fly s0 cs in
  altitude_layer s = alt_run (map leg_altitude h) /\
  envelope_layer s = env_run (envelope_max_superpressure s0)
                       (map leg_superpressure h) /\
  (power_safety_layer_enabled s0 = true ->
   power_layer s = pow_run (mkPow false sr ss) (map leg_power h)) /\
  power_safety_layer_enabled s = power_safety_layer_enabled s0 /\
  envelope_max_superpressure s = envelope_max_superpressure s0 /\
  monotone_from (date_time s0) (map leg_power h) /\
  (last_time (date_time s0) (map leg_power h) <= date_time s)%Z.
Proof.
  intros Ha He Hp. cbn zeta.
  induction cs as [|c cs IH] using rev_ind; intros Hret Hst.
  - cbn. repeat split; auto. unfold last_time; cbn; lia.
  - rewrite fly_snoc in Hret |- *. apply Forall_app in Hret.
    destruct Hret as [Hret Hc]. apply Forall_app in Hst. destruct Hst as [Hst Hcs].
    specialize (IH Hret Hst).
    destruct IH as (I1 & I2 & I3 & I4 & I5 & I6 & I7).
    rewrite fly_end_snoc, !map_app. cbn [map].
    set (s := fly_end s0 cs) in *. set (h := fly s0 cs) in *.
    inversion Hc as [|? ? [eff Heff] _]; subst. cbn [snd] in Heff.
    pose proof (call_layers s c eff Heff) as C. cbn zeta in C.
    destruct C as (C0 & C1 & C2 & C3 & C4 & C5 & C6).
    rewrite Heff in *.
    rewrite alt_run_snoc, env_run_snoc, pow_run_snoc.
    split; [rewrite C1, I1; reflexivity|].
    split; [rewrite C2, I2, I5; reflexivity|].
    split.
    { intro En. rewrite C3, I4, En, (I3 En). reflexivity. }
    split; [congruence|]. split; [congruence|].
    split.
    { apply monotone_snoc. split; [assumption|]. exact I7. }
    rewrite last_time_snoc. cbn. apply C6.
    inversion Hcs; assumption.
Qed.

Lemma flight_rules s0 cs c eff sunrise sunset :
  altitude_layer s0 = ANominal -> envelope_layer s0 = ENominal ->
  power_layer s0 = pow_init (sunrise, sunset) ->
  600 <= envelope_max_superpressure s0 ->
  Forall (fun c => (0 <= c_stride c)%Z) cs ->
  Forall returned (fly s0 cs) ->
  snd (do_call (fly_end s0 cs) c) = Executed eff ->
  let earlier := fly s0 cs in
  let now := (fly_end s0 cs, c, Executed eff) : leg R in
  exists a1 a2,
    (if power_safety_layer_enabled s0
     then power_rule (sunrise + 1800 * 1000000) sunset (map leg_power earlier)
            (leg_power now) (c_action c) a1
     else a1 = c_action c) /\
    envelope_rule (envelope_max_superpressure s0)
      (map leg_superpressure earlier) (leg_superpressure now) a1 a2 /\
    altitude_rule (map leg_altitude earlier) (leg_altitude now) a2 eff.
Proof.
  intros Ha He Hp Hm Hst Hret Heff. cbn zeta.
  unfold pow_init, us_per_second in Hp. cbn [fst snd] in Hp.
  change (30 * 60 * 1000000)%Z with (1800 * 1000000)%Z in Hp.
  pose proof (flight_layers s0 cs _ _ Ha He Hp Hret Hst) as H. cbn zeta in H.
  destruct H as (I1 & I2 & I3 & I4 & I5 & I6 & I7).
  set (s := fly_end s0 cs) in *. set (h := fly s0 cs) in *.
  pose proof (call_layers s c eff Heff) as C. cbn zeta in C.
  destruct C as (C0 & _).
  set (a1 := if power_safety_layer_enabled s then _ else c_action c) in *.
  set (a2 := snd (env_get_action _ _ a1 _)) in *.
  exists a1, a2. split; [|split].
  - unfold a1. rewrite <- I4. destruct (power_safety_layer_enabled s) eqn:En.
    + rewrite (I3 (eq_sym I4)).
      apply (pow_get_action_rule _ _ (date_time s0) (map leg_power h)
               (leg_power (s, c, Executed eff)) (c_action c)).
      apply monotone_snoc. split; [assumption|]. exact I7.
    + reflexivity.
  - unfold a2. rewrite I2, I5. apply env_get_action_rule. exact Hm.
  - rewrite C0, I1. apply alt_get_action_rule.
Qed.

(** The power layer object is never consulted when the layer is disabled. *)
Lemma flight_power_disabled s0 cs sr ss :
  power_layer s0 = mkPow false sr ss ->
  power_safety_layer_enabled s0 = false ->
  Forall returned (fly s0 cs) ->
  power_layer (fly_end s0 cs) = mkPow false sr ss /\
  power_safety_layer_enabled (fly_end s0 cs) = false.
Proof.
  intros Hp Hd. induction cs as [|c cs IH] using rev_ind; intros Hret.
  - cbn. auto.
  - rewrite fly_snoc in Hret. apply Forall_app in Hret.
    destruct Hret as [Hret Hc]. rewrite fly_end_snoc.
    destruct (IH Hret) as [I1 I2].
    inversion Hc as [|? ? [eff Heff] _]; subst. cbn [snd] in Heff.
    pose proof (call_layers _ c eff Heff) as C. cbn zeta in C.
    destruct C as (_ & _ & _ & C3 & C4 & _).
    rewrite I2 in C3, C4. split; congruence.
Qed.

(** The flag the agent sees after any flight. *)
Lemma flight_paused_flag s0 cs sunrise sunset :
  altitude_layer s0 = ANominal -> envelope_layer s0 = ENominal ->
  power_layer s0 = pow_init (sunrise, sunset) ->
  600 <= envelope_max_superpressure s0 ->
  Forall (fun c => (0 <= c_stride c)%Z) cs ->
  Forall returned (fly s0 cs) ->
  let h := fly s0 cs in
  let m := envelope_max_superpressure s0 in
  navigation_is_paused (fly_end s0 cs) = true <->
  (power_safety_layer_enabled s0 = true /\
   power_paused (sunrise + 1800 * 1000000) sunset (map leg_power h)) \/
  still_low 250 300 (map leg_superpressure h) \/
  still_high (m - 250) (m - 300) (map leg_superpressure h) \/
  still_low 50500 51000 (map feet (map leg_altitude h)).
Proof.
  intros Ha He Hp Hm Hst Hret. cbn zeta.
  unfold pow_init, us_per_second in Hp. cbn [fst snd] in Hp.
  change (30 * 60 * 1000000)%Z with (1800 * 1000000)%Z in Hp.
  pose proof (flight_layers s0 cs _ _ Ha He Hp Hret Hst) as H. cbn zeta in H.
  destruct H as (I1 & I2 & I3 & I4 & I5 & I6 & I7).
  unfold navigation_is_paused. rewrite I1, I2.
  set (h := fly s0 cs) in *.
  rewrite <- alt_run_spec.
  destruct (env_run_spec (envelope_max_superpressure s0) (map leg_superpressure h) Hm)
    as [HL HH]. rewrite <- HL, <- HH. clear HL HH.
  assert (Hpw : pow_paused (power_layer (fly_end s0 cs)) = true <->
    power_safety_layer_enabled s0 = true /\
    power_paused (sunrise + 1800 * 1000000) sunset (map leg_power h)).
  { destruct (power_safety_layer_enabled s0) eqn:En.
    - rewrite (I3 eq_refl).
      destruct (pow_run_spec (sunrise + 1800 * 1000000) sunset _ _ I6) as (Hq & _).
      rewrite Hq. tauto.
    - destruct (flight_power_disabled s0 cs _ _ Hp En Hret) as [E _]. rewrite E.
      cbn. split; [discriminate|]. intros [Q _]; discriminate. }
  rewrite <- Hpw. rewrite !orb_true_iff.
  assert (Henv : env_paused (env_run (envelope_max_superpressure s0) (map leg_superpressure h)) = true
    <-> env_run (envelope_max_superpressure s0) (map leg_superpressure h) <> ENominal)
    by (destruct (env_run _ _); cbn; split; congruence).
  assert (Halt : alt_paused (alt_run (map leg_altitude h)) = true <->
     alt_run (map leg_altitude h) <> ANominal)
    by (destruct (alt_run _); cbn; split; congruence).
  rewrite Henv, Halt.
  destruct (env_run _ _); intuition congruence.
Qed.

(** While not paused (after the call), the requested command was executed. *)
Lemma flight_unpaused_passes s0 cs c eff sunrise sunset :
  power_layer s0 = pow_init (sunrise, sunset) ->
  Forall returned (fly s0 cs) ->
  snd (do_call (fly_end s0 cs) c) = Executed eff ->
  navigation_is_paused (fst (do_call (fly_end s0 cs) c)) = false ->
  eff = c_action c.
Proof.
  intros Hp Hret Heff Hn.
  set (s := fly_end s0 cs) in *.
  destruct (do_call s c) as [s' o] eqn:E. cbn in Heff, Hn. subst o.
  unfold do_call in E.
  destruct (simulate_step_executed _ _ _ _ _ _ _ _ E)
    as (_ & s1 & HL & _ & _ & HS).
  pose proof (substeps_layers _ _ _ _ _ _ _ _ HS) as (F1 & F2 & F3 & F4 & _).
  eapply layers_unpaused_id; [exact HL| |].
  - cbn. intro En.
    destruct (power_safety_layer_enabled s0) eqn:E0.
    + exfalso. revert En.
      enough (Q : power_safety_layer_enabled s = true) by congruence.
      clear -E0 Hret. unfold s. revert Hret.
      induction cs as [|d ds IH] using rev_ind; intro Hret; [exact E0|].
      rewrite fly_snoc in Hret. apply Forall_app in Hret. destruct Hret as [Hret Hc].
      rewrite fly_end_snoc. inversion Hc as [|? ? [e He] _]; subst. cbn in He.
      pose proof (call_layers _ d e He) as C. cbn zeta in C.
      destruct C as (_ & _ & _ & _ & C4 & _). rewrite C4. apply IH, Hret.
    + destruct (flight_power_disabled s0 cs _ _ Hp E0 Hret) as [Q _].
      unfold s. rewrite Q. reflexivity.
  - unfold navigation_is_paused in *. rewrite <- F1, <- F2, <- F3. exact Hn.
Qed.

(** While paused (after the call), a request to descend would not have been executed;
    while not paused, it would. *)
Lemma layers_last_command (w : world R) a b (s : bstate R) :
  snd (safety_layers w a (s <| last_command := b |>)) = snd (safety_layers w a s).
Proof.
  unfold safety_layers.
  cbn [last_command power_safety_layer_enabled power_layer date_time nighttime_power_load
       battery_charge battery_capacity envelope_max_superpressure envelope_layer superpressure
       pressure altitude_layer set].
  destruct (power_safety_layer_enabled s).
  - destruct (pow_get_action _ _ _ _ _ _) as [p' a1]. destruct (env_get_action _ _ a1 _).
    destruct (at_pressure w _) as [[? ?]|]; [|reflexivity]. destruct (alt_get_action _ _ _). reflexivity.
  - destruct (env_get_action _ _ a _).
    destruct (at_pressure w _) as [[? ?]|]; [|reflexivity]. destruct (alt_get_action _ _ _). reflexivity.
Qed.
Lemma flight_paused_iff s0 cs c eff sunrise sunset :
  power_layer s0 = pow_init (sunrise, sunset) ->
  Forall returned (fly s0 cs) ->
  snd (do_call (fly_end s0 cs) c) = Executed eff ->
  let descend := snd (simulate_step (c_world c) (c_wind c) DOWN (c_delta c) (c_stride c) (fly_end s0 cs)) in
  (navigation_is_paused (fst (do_call (fly_end s0 cs) c)) = true -> descend <> Executed DOWN) /\
  (navigation_is_paused (fst (do_call (fly_end s0 cs) c)) = false ->
     forall other, descend = Executed other -> other = DOWN).
Proof.
  intros Hp Hret Heff descend.
  set (s := fly_end s0 cs) in *.
  destruct (do_call s c) as [s' o] eqn:E. cbn in Heff. cbn [fst]. subst o.
  unfold do_call in E.
  destruct (simulate_step_executed _ _ _ _ _ _ _ _ E)
    as (_ & s1 & HL & _ & _ & HS).
  pose proof (substeps_layers _ _ _ _ _ _ _ _ HS) as (F1 & F2 & F3 & F4 & _).
  assert (P : navigation_is_paused s' = true <-> snd (safety_layers (c_world c) DOWN s) <> Some DOWN).
  { rewrite <- (layers_last_command _ _ (c_action c)).
    rewrite <- (layers_paused_iff _ _ _ _ _ HL).
    - unfold navigation_is_paused. rewrite F1, F2, F3. reflexivity.
    - cbn. intro En.
      destruct (power_safety_layer_enabled s0) eqn:E0.
      + exfalso. revert En.
        enough (Q : power_safety_layer_enabled s = true) by congruence.
        clear -E0 Hret. unfold s. revert Hret.
        induction cs as [|d ds IH] using rev_ind; intro Hret; [exact E0|].
        rewrite fly_snoc in Hret. apply Forall_app in Hret. destruct Hret as [Hret Hc].
        rewrite fly_end_snoc. inversion Hc as [|? ? [e He] _]; subst. cbn in He.
        pose proof (call_layers _ d e He) as C. cbn zeta in C.
        destruct C as (_ & _ & _ & _ & C4 & _). rewrite C4. apply IH, Hret.
      + destruct (flight_power_disabled s0 cs _ _ Hp E0 Hret) as [Q _].
        unfold s. rewrite Q. reflexivity. }
  assert (D : forall other, descend = Executed other -> snd (safety_layers (c_world c) DOWN s) = Some other).
  { intros other Eo. unfold descend in Eo.
    destruct (simulate_step _ _ DOWN _ _ s) as [s2 o2] eqn:E2. cbn in Eo. subst o2.
    destruct (simulate_step_executed _ _ _ _ _ _ _ _ E2) as (_ & s3 & HL2 & _).
    rewrite <- (layers_last_command _ _ DOWN), HL2. reflexivity. }
  split.
  - intros Hn Hd. apply P in Hn. apply Hn, D, Hd.
  - intros Hn other Eo. apply D in Eo. rewrite Eo in P.
    destruct other; try reflexivity; exfalso; enough (navigation_is_paused s' = true) by congruence;
      apply P; discriminate.
Qed.

(** The remembered forecast after any flight with at least one call. *)
Lemma flight_forecast s0 cs c eff sunrise sunset :
  altitude_layer s0 = ANominal -> envelope_layer s0 = ENominal ->
  power_layer s0 = pow_init (sunrise, sunset) ->
  power_safety_layer_enabled s0 = true ->
  Forall (fun c => (0 <= c_stride c)%Z) (cs ++ [c]) ->
  Forall returned (fly s0 cs) ->
  snd (do_call (fly_end s0 cs) c) = Executed eff ->
  let now := date_time (fly_end s0 cs) in
  let p := power_layer (fst (do_call (fly_end s0 cs) c)) in
  next_occurrence (sunrise + 1800 * 1000000) now (pow_sunrise_h p) /\
  next_occurrence sunset now (pow_sunset p).
Proof.
  intros Ha He Hp Hen Hst Hret Heff. cbn zeta.
  unfold pow_init, us_per_second in Hp. cbn [fst snd] in Hp.
  change (30 * 60 * 1000000)%Z with (1800 * 1000000)%Z in Hp.
  assert (Hret' : Forall returned (fly s0 (cs ++ [c]))).
  { rewrite fly_snoc. apply Forall_app. split; [exact Hret|].
    constructor; [exists eff; exact Heff|constructor]. }
  pose proof (flight_layers s0 (cs ++ [c]) _ _ Ha He Hp Hret' Hst) as H. cbn zeta in H.
  destruct H as (_ & _ & I3 & _ & _ & I6 & _).
  rewrite fly_end_snoc in I3. rewrite (I3 Hen).
  destruct (pow_run_spec (sunrise + 1800 * 1000000) sunset _ _ I6) as (_ & Hq & _).
  rewrite fly_snoc, map_app in *. cbn [map] in *.
  destruct Hq as [Q1 Q2]; [destruct (map leg_power (fly s0 cs)); discriminate|].
  rewrite Q1, Q2, last_time_snoc. cbn.
  split; apply roll_days_next.
Qed.
