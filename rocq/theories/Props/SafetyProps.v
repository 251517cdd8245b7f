(** Properties C01-C06: the safety layers. *)
From Coq Require Import ZArith Reals Lra Lia Bool List.
From Verif Require Import Model.Num Model.Safety Model.Balloon.
From Verif Require Import Spec.Flight Spec.SafetySpec.
From Verif Require Import Proofs.NumR Proofs.SafetyProofs Proofs.SafetyHistory
  Proofs.SafetyFlight Proofs.ExampleFlight.
Import ListNotations.

(** ** C01  For every number type (floats included), world, wind, request,
    durations and state: a call that returns has executed a command at least as
    high as the requested one. *)
Theorem C01_executed_at_least_requested :
  forall (T : Type) (N : Num T) (w : world T) wind a delta stride s s' eff,
  simulate_step w wind a delta stride s = (s', Executed eff) ->
  (rank a <= rank eff)%nat.
Proof. exact @effective_rank. Qed.
Print Assumptions C01_executed_at_least_requested.

Theorem C01_cases :
  forall (T : Type) (N : Num T) (w : world T) wind a delta stride s s' eff,
  simulate_step w wind a delta stride s = (s', Executed eff) ->
  (a = UP -> eff = UP) /\ (a = STAY -> eff = STAY \/ eff = UP) /\
  (eff = DOWN -> a = DOWN).
Proof.
  intros T N w wind a delta stride s s' eff H.
  pose proof (C01_executed_at_least_requested _ _ _ _ _ _ _ _ _ _ H) as R.
  destruct a, eff; cbn in R; repeat split; intros; try congruence; auto; lia.
Qed.
Print Assumptions C01_cases.

(** A call that returns exists, and the command really is changed there: the
    default balloon has no superpressure yet, so DOWN becomes UP. *)
Example C01_witness :
  exists s', simulate_step (demo_world 21300) (3, -2)%R DOWN 1000000 1000000
               demo_state = (s', Executed UP).
Proof.
  destruct (demo_returns 21300 DOWN demo_state eq_refl) as [eff He].
  pose proof (call_layers _ _ _ He) as (C0 & _).
  destruct (do_call demo_state (demo_call 21300 DOWN)) as [s' o] eqn:E.
  cbn in He. subst o. exists s'. transitivity (s', Executed eff); [exact E|].
  do 2 f_equal. rewrite C0.
  unfold leg_altitude; cbn [demo_call c_action c_world demo_world at_pressure fst snd].
  set (a1 := if power_safety_layer_enabled demo_state then _ else _).
  replace (snd (env_get_action (envelope_max_superpressure demo_state)
     (envelope_layer demo_state) a1 (superpressure demo_state))) with UP.
  - match goal with |- snd (alt_get_action ?st UP ?h) = UP =>
      pose proof (alt_rank st UP h) as Q; destruct (snd (alt_get_action st UP h)) end;
      cbn in Q; (reflexivity || lia).
  - symmetry. unfold env_get_action.
    replace (env_transition _ _ _) with ELowCritical; [reflexivity|].
    rewrite env_transition_R. cbn [superpressure demo_state default_state].
    numR. destruct (Rlt_dec 0 150) as [L|L]; [reflexivity|]. exfalso; lra.
Qed.

(** ** C02-C04  The whole rule: after any flight of returned calls that began
    with freshly built layers, the next returned call executes the requested
    command passed through the power rule, the envelope rule and the altitude
    rule, each stated on the history of readings (Spec/SafetySpec.v). *)
Theorem C02_C03_C04_executed_command :
  forall (s0 : bstate R) cs c eff sunrise sunset,
  altitude_layer s0 = ANominal -> envelope_layer s0 = ENominal ->
  power_layer s0 = pow_init (sunrise, sunset) ->
  (600 <= envelope_max_superpressure s0)%R ->
  Forall (fun c => (0 <= c_stride c)%Z) cs ->
  Forall returned (fly s0 cs) ->
  snd (do_call (fly_end s0 cs) c) = Executed eff ->
  let earlier := fly s0 cs in
  let now := (fly_end s0 cs, c, Executed eff) : leg R in
  exists a1 a2,
    (if power_safety_layer_enabled s0
     then power_rule (sunrise + 1800 * 1000000) sunset (map leg_power earlier)
            (leg_power now) (c_action c) a1
     else a1 = c_action c) /\
    envelope_rule (envelope_max_superpressure s0)
      (map leg_superpressure earlier) (leg_superpressure now) a1 a2 /\
    altitude_rule (map leg_altitude earlier) (leg_altitude now) a2 eff.
Proof. exact flight_rules. Qed.
Print Assumptions C02_C03_C04_executed_command.

(** The hypotheses are met by a two-call flight of the default balloon. *)
Example C02_C03_C04_witness : exists eff,
  altitude_layer demo_state = ANominal /\ envelope_layer demo_state = ENominal /\
  power_layer demo_state = pow_init (6 * hour, 18 * hour)%Z /\
  (600 <= envelope_max_superpressure demo_state)%R /\
  Forall (fun c => (0 <= c_stride c)%Z) [demo_call 21300 DOWN] /\
  Forall returned (fly demo_state [demo_call 21300 DOWN]) /\
  snd (do_call (fly_end demo_state [demo_call 21300 DOWN]) (demo_call 21400 DOWN))
    = Executed eff.
Proof.
  destruct (demo_returns 21400 DOWN _ (demo_first_call_ok 21300 DOWN)) as [eff He].
  exists eff. repeat split; try exact He.
  - cbn. numR. lra.
  - repeat constructor. cbn. lia.
  - constructor; [|constructor]. apply demo_returns. reflexivity.
Qed.

(** C02 alone. *)
Theorem C02_altitude_floor :
  forall (s0 : bstate R) cs c eff sunrise sunset,
  altitude_layer s0 = ANominal -> envelope_layer s0 = ENominal ->
  power_layer s0 = pow_init (sunrise, sunset) ->
  (600 <= envelope_max_superpressure s0)%R ->
  Forall (fun c => (0 <= c_stride c)%Z) cs ->
  Forall returned (fly s0 cs) ->
  snd (do_call (fly_end s0 cs) c) = Executed eff ->
  let now := (fly_end s0 cs, c, Executed eff) : leg R in
  let history := map feet (map leg_altitude (fly s0 cs) ++ [leg_altitude now]) in
  ((feet (leg_altitude now) < 50000)%R -> eff = UP) /\
  (still_low 50500 51000 history -> eff <> DOWN).
Proof.
  intros s0 cs c eff sr ss H1 H2 H3 H4 H5 H6 H7.
  destruct (flight_rules s0 cs c eff sr ss H1 H2 H3 H4 H5 H6 H7)
    as (a1 & a2 & _ & _ & A & B & _).
  cbv zeta. split; [exact A|]. intros Hl.
  destruct (Rlt_dec (feet (leg_altitude (fly_end s0 cs, c, Executed eff))) 50000).
  - rewrite (A r). discriminate.
  - rewrite (B ltac:(lra) Hl). destruct a2; discriminate.
Qed.
Print Assumptions C02_altitude_floor.

(** C03 alone. *)
Theorem C03_envelope_guard :
  forall (s0 : bstate R) cs c eff sunrise sunset,
  altitude_layer s0 = ANominal -> envelope_layer s0 = ENominal ->
  power_layer s0 = pow_init (sunrise, sunset) ->
  (600 <= envelope_max_superpressure s0)%R ->
  Forall (fun c => (0 <= c_stride c)%Z) cs ->
  Forall returned (fly s0 cs) ->
  snd (do_call (fly_end s0 cs) c) = Executed eff ->
  let now := (fly_end s0 cs, c, Executed eff) : leg R in
  let max := envelope_max_superpressure s0 in
  let sp := leg_superpressure now in
  let history := map leg_superpressure (fly s0 cs) ++ [sp] in
  ((sp < 150 \/ max - 150 <= sp)%R -> eff = UP) /\
  (still_low 250 300 history -> eff <> DOWN) /\
  (still_high (max - 250) (max - 300) history -> eff <> DOWN).
Proof.
  intros s0 cs c eff sr ss H1 H2 H3 H4 H5 H6 H7.
  destruct (flight_rules s0 cs c eff sr ss H1 H2 H3 H4 H5 H6 H7)
    as (a1 & a2 & _ & (EA & EB & _) & (A1 & A2 & A3)).
  cbv zeta.
  assert (Hup : a2 = UP -> eff = UP).
  { intro; subst a2.
    destruct (Rlt_dec (feet (leg_altitude (fly_end s0 cs, c, Executed eff))) 50000) as [L|L];
      [exact (A1 L)|].
    destruct (Classical_Prop.classic (still_low 50500 51000
      (map feet (map leg_altitude (fly s0 cs) ++ [leg_altitude (fly_end s0 cs, c, Executed eff)]))))
      as [Q|Q].
    - rewrite (A2 ltac:(lra) Q). reflexivity.
    - apply (A3 ltac:(lra) Q). }
  assert (Hnd : a2 <> DOWN -> eff <> DOWN).
  { intro Ha.
    destruct (Rlt_dec (feet (leg_altitude (fly_end s0 cs, c, Executed eff))) 50000) as [L|L];
      [rewrite (A1 L); discriminate|].
    destruct (Classical_Prop.classic (still_low 50500 51000
      (map feet (map leg_altitude (fly s0 cs) ++ [leg_altitude (fly_end s0 cs, c, Executed eff)]))))
      as [Q|Q].
    - rewrite (A2 ltac:(lra) Q). destruct a2; discriminate.
    - rewrite (A3 ltac:(lra) Q). assumption. }
  assert (Hnear : (still_low 250 300 (map leg_superpressure (fly s0 cs) ++
       [leg_superpressure (fly_end s0 cs, c, Executed eff)]) \/
     still_high (envelope_max_superpressure s0 - 250) (envelope_max_superpressure s0 - 300)
       (map leg_superpressure (fly s0 cs) ++
       [leg_superpressure (fly_end s0 cs, c, Executed eff)])) -> eff <> DOWN).
  { intro Hn. apply Hnd.
    set (sp := leg_superpressure (fly_end s0 cs, c, Executed eff)) in *.
    destruct (Rlt_dec sp 150) as [L|L]; [rewrite EA by (left; exact L); discriminate|].
    destruct (Rle_dec (envelope_max_superpressure s0 - 150) sp) as [L'|L'];
      [rewrite EA by (right; exact L'); discriminate|].
    rewrite EB; [destruct a1; discriminate|lra|exact Hn]. }
  split; [intro H; apply Hup, EA, H|]. split; intro H; apply Hnear; auto.
Qed.
Print Assumptions C03_envelope_guard.

(** C04: the power layer by itself, any numbers: it only turns DOWN into STAY. *)
Theorem C04_power_layer_only_down_to_stay :
  forall (T : Type) (N : Num T) s a now (load charge capacity : T),
  let out := snd (pow_get_action s a now load charge capacity) in
  out = a \/ (a = DOWN /\ out = STAY).
Proof. exact @pow_only_down_to_stay. Qed.
Print Assumptions C04_power_layer_only_down_to_stay.

(** C04: the power layer on any history of readings with a clock that does not
    run backwards. *)
Theorem C04_power_layer_rule :
  forall sunrise sunset t0 ps p a,
  monotone_from t0 (ps ++ [p]) ->
  let layer := fold_left (fun s q =>
      fst (pow_get_action s DOWN (pr_now q) (pr_night_load q) (pr_charge q)
             (pr_capacity q))) ps (pow_init (sunrise, sunset)) in
  power_rule (sunrise + 1800 * 1000000) sunset ps p a
    (snd (pow_get_action layer a (pr_now p) (pr_night_load p) (pr_charge p)
            (pr_capacity p))).
Proof.
  intros sr ss t0 ps p a H.
  exact (pow_get_action_rule (sr + 1800 * 1000000) ss t0 ps p a H).
Qed.
Print Assumptions C04_power_layer_rule.

(** Night, 1 h before sunrise + 30 min, 183.7 W load, 200 Wh of 3058.56 Wh left:
    the projection is below 2.5 %, so the layer pauses; at that reading DOWN
    becomes STAY. *)
Example C04_witness :
  pause_trigger (6 * hour) (18 * hour)
    (mkPR (5 * hour) 183.7 200 3058.56)%R.
Proof.
  split.
  - cbn [pr_now]. rewrite is_day_roll. vm_compute. discriminate.
  - exists (6 * hour)%Z. split; cycle 1.
    { cbn [pr_now pr_charge pr_night_load pr_capacity].
      replace (6 * hour - 5 * hour)%Z with 3600000000%Z by reflexivity. lra. }
    cbn [pr_now]. unfold next_occurrence, day_us, hour. split; [lia|]. split.
    + exists 0%Z. lia.
    + intros; lia.
Qed.
Example C04_witness_rule :
  power_paused (6 * hour) (18 * hour) [mkPR (5 * hour) 183.7 200 3058.56]%R.
Proof.
  exists [], (mkPR (5 * hour) 183.7 200 3058.56)%R, []. split; [reflexivity|].
  split; [exact C04_witness|constructor].
Qed.

(** ** C05 *)
Theorem C05_forecast_is_current :
  forall (s0 : bstate R) cs c eff sunrise sunset,
  altitude_layer s0 = ANominal -> envelope_layer s0 = ENominal ->
  power_layer s0 = pow_init (sunrise, sunset) ->
  power_safety_layer_enabled s0 = true ->
  Forall (fun c => (0 <= c_stride c)%Z) (cs ++ [c]) ->
  Forall returned (fly s0 cs) ->
  snd (do_call (fly_end s0 cs) c) = Executed eff ->
  let now := date_time (fly_end s0 cs) in
  let p := power_layer (fst (do_call (fly_end s0 cs) c)) in
  next_occurrence (sunrise + 1800 * 1000000) now (pow_sunrise_h p) /\
  next_occurrence sunset now (pow_sunset p).
Proof. exact flight_forecast. Qed.
Print Assumptions C05_forecast_is_current.

(** The catch-up loop terminates for every jump of the clock, with the first
    not-past occurrence. *)
Theorem C05_catch_up_terminates : forall now v,
  exists fuel r, roll_days_fuel fuel now v = Some r /\ next_occurrence v now r /\
                 roll_days now v = r.
Proof.
  intros now v. destruct (roll_days_never_out_of_fuel now v) as [r E].
  exists (S (Z.to_nat ((now - v) / us_per_day + 1))), r. split; [exact E|].
  split; [eapply roll_days_fuel_spec; exact E|].
  unfold roll_days. rewrite E. reflexivity.
Qed.
Print Assumptions C05_catch_up_terminates.

Example C05_witness : roll_days (100 * hour) (6 * hour) = (102 * hour)%Z.
Proof. vm_compute. reflexivity. Qed.

(** ** C06 *)
Theorem C06_paused_flag_meaning :
  forall (s0 : bstate R) cs sunrise sunset,
  altitude_layer s0 = ANominal -> envelope_layer s0 = ENominal ->
  power_layer s0 = pow_init (sunrise, sunset) ->
  (600 <= envelope_max_superpressure s0)%R ->
  Forall (fun c => (0 <= c_stride c)%Z) cs ->
  Forall returned (fly s0 cs) ->
  let h := fly s0 cs in
  let m := envelope_max_superpressure s0 in
  navigation_is_paused (fly_end s0 cs) = true <->
  (power_safety_layer_enabled s0 = true /\
   power_paused (sunrise + 1800 * 1000000) sunset (map leg_power h)) \/
  still_low 250 300 (map leg_superpressure h) \/
  still_high (m - 250) (m - 300) (map leg_superpressure h) \/
  still_low 50500 51000 (map feet (map leg_altitude h)).
Proof. exact flight_paused_flag. Qed.
Print Assumptions C06_paused_flag_meaning.

Theorem C06_not_paused_passes_command :
  forall (s0 : bstate R) cs c eff sunrise sunset,
  power_layer s0 = pow_init (sunrise, sunset) ->
  Forall returned (fly s0 cs) ->
  snd (do_call (fly_end s0 cs) c) = Executed eff ->
  navigation_is_paused (fst (do_call (fly_end s0 cs) c)) = false ->
  eff = c_action c.
Proof. exact flight_unpaused_passes. Qed.
Print Assumptions C06_not_paused_passes_command.

(** The flag is set exactly if, at the time of the last call, a request to descend was
    refused (or would have been). *)
Theorem C06_paused_iff_descent_refused :
  forall (s0 : bstate R) cs c eff sunrise sunset,
  power_layer s0 = pow_init (sunrise, sunset) ->
  Forall returned (fly s0 cs) ->
  snd (do_call (fly_end s0 cs) c) = Executed eff ->
  let descend := snd (do_call (fly_end s0 cs) (mkCall (c_world c) (c_wind c) DOWN (c_delta c) (c_stride c))) in
  (navigation_is_paused (fst (do_call (fly_end s0 cs) c)) = true -> descend <> Executed DOWN) /\
  (navigation_is_paused (fst (do_call (fly_end s0 cs) c)) = false ->
     forall other, descend = Executed other -> other = DOWN).
Proof. exact flight_paused_iff. Qed.
Print Assumptions C06_paused_iff_descent_refused.

(** Both values of the flag occur. *)
Example C06_witness_false : navigation_is_paused (fly_end demo_state []) = false.
Proof. reflexivity. Qed.
Example C06_witness_true :
  navigation_is_paused (fly_end demo_state [demo_call 21300 STAY]) = true.
Proof.
  apply (C06_paused_flag_meaning demo_state [demo_call 21300 STAY] (6 * hour) (18 * hour));
    try reflexivity.
  - cbn. numR. lra.
  - repeat constructor. cbn. lia.
  - constructor; [|constructor]. apply demo_returns. reflexivity.
  - right; left. exists [], 0%R, []. cbn. split; [reflexivity|]. split; [lra|constructor].
Qed.
