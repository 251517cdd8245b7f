(** Properties C07, C08, C11-C14: balloon dynamics. *)
From Coq Require Import ZArith Reals Lra Lia Bool List.
From RecordUpdate Require Import RecordSet.
From Verif Require Import Model.Num Model.Safety Model.Acs Model.Balloon.
From Verif Require Import Spec.Flight Spec.Envelope Spec.Buoyancy.
From Verif Require Import Proofs.NumR Proofs.BalloonProofs Proofs.EnvelopeProofs
  Proofs.BuoyancyProofs Proofs.ExampleFlight.
Import ListNotations RecordSetNotations.
Open Scope R_scope.

(** ** C07  After any sequence of calls, whether they return or raise. *)
Theorem C07_battery_limits : forall (s0 : bstate R) cs,
  0 < battery_charge s0 <= battery_capacity s0 -> bstatus s0 = OK ->
  let s := fly_end s0 cs in
  battery_capacity s = battery_capacity s0 /\
  0 <= battery_charge s <= battery_capacity s /\
  0 <= battery_soc s <= 1 /\
  (bstatus s = OUT_OF_POWER <-> battery_charge s = 0).
Proof. exact flight_battery. Qed.
Print Assumptions C07_battery_limits.

(** The charge moves by (solar - load) * time, cut off at empty and full; the
    sun charges, and the day load applies, exactly above -4.242 degrees. *)
Theorem C07_energy_balance : forall (w : world R) wind a st s s',
  simulate_substep w wind a st s = Some s' -> 0 <= battery_capacity s ->
  let el := fst (sun w (x s) (y s) (date_time s)) in
  let hours := IZR st / 1000000 / 3600 in
  let charging := if Rlt_dec (-4.242) el then solar_power_fn w el (pressure s) else 0 in
  let load := (if Rlt_dec (-4.242) el then daytime_power_load s
               else nighttime_power_load s) + acs_power s' in
  solar_charging s' = charging /\ power_load s' = load /\
  battery_charge s' =
    Rmin (Rmax (battery_charge s + (charging - load) * hours) 0) (battery_capacity s) /\
  (a <> DOWN -> acs_power s' = 0).
Proof. exact substep_energy. Qed.
Print Assumptions C07_energy_balance.

Example C07_witness :
  0 < battery_charge demo_state <= battery_capacity demo_state /\
  bstatus demo_state = OK /\
  Forall returned (fly demo_state [demo_call 21300 DOWN; demo_call 21300 UP]) /\
  time_elapsed (fly_end demo_state [demo_call 21300 DOWN]) = 1000000%Z.
Proof.
  split; [cbn; numR; lra|]. split; [reflexivity|]. split.
  - apply demo_flight_returns.
  - cbn [fly_end].
    destruct (demo_returns 21300 DOWN demo_state eq_refl) as [eff He].
    destruct (do_call demo_state (demo_call 21300 DOWN)) as [s' o] eqn:E.
    cbn in He. subst o.
    pose proof (demo_first_call_ok 21300 DOWN) as Hok. rewrite E in Hok.
    destruct (call_clock_whole demo_state (demo_call 21300 DOWN) 1 1 eq_refl eq_refl
                ltac:(lia) ltac:(lia) s' _ E) as [H _].
    destruct (H eff eq_refl) as (_ & H1 & _). destruct (H1 Hok) as [H2 _].
    cbn [fst]. rewrite H2. reflexivity.
Qed.

(** ** C08 *)
Theorem C08_parameters_never_change : forall (s0 : bstate R) cs,
  let s := fly_end s0 cs in
  mols_lift_gas s = mols_lift_gas s0 /\
  envelope_volume_base s = envelope_volume_base s0 /\
  envelope_volume_dv_pressure s = envelope_volume_dv_pressure s0 /\
  envelope_mass s = envelope_mass s0 /\
  envelope_max_superpressure s = envelope_max_superpressure s0 /\
  envelope_cod s = envelope_cod s0 /\ payload_mass s = payload_mass s0 /\
  nighttime_power_load s = nighttime_power_load s0 /\
  daytime_power_load s = daytime_power_load s0 /\
  acs_valve_hole_diameter s = acs_valve_hole_diameter s0 /\
  battery_capacity s = battery_capacity s0 /\
  upwelling_infrared s = upwelling_infrared s0.
Proof.
  intros s0 cs. pose proof (flight_parameters s0 cs) as H.
  unfold parameters in H. injection H; intros. cbv zeta. repeat split; assumption.
Qed.
Print Assumptions C08_parameters_never_change.

Theorem C08_ballast_never_negative : forall (s0 : bstate R) cs,
  Forall (fun c => (0 <= c_stride c)%Z) cs ->
  0 <= mols_air s0 -> 0 <= mols_air (fly_end s0 cs).
Proof. exact flight_ballast_nonneg. Qed.
Print Assumptions C08_ballast_never_negative.

(** Ballast moves only in the direction of the executed command; STAY keeps it. *)
Theorem C08_ballast_follows_command : forall (s : bstate R) c eff,
  (0 <= c_stride c)%Z -> 0 <= mols_air s ->
  snd (do_call s c) = Executed eff ->
  let before := mols_air s in
  let after := mols_air (fst (do_call s c)) in
  (eff = UP -> after <= before) /\ (eff = STAY -> after = before) /\
  (eff = DOWN -> before <= after).
Proof.
  intros s c eff H1 H2 H3. pose proof (call_ballast s c eff H1 H2 H3) as H.
  cbv zeta. repeat split; intro; subst eff; exact H.
Qed.
Print Assumptions C08_ballast_follows_command.

(** The amount per sub-step: orifice flow when venting, pump flow when
    descending. *)
Theorem C08_ballast_amount : forall (w : world R) wind a st s s',
  simulate_substep w wind a st s = Some s' ->
  let r := (pressure s + Rmax (superpressure s) 0) / pressure s in
  let watts := get_most_efficient_power r in
  let flow := match a with   (* kg/s *)
    | STAY => 0
    | UP => - (0.62 * (PI * (acs_valve_hole_diameter s / 2) ^ 2) *
        sqrt (2 * superpressure s *
              ((superpressure s + pressure s) * air_molar_mass
               / (gas_constant * internal_temperature s))))
    | DOWN => get_fan_efficiency r watts * watts / 3600
    end in
  mols_air s' = Rmax (mols_air s + flow / air_molar_mass * (IZR st / 1000000)) 0 /\
  acs_power s' = (match a with DOWN => watts | _ => 0 end).
Proof.
  intros w wind a st s s' E. apply substep_fields in E.
  destruct E as (np & h & amb & _ & _ & Ef). cbv zeta in Ef.
  decompose [and] Ef. clear Ef. cbv zeta.
  match goal with H : mols_air s' = _ |- _ => rewrite H end.
  match goal with H : acs_power s' = _ |- _ => rewrite H end.
  rewrite acs_flow_formula, M_air_eq, pymax_R.
  unfold total_seconds, us_per_second, pressure_ratio. rewrite !pymax_R. numR.
  unfold air_molar_mass, gas_constant.
  destruct a; split; reflexivity.
Qed.
Print Assumptions C08_ballast_amount.

Example C08_witness : exists eff,
  (0 <= c_stride (demo_call 21300 UP))%Z /\ 0 <= mols_air demo_state /\
  snd (do_call demo_state (demo_call 21300 UP)) = Executed eff.
Proof.
  destruct (demo_returns 21300 UP demo_state eq_refl) as [eff He].
  exists eff. split; [cbn; lia|]. split; [cbn; lra|exact He].
Qed.

(** ** C11  Any numbers. *)
Theorem C11_clocks_move_together : forall (T : Type) (N : Num T) (s : bstate T) c,
  let s' := fst (do_call s c) in
  exists k : Z, (0 <= k)%Z /\
    date_time s' = (date_time s + k * c_stride c)%Z /\
    time_elapsed s' = (time_elapsed s + k * c_stride c)%Z /\
    (bstatus s <> OK -> k = 0%Z).
Proof. exact @call_clock. Qed.
Print Assumptions C11_clocks_move_together.

(** Any durations: the whole seconds of the delta and of the stride decide how many
    sub-steps there are, and each sub-step is one full stride. *)
Theorem C11_substeps : forall (T : Type) (N : Num T) (s : bstate T) c,
  (0 <= c_delta c)%Z -> (0 <= c_stride c)%Z ->
  let dsec := (c_delta c / 1000000)%Z in
  let ssec := (c_stride c / 1000000)%Z in
  forall s' o, do_call s c = (s', o) ->
  (forall eff, o = Executed eff ->
     (0 < ssec)%Z /\ (ssec | dsec)%Z /\
     (bstatus s' = OK ->
        time_elapsed s' = (time_elapsed s + dsec / ssec * c_stride c)%Z /\
        date_time s' = (date_time s + dsec / ssec * c_stride c)%Z) /\
     (bstatus s' <> OK -> exists k, (0 < k <= dsec / ssec)%Z /\
         time_elapsed s' = (time_elapsed s + k * c_stride c)%Z /\
         date_time s' = (date_time s + k * c_stride c)%Z)) /\
  (ssec = 0%Z \/ ~ (ssec | dsec)%Z -> (exists e, o = Raised e) /\
     time_elapsed s' = time_elapsed s /\ date_time s' = date_time s).
Proof. exact @call_clock_any. Qed.
Print Assumptions C11_substeps.

(** Whole-second durations (the library uses 3 minutes and 10 seconds). *)
Theorem C11_step_duration : forall (T : Type) (N : Num T) (s : bstate T) c dsec ssec,
  c_delta c = (dsec * 1000000)%Z -> c_stride c = (ssec * 1000000)%Z ->
  (0 <= dsec)%Z -> (0 < ssec)%Z ->
  forall s' o, do_call s c = (s', o) ->
  (forall eff, o = Executed eff ->
     (ssec | dsec)%Z /\
     (bstatus s' = OK -> time_elapsed s' = (time_elapsed s + c_delta c)%Z /\
                         date_time s' = (date_time s + c_delta c)%Z) /\
     (bstatus s' <> OK -> exists k, (0 < k <= dsec / ssec)%Z /\
         time_elapsed s' = (time_elapsed s + k * c_stride c)%Z /\
         date_time s' = (date_time s + k * c_stride c)%Z)) /\
  (~ (ssec | dsec)%Z -> (exists e, o = Raised e) /\
     time_elapsed s' = time_elapsed s /\ date_time s' = date_time s).
Proof. exact @call_clock_whole. Qed.
Print Assumptions C11_step_duration.

Example C11_witness : exists s' eff,
  do_call demo_state (demo_call 21300 DOWN) = (s', Executed eff) /\ bstatus s' = OK.
Proof.
  destruct (demo_returns 21300 DOWN demo_state eq_refl) as [eff He].
  pose proof (demo_first_call_ok 21300 DOWN) as Hok.
  destruct (do_call demo_state (demo_call 21300 DOWN)) as [s' o] eqn:E.
  cbn in He. subst o. exists s', eff. auto.
Qed.

(** For durations that are not whole seconds the clock need not move by the delta
    (int() drops the fraction): a step of 1.5 s with stride 1 s leaves the balloon
    OK and advances the clock by 1 s; a step of 1 s with stride 1.5 s advances it
    by 1.5 s. *)
Theorem C11_fractional_duration_refuted :
  (exists (s s' : bstate R) c eff,
     do_call s c = (s', Executed eff) /\ bstatus s' = OK /\
     c_delta c = 1500000%Z /\ c_stride c = 1000000%Z /\
     time_elapsed s' = (time_elapsed s + 1000000)%Z) /\
  (exists (s s' : bstate R) c eff,
     do_call s c = (s', Executed eff) /\ bstatus s' = OK /\
     c_delta c = 1000000%Z /\ c_stride c = 1500000%Z /\
     time_elapsed s' = (time_elapsed s + 1500000)%Z).
Proof.
  assert (H : forall d st, (1000000 <= d < 2000000)%Z -> (1000000 <= st < 2000000)%Z ->
    exists (s s' : bstate R) c eff,
     do_call s c = (s', Executed eff) /\ bstatus s' = OK /\
     c_delta c = d /\ c_stride c = st /\
     time_elapsed s' = (time_elapsed s + st)%Z).
  { intros d st Hd Hst.
    destruct (demo_short_call_ok 21300 DOWN d st Hd Hst) as (s' & eff & E & Hok).
    set (c := mkCall (demo_world 21300) (3, -2) DOWN d st) in *.
    exists demo_state, s', c, eff. split; [exact E|]. split; [exact Hok|]. split; [reflexivity|]. split; [reflexivity|].
    assert (0 <= d)%Z as D0 by lia. assert (0 <= st)%Z as S0 by lia.
    destruct (C11_substeps R Num_R demo_state c D0 S0 s' _ E) as [H _].
    destruct (H eff eq_refl) as (_ & _ & H1 & _). cbn [c c_delta c_stride] in H1.
    replace (d / 1000000)%Z with 1%Z in H1
      by (apply Z.div_unique with (d - 1000000)%Z; lia).
    replace (st / 1000000)%Z with 1%Z in H1
      by (apply Z.div_unique with (st - 1000000)%Z; lia).
    rewrite (proj1 (H1 Hok)). rewrite Z.div_same by lia. lia. }
  split; apply H; lia.
Qed.
Print Assumptions C11_fractional_duration_refuted.

(** ** C12 *)
Theorem C12_dead_reckoning : forall (s : bstate R) c,
  let s' := fst (do_call s c) in
  let seconds := IZR (time_elapsed s' - time_elapsed s) / 1000000 in
  x s' = x s + fst (c_wind c) * seconds /\ y s' = y s + snd (c_wind c) * seconds.
Proof. exact call_position. Qed.
Print Assumptions C12_dead_reckoning.

Example C12_witness :
  x (fst (do_call demo_state (demo_call 21300 DOWN))) = 3 /\
  y (fst (do_call demo_state (demo_call 21300 DOWN))) = -2.
Proof.
  destruct (C12_dead_reckoning demo_state (demo_call 21300 DOWN)) as [Hx Hy].
  destruct C11_witness as (s' & eff & E & Hok).
  destruct (C11_step_duration R Num_R demo_state (demo_call 21300 DOWN) 1 1 eq_refl
     eq_refl ltac:(lia) ltac:(lia) s' _ E) as [H _].
  destruct (H eff eq_refl) as (_ & H1 & _). destruct (H1 Hok) as [H2 _].
  rewrite E in *. cbn [fst] in *. rewrite Hx, Hy, H2.
  change (time_elapsed demo_state) with 0%Z.
  cbn [demo_call c_wind c_delta fst snd]. change (x demo_state) with 0. change (y demo_state) with 0.
  change (0 + 1000000 - 0)%Z with 1000000%Z. lra.
Qed.

(** ** C13 *)
Theorem C13_envelope_law : forall n1 n2 temp p v0 dv,
  0 < p -> 0 < v0 -> 0 < dv ->
  let '(V, sp) := calculate_superpressure_and_volume n1 n2 temp p v0 dv in
  envelope_law (n1 + n2) temp p v0 dv V sp /\
  (forall V' sp', envelope_law (n1 + n2) temp p v0 dv V' sp' -> V' = V /\ sp' = sp).
Proof.
  intros n1 n2 temp p v0 dv Hp Hv Hd.
  pose proof (sv_law n1 n2 temp p v0 dv Hp Hv Hd) as H.
  destruct (calculate_superpressure_and_volume n1 n2 temp p v0 dv) as [V sp].
  split; [exact H|]. intros V' sp' H'.
  exact (envelope_law_unique _ _ _ _ _ _ _ _ _ Hp Hv Hd H' H).
Qed.
Print Assumptions C13_envelope_law.

Theorem C13_superpressure_monotone_and_lipschitz :
  forall n1 n2 temp m1 m2 temp' p v0 dv,
  0 < p -> 0 < v0 -> 0 < dv -> (n1 + n2) * temp <= (m1 + m2) * temp' ->
  let sp := snd (calculate_superpressure_and_volume n1 n2 temp p v0 dv) in
  let sp' := snd (calculate_superpressure_and_volume m1 m2 temp' p v0 dv) in
  sp <= sp' <= sp + gas_constant / v0 * ((m1 + m2) * temp' - (n1 + n2) * temp).
Proof.
  intros n1 n2 temp m1 m2 temp' p v0 dv Hp Hv Hd H.
  pose proof (sv_law n1 n2 temp p v0 dv Hp Hv Hd) as L1.
  pose proof (sv_law m1 m2 temp' p v0 dv Hp Hv Hd) as L2.
  destruct (calculate_superpressure_and_volume n1 n2 temp p v0 dv) as [V sp].
  destruct (calculate_superpressure_and_volume m1 m2 temp' p v0 dv) as [V' sp']. cbn.
  pose proof (envelope_law_mono _ _ _ _ _ _ _ _ _ _ _ Hp Hv Hd H L1 L2).
  pose proof (envelope_law_lipschitz _ _ _ _ _ _ _ _ _ _ _ Hp Hv Hd H L1 L2). lra.
Qed.
Print Assumptions C13_superpressure_monotone_and_lipschitz.

(** What a sub-step reports: the law holds between its output and its input, and
    ZEROPRESSURE (unless the battery is empty) iff the envelope is not full. *)
Theorem C13_substep_obeys_law : forall (w : world R) wind a st s s',
  simulate_substep w wind a st s = Some s' -> bstatus s = OK ->
  0 < pressure s -> 0 < envelope_volume_base s -> 0 < envelope_volume_dv_pressure s ->
  envelope_law (mols_lift_gas s + mols_air s) (internal_temperature s) (pressure s)
    (envelope_volume_base s) (envelope_volume_dv_pressure s)
    (envelope_volume s') (superpressure s') /\
  (0 < battery_charge s' ->
   (bstatus s' = ZEROPRESSURE <->
    (mols_lift_gas s + mols_air s) * gas_constant * internal_temperature s
      <= pressure s * envelope_volume_base s)).
Proof.
  intros w wind a st s s' E Hok Hp Hv Hd. apply substep_fields in E.
  destruct E as (np & h & amb & _ & _ & Ef). cbv zeta in Ef.
  decompose [and] Ef. clear Ef.
  match goal with H : envelope_volume s' = _ |- _ => rename H into EV end.
  match goal with H : superpressure s' = _ |- _ => rename H into ESP end.
  match goal with H : bstatus s' = _ |- _ => rename H into EST end.
  split.
  - pose proof (sv_law (mols_lift_gas s) (mols_air s) (internal_temperature s)
      (pressure s) _ _ Hp Hv Hd) as L.
    rewrite EV, ESP. destruct (calculate_superpressure_and_volume _ _ _ _ _ _). exact L.
  - intro Hc. rewrite EST.
    rewrite <- (sv_zero_iff (mols_lift_gas s) (mols_air s) (internal_temperature s)
      (pressure s) _ _ Hp Hv Hd), <- ESP.
    unfold next_status. rewrite Hok. numR.
    rcases; split; intros; try discriminate; try reflexivity; try lra.
Qed.
Print Assumptions C13_substep_obeys_law.

(** 6830 mol of helium at 206 K and 6000 Pa overfill the 1804 m^3 envelope. *)
Example C13_witness :
  let '(V, sp) := calculate_superpressure_and_volume 6830 0 206 6000 1804 0.0199 in
  1804 < V /\ 0 < sp < 485.
Proof.
  pose proof (sv_bounds 6830 0 206 6000 1804 0.0199) as B. unfold gas_constant in B.
  specialize (B ltac:(lra) ltac:(lra) ltac:(lra) ltac:(lra)). cbv zeta in B.
  pose proof (sv_law 6830 0 206 6000 1804 0.0199 ltac:(lra) ltac:(lra) ltac:(lra)) as L.
  destruct (calculate_superpressure_and_volume 6830 0 206 6000 1804 0.0199) as [V sp].
  cbn in B. destruct L as [(A1 & A2 & _)|(A1 & A2 & _)]; [lra|]. lra.
Qed.

(** ** C14 *)
Theorem C14_rises_iff_buoyant : forall (w : world R) wind a st s s',
  simulate_substep w wind a st s = Some s' ->
  airborne s -> antitone w -> (0 < st)%Z ->
  let displaced := displaced_mass (pressure s) (ambient_temperature s) (envelope_volume s) in
  let mass := total_mass (mols_lift_gas s) (mols_air s) (envelope_mass s) (payload_mass s) in
  (pressure s' < pressure s <-> mass < displaced) /\
  (pressure s < pressure s' <-> displaced < mass) /\
  (pressure s' = pressure s <-> displaced = mass).
Proof.
  intros w wind a st s s' E Ha Hw Hst. cbv zeta. apply substep_fields in E.
  destruct E as (np & h & amb & Hnp & _ & Ef). cbv zeta in Ef.
  decompose [and] Ef. clear Ef.
  destruct (rises_iff_buoyant w s st np Ha Hw Hst Hnp) as (A & B & C).
  match goal with H : pressure s' = np |- _ => rewrite H end.
  unfold lift in *.
  set (d := displaced_mass _ _ _) in *. set (m := total_mass _ _ _ _) in *.
  destruct (Rtotal_order d m) as [L|[L|L]].
  - specialize (B ltac:(lra)). split; [split; intro; lra|split; split; intro; lra].
  - specialize (C ltac:(lra)). split; [split; intro; lra|split; split; intro; lra].
  - specialize (A ltac:(lra)). split; [split; intro; lra|split; split; intro; lra].
Qed.
Print Assumptions C14_rises_iff_buoyant.

(** The speed is the terminal velocity, turned into a pressure change through
    the atmosphere's height difference over 1 Pa. *)
Theorem C14_pressure_change : forall (w : world R) wind a st s s',
  simulate_substep w wind a st s = Some s' -> airborne s ->
  let rho := air_density (pressure s) (ambient_temperature s) in
  let lift := displaced_mass (pressure s) (ambient_temperature s) (envelope_volume s)
    - total_mass (mols_lift_gas s) (mols_air s) (envelope_mass s) (payload_mass s) in
  exists v dir h0 t0 h1 t1,
    terminal_speed rho (envelope_cod s) (envelope_volume s) (lift * g) v /\
    dir = (if Rle_dec 0 lift then 1 else -1) /\
    at_pressure w (pressure s) = Some (h0, t0) /\
    at_pressure w (pressure s + dir) = Some (h1, t1) /\
    pressure s' = pressure s + dir / (h1 - h0) * (dir * v) * (IZR st / 1000000) /\
    ambient_temperature s' = t0.
Proof.
  intros w wind a st s s' E Ha. cbv zeta. apply substep_fields in E.
  destruct E as (np & h & amb & Hnp & Hat & Ef). cbv zeta in Ef.
  decompose [and] Ef. clear Ef.
  destruct (next_pressure_law w s st np Ha Hnp)
    as (v & dir & h0 & t0 & h1 & t1 & A & B & C & D & F).
  exists v, dir, h0, t0, h1, t1.
  split; [exact A|]. split; [exact B|]. split; [exact C|]. split; [exact D|].
  split; congruence.
Qed.
Print Assumptions C14_pressure_change.

(** The default balloon is airborne, the linear atmosphere antitone, and the
    balloon too heavy to stay: it sinks. *)
Example C14_witness :
  airborne demo_state /\ antitone (demo_world 21300) /\
  displaced_mass 6000 206 1804 < total_mass 6830 0 68.5 92.5.
Proof.
  split; [unfold airborne; cbn; numR; lra|]. split.
  - intros p q h h' t t' Hpq. cbn. intros E1 E2.
    injection E1; injection E2; intros; subst. lra.
  - unfold displaced_mass, air_density, total_mass, helium_molar_mass,
      air_molar_mass, gas_constant.
    apply Rlt_le_trans with 184; [|lra].
    apply Rmult_lt_reg_r with (8.3144621 * 206); [lra|]. field_simplify; lra.
Qed.
