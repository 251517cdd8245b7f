(** A balloon in flight stays within the domain of every table and formula that a
    sub-step uses, so no sub-step raises. *)
From Coq Require Import ZArith Reals Lra Lia Psatz Bool List.
From RecordUpdate Require Import RecordSet.
From Verif Require Import Model.Num Model.Safety Model.Acs Model.Balloon Model.Atmosphere Model.Geometry
  Model.Solar Model.Thermal Model.Env.
From Verif Require Import Spec.Envelope Spec.Buoyancy.
From Verif Require Import Proofs.NumR Proofs.AcsProofs Proofs.BalloonProofs Proofs.EnvelopeProofs Proofs.BuoyancyProofs
  Proofs.SolarProofs Proofs.AtmosphereProofs Proofs.MotionProofs Proofs.SteadyHeat Proofs.SteadyAir
  Props.TablesProps Props.BalloonProps Props.AtmosphereProps Props.SolarProps Props.VehicleProps Props.DefaultRangeProps Props.EnvProps.
Import ListNotations RecordSetNotations.
Open Scope R_scope.

(** The published vehicle with a sound envelope, warm gas and moderate ballast. *)
Definition steady (s : bstate R) : Prop :=
  published_vehicle s /\ power_safety_layer_enabled s = true /\ 225 <= upwelling_infrared s <= 315 /\
  0 < superpressure s <= 2380 /\ envelope_volume s = 1804 + 0.0199 * superpressure s /\
  165 <= ambient_temperature s <= 300 /\ 165 <= internal_temperature s <= 400 /\
  4400 <= pressure s <= 32000 /\ 0 <= mols_air s <= 15200 /\
  (pressure s <= 12750 -> mols_air s <= 14820) /\
  (6830 + mols_air s) * gas_constant * internal_temperature s <= 1.6 * (1.08 * pressure s + 2381) * 1852.
(** The same up to the last sub-step, which may have destroyed the envelope or emptied
    the battery. *)
Definition aloft (s : bstate R) : Prop :=
  published_vehicle s /\ power_safety_layer_enabled s = true /\ 225 <= upwelling_infrared s <= 315 /\
  4400 <= pressure s <= 32000 /\ superpressure s <= 4 * pressure s /\ (bstatus s = OK -> steady s).

Lemma steady_layers s c p e al : steady s ->
  steady (s <| last_command := c |> <| power_layer := p |> <| envelope_layer := e |> <| altitude_layer := al |>).
Proof. exact (fun H => H). Qed.

Lemma sun_bounds center px py t : before_2100 t ->
  -90 <= fst (sun_of center px py t) <= 90 /\ 0 <= snd (sun_of center px py t) <= 1432.
Proof.
  intro Ht. unfold sun_of. destruct (calculate_latlng_from_offset center px py) as [lat lng].
  pose proof (solar_calculator_ranges lat lng t) as A. pose proof (flux_range lat lng t (century _ Ht)) as B.
  destruct (solar_calculator lat lng t) as [[el az] flux]. cbn [fst snd]. lra.
Qed.

#[local] Opaque world_of atmosphere_reset.
Lemma substep_runs alpha center wind a s : 0 <= alpha <= 1 -> steady s -> before_2100 (date_time s) ->
  exists s', simulate_substep (world_of (atmosphere_reset alpha) center) wind a (10 * 1000000) s = Some s'.
Proof.
  intros Ha (Veh & _ & Hir & Hsp & HV & Hamb & HT & Hp & Hn & _) Ht.
  pose proof Veh as (V1 & V2 & V3 & V4 & V5 & V6 & V7 & V8 & V9 & V10 & V11).
  set (w := world_of (atmosphere_reset alpha) center).
  assert (Np : exists np, next_pressure w s (10 * 1000000) = Some np).
  { unfold next_pressure. change (Balloon.at_pressure w) with (profile_of (atmosphere_reset alpha)).
    destruct (air_lookup alpha (pressure s) Ha ltac:(lra)) as (h0 & t0 & -> & _).
    assert (D : -1 <= direction s <= 1) by (unfold direction; numR; destruct (Rleb _ _); lra).
    numR. assert (D1 : 1000 <= pressure s + direction s * 1 <= 108870.8213) by (clear - D Hp; lra).
    destruct (air_lookup alpha (pressure s + direction s * 1) Ha D1) as (h1 & t1 & -> & _). eauto. }
  destruct Np as (np & Enp). unfold simulate_substep. rewrite Enp.
  change (Balloon.at_pressure w) with (profile_of (atmosphere_reset alpha)).
  destruct (air_lookup alpha (pressure s) Ha ltac:(lra)) as (h0 & t0 & -> & _).
  unfold w. rewrite world_sun. pose proof (sun_bounds center (x s) (y s) (date_time s) Ht) as [S1 S2].
  destruct (sun_of center (x s) (y s) (date_time s)) as [el flux]. cbn [fst snd] in *.
  change (d_temperature (world_of (atmosphere_reset alpha) center)) with d_balloon_temperature_dt. rewrite V3.
  destruct (heat_step (envelope_volume s) (ambient_temperature s) (pressure s) el flux (upwelling_infrared s)
    (internal_temperature s) ltac:(lra) Hamb ltac:(lra) S1 S2 Hir HT) as (rate & -> & _).
  destruct (calculate_superpressure_and_volume _ _ _ _ _ _). destruct (acs_step s a). eauto.
Qed.

Lemma substep_steady alpha center wind a s s' : 0 <= alpha <= 1 -> steady s -> before_2100 (date_time s) ->
  bstatus s = OK -> (a = DOWN -> mols_air s <= 15180) ->
  simulate_substep (world_of (atmosphere_reset alpha) center) wind a (10 * 1000000) s = Some s' ->
  aloft s' /\ mols_air s' <= mols_air s + 15.4 /\ (a <> DOWN -> mols_air s' <= mols_air s).
Proof.
  intros Ha (Veh & En & Hir & Hsp & HV & Hamb & HT & Hp & Hn & M1 & M2) Ht Hok Hd E.
  pose proof Veh as (V1 & V2 & V3 & V4 & V5 & V6 & V7 & V8 & V9 & V10 & V11).
  set (w := world_of (atmosphere_reset alpha) center) in *.
  assert (Ten : IZR (10 * 1000000) / 1000000 = 10) by (change (10 * 1000000)%Z with 10000000%Z; lra).
  assert (Hair : airborne s) by (unfold airborne; rewrite V5; repeat split; lra).
  destruct (substep_status _ _ _ _ _ _ E Hok ltac:(rewrite V4; lra)) as (St & _).
  destruct (C14_pressure_change _ _ _ _ _ _ E Hair) as (v & dir & h0 & t0 & h1 & t1 & P1 & P2 & P3 & P4 & P5 & P6).
  destruct (C08_ballast_amount _ _ _ _ _ _ E) as (B1 & _). cbv zeta in B1.
  destruct (substep_fields _ _ _ _ _ _ E) as (np & h & amb & Hnp & Hat & Ef). cbv zeta in Ef.
  assert (Law : envelope_law (mols_lift_gas s + mols_air s) (internal_temperature s) (pressure s)
    (envelope_volume_base s) (envelope_volume_dv_pressure s) (envelope_volume s') (superpressure s')).
  { pose proof (sv_law (mols_lift_gas s) (mols_air s) (internal_temperature s) (pressure s)
      (envelope_volume_base s) (envelope_volume_dv_pressure s) ltac:(lra) ltac:(rewrite V1; lra) ltac:(rewrite V2; lra)) as L.
    destruct Ef as (_ & _ & _ & _ & _ & _ & _ & _ & _ & _ & _ & _ & _ & _ & _ & _ & _ & _ & _ & F1 & F2 & _).
    rewrite F1, F2. destruct (calculate_superpressure_and_volume _ _ _ _ _ _). exact L. }
  destruct Ef as (D1 & _ & G1 & G2 & G3 & G4 & G5 & G6 & G10 & G9 & G8 & G11 & X1 & X2 & _ & X3 & G7 & _
    & (dT & HdT & HT') & _ & _ & _ & _ & _ & _ & _ & _ & _ & G12 & _ & _ & _ & G13).
  change (Balloon.at_pressure w) with (profile_of (atmosphere_reset alpha)) in P3, P4.
  destruct (air_lookup alpha (pressure s) Ha ltac:(lra)) as (h0' & t0' & P3' & Bt).
  rewrite P3 in P3'. injection P3' as <- <-.
  rewrite V7, V3, V6, V5 in *. rewrite Ten in *.
  assert (Veh' : published_vehicle s').
  { unfold published_vehicle. rewrite G1, G2, G3, G4, G5, G6, G7, G8, G9, G10, G11. repeat split; assumption. }
  (* pressure *)
  destruct (vertical_step alpha (pressure s) (pressure s') (ambient_temperature s) (envelope_volume s) (mols_air s) v
    Ha Hp Hamb ltac:(lra) Hn P1 h0 t0 h1 t1 dir P2 P3 P4 P5) as [Hp' Hpp].
  (* ballast *)
  assert (Hn' : 0 <= mols_air s' <= mols_air s + 15.4 /\ (a <> DOWN -> mols_air s' <= mols_air s)).
  { rewrite B1. set (flow := match a with UP => _ | STAY => 0 | DOWN => _ end).
    assert (Fl : flow <= 0.4 * 400 / 3600 /\ (a <> DOWN -> flow <= 0)).
    { unfold flow. destruct a.
      - split; [|congruence]. destruct (C30_efficiency_and_flow_range ((pressure s + Rmax (superpressure s) 0) / pressure s) 0) as (_ & _ & _ & Q).
        unfold get_mass_flow in Q. numR. exact Q.
      - lra.
      - assert (Y : 0 <= 0.62 * (PI * (acs_valve_hole_diameter s / 2) ^ 2) *
          sqrt (2 * superpressure s * ((superpressure s + pressure s) * air_molar_mass / (gas_constant * internal_temperature s)))).
        { apply Rmult_le_pos; [|apply sqrt_pos]. apply Rmult_le_pos; [lra|]. apply Rmult_le_pos; [left; apply PI_RGT_0|apply pow2_ge_0]. }
        lra. }
    clearbody flow. unfold air_molar_mass.
    assert (Z : flow / 0.02896492248116 * 10 <= 15.4) by lra.
    split; [split; [apply Rmax_r|apply Rmax_lub; lra]|]. intro Na. destruct Fl as [_ Fl]. specialize (Fl Na). apply Rmax_lub; lra. }
  (* heat *)
  pose proof (sun_bounds center (x s) (y s) (date_time s) Ht) as [S1 S2].
  change (d_temperature w) with d_balloon_temperature_dt in HdT.
  assert (Sun : sun w (x s) (y s) (date_time s) = sun_of center (x s) (y s) (date_time s)) by apply world_sun.
  rewrite Sun in HdT.
  destruct (heat_step (envelope_volume s) (ambient_temperature s) (pressure s) _ _ (upwelling_infrared s)
    (internal_temperature s) ltac:(lra) Hamb ltac:(lra) S1 S2 Hir HT) as (rate & Er & T1 & T2).
  rewrite Er in HdT. injection HdT as <-.
  unfold total_seconds, us_per_second in HT'. numR. rewrite Ten in HT'. rewrite <- HT' in T1, T2. clear HT' Er Sun.
  rewrite V1, V2 in Law.
  assert (Sp : superpressure s' <= 4 * pressure s').
  { destruct Law as [(_ & -> & _)|(L1 & L2 & L3 & L4)]; [lra|].
    rewrite <- L4 in M2. assert ((pressure s + superpressure s') * 1804 <= (pressure s + superpressure s') * envelope_volume s') by (apply Rmult_le_compat_l; lra).
    lra. }
  split; [|split; [exact (proj2 (proj1 Hn'))|exact (proj2 Hn')]].
  split; [exact Veh'|]. split; [congruence|]. split; [now rewrite G13|]. split; [exact Hp'|]. split; [exact Sp|].
  intro Hok'. apply St in Hok'. destruct Hok' as [_ Hs']. rewrite G4, V4 in Hs'.
  destruct Law as [(_ & Z & _)|(L1 & L2 & L3 & L4)]; [lra|].
  assert (U : (pressure s + superpressure s') * envelope_volume s' <= (1.07 * pressure s' + 2381) * 1852)
    by (apply Rmult_le_compat; lra).
  rewrite L4 in U. unfold gas_constant in *.
  split; [exact Veh'|]. split; [congruence|]. split; [now rewrite G13|]. split; [exact Hs'|]. split; [exact L3|].
  split; [rewrite P6; exact Bt|]. split; [exact T1|]. split; [exact Hp'|].
  set (n := mols_air s) in *. set (n' := mols_air s') in *. set (T := internal_temperature s) in *. set (T' := internal_temperature s') in *.
  clearbody n n' T T'.
  split. { split; [tauto|]. destruct (command_eqb a DOWN) eqn:Ea.
    - assert (a = DOWN) by (destruct a; try discriminate; reflexivity). specialize (Hd H). lra.
    - assert (a <> DOWN) by (intros ->; discriminate). destruct Hn' as [_ Q]. specialize (Q H). lra. }
  destruct Hn' as [Hn' _]. split.
  - intro Q. assert ((6830 + n) * 8.3144621 * 165 <= (6830 + n) * 8.3144621 * T) by (apply Rmult_le_compat_l; lra). lra.
  - unfold gas_constant. assert (W : (6830 + n') * 8.3144621 * T' <= 1.003 * ((6830 + n) * 8.3144621) * (1.5 * T)) by (apply Rmult_le_compat; lra).
    assert (W' : 1.003 * ((6830 + n) * 8.3144621) * (1.5 * T) = 1.003 * 1.5 * ((6830 + n) * 8.3144621 * T)) by lra. rewrite W' in W. lra.
Qed.

(** ** A call of simulate_step *)
Lemma substeps_run alpha center wind a k : 0 <= alpha <= 1 -> (k <= 18)%nat -> forall s, steady s ->
  bstatus s = OK -> (0 <= date_time s)%Z -> before_2100 (date_time s + Z.of_nat k * 10000000) ->
  (a = DOWN -> mols_air s + 15.4 * INR k <= 15195) ->
  exists s', substeps (world_of (atmosphere_reset alpha) center) wind a (10 * 1000000) k s = (s', false) /\
    aloft s'.
Proof.
  intros Ha. induction k as [|k IH]; intros Hk s Hs Hok H0 Ht Hn; cbn [substeps].
  - exists s. split; [reflexivity|]. pose proof Hs as (A & B & C & D & _ & _ & _ & E & _).
    repeat (split; [assumption|]). split; [lra|auto].
  - rewrite S_INR in Hn. assert (Hd : before_2100 (date_time s)) by (unfold before_2100 in *; lia).
    destruct (substep_runs alpha center wind a s Ha Hs Hd) as (s1 & E1). rewrite E1.
    pose proof (pos_INR k) as Pk.
    assert (Hn1 : a = DOWN -> mols_air s <= 15180) by (intro Q; specialize (Hn Q); lra).
    destruct (substep_steady _ _ _ _ _ _ Ha Hs Hd Hok Hn1 E1) as (Al & N1 & _).
    destruct (status_is_ok (bstatus s1)) eqn:Eok; [|exists s1; auto].
    assert (Hok1 : bstatus s1 = OK) by (destruct (bstatus s1); try discriminate; reflexivity).
    assert (D1 : date_time s1 = (date_time s + 10000000)%Z).
    { destruct (substep_fields _ _ _ _ _ _ E1) as (? & ? & ? & _ & _ & Ef). cbv zeta in Ef. destruct Ef as (Q & _). exact Q. }
    apply IH; [lia| |exact Hok1| | |].
    + apply Al. exact Hok1.
    + lia.
    + rewrite D1. unfold before_2100 in *. lia.
    + intro Q. specialize (Hn Q). lra.
Qed.
