(** Property theorems C15 and C16, and C14 for the environment's own atmospheres. *)
From Coq Require Import ZArith Reals Lra List Bool.
From Verif Require Import Model.Num Model.Atmosphere Model.Balloon.
From Verif Require Import Spec.AtmosphereSpec Spec.Buoyancy.
From Verif Require Import Proofs.NumR Proofs.AtmosphereProofs Proofs.BuoyancyProofs.
From Verif Require Import Props.BalloonProps.
Open Scope R_scope.

(** ** C15: the two lookups are inverses of each other *)
(** at_height answers exactly for -610 m <= h < 85 km; looking its pressure up
    returns the same four values. *)
Theorem C15_height_then_pressure : forall alpha h, 0 <= alpha <= 1 ->
  (at_height (atmosphere_reset alpha) h <> None <-> -610 <= h < 85000) /\
  (forall v, at_height (atmosphere_reset alpha) h = Some v ->
    v_height v = h /\
    Atmosphere.at_pressure (atmosphere_reset alpha) (v_pressure v) = Some v).
Proof.
  intros alpha h Ha. split; [exact (at_height_range alpha h)|]. intros v H.
  split; [exact (proj1 (proj2 (at_height_some alpha h v H)))|].
  exact (round_trip_height alpha Ha h v H).
Qed.
Print Assumptions C15_height_then_pressure.

(** at_pressure answers exactly for the pressures some height has; looking its
    height up returns the same four values. *)
Theorem C15_pressure_then_height : forall alpha p, 0 <= alpha <= 1 ->
  (Atmosphere.at_pressure (atmosphere_reset alpha) p <> None <->
   exists h v, at_height (atmosphere_reset alpha) h = Some v /\ v_pressure v = p) /\
  (forall v, Atmosphere.at_pressure (atmosphere_reset alpha) p = Some v ->
    v_pressure v = p /\ at_height (atmosphere_reset alpha) (v_height v) = Some v).
Proof.
  intros alpha p Ha. split; [exact (at_pressure_range alpha Ha p)|]. intros v H.
  split; [exact (proj1 (proj2 (at_pressure_some alpha p v H)))|].
  exact (round_trip_pressure alpha Ha p v H).
Qed.
Print Assumptions C15_pressure_then_height.

(** ** C16: the atmosphere is physical *)
Theorem C16_pressure_decreases : forall alpha h h' v v', 0 <= alpha <= 1 ->
  at_height (atmosphere_reset alpha) h = Some v ->
  at_height (atmosphere_reset alpha) h' = Some v' ->
  (h < h' <-> v_pressure v' < v_pressure v).
Proof.
  intros alpha h h' v v' Ha H H'. split.
  - exact (strictly_decreasing alpha Ha h h' v v' H H').
  - intro Hlt. destruct (Rtotal_order h h') as [L|[L|L]]; [exact L| |].
    + rewrite L in H. rewrite H in H'. injection H'; intro E. rewrite E in Hlt. lra.
    + pose proof (strictly_decreasing alpha Ha h' h v' v H' H L). lra.
Qed.
Print Assumptions C16_pressure_decreases.

Theorem C16_values_positive : forall alpha h v, 0 <= alpha <= 1 ->
  at_height (atmosphere_reset alpha) h = Some v ->
  0 < v_temperature v /\ 0 < v_pressure v <= 108870.8213 /\ 0 < v_density v.
Proof. intros alpha h v Ha H. exact (positive alpha Ha h v H). Qed.
Print Assumptions C16_values_positive.

(** The temperature is the documented profile, which changes by at most 7 K per
    kilometre, so it is continuous; the density is that of an ideal gas. *)
Theorem C16_temperature_and_density : forall alpha h v, 0 <= alpha <= 1 ->
  at_height (atmosphere_reset alpha) h = Some v ->
  v_temperature v = temperature_profile alpha h /\
  v_density v * specific_gas_constant * v_temperature v = v_pressure v /\
  (forall h' v', at_height (atmosphere_reset alpha) h' = Some v' ->
    Rabs (v_temperature v' - v_temperature v) <= 0.007 * Rabs (h' - h)).
Proof.
  intros alpha h v Ha H. split; [exact (at_height_temperature alpha h v Ha H)|]. split.
  - destruct (positive alpha Ha h v H) as (Ht & _ & _).
    rewrite (proj2 (proj2 (proj2 (at_height_some alpha h v H)))).
    unfold specific_gas_constant, A_GAS. field. lra.
  - intros h' v' H'. rewrite (at_height_temperature alpha h v Ha H),
      (at_height_temperature alpha h' v' Ha H'). exact (profile_lipschitz alpha h h' Ha).
Qed.
Print Assumptions C16_temperature_and_density.

(** The air is in hydrostatic equilibrium at every height, layer boundaries
    included, starting from 108870.8213 Pa and 300 K at the bottom.  (A function
    with these two properties is unique.) *)
Theorem C16_hydrostatic : forall alpha, 0 <= alpha <= 1 ->
  let P h := match at_height (atmosphere_reset alpha) h with
             | Some v => v_pressure v | None => 0 end in
  P (-610) = 108870.8213 /\ temperature_profile alpha (-610) = 300 /\
  (forall h, -610 < h < 85000 -> hydrostatic_at P (temperature_profile alpha) h).
Proof.
  intros alpha Ha P. destruct (bottom alpha Ha) as [B1 B2].
  split; [exact B1|]. split; [exact B2|].
  intros h Hh. exact (pressure_hydrostatic alpha h Ha Hh).
Qed.
Print Assumptions C16_hydrostatic.

Example C16_witness : temperature_profile 0 21000 = 200.73 /\ temperature_profile 1 21000 = 217.862.
Proof.
  unfold temperature_profile, layers, gained. cbn [map fold_right].
  rewrite !(Rmin_right 21000 17000), !(Rmin_right 21000 (-610)), !(Rmin_left 21000) by lra.
  split; lra.
Qed.

Example C15_witness : exists v, at_height (atmosphere_reset 0.5) 18000 = Some v.
Proof.
  destruct (at_height (atmosphere_reset 0.5) 18000) as [v|] eqn:E; [exists v; reflexivity|].
  exfalso. apply (at_height_range 0.5 18000); [lra|exact E].
Qed.

(** ** C14 in every seeded atmosphere *)
Theorem C14_in_every_seeded_atmosphere : forall alpha (w : world R) wind a st s s',
  0 <= alpha <= 1 ->
  (forall p, Balloon.at_pressure w p =
     option_map (fun v => (v_height v, v_temperature v))
       (Atmosphere.at_pressure (atmosphere_reset alpha) p)) ->
  simulate_substep w wind a st s = Some s' ->
  airborne s -> (0 < st)%Z ->
  let displaced := displaced_mass (pressure s) (ambient_temperature s) (envelope_volume s) in
  let mass := total_mass (mols_lift_gas s) (mols_air s) (envelope_mass s) (payload_mass s) in
  (pressure s' < pressure s <-> mass < displaced) /\
  (pressure s < pressure s' <-> displaced < mass) /\
  (pressure s' = pressure s <-> displaced = mass).
Proof.
  intros alpha w wind a st s s' Ha Hw Hs Hair Hst.
  apply (C14_rises_iff_buoyant w wind a st s s' Hs Hair); [|exact Hst].
  intros p q h h' t t' Hpq. rewrite !Hw. intros E1 E2.
  destruct (Atmosphere.at_pressure (atmosphere_reset alpha) p) as [v|] eqn:F1; [|discriminate].
  destruct (Atmosphere.at_pressure (atmosphere_reset alpha) q) as [v'|] eqn:F2; [|discriminate].
  cbn in E1, E2. injection E1; injection E2; intros; subst.
  exact (antitone_lookup alpha Ha p q v v' F1 F2 Hpq).
Qed.
Print Assumptions C14_in_every_seeded_atmosphere.
