(** Vertical motion of the model: balloon.py:412-445 over the reals. *)
From Coq Require Import ZArith Reals Lra Lia Psatz Bool.
From Verif Require Import Model.Num Model.Safety Model.Balloon Spec.Envelope Spec.Buoyancy.
From Verif Require Import Proofs.NumR Proofs.EnvelopeProofs.
Open Scope R_scope.

Lemma Rmult_neg_pos a b : a < 0 -> 0 < b -> a * b < 0.
Proof. intros. nra. Qed.

Lemma M_air_eq : @DRY_AIR_MOLAR_MASS R Num_R = air_molar_mass.
Proof. unfold DRY_AIR_MOLAR_MASS, air_molar_mass. numR. lra. Qed.
Lemma M_he_eq : @HE_MOLAR_MASS R Num_R = helium_molar_mass.
Proof. unfold HE_MOLAR_MASS, helium_molar_mass. numR. lra. Qed.
Lemma g_eq : @GRAVITY R Num_R = g.
Proof. unfold GRAVITY, g. numR. lra. Qed.

Lemma rho_air_eq (s : bstate R) :
  rho_air s = air_density (pressure s) (ambient_temperature s).
Proof. unfold rho_air, air_density. rewrite M_air_eq, gas_constant_eq. reflexivity. Qed.

Lemma mass_eq (s : bstate R) :
  flight_system_mass s =
  total_mass (mols_lift_gas s) (mols_air s) (envelope_mass s) (payload_mass s).
Proof. unfold flight_system_mass, total_mass. rewrite M_air_eq, M_he_eq. reflexivity. Qed.

Definition lift (s : bstate R) : R :=
  displaced_mass (pressure s) (ambient_temperature s) (envelope_volume s)
  - total_mass (mols_lift_gas s) (mols_air s) (envelope_mass s) (payload_mass s).

(** Physically meaningful values of the quantities the motion depends on. *)
Definition airborne (s : bstate R) : Prop :=
  0 < pressure s /\ 0 < ambient_temperature s /\ 0 < envelope_volume s /\
  0 < envelope_cod s.

Lemma density_pos p t : 0 < p -> 0 < t -> 0 < air_density p t.
Proof.
  intros. unfold air_density, air_molar_mass, gas_constant.
  apply Rmult_lt_0_compat; [nra|]. apply Rinv_0_lt_compat. nra.
Qed.

Lemma dh_dt_speed s : airborne s ->
  exists v, terminal_speed (air_density (pressure s) (ambient_temperature s))
              (envelope_cod s) (envelope_volume s) (lift s * g) v /\
    dh_dt s = direction s * v /\
    (lift s <> 0 -> 0 < v) /\ (lift s = 0 -> v = 0).
Proof.
  intros (Hp & Ht & HV & Hc).
  pose proof (density_pos _ _ Hp Ht) as Hrho.
  unfold dh_dt. rewrite rho_air_eq, mass_eq, g_eq. numR.
  fold (displaced_mass (pressure s) (ambient_temperature s) (envelope_volume s)).
  fold (lift s).
  set (rho := air_density _ _) in *.
  set (drag := envelope_cod s * Rpower (envelope_volume s) (2 / 3)).
  assert (Hdrag : 0 < drag).
  { unfold drag. apply Rmult_lt_0_compat; [assumption|]. unfold Rpower. apply exp_pos. }
  assert (Hrd : 0 < rho * drag) by nra.
  set (q := 2 * lift s * g / (rho * drag)).
  exists (sqrt (Rabs q)). split; [|split; [reflexivity|split]].
  - split; [apply sqrt_pos|]. fold drag. rewrite sqrt_sqrt by apply Rabs_pos.
    unfold q. unfold Rdiv at 2. rewrite Rabs_mult.
    rewrite (Rabs_right (/ (rho * drag)))
      by (apply Rle_ge; left; apply Rinv_0_lt_compat; assumption).
    replace (2 * lift s * g) with (2 * (lift s * g)) by ring.
    rewrite Rabs_mult. rewrite (Rabs_right 2) by lra. field. lra.
  - intro Hl. apply sqrt_lt_R0. apply Rabs_pos_lt. unfold q, g.
    apply Rmult_integral_contrapositive_currified.
    + intro E. apply Hl. lra.
    + apply Rinv_neq_0_compat. lra.
  - intro Hl. unfold q. rewrite Hl. replace (2 * 0 * g / (rho * drag)) with 0 by (field; lra).
    rewrite Rabs_R0. apply sqrt_0.
Qed.

Lemma direction_up s : 0 <= lift s -> direction (T:=R) s = 1.
Proof.
  unfold direction, lift, displaced_mass. intro H.
  rewrite rho_air_eq, mass_eq. numR. rewrite Rleb_true; [reflexivity|lra].
Qed.
Lemma direction_down s : lift s < 0 -> direction (T:=R) s = -1.
Proof.
  unfold direction, lift, displaced_mass. intro H.
  rewrite rho_air_eq, mass_eq. numR. rewrite Rleb_false; [lra|lra].
Qed.

(** The full law of vertical motion. [dir] is +1 when not heavier than air. *)
Lemma next_pressure_law (w : world R) s st np :
  airborne s ->
  next_pressure w s st = Some np ->
  exists v dir h0 t0 h1 t1,
    terminal_speed (air_density (pressure s) (ambient_temperature s))
              (envelope_cod s) (envelope_volume s) (lift s * g) v /\
    dir = (if Rle_dec 0 (lift s) then 1 else -1) /\
    at_pressure w (pressure s) = Some (h0, t0) /\
    at_pressure w (pressure s + dir) = Some (h1, t1) /\
    np = pressure s + dir / (h1 - h0) * (dir * v) * (IZR st / 1000000).
Proof.
  intros Ha H. destruct (dh_dt_speed s Ha) as (v & Hv & Hd & _).
  unfold next_pressure in H. rewrite Hd in H.
  exists v, (direction s).
  unfold total_seconds, us_per_second in H. numR.
  destruct (at_pressure w (pressure s)) as [[h0 t0]|]; [|discriminate].
  destruct (at_pressure w (pressure s + direction s * 1)) as [[h1 t1]|] eqn:E; [|discriminate].
  exists h0, t0, h1, t1. rewrite Rmult_1_r in *.
  split; [exact Hv|]. split.
  - destruct (Rle_dec 0 (lift s)) as [L|L];
      [apply direction_up|apply direction_down]; lra.
  - split; [reflexivity|]. split; [assumption|]. injection H; intro; subst. reflexivity.
Qed.

(** The atmosphere oracle is antitone at the two points it is asked about. *)
Definition antitone (w : world R) : Prop :=
  forall p q h h' t t', p < q -> at_pressure w p = Some (h, t) ->
    at_pressure w q = Some (h', t') -> h' < h.

Lemma rises_iff_buoyant (w : world R) s st np :
  airborne s -> antitone w -> (0 < st)%Z ->
  next_pressure w s st = Some np ->
  (0 < lift s -> np < pressure s) /\
  (lift s < 0 -> pressure s < np) /\
  (lift s = 0 -> np = pressure s).
Proof.
  intros Ha Hw Hst H.
  destruct (dh_dt_speed s Ha) as (v & Hv & Hd & Hpos & Hz).
  unfold next_pressure in H. rewrite Hd in H.
  unfold total_seconds, us_per_second in H. numR.
  assert (Hdt : 0 < IZR st / 1000000) by (apply IZR_lt in Hst; lra).
  set (dt := IZR st / 1000000) in *.
  destruct (at_pressure w (pressure s)) as [[h0 t0]|] eqn:E0; [|discriminate].
  destruct (at_pressure w (pressure s + direction s * 1)) as [[h1 t1]|] eqn:E1; [|discriminate].
  injection H; intro Hnp; clear H.
  assert (Hcase : (0 <= lift s /\ direction s = 1) \/ (lift s < 0 /\ direction s = -1)).
  { destruct (Rle_dec 0 (lift s)); [left|right]; split; try lra;
      [apply direction_up|apply direction_down]; lra. }
  assert (Hslope : direction s * 1 / (h1 - h0) < 0).
  { destruct Hcase as [[_ Ed]|[_ Ed]]; rewrite Ed in *.
    - assert (pressure s < pressure s + 1 * 1) as Hlt by lra.
      pose proof (Hw _ _ _ _ _ _ Hlt E0 E1).
      assert (/ (h1 - h0) < 0) by (apply Rinv_lt_0_compat; lra). unfold Rdiv. lra.
    - assert (pressure s + -1 * 1 < pressure s) as Hlt by lra.
      pose proof (Hw _ _ _ _ _ _ Hlt E1 E0).
      assert (0 < / (h1 - h0)) by (apply Rinv_0_lt_compat; lra). unfold Rdiv. lra. }
  set (slope := direction s * 1 / (h1 - h0)) in *.
  split; [|split]; intro Hl.
  - specialize (Hpos ltac:(lra)). destruct Hcase as [[_ Ed]|[? _]]; [|lra].
    rewrite Ed in Hnp. 
    assert (slope * (1 * v) < 0) by (apply Rmult_neg_pos; [exact Hslope|lra]).
    assert (slope * (1 * v) * dt < 0) by (apply Rmult_neg_pos; assumption). lra.
  - specialize (Hpos ltac:(lra)). destruct Hcase as [[? _]|[_ Ed]]; [lra|].
    rewrite Ed in Hnp. 
    assert (0 < - slope * v) by (apply Rmult_lt_0_compat; lra).
    assert (0 < slope * (-1 * v)) by lra.
    assert (0 < slope * (-1 * v) * dt) by (apply Rmult_lt_0_compat; assumption). lra.
  - rewrite (Hz Hl) in Hnp. subst np. ring.
Qed.
