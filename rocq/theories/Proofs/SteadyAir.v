(** The air around a flight: the lookups answer, the vertical speed is bounded and the
    balloon stays between 4400 and 32000 Pa. *)
From Coq Require Import ZArith Reals Lra Lia Psatz List.
From Verif Require Import Model.Num Model.Balloon Model.Atmosphere Model.Env Spec.AtmosphereSpec Spec.Envelope Spec.Buoyancy
  Proofs.NumR Proofs.AtmosphereProofs Proofs.BuoyancyProofs Proofs.FloatAtmosphere Proofs.MotionProofs
  Props.AtmosphereProps Props.SamplingProps Props.ResetProps.
Open Scope R_scope.

Lemma air_lookup alpha p : 0 <= alpha <= 1 -> 1000 <= p <= 108870.8213 ->
  exists h t, profile_of (atmosphere_reset alpha) p = Some (h, t) /\ 165 <= t <= 300.
Proof.
  intros Ha Hp. destruct (top_pressure alpha Ha) as (vt & Et & Ht).
  pose proof (round_trip_height alpha Ha _ _ Et) as Rt.
  pose proof (at_pressure_some alpha _ _ Rt) as (Rt1 & _).
  destruct (Atmosphere.at_pressure_loop HEIGHT_TRANSITIONS (lapse_rates (atmosphere_reset alpha))
     (temp_transitions (atmosphere_reset alpha)) (press_transitions (atmosphere_reset alpha)) p) as [h t] eqn:E.
  pose proof (at_pressure_make alpha p h t ltac:(lra) E) as M.
  exists h, t. unfold profile_of. rewrite M. split; [reflexivity|].
  pose proof (round_trip_pressure alpha Ha _ _ M) as R1. cbn [v_height] in R1.
  destruct (at_height_some alpha _ _ R1) as (Hh & _).
  destruct (C16_temperature_and_density alpha _ _ Ha R1) as (ET & _). cbn [v_temperature] in ET. rewrite ET.
  split; [exact (profile_low alpha h Ha)|]. apply profile_300; [exact Ha|lra].
Qed.

Lemma height_gap alpha p q h h' t t' : 0 <= alpha <= 1 -> p < q < 108870 ->
  profile_of (atmosphere_reset alpha) p = Some (h, t) -> profile_of (atmosphere_reset alpha) q = Some (h', t') ->
  4829 * (q - p) <= (h - h') * q /\ 0 < q /\ h' < h.
Proof.
  intros Ha Hpq. unfold profile_of.
  destruct (Atmosphere.at_pressure (atmosphere_reset alpha) p) as [v|] eqn:E; [|discriminate].
  destruct (Atmosphere.at_pressure (atmosphere_reset alpha) q) as [v'|] eqn:E'; [|discriminate].
  intros [= <- <-] [= <- <-].
  pose proof (antitone_lookup alpha Ha _ _ _ _ E E' ltac:(lra)) as L.
  pose proof (round_trip_pressure alpha Ha _ _ E) as R1. pose proof (round_trip_pressure alpha Ha _ _ E') as R2.
  destruct (at_pressure_some alpha _ _ E) as (_ & P1 & _). destruct (at_pressure_some alpha _ _ E') as (_ & P2 & _).
  destruct (at_height_some alpha _ _ R1) as (H1 & _). destruct (at_height_some alpha _ _ R2) as (H2 & _).
  destruct (C16_values_positive alpha _ _ Ha R1) as (_ & [Pp _] & _).
  destruct (C16_values_positive alpha _ _ Ha R2) as (_ & [Pq _] & _). rewrite P1 in Pp. rewrite P2 in Pq.
  assert (B : -610 < v_height v').
  { destruct H2 as [[S| S] _]; [exact S|]. exfalso. pose proof (proj1 (bottom alpha Ha)) as Bt. unfold pressure_at in Bt.
    rewrite S, R2, P2 in Bt. lra. }
  destruct (log_pressure alpha (v_height v') (v_height v) v' v Ha ltac:(lra) ltac:(lra) R2 R1) as (z & Hz & Ez).
  rewrite P1, P2 in Ez. split; [|split; [lra|exact L]].
  assert (Ln : (q - p) / q <= ln q - ln p).
  { assert (D : ln (p / q) <= p / q - 1).
    { pose proof (exp_ineq1_le (ln (p / q))) as X. rewrite exp_ln in X by (apply Rdiv_lt_0_compat; lra). lra. }
    unfold Rdiv in D at 1. rewrite ln_mult, ln_Rinv in D; [|lra|lra|apply Rinv_0_lt_compat; lra].
    replace ((q - p) / q) with (1 - p / q) by (field; lra). lra. }
  pose proof (profile_low alpha z Ha) as T1. pose proof gradient_range as G.
  set (T := temperature_profile alpha z) in *. clearbody T.
  assert (K : gradient / T <= 1 / 4829).
  { apply Rmult_le_reg_r with T; [lra|]. unfold Rdiv at 1. rewrite Rmult_assoc, Rinv_l by lra. lra. }
  set (d := v_height v - v_height v') in *. assert (Hd : 0 < d) by (unfold d; lra).
  assert (M : gradient / T * d <= 1 / 4829 * d) by (apply Rmult_le_compat_r; lra).
  rewrite Ez in Ln. assert (W : (q - p) / q * q <= 1 / 4829 * d * q) by (apply Rmult_le_compat_r; lra).
  replace ((q - p) / q * q) with (q - p) in W by (field; lra). lra.
Qed.

Lemma envelope_section V : 1804 <= V <= 1852 -> 148 <= Rpower V (2 / 3) /\ V <= 12.52 * Rpower V (2 / 3).
Proof.
  intro HV. assert (L : 148 <= Rpower V (2 / 3)).
  { set (x := Rpower V (2 / 3)). assert (Hx : 0 < x) by apply exp_pos.
    assert (E : x ^ 3 = V ^ 2).
    { unfold x. rewrite <- (Rpower_pow 3) by apply exp_pos. rewrite Rpower_mult.
      replace (2 / 3 * INR 3) with (INR 2) by (cbn; lra). apply Rpower_pow. lra. }
    clearbody x. apply Rnot_lt_le. intro B.
    assert (x ^ 3 <= 148 ^ 3) by (apply pow_incr; lra).
    assert (1804 ^ 2 <= V ^ 2) by (apply pow_incr; lra). lra. }
  split; [exact L|]. lra.
Qed.

(** Ten seconds of vertical motion. *)
Lemma vertical_step alpha p q Ta V n v : 0 <= alpha <= 1 -> 4400 <= p <= 32000 -> 165 <= Ta <= 300 -> 1804 <= V <= 1852 ->
  0 <= n <= 15200 ->
  let lift := displaced_mass p Ta V - total_mass 6830 n 68.5 92.5 in
  terminal_speed (air_density p Ta) 0.25 V (lift * g) v ->
  forall h0 t0 h1 t1 dir, dir = (if Rle_dec 0 lift then 1 else -1) ->
  profile_of (atmosphere_reset alpha) p = Some (h0, t0) -> profile_of (atmosphere_reset alpha) (p + dir) = Some (h1, t1) ->
  q = p + dir / (h1 - h0) * (dir * v) * 10 ->
  4400 <= q <= 32000 /\ p <= 1.07 * q + 1.
Proof.
  intros Ha Hp HT HV Hn lift [Hv Hf] h0 t0 h1 t1 dir Hdir E0 E1 Eq.
  unfold lift, displaced_mass, air_density, total_mass, helium_molar_mass, air_molar_mass, gas_constant, g in *.
  destruct (envelope_section V HV) as [S1 S2]. set (A := Rpower V (2 / 3)) in *. clearbody A.
  set (M := 0.004002602 * 6830 + 0.028964922481160 * n + 68.5 + 92.5) in *.
  assert (HM : 188.3 <= M <= 628.7) by (unfold M; lra). clearbody M.
  set (rho := p * 0.028964922481160 / (8.3144621 * Ta)) in *.
  assert (Er : rho * (8.3144621 * Ta) = p * 0.02896492248116) by (unfold rho; field_simplify; lra).
  assert (Hr : 0 < rho) by (unfold rho; apply Rdiv_lt_0_compat; lra). clearbody rho.
  clear lift.
  destruct (Rle_dec 0 (rho * V - M)) as [L|L]; subst dir.
  - (* rises *)
    destruct (height_gap alpha p (p + 1) h0 h1 t0 t1 Ha ltac:(lra) E0 E1) as (G1 & _ & G2).
    rewrite Rabs_right in Hf by (apply Rle_ge; apply Rmult_le_pos; lra).
    assert (P4 : 4800 <= p).
    { assert (188.3 * (8.3144621 * 165) <= M * (8.3144621 * Ta)) by (apply Rmult_le_compat; lra).
      assert (M * (8.3144621 * Ta) <= rho * V * (8.3144621 * Ta)) by (apply Rmult_le_compat_r; lra).
      replace (rho * V * (8.3144621 * Ta)) with (p * 0.02896492248116 * V) in * by (rewrite <- Er; ring).
      assert (p * 0.02896492248116 * V <= p * 0.02896492248116 * 1852) by (apply Rmult_le_compat_l; lra). lra. }
    assert (V2 : v * v <= 31.4 * 31.4).
    { assert (X : rho * A * (v * v) <= rho * A * (31.4 * 31.4)).
      { assert (rho * V <= rho * (12.52 * A)) by (apply Rmult_le_compat_l; lra). lra. }
      apply Rmult_le_reg_l with (rho * A); [apply Rmult_lt_0_compat; lra|exact X]. }
    assert (V1 : v <= 31.4) by nra.
    set (d := h0 - h1) in *. assert (Hd : 0 < d) by (unfold d; lra).
    assert (Eq' : q = p - v * 10 / d) by (rewrite Eq; unfold d; field; lra).
    assert (B : v * 10 / d <= 0.06503 * (p + 1)).
    { apply Rmult_le_reg_r with d; [exact Hd|]. unfold Rdiv. rewrite Rmult_assoc, Rinv_l by lra. lra. }
    assert (B0 : 0 <= v * 10 / d) by (apply Rmult_le_pos; [lra|left; apply Rinv_0_lt_compat; exact Hd]).
    lra.
  - (* sinks *)
    destruct (height_gap alpha (p + -1) p h1 h0 t1 t0 Ha ltac:(lra) E1 E0) as (G1 & _ & G2).
    rewrite Rabs_left in Hf by lra.
    assert (P3 : p <= 30020).
    { assert (M * (8.3144621 * Ta) <= 628.7 * (8.3144621 * 300)) by (apply Rmult_le_compat; lra).
      assert (rho * V * (8.3144621 * Ta) <= M * (8.3144621 * Ta)) by (apply Rmult_le_compat_r; lra).
      replace (rho * V * (8.3144621 * Ta)) with (p * 0.02896492248116 * V) in * by (rewrite <- Er; ring).
      assert (p * 0.02896492248116 * 1804 <= p * 0.02896492248116 * V) by (apply Rmult_le_compat_l; lra). lra. }
    set (d := h1 - h0) in *. assert (Hd : 0 < d) by (unfold d; lra).
    assert (Eq' : q = p + v * 10 / d) by (rewrite Eq; unfold d; field; lra).
    assert (B0 : 0 <= v * 10 / d) by (apply Rmult_le_pos; [lra|left; apply Rinv_0_lt_compat; exact Hd]).
    assert (B : v * 10 / d <= v * 10 * p / 4829).
    { apply Rmult_le_reg_r with d; [exact Hd|]. unfold Rdiv at 1. rewrite Rmult_assoc, Rinv_l by lra.
      assert (v * 4829 <= v * (d * p)) by (apply Rmult_le_compat_l; lra). lra. }
    assert (V2 : p * (v * v) <= 2.88e7).
    { assert (X1 : rho * A * (v * v) <= 8 * 9.80665 * M).
      { assert (0 <= rho * V) by (apply Rmult_le_pos; lra). lra. }
      assert (X2 : rho * 148 * (v * v) <= rho * A * (v * v)).
      { apply Rmult_le_compat_r; [apply Rle_0_sqr|]. apply Rmult_le_compat_l; lra. }
      assert (X3 : rho * (v * v) * (8.3144621 * Ta) <= 8 * 9.80665 * M / 148 * (8.3144621 * Ta)) by (apply Rmult_le_compat_r; lra).
      replace (rho * (v * v) * (8.3144621 * Ta)) with (p * 0.02896492248116 * (v * v)) in X3 by (rewrite <- Er; ring).
      assert (X4 : 8 * 9.80665 * M / 148 * (8.3144621 * Ta) <= 8 * 9.80665 * 628.7 / 148 * (8.3144621 * 300)) by (apply Rmult_le_compat; lra).
      lra. }
    set (y := v * p). assert (Y : y <= 930000).
    { assert (y * y <= 2.88e7 * 30020).
      { unfold y. replace (v * p * (v * p)) with (p * (v * v) * p) by ring. apply Rmult_le_compat; try lra.
        apply Rmult_le_pos; [lra|apply Rle_0_sqr]. }
      assert (0 <= y) by (apply Rmult_le_pos; lra). nra. }
    replace (v * 10 * p / 4829) with (y * 10 / 4829) in B by (unfold y; field). lra.
Qed.
