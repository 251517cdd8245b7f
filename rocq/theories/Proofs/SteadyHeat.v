(** The temperature of the gas stays between 165 and 400 K: one Euler step of ten
    seconds at the pressures of a flight. *)
From Coq Require Import Reals Lra Lia Psatz.
From Verif Require Import Model.Num Model.Solar Model.Thermal Model.StableInit Spec.ThermalSpec
  Proofs.NumR Proofs.SolarProofs Proofs.ThermalProofs Proofs.ColdStart Proofs.RealSun Proofs.NewtonConvex
  Proofs.Convection Proofs.EmissionSlope Proofs.FloatTemperature Proofs.FloatBalance Props.ThermalProps.
Open Scope R_scope.

Lemma flight_radius V : 1804 <= V <= 1852 -> 15.09 <= 2 * ball_radius V <= 15.25.
Proof.
  intro HV. pose proof PI_precise as Pi. unfold ball_radius. set (q := 3 * V / (4 * PI)).
  assert (Hq : 0 < q) by (unfold q; apply Rdiv_lt_0_compat; lra).
  assert (Eq : q * PI = 3 / 4 * V) by (unfold q; field; lra).
  assert (E : Rpower q (1 / 3) ^ 3 = q).
  { rewrite <- Rpower_pow by apply exp_pos. rewrite Rpower_mult.
    replace (1 / 3 * INR 3) with 1 by (cbn; lra). apply Rpower_1. exact Hq. }
  set (x := Rpower q (1 / 3)) in *. assert (Hx : 0 < x) by apply exp_pos. clearbody x.
  assert (B : 430.5 <= q <= 442.5) by (split; nra).
  split; apply Rnot_lt_le; intro L.
  - assert (x ^ 3 <= 7.545 ^ 3) by (apply pow_incr; lra). lra.
  - assert (7.625 ^ 3 <= x ^ 3) by (apply pow_incr; lra). lra.
Qed.
Lemma flight_factor V : 1804 <= V <= 1852 -> 0 < 4 * PI * ball_radius V ^ 2 / (1500 * 68.5) <= 0.0072.
Proof.
  intro HV. pose proof PI_precise as Pi. pose proof (flight_radius V HV) as Hr. set (x := ball_radius V) in *.
  assert (0 < x ^ 2 <= 7.625 ^ 2) by (split; [apply pow_lt|apply pow_incr]; lra).
  assert (0 < PI * x ^ 2 <= 3.142 * 7.625 ^ 2) by (split; [apply Rmult_lt_0_compat|apply Rmult_le_compat]; lra). lra.
Qed.

Lemma flight_scale V Ta : 1804 <= V <= 1852 -> 165 <= Ta <= 300 -> 0 < heat_scale (ball_radius V) Ta <= 0.00176.
Proof.
  intros HV HT. pose proof (flight_radius V HV) as Hr. unfold heat_scale.
  set (D := 2 * ball_radius V) in *. clearbody D. set (x := Ta / 273.15).
  assert (Hx : 0 < x <= 1.1) by (unfold x; lra). clearbody x.
  assert (B : 0 < Rpower x 0.9 <= 1.1).
  { split; [apply exp_pos|]. destruct (Rle_dec x 1) as [L|G].
    - assert (Rpower x 0.9 <= 1); [|lra]. unfold Rpower. rewrite <- exp_0. apply exp_le.
      assert (ln x <= 0); [|lra]. rewrite <- ln_1. destruct L as [L| ->]; [left; apply ln_increasing; lra|lra].
    - apply Rle_trans with (Rpower x 1); [|rewrite Rpower_1; lra]. apply Rle_Rpower; lra. }
  split.
  - apply Rdiv_lt_0_compat; lra.
  - apply Rmult_le_reg_r with D; [lra|]. unfold Rdiv. rewrite Rmult_assoc, Rinv_l by lra. lra.
Qed.

Lemma flight_rayleigh V Ta p : 1804 <= V <= 1852 -> 165 <= Ta <= 300 -> 0 < p <= 32000 ->
  0 < rayleigh1 (ball_radius V) Ta p <= 5.8e11.
Proof.
  intros HV HT Hp. pose proof (flight_radius V HV) as Hr. set (q := p / Ta).
  assert (Hq : 0 < q <= 194).
  { unfold q. split; [apply Rdiv_lt_0_compat; lra|]. apply Rmult_le_reg_r with Ta; [lra|].
    unfold Rdiv. rewrite Rmult_assoc, Rinv_l by lra. lra. }
  assert (Ep : p = q * Ta) by (unfold q; field; lra). clearbody q.
  assert (E : rayleigh1 (ball_radius V) Ta p = number * (2 * ball_radius V) ^ 3 * (0.804 - 3.25e-4 * Ta) * q ^ 2 * ((Ta + 110.4) / Ta ^ 2) ^ 2).
  { unfold rayleigh1, viscosity2, number, T_AIR_MOLAR_MASS, T_GAS_CONSTANT. rewrite Ep.
    generalize (2 * ball_radius V) 0.804 3.25e-4. intros D x y.
    assert (E : q * Ta * 0.028964922481160 / (8.3144621 * Ta) = q * (0.02896492248116 / 8.3144621)).
    { replace (q * Ta * 0.028964922481160) with (q * 0.02896492248116 * Ta) by lra.
      field_simplify; [|lra|lra]. lra. }
    rewrite E. set (m := 0.02896492248116 / 8.3144621). generalize 9.80665. intro g.
    assert (W : 1.458e-6 <> 0) by lra. revert W. generalize 1.458e-6. intros w W.
    assert (Z : Ta + 110.4 <> 0) by lra. revert Z. set (b := Ta + 110.4). intro Z.
    clearbody b m. assert (Y : Ta <> 0) by lra. field. repeat split; assumption. }
  rewrite E. pose proof number_range as N. set (D := 2 * ball_radius V) in *. clearbody D.
  assert (B : 0 < (Ta + 110.4) / Ta ^ 2 <= 0.01012).
  { assert (T2 : 0 < Ta ^ 2) by (apply pow_lt; lra). split; [apply Rdiv_lt_0_compat; lra|].
    apply Rmult_le_reg_r with (Ta ^ 2); [exact T2|]. unfold Rdiv. rewrite Rmult_assoc, Rinv_l by lra. nra. }
  set (b := (Ta + 110.4) / Ta ^ 2) in *. clearbody b. set (n := number) in *. clearbody n.
  assert (X1 : 0 < D ^ 3 <= 15.25 ^ 3) by (split; [apply pow_lt|apply pow_incr]; lra).
  assert (X2 : 0 < q ^ 2 <= 194 ^ 2) by (split; [apply pow_lt|apply pow_incr]; lra).
  assert (X3 : 0 < b ^ 2 <= 0.01012 ^ 2) by (split; [apply pow_lt|apply pow_incr]; lra).
  set (x1 := D ^ 3) in *. set (x2 := q ^ 2) in *. set (x3 := b ^ 2) in *. clearbody x1 x2 x3.
  set (pr := 0.804 - 3.25e-4 * Ta). assert (Hpr : 0 < pr <= 0.7504) by (unfold pr; lra). clearbody pr.
  assert (P1 : 0 < n * x1 <= 55.99e6 * 15.25 ^ 3) by (split; [apply Rmult_lt_0_compat|apply Rmult_le_compat]; lra).
  assert (P2 : 0 < n * x1 * pr <= 55.99e6 * 15.25 ^ 3 * 0.7504) by (split; [apply Rmult_lt_0_compat|apply Rmult_le_compat]; lra).
  assert (P3 : 0 < n * x1 * pr * x2 <= 55.99e6 * 15.25 ^ 3 * 0.7504 * 194 ^ 2) by (split; [apply Rmult_lt_0_compat|apply Rmult_le_compat]; lra).
  assert (P4 : 0 < n * x1 * pr * x2 * x3 <= 55.99e6 * 15.25 ^ 3 * 0.7504 * 194 ^ 2 * 0.01012 ^ 2) by (split; [apply Rmult_lt_0_compat|apply Rmult_le_compat]; lra).
  lra.
Qed.

Lemma flight_convection V Ta p d : 1804 <= V <= 1852 -> 165 <= Ta <= 300 -> 0 < p <= 32000 -> 0 <= d <= 235 ->
  0 <= coefficient (heat_scale (ball_radius V) Ta) (rayleigh1 (ball_radius V) Ta p) d <= 2.8.
Proof.
  intros HV HT Hp Hd. destruct (flight_scale V Ta HV HT) as [H1 H2]. destruct (flight_rayleigh V Ta p HV HT Hp) as [G1 G2].
  split; [left; apply coefficient_pos; lra|].
  assert (M : 0 <= rayleigh1 (ball_radius V) Ta p * d <= 5.8e11 * 235)
    by (split; [apply Rmult_le_pos|apply Rmult_le_compat]; lra).
  apply (coefficient_upper _ _ H1 G1 d 0.00176 3420 4); try lra.
Qed.

Lemma emitted_lipschitz t t' : 165 <= t -> t <= t' -> t' <= 400 -> 0 <= emitted t' - emitted t <= 5 * (t' - t).
Proof.
  intros H L H'. split; [pose proof (emitted_mono t t' ltac:(lra) L ltac:(lra)); lra|].
  unfold emitted. rewrite !eps_film_value. unfold radiated.
  set (a := film_ir t). set (a' := film_ir t').
  assert (Ha : 0.0354 <= a <= 0.09) by (unfold a, film_ir; lra). assert (Ha' : 0.0354 <= a' <= 0.09) by (unfold a', film_ir; lra).
  assert (Da : a' - a = 0.000232 * (t' - t)) by (unfold a, a', film_ir; lra). clearbody a a'.
  set (e := a * (2 - a / 0.9709)). set (e' := a' * (2 - a' / 0.9709)).
  assert (He : 0 <= e <= 0.18) by (unfold e; split; nra).
  assert (De : 0 <= e' - e <= 0.000464 * (t' - t)).
  { assert (Q : e' - e = (a' - a) * (2 - (a' + a) / 0.9709)) by (unfold e, e'; lra).
    rewrite Q, Da. assert (0 <= 2 - (a' + a) / 0.9709 <= 2) by lra. nra. }
  clearbody e e'. set (s := 5.6704 / 10 ^ 8). assert (Hs : 0 < s <= 5.6704 / 10 ^ 8) by (unfold s; lra). clearbody s.
  assert (P : t' ^ 4 - t ^ 4 = (t' - t) * ((t' + t) * (t' ^ 2 + t ^ 2))) by ring.
  assert (B2 : 0 <= t ^ 2 <= 160000 /\ 0 <= t' ^ 2 <= 160000) by (split; nra).
  assert (B3 : 0 <= (t' + t) * (t' ^ 2 + t ^ 2) <= 256000000).
  { split; [apply Rmult_le_pos; lra|]. replace 256000000 with (800 * 320000) by lra. apply Rmult_le_compat; lra. }
  assert (B4 : 0 <= t' ^ 4 <= 25600000000).
  { replace (t' ^ 4) with (t' ^ 2 * t' ^ 2) by ring. split; [nra|]. replace 25600000000 with (160000 * 160000) by lra. apply Rmult_le_compat; lra. }
  replace (s * t' ^ 4 * e' - s * t ^ 4 * e) with (s * t' ^ 4 * (e' - e) + s * (t' ^ 4 - t ^ 4) * e) by ring.
  rewrite P. set (d := t' - t) in *. assert (Hd : 0 <= d) by (unfold d; lra). clearbody d.
  set (z := (t' + t) * (t' ^ 2 + t ^ 2)) in *. clearbody z. set (f := t' ^ 4) in *. clearbody f. clear P.
  assert (S1 : 0 <= s * f <= 1452) by (split; [apply Rmult_le_pos; lra|]; apply Rle_trans with (5.6704 / 10 ^ 8 * 25600000000); [apply Rmult_le_compat; lra|lra]).
  assert (S2 : 0 <= s * z <= 14.6) by (split; [apply Rmult_le_pos; lra|]; apply Rle_trans with (5.6704 / 10 ^ 8 * 256000000); [apply Rmult_le_compat; lra|lra]).
  assert (S3 : s * f * (e' - e) <= 1452 * (0.000464 * d)) by (apply Rmult_le_compat; lra).
  assert (S4 : s * z * e <= 14.6 * 0.18) by (apply Rmult_le_compat; lra).
  replace (s * (d * z) * e) with (s * z * e * d) by ring.
  assert (S5 : s * z * e * d <= 14.6 * 0.18 * d) by (apply Rmult_le_compat_r; lra). lra.
Qed.

(** One step: the rate exists, the temperature stays in its band and grows by less
    than a half. *)
Lemma heat_step V Ta p el sun f t : 1804 <= V <= 1852 -> 165 <= Ta <= 300 -> 0 < p <= 32000 -> -90 <= el <= 90 ->
  0 <= sun <= 1432 -> 225 <= f <= 315 -> 165 <= t <= 400 ->
  exists rate, d_balloon_temperature_dt V 68.5 t Ta p el sun f = Some rate /\
    165 <= t + rate * 10 <= 400 /\ t + rate * 10 <= 1.5 * t.
Proof.
  intros HV HT Hp Hel Hs Hf Ht.
  destruct (ground_temperature f ltac:(lra)) as (Te & Ef & HTe).
  destruct (rate_closed V 68.5 Ta p el sun Te ltac:(lra) ltac:(lra) ltac:(lra) ltac:(lra) Hel ltac:(lra)) as (att & Hatt & Q).
  cbv zeta in Q. specialize (Q t ltac:(lra)). rewrite Ef in Q. rewrite Q. eexists. split; [reflexivity|].
  pose proof (gain_range f sun att Te Hf Ef HTe Hs Hatt) as HA.
  set (A := 0.25 * sun * att * _ + _) in *. clearbody A.
  pose proof (flight_factor V HV) as Hc. set (c := 4 * PI * ball_radius V ^ 2 / (1500 * 68.5)) in *. clearbody c.
  unfold loss, flow.
  assert (Hd : 0 <= Rabs (Ta - t) <= 235) by (split; [apply Rabs_pos|]; unfold Rabs; destruct (Rcase_abs (Ta - t)); lra).
  pose proof (flight_convection V Ta p _ HV HT Hp Hd) as Hk.
  set (k := coefficient _ _ _) in *. clearbody k.
  pose proof (emitted_lipschitz 165 t ltac:(lra) ltac:(lra) ltac:(lra)) as L1.
  pose proof (emitted_lipschitz t 400 ltac:(lra) ltac:(lra) ltac:(lra)) as L2.
  pose proof emitted_165 as E1. pose proof emitted_400 as E2. pose proof (emitted_pos t ltac:(lra)) as E0.
  set (em := emitted t) in *. set (e1 := emitted 165) in *. set (e2 := emitted 400) in *. clearbody em e1 e2.
  clear Q Hel Hatt Ef Hf Hs Hp.
  destruct (Rle_dec Ta t) as [L|L].
  - assert (F : 0 <= k * (t - Ta) <= 2.8 * (t - 165)) by (split; [apply Rmult_le_pos|apply Rmult_le_compat]; lra).
    set (w := k * (t - Ta)) in *. clearbody w.
    assert (X1 : c * (em + w - A) <= c * (7.8 * (t - 165))) by (apply Rmult_le_compat_l; lra).
    assert (X2 : c * (7.8 * (t - 165)) <= 0.0072 * (7.8 * (t - 165))) by (apply Rmult_le_compat_r; lra).
    assert (X3 : c * (- (em + w - A)) <= c * (5 * (400 - t))) by (apply Rmult_le_compat_l; lra).
    assert (X4 : c * (5 * (400 - t)) <= 0.0072 * (5 * (400 - t))) by (apply Rmult_le_compat_r; lra).
    assert (X5 : c * (- (em + w - A)) <= c * 27.7) by (apply Rmult_le_compat_l; lra).
    rewrite Ropp_mult_distr_r_reverse in X3, X5 |- *. lra.
  - assert (F : 0 <= k * (Ta - t) <= 2.8 * (Ta - t)) by (split; [apply Rmult_le_pos|apply Rmult_le_compat]; lra).
    replace (k * (t - Ta)) with (- (k * (Ta - t))) by ring.
    set (w := k * (Ta - t)) in *. clearbody w.
    assert (X1 : c * (em - w - A) <= c * (5 * (t - 165))) by (apply Rmult_le_compat_l; lra).
    assert (X2 : c * (5 * (t - 165)) <= 0.0072 * (5 * (t - 165))) by (apply Rmult_le_compat_r; lra).
    assert (X3 : c * (- (em + - w - A)) <= c * (27.7 + 2.8 * (Ta - t))) by (apply Rmult_le_compat_l; lra).
    assert (X4 : c * (27.7 + 2.8 * (Ta - t)) <= 0.0072 * (27.7 + 2.8 * (Ta - t))) by (apply Rmult_le_compat_r; lra).
    replace (em - w - A) with (em + - w - A) in X1 by ring.
    rewrite Ropp_mult_distr_r_reverse in X3 |- *. lra.
Qed.
