(** The temperature the search finds for the default balloon near the two ends of its
    pressure range. *)
From Coq Require Import Reals Lra Lia Psatz.
From Verif Require Import Model.Num Model.Solar Model.Thermal Model.StableInit Spec.ThermalSpec
  Proofs.NumR Proofs.SolarProofs Proofs.ThermalProofs Proofs.ColdStart Proofs.RealSun Proofs.NewtonConvex
  Proofs.Convection Proofs.EmissionSlope Proofs.FloatTemperature Props.ThermalProps.
Open Scope R_scope.

(** ** The rate of the code, in closed form *)
Definition ball_radius (V : R) : R := Rpower (3 * V / (4 * PI)) (1 / 3).
Lemma rate_closed V m ambient p el sun Te :
  0 < V -> 0 < m -> 0 < ambient <= 2473 -> 0 <= p <= 101325 -> -90 <= el <= 90 -> 13 <= Te <= 4000 ->
  exists att, 0 <= att <= 1 /\
    let radius := ball_radius V in
    let A := 0.25 * sun * att * eps film_solar film_reflectivity + 0.4605 * emitted Te in
    let h := heat_scale radius ambient in let G := rayleigh1 radius ambient p in
    forall t, 13 <= t <= 4000 ->
      d_balloon_temperature_dt V m t ambient p el sun (radiated Te) =
      Some (4 * PI * radius ^ 2 / (1500 * m) * (- loss ambient h G A t)).
Proof.
  intros HV Hm Ha Hp Hel HTe. pose proof PI_RGT_0 as Hpi.
  set (q := 3 * V / (4 * PI)). assert (Hq : 0 < q) by (unfold q; apply Rdiv_lt_0_compat; lra).
  assert (Hr : 0 < ball_radius V) by apply exp_pos.
  destruct (Proofs.SolarProofs.attenuation_range el p Hel Hp) as (att & Eatt & Hatt & _).
  assert (Hs : total_absorptivity PE01_ABSORPTIVITY_SOLAR PE01_REFLECTIVITY = Some (eps film_solar film_reflectivity)).
  { apply total_absorptivity_spec. unfold PE01_REFLECTIVITY, PE01_ABSORPTIVITY_SOLAR, film_solar, film_reflectivity.
    split; [lra|]. split; [reflexivity|]. apply eps_range; lra. }
  assert (Hf : forall T, 13 <= T <= 4000 ->
            total_absorptivity (absorptivity_ir T) PE01_REFLECTIVITY = Some (eps (film_ir T) film_reflectivity)).
  { intros T HT. apply total_absorptivity_spec.
    change (absorptivity_ir T) with (film_ir T). change PE01_REFLECTIVITY with film_reflectivity.
    split; [unfold film_reflectivity; lra|]. split; [reflexivity|].
    pose proof (eps_film_range T HT). lra. }
  exists att. split; [exact Hatt|]. intros radius A h G t Ht.
  destruct C55_black_body as (F1 & F2 & F3 & _).
  unfold d_balloon_temperature_dt. fold q. rewrite pow_pos_some by exact Hq. change (Rpower q (1 / 3)) with radius.
  rewrite Eatt, Hs. rewrite <- F1, F3 by lra. rewrite (Hf Te HTe), (Hf t Ht).
  rewrite (convective_value radius ambient p t Hr Ha). rewrite !F1.
  fold h. fold G. unfold loss, flow. set (kk := coefficient h G (Rabs (ambient - t))).
  unfold A. unfold emitted, SOLAR_VIEW_FACTOR, EARTH_VIEW_FACTOR, PE01_FILM_SPECIFIC_HEAT.
  set (es := eps film_solar film_reflectivity). set (ee := eps (film_ir Te) film_reflectivity).
  set (et := eps (film_ir t) film_reflectivity).
  clearbody kk es ee et. clear. generalize 0.25 0.4605 (radiated Te) (radiated t). intros. f_equal. unfold Rdiv. ring.
Qed.

(** ** The default envelope *)
Lemma default_radius : 15.09 <= 2 * ball_radius 1804 <= 15.11.
Proof.
  pose proof PI_precise as Pi. unfold ball_radius. set (q := 3 * 1804 / (4 * PI)).
  assert (Hq : 0 < q) by (unfold q; apply Rdiv_lt_0_compat; lra).
  assert (Eq : q * PI = 1353) by (unfold q; field; lra).
  assert (E : Rpower q (1 / 3) ^ 3 = q).
  { rewrite <- Rpower_pow by apply exp_pos. rewrite Rpower_mult.
    replace (1 / 3 * INR 3) with 1 by (cbn; lra). apply Rpower_1. exact Hq. }
  assert (P : 0 < Rpower q (1 / 3)) by apply exp_pos. set (x := Rpower q (1 / 3)) in *. clearbody x.
  assert (Q : 430.6 <= q <= 430.76) by nra.
  split; apply Rnot_lt_le; intro L.
  - assert (x ^ 3 <= 7.545 ^ 3) by (apply pow_incr; lra). lra.
  - assert (7.555 ^ 3 <= x ^ 3) by (apply pow_incr; lra). lra.
Qed.
Lemma default_factor : 0.0069 <= 4 * PI * ball_radius 1804 ^ 2 / (1500 * 68.5).
Proof.
  pose proof PI_precise as Pi. pose proof default_radius as Hr. set (x := ball_radius 1804) in *.
  assert (7.545 ^ 2 <= x ^ 2) by (apply pow_incr; lra).
  assert (3.141 * 7.545 ^ 2 <= PI * x ^ 2) by (apply Rmult_le_compat; lra). lra.
Qed.

(** Heat from the sun and the ground. *)
Lemma gain_range f sun att Te : 225 <= f <= 315 -> radiated Te = f -> 250 <= Te <= 281 ->
  0 <= sun <= 1432 -> 0 <= att <= 1 ->
  11.14 <= 0.25 * sun * att * eps film_solar film_reflectivity + 0.4605 * emitted Te <= 27.7.
Proof.
  intros Hf Ef HTe Hs Ha.
  assert (B : 250.95 <= Te <= 273.1).
  { unfold radiated in Ef. split; apply Rnot_lt_le; intro L.
    - assert (Te ^ 4 <= 250.95 ^ 4) by (apply pow_incr; lra). lra.
    - assert (273.1 ^ 4 <= Te ^ 4) by (apply pow_incr; lra). lra. }
  pose proof (emitted_mono 250.95 Te ltac:(lra) ltac:(lra) ltac:(lra)) as M1.
  pose proof (emitted_mono Te 273.1 ltac:(lra) ltac:(lra) ltac:(lra)) as M2.
  assert (E1 : 24.193 <= emitted 250.95) by emit. assert (E2 : emitted 273.1 <= 36.984) by emit.
  assert (S : 0 <= eps film_solar film_reflectivity <= 0.0285).
  { rewrite eps_closed by (unfold film_reflectivity; lra). unfold film_solar, film_reflectivity. lra. }
  assert (0 <= sun * att <= 1432) by nra.
  assert (0 <= sun * att * eps film_solar film_reflectivity <= 1432 * 0.0285).
  { split; [apply Rmult_le_pos; lra|apply Rmult_le_compat; lra]. }
  lra.
Qed.

(** ** The coefficient of convection *)
Section Coefficient.
Context (Ta q p : R).
Hypothesis HTa : 176.7 <= Ta <= 212.
Hypothesis Hq : 28 <= q <= 61.
Hypothesis Hp : p = q * Ta.
Local Notation radius := (ball_radius 1804).
Local Notation h := (heat_scale radius Ta).
Local Notation G := (rayleigh1 radius Ta p).
Definition number : R := 9.80665 * (0.02896492248116 / 8.3144621) ^ 2 / 1.458e-6 ^ 2.
Lemma number_range : 55.97e6 <= number <= 55.99e6.
Proof. unfold number. lra. Qed.
Lemma rayleigh_value : G = number * (2 * radius) ^ 3 * (0.804 - 3.25e-4 * Ta) * q ^ 2 * ((Ta + 110.4) / Ta ^ 2) ^ 2.
Proof.
  unfold rayleigh1, viscosity2, number, T_AIR_MOLAR_MASS, T_GAS_CONSTANT. rewrite Hp.
  generalize (2 * radius) 0.804 3.25e-4. intros D x y.
  assert (E : q * Ta * 0.028964922481160 / (8.3144621 * Ta) = q * (0.02896492248116 / 8.3144621)).
  { replace (q * Ta * 0.028964922481160) with (q * 0.02896492248116 * Ta) by lra.
    field_simplify; [|lra|lra]. lra. }
  rewrite E. set (m := 0.02896492248116 / 8.3144621). generalize 9.80665. intro g.
  assert (W : 1.458e-6 <> 0) by lra. revert W. generalize 1.458e-6. intros w W.
  assert (Z : Ta + 110.4 <> 0) by lra. revert Z. set (b := Ta + 110.4). intro Z.
  clearbody b m. assert (Y : Ta <> 0) by lra. field. repeat split; assumption.
Qed.
Lemma h_range : 0.0241 * (Ta / 273.15) <= h * (2 * radius) <= 0.0241 * 0.882.
Proof.
  pose proof default_radius as Hr. unfold heat_scale.
  assert (X : 0 < Ta / 273.15 < 1) by lra.
  replace (0.0241 * Rpower (Ta / 273.15) 0.9 / (2 * radius) * (2 * radius)) with (0.0241 * Rpower (Ta / 273.15) 0.9).
  2:{ generalize 0.0241. intro. field. lra. }
  set (x := Ta / 273.15) in *.
  assert (Ln : ln x < 0) by (rewrite <- ln_1; apply ln_increasing; lra).
  assert (L : x <= Rpower x 0.9).
  { rewrite <- (Rpower_1 x) at 1 by lra. unfold Rpower.
    assert (D : 1 * ln x < 0.9 * ln x) by lra. left. now apply exp_increasing. }
  assert (Up : Rpower x 0.9 <= 0.882).
  { apply Rle_trans with (Rpower x (/ 2)).
    - unfold Rpower. assert (D : 0.9 * ln x < / 2 * ln x) by lra. left. now apply exp_increasing.
    - rewrite Rpower_sqrt by lra. apply Rle_trans with (sqrt (0.882 * 0.882)).
      + apply sqrt_le_1_alt. unfold x. lra.
      + rewrite sqrt_square by lra. lra. }
  split; apply Rmult_le_compat_l; lra.
Qed.
Lemma h_pos : 0 < h.
Proof.
  unfold heat_scale. apply Rdiv_lt_0_compat; [|pose proof default_radius; lra].
  apply Rmult_lt_0_compat; [lra|apply exp_pos].
Qed.
Lemma h_upper : h <= 0.00141.
Proof.
  pose proof h_range as [_ B]. pose proof default_radius as Hr. pose proof h_pos.
  apply Rmult_le_reg_r with (2 * radius); [lra|].
  assert (0.00141 * 15.09 <= 0.00141 * (2 * radius)) by (apply Rmult_le_compat_l; lra). lra.
Qed.
Lemma G_pos : 0 < G.
Proof.
  rewrite rayleigh_value. pose proof number_range. pose proof default_radius as Hr.
  assert (0 < (2 * radius) ^ 3) by (apply pow_lt; lra). assert (0 < q ^ 2) by (apply pow_lt; lra).
  assert (0 < ((Ta + 110.4) / Ta ^ 2) ^ 2).
  { apply pow_lt. apply Rdiv_lt_0_compat; [lra|]. apply pow_lt. lra. }
  set (x1 := (2 * radius) ^ 3) in *. set (x2 := q ^ 2) in *. set (x3 := ((Ta + 110.4) / Ta ^ 2) ^ 2) in *.
  clearbody x1 x2 x3. set (n := number) in *. clearbody n.
  repeat apply Rmult_lt_0_compat; lra.
Qed.
(** [b] bounds (Ta + 110.4) / Ta^2. *)
Lemma G_upper b q' g : (Ta + 110.4) <= b * Ta ^ 2 -> q <= q' -> 0 <= b ->
  55.99e6 * 15.11 ^ 3 * 0.7467 * q' ^ 2 * b ^ 2 <= g -> G <= g.
Proof.
  intros Hb Hq' Hb0 Hg. rewrite rayleigh_value. pose proof number_range as N. pose proof default_radius as Hr.
  apply Rle_trans with (2 := Hg).
  assert (T2 : 0 < Ta ^ 2) by (apply pow_lt; lra).
  assert (B : 0 <= (Ta + 110.4) / Ta ^ 2 <= b).
  { split; [apply Rmult_le_pos; [lra|left; now apply Rinv_0_lt_compat]|].
    apply Rmult_le_reg_r with (Ta ^ 2); [exact T2|]. unfold Rdiv. rewrite Rmult_assoc, Rinv_l by lra. lra. }
  assert (0 <= (2 * radius) ^ 3 <= 15.11 ^ 3) by (split; [apply pow_le|apply pow_incr]; lra).
  assert (0 <= q ^ 2 <= q' ^ 2) by (split; [apply pow_le|apply pow_incr]; lra).
  assert (0 <= ((Ta + 110.4) / Ta ^ 2) ^ 2 <= b ^ 2) by (split; [apply pow_le|apply pow_incr]; lra).
  set (x1 := (2 * radius) ^ 3) in *. set (x2 := q ^ 2) in *. set (x3 := ((Ta + 110.4) / Ta ^ 2) ^ 2) in *.
  clearbody x1 x2 x3.
  assert (P1 : 0 <= number * x1) by (apply Rmult_le_pos; lra).
  assert (P2 : 0 <= number * x1 * (0.804 - 3.25e-4 * Ta)) by (apply Rmult_le_pos; lra).
  assert (P3 : 0 <= number * x1 * (0.804 - 3.25e-4 * Ta) * x2) by (apply Rmult_le_pos; lra).
  apply Rmult_le_compat; try lra. apply Rmult_le_compat; try lra. apply Rmult_le_compat; try lra.
  apply Rmult_le_compat; lra.
Qed.
Lemma k_upper b q' g d w0 v0 k : (Ta + 110.4) <= b * Ta ^ 2 -> q <= q' -> 0 <= b ->
  55.99e6 * 15.11 ^ 3 * 0.7467 * q' ^ 2 * b ^ 2 <= g -> 0 <= d -> 0 <= w0 -> 0 <= v0 ->
  g * d <= w0 ^ 4 -> 1 + 2.69e-8 * g * d <= v0 ^ 12 -> 0.00141 * (2 + 0.457 * w0 + v0) <= k ->
  coefficient h G d <= k.
Proof.
  intros H1 H2 H3 H4 Hd Hw Hv H5 H6 H7. pose proof (G_upper b q' g H1 H2 H3 H4) as U. pose proof G_pos.
  assert (M : G * d <= g * d) by (apply Rmult_le_compat_r; assumption).
  apply (coefficient_upper h G h_pos G_pos d 0.00141 w0 v0 k Hd h_upper Hw Hv); [lra| |exact H7].
  lra.
Qed.
Lemma k_small : coefficient h G 0.3 <= 0.6.
Proof.
  apply (k_upper 0.0091953 61 46e9 0.3 345 1.7); try lra.
  assert (0 <= (Ta - 176.7) * (Ta - 176.7)) by nra. nra.
Qed.
Lemma k_left q' d w0 : q <= q' -> 0 <= d <= 6.02 -> 0 <= w0 <= 610 -> 55.99e6 * 15.11 ^ 3 * 0.7467 * q' ^ 2 * 0.0074567 ^ 2 * d <= w0 ^ 4 ->
  205.99 < Ta -> coefficient h G d <= 0.4.
Proof.
  intros Hq' Hd Hw H Ht. set (g := 55.99e6 * 15.11 ^ 3 * 0.7467 * q' ^ 2 * 0.0074567 ^ 2).
  apply (k_upper 0.0074567 q' g d w0 2.6); try lra; try (unfold g; lra).
  - nra.
  - fold g in H. assert (w0 ^ 4 <= 610 ^ 4) by (apply pow_incr; lra). lra.
Qed.
Lemma k_lower c4 d k : 0 <= d -> 0 <= k -> c4 <= (0.804 - 3.25e-4 * Ta) * (Ta + 110.4) ^ 2 -> 0 <= c4 ->
  k ^ 4 * 15.11 * 273.15 ^ 4 <= (0.457 * 0.0241) ^ 4 * 55.97e6 * c4 * q ^ 2 * d -> k <= coefficient h G d.
Proof.
  intros Hd Hk Hc Hc0 H. apply (coefficient_lower h G h_pos G_pos d k Hd Hk).
  pose proof h_range as [HL _]. pose proof default_radius as Hr. pose proof number_range as N.
  set (D := 2 * radius) in *.
  (* multiply by D * 273.15 ^ 4 *)
  assert (HD : 0 < D) by lra.
  assert (T4 : 0 < Ta ^ 4) by (apply pow_lt; lra).
  apply Rmult_le_reg_r with (D * 273.15 ^ 4); [apply Rmult_lt_0_compat; lra|].
  apply Rle_trans with (k ^ 4 * 15.11 * 273.15 ^ 4).
  { pose proof (pow_le k 4 Hk). assert (k ^ 4 * D <= k ^ 4 * 15.11) by (apply Rmult_le_compat_l; lra).
    assert (k ^ 4 * D * 273.15 ^ 4 <= k ^ 4 * 15.11 * 273.15 ^ 4) by (apply Rmult_le_compat_r; lra). lra. }
  apply Rle_trans with (1 := H).
  rewrite rayleigh_value. fold D.
  assert (E : (0.457 * h) ^ 4 * (number * D ^ 3 * (0.804 - 3.25e-4 * Ta) * q ^ 2 * ((Ta + 110.4) / Ta ^ 2) ^ 2 * d) * (D * 273.15 ^ 4)
    = (0.457 * (h * D) * 273.15) ^ 4 / Ta ^ 4 * number * ((0.804 - 3.25e-4 * Ta) * (Ta + 110.4) ^ 2) * q ^ 2 * d).
  { generalize h 0.457 0.804 3.25e-4 273.15 110.4. intros. field. lra. }
  rewrite E.
  assert (L : (0.457 * 0.0241) ^ 4 <= (0.457 * (h * D) * 273.15) ^ 4 / Ta ^ 4).
  { apply Rmult_le_reg_r with (Ta ^ 4); [exact T4|]. unfold Rdiv. rewrite Rmult_assoc, Rinv_l, Rmult_1_r by lra.
    rewrite <- Rpow_mult_distr. apply pow_incr. lra. }
  set (z := (0.457 * (h * D) * 273.15) ^ 4 / Ta ^ 4) in *. set (y := (0.804 - 3.25e-4 * Ta) * (Ta + 110.4) ^ 2) in *.
  clearbody z y. pose proof (pow_le q 2 ltac:(lra)) as Q2.
  assert (X1 : (0.457 * 0.0241) ^ 4 * 55.97e6 <= z * number) by (apply Rmult_le_compat; lra).
  assert (X2 : (0.457 * 0.0241) ^ 4 * 55.97e6 * c4 <= z * number * y).
  { apply Rmult_le_compat; try lra. }
  assert (X3 : (0.457 * 0.0241) ^ 4 * 55.97e6 * c4 * q ^ 2 <= z * number * y * q ^ 2) by (apply Rmult_le_compat_r; lra).
  apply Rmult_le_compat_r; assumption.
Qed.
Lemma prandtl_rises Tm : 176.7 <= Tm <= Ta ->
  (0.804 - 3.25e-4 * Tm) * (Tm + 110.4) ^ 2 <= (0.804 - 3.25e-4 * Ta) * (Ta + 110.4) ^ 2.
Proof.
  intro H. set (x := Ta - Tm). assert (Hx : 0 <= x) by (unfold x; lra). replace Ta with (Tm + x) by (unfold x; ring).
  assert (HT : Tm + x <= 212) by (unfold x; lra). clearbody x.
  set (s := Tm + 110.4). assert (Hs : 287 <= s <= 323) by (unfold s; lra).
  replace (Tm + x + 110.4) with (s + x) by (unfold s; ring).
  assert (E : (0.804 - 3.25e-4 * (Tm + x)) * (s + x) ^ 2 - (0.804 - 3.25e-4 * Tm) * s ^ 2 =
    x * ((0.804 - 3.25e-4 * (Tm + x)) * (2 * s + x) - 3.25e-4 * s ^ 2)) by ring.
  enough (0 <= x * ((0.804 - 3.25e-4 * (Tm + x)) * (2 * s + x) - 3.25e-4 * s ^ 2)) by lra.
  apply Rmult_le_pos; [exact Hx|].
  assert (0.7 * 574 <= (0.804 - 3.25e-4 * (Tm + x)) * (2 * s + x)) by (apply Rmult_le_compat; lra).
  assert (s ^ 2 <= 323 ^ 2) by (apply pow_incr; lra). lra.
Qed.
End Coefficient.

(** ** The two ends *)
Section Ends.
Context (Ta q p el sun f : R).
Hypothesis Hp : p = q * Ta.
Hypothesis Hel : -90 <= el <= 90.
Hypothesis Hsun : 0 <= sun <= 1432.
Hypothesis Hf : 225 <= f <= 315.
Definition default_rate (t : R) : option R := d_balloon_temperature_dt 1804 68.5 t Ta p el sun f.

Lemma temperature_at U j T0 : 176.7 <= Ta <= 212 -> 28 <= q <= 61 -> 1 <= U <= 45 -> (j <= 3)%nat ->
  27.7 <= emitted (Ta + U) + coefficient (heat_scale (ball_radius 1804) Ta) (rayleigh1 (ball_radius 1804) Ta p) U * U ->
  (205.99 < Ta -> coefficient (heat_scale (ball_radius 1804) Ta) (rayleigh1 (ball_radius 1804) Ta p) (reach j) <= 0.4) ->
  Ta - 205.995 <= reach j -> U + 0.06 + 0.58 ^ (9 - j) * 110 <= T0 ->
  exists T, newton 10 default_rate 206 = Some T /\ Ta + 0.29 <= T <= Ta + T0.
Proof.
  intros HTa Hq HU Hj K3 K2 Hd HT0.
  destruct (ground_temperature f ltac:(lra)) as (Te & Ef & HTe).
  assert (Pp : 0 <= p <= 101325) by (rewrite Hp; nra).
  destruct (rate_closed 1804 68.5 Ta p el sun Te ltac:(lra) ltac:(lra) ltac:(lra) Pp Hel ltac:(lra)) as (att & Hatt & Hrate).
  cbv zeta in Hrate. rewrite Ef in Hrate.
  pose proof (gain_range f sun att Te Hf Ef HTe Hsun Hatt) as HA.
  destruct (float_temperature default_rate _ Ta _ _ _ (h_pos Ta) (G_pos Ta q p HTa Hq Hp) HTa
    default_factor HA Hrate U HU (k_small Ta q p HTa Hq Hp) K3 j Hj K2 Hd) as (T & E & HT).
  exists T. split; [exact E|]. lra.
Qed.
Lemma temperature_bottom : 189 <= Ta <= 208.2 -> 60 <= q <= 61 ->
  exists T, newton 10 default_rate 206 = Some T /\ Ta + 0.29 <= T <= Ta + 33.6.
Proof.
  intros HTa Hq. assert (HTa' : 176.7 <= Ta <= 212) by lra. assert (Hq' : 28 <= q <= 61) by lra.
  apply (temperature_at 31 2); try lra; try lia.
  - assert (E : 12.48 <= emitted 220) by emit. pose proof (emitted_mono 220 (Ta + 31) ltac:(lra) ltac:(lra) ltac:(lra)).
    enough (0.491 <= coefficient (heat_scale (ball_radius 1804) Ta) (rayleigh1 (ball_radius 1804) Ta p) 31) by lra.
    apply (k_lower Ta q p HTa' Hq' Hp 66500); try lra.
    + pose proof (prandtl_rises Ta HTa' 189 ltac:(lra)). lra.
    + assert (3600 <= q ^ 2) by (replace 3600 with (60 ^ 2) by ring; apply pow_incr; lra). lra.
  - apply (k_left Ta q p HTa' Hq' Hp 61 (reach 2) 570); cbn [reach]; lra.
  - cbn [reach]. lra.
  - cbn. lra.
Qed.
Lemma temperature_top : 176.7 <= Ta <= 212 -> 28.4 <= q <= 32 ->
  exists T, newton 10 default_rate 206 = Some T /\ Ta + 0.29 <= T <= Ta + 47.3.
Proof.
  intros HTa Hq. assert (Hq' : 28 <= q <= 61) by lra.
  apply (temperature_at 43 3); try lra; try lia.
  - assert (E : 12.39 <= emitted 219.7) by emit. pose proof (emitted_mono 219.7 (Ta + 43) ltac:(lra) ltac:(lra) ltac:(lra)).
    enough (0.357 <= coefficient (heat_scale (ball_radius 1804) Ta) (rayleigh1 (ball_radius 1804) Ta p) 43) by lra.
    apply (k_lower Ta q p HTa Hq' Hp 61500); try lra.
    + pose proof (prandtl_rises Ta HTa 176.7 ltac:(lra)). lra.
    + assert (806 <= q ^ 2) by (apply Rle_trans with (28.4 ^ 2); [lra|apply pow_incr; lra]). lra.
  - apply (k_left Ta q p HTa Hq' Hp 32 (reach 3) 500); cbn [reach]; lra.
  - cbn [reach]. lra.
  - cbn. lra.
Qed.
End Ends.
