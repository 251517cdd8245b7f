(** The Newton search of a cold start never leaves the range in which the
    temperature rate is defined. *)
From Coq Require Import Reals Lra Lia Psatz ZArith.
From Verif Require Import Model.Num Model.Solar Model.Thermal Model.StableInit Spec.ThermalSpec
  Proofs.NumR Proofs.SolarProofs Proofs.ThermalProofs Props.ThermalProps.
Open Scope R_scope.

(** ** The search for a rate made of convection, gains and radiation *)
Section Search.
Context (rate : R -> option R) (c Q amb : R) (k a : R -> R).
Hypothesis Hc : 0 < c.
Hypothesis Hamb : 165 <= amb <= 400.
Hypothesis Kp : forall d, 0 <= d -> 0 < k d.
Hypothesis Km : forall d d', 0 <= d <= d' -> k d <= k d'.
Hypothesis Ha_pos : forall t, 120 <= t <= 2501 -> 0 < a t.
Hypothesis Ha_slope : forall t t', 120 <= t -> t < t' -> t' <= 2501 -> 4 * a t * (t' - t) <= t * (a t' - a t).
Hypothesis Ha_cold : forall t, 120 <= t <= 165 -> a t < Q.
Hypothesis Ha_hot : forall t, 400 <= t <= 2501 -> Q < a t.
Hypothesis Ha_gain : forall t, 120 <= t <= 400 -> Q * t <= 8000 * a t.
Hypothesis Hrate : forall t, 120 <= t <= 2501 ->
  rate t = Some (c * (Q + k (Rabs (amb - t)) * (amb - t) - a t)).

Let phi (t : R) : R := k (Rabs (amb - t)) * (amb - t).

Lemma newton_stays t : 120.01 <= t <= 2500 ->
  exists t' m, newton_step rate t = Some (t', m) /\ 120.01 <= t' <= 2500.
Proof.
  intro Ht. unfold newton_step, delta_temp. replace (0.01 / 2) with 0.005 by lra.
  set (t1 := t - 0.005). set (t2 := t + 0.005).
  assert (E1 : t1 = t - 0.005) by reflexivity. assert (E2 : t2 = t + 0.005) by reflexivity.
  rewrite (Hrate t1), (Hrate t2) by lra. fold (phi t1). fold (phi t2).
  pose proof (convective_decreasing k amb t1 t2 Kp Km ltac:(lra)) as Dphi. fold (phi t1) (phi t2) in Dphi.
  pose proof (Ha_pos t1 ltac:(lra)) as A1. pose proof (Ha_slope t1 t2 ltac:(lra) ltac:(lra) ltac:(lra)) as Sl.
  replace (t2 - t1) with 0.01 in Sl by lra.
  assert (Da : 0 < a t2 - a t1) by nra.
  set (g1 := Q + phi t1 - a t1). set (g2 := Q + phi t2 - a t2).
  set (sa := (a t2 - a t1) * 100). set (sp := (phi t1 - phi t2) * 100).
  assert (Hsa : 0 < sa) by (unfold sa; lra). assert (Hsp : 0 < sp) by (unfold sp; lra).
  assert (Sl' : 4 * a t1 <= t1 * sa) by (unfold sa; nra).
  assert (Es : g1 - g2 = (sa + sp) * 0.01) by (unfold g1, g2, sa, sp; lra).
  set (m := (g1 + g2) / 2).
  assert (Hs : 0 < sa + sp) by lra.
  eexists. eexists. split; [reflexivity|].
  assert (Cg : 0 < c * (g1 - g2)) by (apply Rmult_lt_0_compat; lra).
  rewrite Rltb_true by (apply Rabs_pos_lt; assert ((c * g2 - c * g1) / 0.01 < 0) by lra; lra).
  replace (t - (c * g1 + c * g2) / 2 / ((c * g2 - c * g1) / 0.01)) with (t + m / (sa + sp)).
  2:{ replace ((c * g2 - c * g1) / 0.01) with (- (c * (sa + sp))) by (replace (c * g2 - c * g1) with (- c * (g1 - g2)) by ring; rewrite Es; lra).
      replace ((c * g1 + c * g2) / 2) with (c * m) by (unfold m; lra). field. lra. }
  assert (Esp : sp = (phi t1 - phi t2) * 100) by reflexivity.
  (* convection alone would bring the balloon to the ambient temperature *)
  assert (P1 : phi t1 <= sp * 300).
  { clearbody sp. unfold phi in *. destruct (Rle_dec t2 amb) as [L|L].
    - rewrite (Rabs_right (amb - t1)), (Rabs_right (amb - t2)) in * by lra.
      pose proof (Km (amb - t2) (amb - t1) ltac:(lra)). pose proof (Kp (amb - t1) ltac:(lra)).
      set (k1 := k (amb - t1)) in *. set (k2 := k (amb - t2)) in *.
      assert (k1 <= sp) by (rewrite Esp; nra). nra.
    - set (k1 := k (Rabs (amb - t1))) in *.
      pose proof (Kp (Rabs (amb - t2)) (Rabs_pos _)) as K2. set (k2 := k (Rabs (amb - t2))) in *.
      assert (k2 * (amb - t2) < 0) by nra. rewrite Esp. lra. }
  assert (P2 : - phi t1 <= sp * Rmax 0 (t1 - amb)).
  { clearbody sp. unfold phi in *. destruct (Rle_dec amb t1) as [L|L].
    - rewrite Rmax_right by lra. rewrite (Rabs_left1 (amb - t1)), (Rabs_left1 (amb - t2)) in * by lra.
      pose proof (Km (- (amb - t1)) (- (amb - t2)) ltac:(lra)). pose proof (Kp (- (amb - t1)) ltac:(lra)).
      set (k1 := k (- (amb - t1))) in *. set (k2 := k (- (amb - t2))) in *.
      assert (k1 <= sp) by (rewrite Esp; nra). nra.
    - rewrite Rmax_left by lra. pose proof (Kp (Rabs (amb - t1)) (Rabs_pos _)).
      set (k1 := k (Rabs (amb - t1))) in *. nra. }
  destruct (Rle_dec 0 m) as [M|M].
  - (* warming *)
    assert (0 <= m / (sa + sp)) by (apply Rmult_le_pos; [exact M|left; now apply Rinv_0_lt_compat]).
    split; [lra|].
    assert (G1 : 0 < g1) by (unfold m in M; nra).
    assert (T1 : t1 < 400).
    { apply Rnot_le_lt. intro L. pose proof (Ha_hot t1 ltac:(lra)).
      assert (phi t1 <= 0). { unfold phi. pose proof (Kp (Rabs (amb - t1)) (Rabs_pos _)). nra. }
      unfold g1 in G1. lra. }
    pose proof (Ha_gain t1 ltac:(lra)) as Gn.
    assert (Qs : Q <= sa * 2000).
    { apply Rmult_le_reg_r with t1; [lra|]. nra. }
    assert (Mm : m <= (sa + sp) * 2000) by (unfold m, g1, g2 in *; lra).
    enough (m / (sa + sp) <= 2000) by lra.
    apply Rmult_le_reg_r with (sa + sp); [lra|]. unfold Rdiv. rewrite Rmult_assoc, Rinv_l by lra. lra.
  - (* cooling *)
    assert (Dm : m / (sa + sp) <= 0).
    { assert (0 <= - m / (sa + sp)) by (apply Rmult_le_pos; [lra|left; now apply Rinv_0_lt_compat]).
      unfold Rdiv in *. lra. }
    split; [|lra].
    assert (G2 : g2 < 0) by (unfold m in M; nra).
    assert (T2 : 165 < t2).
    { apply Rnot_le_lt. intro L. pose proof (Ha_cold t2 ltac:(lra)).
      assert (0 <= phi t2). { unfold phi. pose proof (Kp (Rabs (amb - t2)) (Rabs_pos _)). nra. }
      unfold g2 in G2. lra. }
    assert (Qp : 0 < Q) by (pose proof (Ha_cold 150 ltac:(lra)); pose proof (Ha_pos 150 ltac:(lra)); lra).
    assert (Mx : Rmax 0 (t1 - amb) <= t1 - 120.01) by (apply Rmax_lub; lra).
    assert (Lo : - m <= (sa + sp) * (t - 120.01)).
    { assert (sp * Rmax 0 (t1 - amb) <= sp * (t1 - 120.01)) by (apply Rmult_le_compat_l; lra).
      assert (a t1 <= sa * (t1 - 120.01)) by nra.
      replace m with (g1 - (sa + sp) * 0.005) by (unfold m; lra).
      unfold g1. rewrite E1 in *. nra. }
    enough (- (m / (sa + sp)) <= t - 120.01) by lra.
    apply Rmult_le_reg_r with (sa + sp); [lra|].
    replace (- (m / (sa + sp)) * (sa + sp)) with (- m) by (field; lra). lra.
Qed.
Lemma newton_ends n : forall t, 120.01 <= t <= 2500 ->
  exists t', newton n rate t = Some t' /\ 120.01 <= t' <= 2500.
Proof.
  induction n as [|n IH]; intros t Ht; cbn [newton]; [eauto|].
  destruct (newton_stays t Ht) as (t' & m & -> & Ht').
  destruct (Rltb (Rabs m) 1e-5); [eauto|]. now apply IH.
Qed.
End Search.

(** ** The film's own radiation *)
Definition emitted (t : R) : R := radiated t * eps (film_ir t) film_reflectivity.
Lemma film_range t : 13 <= t <= 4000 -> 0 < film_ir t <= 1 - film_reflectivity.
Proof. intro H. unfold film_ir, film_reflectivity. lra. Qed.
Lemma eps_film_range t : 13 <= t <= 4000 -> 0 < eps (film_ir t) film_reflectivity <= 1.
Proof.
  intro H. pose proof (film_range t H). split; [|apply eps_range; unfold film_reflectivity in *; lra].
  assert (Z : eps 0 film_reflectivity = 0) by (unfold eps; ring). rewrite <- Z.
  apply eps_incr; unfold film_reflectivity in *; lra.
Qed.
Lemma eps_film_mono t t' : 13 <= t -> t <= t' -> t' <= 4000 ->
  eps (film_ir t) film_reflectivity <= eps (film_ir t') film_reflectivity.
Proof.
  intros H [L| ->] H'; [|lra]. left. pose proof (film_range t ltac:(lra)). pose proof (film_range t' ltac:(lra)).
  apply eps_incr; unfold film_ir, film_reflectivity in *; lra.
Qed.
Lemma eps_film_value t : eps (film_ir t) film_reflectivity = film_ir t * (2 - film_ir t / 0.9709).
Proof. rewrite eps_closed by (unfold film_reflectivity; lra). unfold film_reflectivity. do 3 f_equal. lra. Qed.
Lemma pow4_slope t t' : 0 <= t -> t < t' -> 4 * t ^ 3 * (t' - t) <= t' ^ 4 - t ^ 4.
Proof.
  intros H L. set (d := t' - t). replace t' with (t + d) by (unfold d; ring).
  assert (0 < d) by (unfold d; lra).
  replace ((t + d) ^ 4 - t ^ 4) with (4 * t ^ 3 * d + (6 * t ^ 2 * d ^ 2 + 4 * t * d ^ 3 + d ^ 4)) by ring.
  assert (0 <= t ^ 2 * d ^ 2) by (apply Rmult_le_pos; apply pow_le; lra).
  assert (0 <= t * d ^ 3) by (apply Rmult_le_pos; [|apply pow_le]; lra).
  assert (0 <= d ^ 4) by (apply pow_le; lra). lra.
Qed.
Lemma emitted_pos t : 13 <= t <= 4000 -> 0 < emitted t.
Proof.
  intro H. unfold emitted, radiated. pose proof (eps_film_range t H). pose proof (pow_lt t 4 ltac:(lra)).
  apply Rmult_lt_0_compat; [|lra]. lra.
Qed.
Lemma emitted_slope t t' : 13 <= t -> t < t' -> t' <= 4000 ->
  4 * emitted t * (t' - t) <= t * (emitted t' - emitted t).
Proof.
  intros H L H'. unfold emitted, radiated. pose proof (eps_film_range t ltac:(lra)) as E.
  pose proof (eps_film_mono t t' ltac:(lra) ltac:(lra) ltac:(lra)) as M.
  pose proof (pow4_slope t t' ltac:(lra) L) as S4. pose proof (pow_lt t 4 ltac:(lra)) as P4.
  assert (P3 : t * t ^ 3 = t ^ 4) by ring. pose proof (pow_lt t' 4 ltac:(lra)) as P4'.
  set (e := eps (film_ir t) film_reflectivity) in *. set (e' := eps (film_ir t') film_reflectivity) in *.
  set (q := t ^ 4) in *. set (q' := t' ^ 4) in *. set (r := t ^ 3) in *.
  assert (A : 4 * q * (t' - t) <= t * (q' - q)).
  { rewrite <- P3. apply Rle_trans with (t * (4 * r * (t' - t))); [lra|]. apply Rmult_le_compat_l; lra. }
  assert (B : 4 * q * (t' - t) * e <= t * (q' - q) * e) by (apply Rmult_le_compat_r; lra).
  assert (C : t * (q' * e) <= t * (q' * e')).
  { apply Rmult_le_compat_l; [lra|]. apply Rmult_le_compat_l; lra. }
  set (s := 5.6704 / 10 ^ 8). assert (S0 : 0 < s) by (unfold s; lra).
  assert (s * (4 * q * (t' - t) * e) <= s * (t * (q' * e') - t * (q * e))) by (apply Rmult_le_compat_l; lra).
  lra.
Qed.
Lemma emitted_mono t t' : 13 <= t -> t <= t' -> t' <= 4000 -> emitted t <= emitted t'.
Proof.
  intros H [L| ->] H'; [|lra]. pose proof (emitted_slope t t' H L H'). pose proof (emitted_pos t ltac:(lra)).
  assert (0 < 4 * emitted t * (t' - t)) by (apply Rmult_lt_0_compat; lra).
  assert (0 < t * (emitted t' - emitted t)) by lra.
  destruct (Rle_dec (emitted t) (emitted t')); [assumption|]. nra.
Qed.
Ltac emit := unfold emitted, radiated; rewrite eps_film_value; unfold film_ir; lra.
Lemma emitted_120 : 0.57 <= emitted 120. Proof. emit. Qed.
Lemma emitted_165 : emitted 165 <= 3. Proof. emit. Qed.
Lemma emitted_400 : 100 <= emitted 400. Proof. emit. Qed.
(** Radiation per kelvin only grows. *)
Lemma emitted_per_kelvin t : 120 <= t <= 4000 -> emitted 120 * t <= 120 * emitted t.
Proof.
  intros [[L|E] H]; [|subst; lra]. pose proof (emitted_slope 120 t ltac:(lra) L H).
  pose proof emitted_120. nra.
Qed.

(** ** The rate of the code *)
Lemma rate_of_the_code V m ambient p el sun Te :
  0 < V -> 0 < m -> 0 < ambient <= 2473 -> 0 <= p <= 101325 -> -90 <= el <= 90 -> 13 <= Te <= 4000 ->
  exists c att k, 0 < c /\ solar_atmospheric_attenuation el p = Some att /\
    (forall d, 0 <= d -> 0 < k d) /\ (forall d d', 0 <= d <= d' -> k d <= k d') /\
    forall t, 13 <= t <= 4000 ->
      d_balloon_temperature_dt V m t ambient p el sun (radiated Te) =
      Some (c * (0.25 * sun * att * eps film_solar film_reflectivity + 0.4605 * emitted Te
                 + k (Rabs (ambient - t)) * (ambient - t) - emitted t)).
Proof.
  intros HV Hm Ha Hp Hel HTe. pose proof PI_RGT_0 as Hpi.
  set (q := 3 * V / (4 * PI)). assert (Hq : 0 < q) by (unfold q; apply Rdiv_lt_0_compat; lra).
  set (radius := Rpower q (1 / 3)). assert (Hr : 0 < radius) by apply exp_pos.
  destruct (convective_spec radius ambient p Hr Ha) as (k & Kp & Km & Kv).
  destruct (Proofs.SolarProofs.attenuation_range el p Hel Hp) as (att & Eatt & _).
  assert (Hs : total_absorptivity PE01_ABSORPTIVITY_SOLAR PE01_REFLECTIVITY = Some (eps film_solar film_reflectivity)).
  { apply total_absorptivity_spec. unfold PE01_REFLECTIVITY, PE01_ABSORPTIVITY_SOLAR, film_solar, film_reflectivity.
    split; [lra|]. split; [reflexivity|]. apply eps_range; lra. }
  assert (Hf : forall T, 13 <= T <= 4000 ->
            total_absorptivity (absorptivity_ir T) PE01_REFLECTIVITY = Some (eps (film_ir T) film_reflectivity)).
  { intros T HT. apply total_absorptivity_spec.
    change (absorptivity_ir T) with (film_ir T). change PE01_REFLECTIVITY with film_reflectivity.
    split; [unfold film_reflectivity; lra|]. split; [reflexivity|].
    pose proof (eps_film_range T HT). lra. }
  exists (4 * PI * radius ^ 2 / (1500 * m)), att, k.
  split. { apply Rdiv_lt_0_compat; [|lra]. pose proof (pow_lt radius 2 Hr). nra. }
  split; [exact Eatt|]. split; [exact Kp|]. split; [exact Km|]. intros t Ht.
  destruct C55_black_body as (F1 & F2 & F3 & _).
  unfold d_balloon_temperature_dt. fold q. rewrite pow_pos_some by exact Hq. fold radius.
  rewrite Eatt, Hs. rewrite <- F1, F3 by lra. rewrite (Hf Te HTe), (Hf t Ht), (Kv t). rewrite !F1.
  unfold emitted, SOLAR_VIEW_FACTOR, EARTH_VIEW_FACTOR, PE01_FILM_SPECIFIC_HEAT.
  set (es := eps film_solar film_reflectivity). set (ee := eps (film_ir Te) film_reflectivity).
  set (et := eps (film_ir t) film_reflectivity). set (kk := k (Rabs (ambient - t))).
  generalize 0.25 0.4605 (radiated Te) (radiated t). intros. f_equal. field. lra.
Qed.

(** Ground temperature from its radiation. *)
Lemma ground_temperature f : 225 <= f <= 350 -> exists Te, radiated Te = f /\ 250 <= Te <= 281.
Proof.
  intro Hf. unfold radiated. set (s := 5.6704 / 10 ^ 8).
  assert (Hs : 0.000000056704 <= s <= 0.000000056704) by (unfold s; lra). clearbody s.
  set (x := f / s). assert (Hx : 0 < x) by (unfold x; apply Rdiv_lt_0_compat; lra).
  exists (Rpower x 0.25). assert (E : Rpower x 0.25 ^ 4 = x) by now apply root_fourth.
  assert (T0 : 0 < Rpower x 0.25) by apply exp_pos.
  assert (B : s * x = f) by (unfold x; field; lra).
  split; [rewrite E; exact B|].
  assert (Z281 : 0 <= 281) by lra.
  split; apply Rnot_lt_le; intro L.
  - pose proof (pow4_incr _ _ (conj (Rlt_le _ _ T0) L)) as P. rewrite E in P. nra.
  - pose proof (pow4_incr _ _ (conj Z281 L)) as P. rewrite E in P. nra.
Qed.

Lemma cold_start_search V m ambient p el sun f n t0 :
  0 < V -> 0 < m -> 165 <= ambient <= 400 -> 0 <= p <= 101325 -> -90 <= el <= 90 ->
  0 <= sun <= 1500 -> 225 <= f <= 350 -> 120.01 <= t0 <= 2500 ->
  exists t, newton n (fun t => d_balloon_temperature_dt V m t ambient p el sun f) t0 = Some t /\
    120.01 <= t <= 2500.
Proof.
  intros HV Hm Ha Hp Hel Hsun Hf Ht0. destruct (ground_temperature f Hf) as (Te & <- & HTe).
  destruct (rate_of_the_code V m ambient p el sun Te HV Hm ltac:(lra) Hp Hel ltac:(lra))
    as (c & att & k & Hc & Eatt & Kp & Km & Ev).
  destruct (Proofs.SolarProofs.attenuation_range el p Hel Hp) as (att' & Eatt' & Ra & _).
  rewrite Eatt in Eatt'. injection Eatt' as <-.
  set (es := eps film_solar film_reflectivity) in *.
  assert (Hes : 0 <= es <= 0.03).
  { unfold es. rewrite eps_closed by (unfold film_reflectivity; lra). unfold film_solar, film_reflectivity. lra. }
  assert (Sol : 0 <= 0.25 * sun * att * es <= 12).
  { assert (0 <= sun * att <= 1500) by nra. assert (0 <= sun * att * es <= 45) by nra. lra. }
  assert (E250 : 20 <= emitted 250) by emit. assert (E281 : emitted 281 <= 50) by emit.
  pose proof (emitted_mono 250 Te ltac:(lra) ltac:(lra) ltac:(lra)).
  pose proof (emitted_mono Te 281 ltac:(lra) ltac:(lra) ltac:(lra)).
  set (Q := 0.25 * sun * att * es + 0.4605 * emitted Te) in *.
  assert (HQ : 9 <= Q <= 36) by (unfold Q; lra).
  apply (newton_ends _ c Q ambient k emitted Hc Ha Kp Km).
  - intros t Ht. apply emitted_pos. lra.
  - intros t t' H1 H2 H3. apply emitted_slope; lra.
  - intros t Ht. pose proof (emitted_mono t 165 ltac:(lra) ltac:(lra) ltac:(lra)). pose proof emitted_165. lra.
  - intros t Ht. pose proof (emitted_mono 400 t ltac:(lra) ltac:(lra) ltac:(lra)). pose proof emitted_400. lra.
  - intros t Ht. pose proof (emitted_per_kelvin t ltac:(lra)). pose proof emitted_120.
    pose proof (emitted_pos t ltac:(lra)). nra.
  - intros t Ht. apply Ev. lra.
  - exact Ht0.
Qed.
