(** Property C55 (thermal model). *)
From Coq Require Import Reals Lra Lia Psatz.
From Verif Require Import Model.Num Model.Solar Model.Thermal Spec.ThermalSpec
  Proofs.NumR Proofs.SolarProofs Proofs.ThermalProofs Props.SolarProps.
Open Scope R_scope.

(** The two black-body conversions are Stefan and Boltzmann's law, increasing and
    inverse to each other on nonnegative arguments; a negative flux has no
    temperature. *)
Theorem C55_black_body :
  (forall t, black_body_temperature_to_flux t = radiated t) /\
  (forall t t', 0 <= t < t' -> black_body_temperature_to_flux t < black_body_temperature_to_flux t') /\
  (forall t, 0 <= t -> black_body_flux_to_temperature (black_body_temperature_to_flux t) = Some t) /\
  (forall f, 0 <= f -> exists t, black_body_flux_to_temperature f = Some t /\ 0 <= t /\
     black_body_temperature_to_flux t = f) /\
  (forall f, black_body_flux_to_temperature f = None <-> f < 0).
Proof.
  split; [exact flux_spec|]. split.
  { intros t t' H. unfold black_body_temperature_to_flux, STEFAN_BOLTZMAN.
    pose proof (pow4_incr t t' H). lra. }
  assert (S0 : 0 < STEFAN_BOLTZMAN) by (unfold STEFAN_BOLTZMAN; lra).
  split.
  { intros t Ht. unfold black_body_flux_to_temperature, black_body_temperature_to_flux.
    replace (STEFAN_BOLTZMAN * t ^ 4 / STEFAN_BOLTZMAN) with (t ^ 4) by (field; lra).
    destruct Ht as [Ht| <-].
    - rewrite pow_pos_some by (apply pow_lt; exact Ht). f_equal. now apply fourth_root.
    - rewrite pow_i by lia. unfold Thermal.pow. rewrite Rltb_false by lra. unfold Reqb.
      destruct (Req_EM_T 0 0); [reflexivity|congruence]. }
  split.
  { intros f Hf. unfold black_body_flux_to_temperature, black_body_temperature_to_flux. destruct Hf as [Hf| <-].
    - assert (Q : 0 < f / STEFAN_BOLTZMAN) by (apply Rdiv_lt_0_compat; assumption).
      exists (Rpower (f / STEFAN_BOLTZMAN) 0.25). rewrite pow_pos_some by exact Q. split; [reflexivity|].
      split; [left; apply exp_pos|]. rewrite root_fourth by exact Q. field. lra.
    - exists 0. unfold Rdiv. rewrite Rmult_0_l. unfold Thermal.pow. rewrite Rltb_false by lra. unfold Reqb.
      destruct (Req_EM_T 0 0); [|congruence]. split; [reflexivity|]. split; [lra|]. ring. }
  intro f. unfold black_body_flux_to_temperature. rewrite pow_none. split; intro H.
  - apply Rnot_le_lt. intro G. apply (Rlt_not_le _ _ H). apply Rmult_le_pos; [exact G|].
    left. apply Rinv_0_lt_compat. exact S0.
  - pose proof (Rinv_0_lt_compat _ S0). change (f * / STEFAN_BOLTZMAN < 0). nra.
Qed.
Print Assumptions C55_black_body.

(** Total absorptivity is what is absorbed over infinitely many passes through
    the film; whatever is returned is a fraction; every physically possible film
    is accepted. *)
Theorem C55_total_absorptivity (a r : R) :
  (forall x, total_absorptivity a r = Some x -> 0 <= x <= 1 /\ (0 <= r < 1 -> total_absorbed a r x)) /\
  (0 <= a -> 0 <= r < 1 -> a + r <= 1 -> exists x, total_absorptivity a r = Some x) /\
  (total_absorptivity a r = None <->
     r = 1 \/ a * (1 + (1 - a - r) / (1 - r)) < 0 \/ 1 < a * (1 + (1 - a - r) / (1 - r))).
Proof.
  split; [|split].
  - intros x H. apply total_absorptivity_spec in H. destruct H as (N & -> & Rg).
    split; [exact Rg|]. apply absorbed_limit.
  - intros Ha Hr Har. exists (eps a r). apply total_absorptivity_spec.
    split; [lra|]. split; [reflexivity|]. apply eps_range; lra.
  - fold (eps a r). split.
    + intro H. destruct (Req_dec r 1) as [E|N]; [left; exact E|]. right.
      destruct (Rlt_dec (eps a r) 0); [left; assumption|]. right.
      apply Rnot_le_lt. intro L.
      assert (total_absorptivity a r = Some (eps a r)) by (apply total_absorptivity_spec; repeat split; lra).
      congruence.
    + intro H. destruct (total_absorptivity a r) as [x|] eqn:E; [|reflexivity].
      apply total_absorptivity_spec in E. destruct E as (N & -> & Rg). destruct H as [H|H]; [congruence|lra].
Qed.
Print Assumptions C55_total_absorptivity.

(** The temperature rate is a heat balance of a sphere: sunlight, the Earth's
    infrared, convection towards the ambient temperature, minus the envelope's own
    radiation; no input in the flight range raises. *)
Theorem C55_heat_balance (V m ambient p el sun Te : R) :
  0 < V -> 0 < m -> 0 < ambient <= 2473 -> 0 <= p <= 101325 -> -90 <= el <= 90 -> 13 <= Te <= 4000 ->
  exists radius attenuation absorbed_sun (film : R -> R),
    4 / 3 * PI * radius ^ 3 = V /\
    solar_atmospheric_attenuation el p = Some attenuation /\
    total_absorbed film_solar film_reflectivity absorbed_sun /\
    (forall T, 13 <= T <= 4000 -> 0 <= film T <= 1 /\ total_absorbed (film_ir T) film_reflectivity (film T)) /\
    (forall d, 0 <= d -> 0 < convection (2 * radius) ambient p d) /\
    forall t, 13 <= t <= 4000 ->
      exists rate, d_balloon_temperature_dt V m t ambient p el sun (radiated Te) = Some rate /\
        1500 * m * rate =
        4 * PI * radius ^ 2 *
          (0.25 * sun * attenuation * absorbed_sun
           + 0.4605 * radiated Te * film Te
           + convection (2 * radius) ambient p (Rabs (ambient - t)) * (ambient - t)
           - radiated t * film t).
Proof.
  intros HV Hm Ha Hp Hel HTe.
  pose proof PI_RGT_0 as Hpi.
  set (q := 3 * V / (4 * PI)). assert (Hq : 0 < q) by (unfold q; apply Rdiv_lt_0_compat; lra).
  set (radius := Rpower q (1 / 3)).
  assert (Hr : 0 < radius) by apply exp_pos.
  assert (A : exists att, solar_atmospheric_attenuation el p = Some att).
  { destruct (solar_atmospheric_attenuation el p) eqn:E; [eauto|]. exfalso. revert E.
    unfold solar_atmospheric_attenuation.
    rewrite (Rltb_false 90 el), (Rltb_false el (-90)), (Rltb_false 101325 p), (Rltb_false p 0) by lra.
    cbn [orb]. destruct (Rltb el MIN_SOLAR_EL_DEG); discriminate. }
  destruct A as (att & Eatt).
  assert (Hs : total_absorptivity PE01_ABSORPTIVITY_SOLAR PE01_REFLECTIVITY = Some (eps film_solar film_reflectivity)).
  { apply total_absorptivity_spec. unfold PE01_REFLECTIVITY, PE01_ABSORPTIVITY_SOLAR, film_solar, film_reflectivity.
    split; [lra|]. split; [reflexivity|]. apply eps_range; lra. }
  assert (Hir : forall T, 13 <= T <= 4000 -> 0 <= film_ir T <= 1 - film_reflectivity)
    by (intros T HT; unfold film_ir, film_reflectivity; lra).
  assert (Hf : forall T, 13 <= T <= 4000 ->
            total_absorptivity (absorptivity_ir T) PE01_REFLECTIVITY = Some (eps (film_ir T) film_reflectivity)).
  { intros T HT. apply total_absorptivity_spec.
    change (absorptivity_ir T) with (film_ir T). change PE01_REFLECTIVITY with film_reflectivity.
    specialize (Hir T HT). split; [unfold film_reflectivity; lra|]. split; [reflexivity|].
    apply eps_range; unfold film_reflectivity in *; lra. }
  exists radius, att, (eps film_solar film_reflectivity), (fun T => eps (film_ir T) film_reflectivity).
  split. { unfold radius. rewrite cube_root by exact Hq. unfold q. field. lra. }
  split; [exact Eatt|]. split; [apply absorbed_limit; unfold film_reflectivity; lra|].
  split.
  { intros T HT. split; [|apply absorbed_limit; unfold film_reflectivity; lra].
    apply eps_range; [unfold film_reflectivity; lra|unfold film_reflectivity; lra|now apply Hir]. }
  split.
  { intros d Hd. unfold convection, nusselt_number.
    assert (0 < air_conductivity ambient).
    { unfold air_conductivity, root. destruct (Req_EM_T (ambient / 273.15) 0); [lra|].
      apply Rmult_lt_0_compat; [lra|apply exp_pos]. }
    apply Rdiv_lt_0_compat; [|lra]. apply Rmult_lt_0_compat; [|assumption].
    assert (Hroot : forall x y, 0 <= root x y) by (intros x y; unfold root; destruct (Req_EM_T x 0); [lra|left; apply exp_pos]).
    pose proof (Hroot (rayleigh_number (2 * radius) ambient p d) (1 / 4)).
    pose proof (Hroot (1 + 2.69 / 10 ^ 8 * rayleigh_number (2 * radius) ambient p d) (1 / 12)). lra. }
  intros t Ht.
  destruct C55_black_body as (F1 & F2 & F3 & _).
  unfold d_balloon_temperature_dt. fold q. rewrite pow_pos_some by exact Hq. fold radius.
  rewrite Eatt, Hs. rewrite <- F1, F3 by lra. rewrite (Hf Te HTe), (Hf t Ht), (convective_closed radius ambient p t Hr Ha).
  eexists. split; [reflexivity|]. rewrite !F1.
  unfold SOLAR_VIEW_FACTOR, EARTH_VIEW_FACTOR, PE01_FILM_SPECIFIC_HEAT.
  set (es := eps film_solar film_reflectivity). set (ee := eps (film_ir Te) film_reflectivity).
  set (et := eps (film_ir t) film_reflectivity). set (kk := convection (2 * radius) ambient p (Rabs (ambient - t))).
  replace (1500 * m * ((sun * att * 0.25 * (4 * PI * radius * radius) * es +
      radiated Te * 0.4605 * (4 * PI * radius * radius) * ee +
      4 * PI * radius * radius * (kk * (ambient - t)) - radiated t * (4 * PI * radius * radius) * et) / (1500 * m)))
    with (sun * att * 0.25 * (4 * PI * radius * radius) * es +
      radiated Te * 0.4605 * (4 * PI * radius * radius) * ee +
      4 * PI * radius * radius * (kk * (ambient - t)) - radiated t * (4 * PI * radius * radius) * et)
    by (field; lra).
  ring.
Qed.
Print Assumptions C55_heat_balance.

(** The warmer the balloon, the slower it warms: so there is at most one
    equilibrium temperature, below it the balloon warms and above it it cools. *)
Theorem C55_stable_temperature (V m ambient p el sun Te t t' rate rate' : R) :
  0 < V -> 0 < m -> 0 < ambient <= 2473 -> 0 <= p <= 101325 -> -90 <= el <= 90 -> 13 <= Te <= 4000 ->
  13 <= t <= 4000 -> 13 <= t' <= 4000 ->
  d_balloon_temperature_dt V m t ambient p el sun (radiated Te) = Some rate ->
  d_balloon_temperature_dt V m t' ambient p el sun (radiated Te) = Some rate' ->
  (t < t' <-> rate' < rate).
Proof.
  intros HV Hm Ha Hp Hel HTe Ht Ht' E E'.
  assert (Main : forall t t' rate rate', 13 <= t <= 4000 -> 13 <= t' <= 4000 ->
    d_balloon_temperature_dt V m t ambient p el sun (radiated Te) = Some rate ->
    d_balloon_temperature_dt V m t' ambient p el sun (radiated Te) = Some rate' ->
    t < t' -> rate' < rate).
  { clear t t' rate rate' Ht Ht' E E'. intros t t' rate rate' Ht Ht' E E' L.
    unfold d_balloon_temperature_dt in E, E'.
    destruct (Thermal.pow (3 * V / (4 * PI)) (1 / 3)) as [radius|] eqn:Er; [|discriminate].
    assert (Hq : 0 < 3 * V / (4 * PI)) by (apply Rdiv_lt_0_compat; pose proof PI_RGT_0; lra).
    destruct (pow_some (3 * V / (4 * PI)) (1 / 3) radius ltac:(lra) Er) as (_ & _ & Hr & _). destruct (Hr Hq) as [Hr0 _].
    destruct (solar_atmospheric_attenuation el p) as [att|]; [|discriminate].
    destruct (total_absorptivity PE01_ABSORPTIVITY_SOLAR PE01_REFLECTIVITY) as [es|]; [|discriminate].
    destruct (black_body_flux_to_temperature (radiated Te)) as [te|]; [|discriminate].
    destruct (total_absorptivity (absorptivity_ir te) PE01_REFLECTIVITY) as [ee|]; [|discriminate].
    destruct (total_absorptivity (absorptivity_ir t) PE01_REFLECTIVITY) as [et|] eqn:Et; [|discriminate].
    destruct (total_absorptivity (absorptivity_ir t') PE01_REFLECTIVITY) as [et'|] eqn:Et'; [|discriminate].
    destruct (convective_spec radius ambient p Hr0 Ha) as (k & Kp & Km & Kv). rewrite Kv in E, E'.
    injection E as <-. injection E' as <-.
    apply total_absorptivity_spec in Et, Et'. destruct Et as (_ & Eet & Ret). destruct Et' as (_ & Eet' & Ret').
    pose proof (convective_decreasing k ambient t t' Kp Km L) as Kd.
    assert (Eps : et < et').
    { rewrite Eet, Eet'. apply eps_incr; unfold PE01_REFLECTIVITY, absorptivity_ir, PE01_ABSORPTIVITY_IR_BASE,
        PE01_ABSORPTIVITY_IR_D_TEMPERATURE, PE01_ABSORPTIVITY_IR_REF_TEMPERATURE; lra. }
    destruct C55_black_body as (_ & F2 & _). pose proof (F2 t t' ltac:(lra)) as Fl.
    assert (F0 : 0 < black_body_temperature_to_flux t).
    { unfold black_body_temperature_to_flux, STEFAN_BOLTZMAN. pose proof (pow_lt t 4 ltac:(lra)). lra. }
    set (f := black_body_temperature_to_flux t) in *. set (f' := black_body_temperature_to_flux t') in *.
    assert (Em : f * et < f' * et') by nra.
    set (area := 4 * PI * radius * radius).
    assert (Ar : 0 < area) by (unfold area; pose proof PI_RGT_0; pose proof (Rmult_lt_0_compat _ _ Hr0 Hr0); nra).
    set (c := k (Rabs (ambient - t)) * (ambient - t)) in *. set (c' := k (Rabs (ambient - t')) * (ambient - t')) in *.
    unfold Rdiv. apply Rmult_lt_compat_r; [apply Rinv_0_lt_compat; unfold PE01_FILM_SPECIFIC_HEAT; lra|].
    assert (area * c' < area * c) by (apply Rmult_lt_compat_l; assumption).
    assert (f * area * et < f' * area * et').
    { replace (f * area * et) with (area * (f * et)) by ring. replace (f' * area * et') with (area * (f' * et')) by ring.
      apply Rmult_lt_compat_l; assumption. }
    lra. }
  split; [exact (Main t t' rate rate' Ht Ht' E E')|].
  intro Lr. destruct (Rtotal_order t t') as [L|[->|L]]; [exact L| |].
  - rewrite E in E'. injection E' as ->. lra.
  - pose proof (Main t' t rate' rate Ht' Ht E' E L). lra.
Qed.
Print Assumptions C55_stable_temperature.

(** The night-time, equator-like inputs of a flight meet the hypotheses. *)
Example C55_witness :
  exists rate, d_balloon_temperature_dt 1804 68.5 210 220 7000 (-30) 1360 (radiated 250) = Some rate.
Proof.
  destruct (C55_heat_balance 1804 68.5 220 7000 (-30) 1360 250 ltac:(lra) ltac:(lra) ltac:(lra) ltac:(lra)
    ltac:(lra) ltac:(lra)) as (r & a & s & f & _ & _ & _ & _ & _ & H).
  destruct (H 210 ltac:(lra)) as (rate & E & _). exists rate. exact E.
Qed.
