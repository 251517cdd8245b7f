(** Lemmas about the thermal model. *)
From Coq Require Import Reals Lra Lia Psatz Bool.
From Verif Require Import Model.Num Model.Solar Model.Thermal Spec.ThermalSpec
  Proofs.NumR Proofs.AtmosphereProofs.
Open Scope R_scope.

Lemma pow_pos_some x y : 0 < x -> Thermal.pow x y = Some (Rpower x y).
Proof. intro H. unfold Thermal.pow. now rewrite Rltb_true. Qed.
Lemma pow_some x y r : 0 < y -> Thermal.pow x y = Some r ->
  0 <= x /\ 0 <= r /\ (0 < x -> 0 < r /\ r = Rpower x y) /\ (x = 0 -> r = 0).
Proof.
  intros Hy. unfold Thermal.pow. destruct (Rltb_spec 0 x) as [L|L].
  - intro E. injection E as <-. unfold Rpower. pose proof (exp_pos (y * ln x)). repeat split; lra.
  - unfold Reqb. destruct (Req_EM_T x 0); [|discriminate]. intro E. injection E as <-. repeat split; lra.
Qed.
Lemma pow_defined x y : 0 <= x -> exists r, Thermal.pow x y = Some r.
Proof.
  intro H. unfold Thermal.pow. destruct (Rltb_spec 0 x); [eauto|].
  unfold Reqb. destruct (Req_EM_T x 0); [eauto|lra].
Qed.
Lemma pow_none x y : Thermal.pow x y = None <-> x < 0.
Proof.
  unfold Thermal.pow. destruct (Rltb_spec 0 x); [split; [discriminate|lra]|].
  unfold Reqb. destruct (Req_EM_T x 0); split; try discriminate; try lra; auto.
Qed.
Lemma pow_mono x x' y r r' : 0 < y -> x <= x' -> Thermal.pow x y = Some r -> Thermal.pow x' y = Some r' -> r <= r'.
Proof.
  intros Hy Hx E E'. destruct (pow_some _ _ _ Hy E) as (A & B & C & D).
  destruct (pow_some _ _ _ Hy E') as (A' & B' & C' & D').
  destruct (Req_dec x 0) as [Z|Z]; [rewrite (D Z); lra|].
  assert (Hp : 0 < x) by (destruct A as [A|A]; [exact A|congruence]).
  destruct (C Hp) as [_ ->]. destruct (C' (Rlt_le_trans _ _ _ Hp Hx)) as [_ ->].
  destruct Hx as [Hx| ->]; [|lra]. left. apply Rpower_incr_pos; lra.
Qed.
Lemma pow4_incr x y : 0 <= x < y -> x ^ 4 < y ^ 4.
Proof.
  intros [A B]. assert (x * x < y * y) by nra. assert (0 <= x * x) by nra.
  replace (x ^ 4) with ((x * x) * (x * x)) by ring. replace (y ^ 4) with ((y * y) * (y * y)) by ring. nra.
Qed.
Lemma fourth_root t : 0 < t -> Rpower (t ^ 4) 0.25 = t.
Proof.
  intro H. rewrite <- (Rpower_pow 4 t H), Rpower_mult.
  replace (INR 4 * 0.25) with 1 by (cbn; lra). apply Rpower_1. exact H.
Qed.
Lemma root_fourth f : 0 < f -> (Rpower f 0.25) ^ 4 = f.
Proof.
  intro H. rewrite <- Rpower_pow by (apply exp_pos). rewrite Rpower_mult.
  replace (0.25 * INR 4) with 1 by (cbn; lra). apply Rpower_1. exact H.
Qed.
Lemma cube_root x : 0 < x -> (Rpower x (1 / 3)) ^ 3 = x.
Proof.
  intro H. rewrite <- Rpower_pow by (apply exp_pos). rewrite Rpower_mult.
  replace (1 / 3 * INR 3) with 1 by (cbn; lra). apply Rpower_1. exact H.
Qed.

Lemma flux_spec t : black_body_temperature_to_flux t = radiated t.
Proof. unfold black_body_temperature_to_flux, radiated, STEFAN_BOLTZMAN. cbn. lra. Qed.

(** ** Absorptivity *)
Definition eps (a r : R) : R := a * (1 + (1 - a - r) / (1 - r)).
Lemma total_absorptivity_spec a r x :
  total_absorptivity a r = Some x <-> r <> 1 /\ x = eps a r /\ 0 <= x <= 1.
Proof.
  unfold total_absorptivity, Reqb. fold (eps a r).
  destruct (Req_EM_T (1 - r) 0) as [E|N].
  - split; [discriminate|]. intros [N _]. elim N. lra.
  - destruct (Rltb_spec (eps a r) 0); [|destruct (Rltb_spec 1 (eps a r))]; cbn [orb].
    + split; [discriminate|]. intros (_ & -> & H). lra.
    + split; [discriminate|]. intros (_ & -> & H). lra.
    + split; [intro H; injection H as <-|intros (_ & -> & _); reflexivity].
      split; [lra|]. split; [reflexivity|lra].
Qed.
Lemma eps_closed a r : r <> 1 -> eps a r = a * (2 - a / (1 - r)).
Proof. intro H. unfold eps. field. lra. Qed.
Lemma eps_range a r : r < 1 -> 0 <= r -> 0 <= a <= 1 - r -> 0 <= eps a r <= 1.
Proof.
  intros H1 H0 Ha. rewrite eps_closed by lra. set (s := 1 - r) in *.
  assert (Hs : 0 < s <= 1) by (unfold s; lra).
  assert (Q : 0 <= a / s <= 1).
  { split; [apply Rmult_le_pos; [lra|left; apply Rinv_0_lt_compat; lra]|].
    apply Rmult_le_reg_r with s; [lra|]. unfold Rdiv. rewrite Rmult_assoc, Rinv_l by lra. lra. }
  assert (E : a = a / s * s) by (field; lra). nra.
Qed.
Lemma eps_incr a a' r : r < 1 -> 0 <= a < a' -> a' <= 1 - r -> eps a r < eps a' r.
Proof.
  intros Hr Ha Ha'. rewrite !eps_closed by lra.
  enough (0 < (a' - a) * (2 - (a + a') / (1 - r))).
  { replace (a' * (2 - a' / (1 - r))) with (a * (2 - a / (1 - r)) + (a' - a) * (2 - (a + a') / (1 - r)))
      by (field; lra). lra. }
  apply Rmult_lt_0_compat; [lra|].
  assert ((a + a') / (1 - r) < 2); [|lra].
  apply Rmult_lt_reg_r with (1 - r); [lra|]. unfold Rdiv. rewrite Rmult_assoc, Rinv_l by lra. lra.
Qed.
Lemma geometric r n : r <> 1 -> sum_f_R0 (fun i => r ^ i) n = (1 - r ^ S n) / (1 - r).
Proof.
  intro H. induction n as [|n IH]; [cbn; field; lra|]. cbn [sum_f_R0]. rewrite IH. cbn [Rpow_def.pow]. field. lra.
Qed.
Lemma absorbed_limit a r : 0 <= r < 1 -> total_absorbed a r (eps a r).
Proof.
  intros Hr. unfold total_absorbed, absorbed_within.
  assert (P : Un_cv (fun n => r ^ n) 0).
  { intros e He. destruct (pow_lt_1_zero r ltac:(rewrite Rabs_right; lra) e He) as (N & HN).
    exists N. intros n Hn. unfold R_dist. rewrite Rminus_0_r. now apply HN. }
  intros e He. set (c := Rabs ((1 - a - r) * a / (1 - r))).
  destruct (P (e / (c + 1))) as (N & HN).
  { apply Rdiv_lt_0_compat; [exact He|]. pose proof (Rabs_pos ((1 - a - r) * a / (1 - r))). fold c in H. lra. }
  exists N. intros n Hn. specialize (HN (S n) ltac:(lia)). unfold R_dist in *.
  rewrite Rminus_0_r in HN. rewrite geometric by lra. unfold eps.
  replace (_ - _) with (- ((1 - a - r) * a / (1 - r)) * r ^ S n) by (field; lra).
  rewrite Rabs_mult, Rabs_Ropp. fold c.
  assert (0 <= c) by apply Rabs_pos.
  apply Rle_lt_trans with ((c + 1) * Rabs (r ^ S n)); [pose proof (Rabs_pos (r ^ S n)); nra|].
  apply Rmult_lt_reg_r with (/ (c + 1)); [apply Rinv_0_lt_compat; lra|].
  replace ((c + 1) * Rabs (r ^ S n) * / (c + 1)) with (Rabs (r ^ S n)) by (field; lra). exact HN.
Qed.

(** ** Convection: a coefficient that grows with the temperature difference *)
Lemma convective_spec radius ambient p : 0 < radius -> 0 < ambient <= 2473 ->
  exists k : R -> R, (forall d, 0 <= d -> 0 < k d) /\ (forall d d', 0 <= d <= d' -> k d <= k d') /\
    forall t, convective_heat_air_factor radius t ambient p
              = Some (k (Rabs (ambient - t)) * (ambient - t)).
Proof.
  intros Hr Ha. unfold convective_heat_air_factor.
  assert (Ha' : 0 < ambient / 273.15) by lra.
  rewrite (pow_pos_some ambient) by lra. rewrite (pow_pos_some (ambient / 273.15)) by lra.
  set (cond := 0.0241 * Rpower (ambient / 273.15) 0.9).
  set (visc := 1.458e-6 * Rpower ambient 1.5 / (ambient + 110.4)).
  set (dens := p * T_AIR_MOLAR_MASS / (T_GAS_CONSTANT * ambient)).
  set (g := 9.80665 * dens ^ 2 * (2 * radius) ^ 3 / (ambient * visc ^ 2)).
  set (pr := 0.804 - 3.25e-4 * ambient).
  assert (Hcond : 0 < cond) by (unfold cond, Rpower; pose proof (exp_pos (0.9 * ln (ambient / 273.15))); lra).
  assert (Hvisc : 0 < visc).
  { unfold visc, Rpower. pose proof (exp_pos (1.5 * ln ambient)). apply Rdiv_lt_0_compat; lra. }
  assert (Hg : 0 <= g).
  { unfold g. apply Rmult_le_pos.
    - pose proof (pow2_ge_0 dens). assert (0 < (2 * radius) ^ 3) by (apply pow_lt; lra). nra.
    - left. apply Rinv_0_lt_compat. apply Rmult_lt_0_compat; [lra|]. apply pow_lt. exact Hvisc. }
  assert (Hpr : 0 <= pr) by (unfold pr; lra).
  set (ra := fun d => pr * (g * d)).
  assert (Hra : forall d, 0 <= d -> 0 <= ra d).
  { intros d Hd. unfold ra. apply Rmult_le_pos; [exact Hpr|]. apply Rmult_le_pos; assumption. }
  set (get := fun o : option R => match o with Some r => r | None => 0 end).
  exists (fun d => (2 + 0.457 * get (Thermal.pow (ra d) 0.25) + get (Thermal.pow (1 + 2.69e-8 * ra d) (1 / 12)))
                   * cond / (2 * radius)).
  assert (Hscale : 0 < cond / (2 * radius)) by (apply Rdiv_lt_0_compat; lra).
  assert (Hassoc : forall z, z * cond / (2 * radius) = z * (cond / (2 * radius))) by (intro; unfold Rdiv; ring).
  assert (Hget : forall x y, 0 < y -> 0 <= get (Thermal.pow x y)).
  { intros x y Hy. destruct (Thermal.pow x y) eqn:E; cbn; [|lra]. now apply (pow_some _ _ _ Hy) in E. }
  split; [|split].
  - intros d Hd. rewrite Hassoc. apply Rmult_lt_0_compat; [|exact Hscale].
    pose proof (Hget (ra d) 0.25 ltac:(lra)). pose proof (Hget (1 + 2.69e-8 * ra d) (1 / 12) ltac:(lra)). lra.
  - intros d d' [Hd Hdd]. rewrite !Hassoc. apply Rmult_le_compat_r; [left; exact Hscale|].
    assert (M : ra d <= ra d').
    { unfold ra. apply Rmult_le_compat_l; [exact Hpr|]. now apply Rmult_le_compat_l. }
    pose proof (Hra d Hd). pose proof (Hra d' ltac:(lra)).
    assert (M1 : forall x x' y, 0 < y -> 0 <= x <= x' -> get (Thermal.pow x y) <= get (Thermal.pow x' y)).
    { intros x x' y Hy [Hx Hxx]. destruct (pow_defined x y Hx) as (r & E). destruct (pow_defined x' y ltac:(lra)) as (r' & E').
      rewrite E, E'. cbn. exact (pow_mono x x' y r r' Hy Hxx E E'). }
    pose proof (M1 (ra d) (ra d') 0.25 ltac:(lra) ltac:(lra)).
    pose proof (M1 (1 + 2.69e-8 * ra d) (1 + 2.69e-8 * ra d') (1 / 12) ltac:(lra) ltac:(lra)). lra.
  - intro t. fold (ra (Rabs (ambient - t))). pose proof (Hra _ (Rabs_pos (ambient - t))) as H0.
    destruct (pow_defined (ra (Rabs (ambient - t))) 0.25 H0) as (r1 & E1).
    assert (H1 : 0 <= 1 + 2.69e-8 * ra (Rabs (ambient - t))).
    { set (z := ra _) in *. clearbody z. clear - H0. lra. }
    destruct (pow_defined (1 + 2.69e-8 * ra (Rabs (ambient - t))) (1 / 12) H1) as (r2 & E2).
    rewrite E1, E2. reflexivity.
Qed.
Lemma pow_root x y : 0 <= x -> Thermal.pow x y = Some (root x y).
Proof.
  intro H. unfold root. destruct (Req_EM_T x 0) as [->|N].
  - unfold Thermal.pow. rewrite (Rltb_false 0 0) by lra.
    destruct (Reqb_spec 0 0) as [_|N]; [reflexivity|]. now contradict N.
  - apply pow_pos_some. lra.
Qed.
Lemma convective_closed radius ambient p t : 0 < radius -> 0 < ambient <= 2473 ->
  convective_heat_air_factor radius t ambient p =
  Some (convection (2 * radius) ambient p (Rabs (ambient - t)) * (ambient - t)).
Proof.
  intros Hr Ha. unfold convective_heat_air_factor.
  rewrite (pow_root ambient) by lra. rewrite (pow_root (ambient / 273.15)) by lra.
  replace 1.458e-6 with (1.458 / 10 ^ 6) by lra.
  replace 1.5 with (3 / 2) by lra. replace 0.9 with (9 / 10) by lra. replace 0.25 with (1 / 4) by lra.
  replace 3.25e-4 with 0.000325 by lra. replace 2.69e-8 with (2.69 / 10 ^ 8) by lra.
  fold (air_viscosity ambient). fold (air_conductivity ambient).
  change (p * T_AIR_MOLAR_MASS / (T_GAS_CONSTANT * ambient)) with (dry_air_density ambient p).
  change (0.804 - 0.000325 * ambient) with (air_prandtl ambient).
  assert (Hv : 0 < air_viscosity ambient).
  { unfold air_viscosity, root. destruct (Req_EM_T ambient 0); [lra|].
    apply Rdiv_lt_0_compat; [|lra]. apply Rmult_lt_0_compat; [lra|apply exp_pos]. }
  set (D := 2 * radius). set (d := Rabs (ambient - t)).
  replace (air_prandtl ambient * (9.80665 * dry_air_density ambient p ^ 2 * D ^ 3 / (ambient * air_viscosity ambient ^ 2) * d))
    with (rayleigh_number D ambient p d)
    by (unfold rayleigh_number, grashof_number, Rdiv; ring).
  assert (H0 : 0 <= rayleigh_number D ambient p d).
  { unfold rayleigh_number, grashof_number, air_prandtl. apply Rmult_le_pos; [lra|]. apply Rmult_le_pos.
    - apply Rmult_le_pos; [|apply Rabs_pos]. apply Rmult_le_pos; [|apply pow_le; unfold D; lra].
      apply Rmult_le_pos; [lra|apply pow2_ge_0].
    - left. apply Rinv_0_lt_compat, Rmult_lt_0_compat; [lra|]. now apply pow_lt. }
  set (ra := rayleigh_number D ambient p d) in *.
  rewrite (pow_root ra) by exact H0. rewrite (pow_root (1 + 2.69 / 10 ^ 8 * ra)) by (clearbody ra; lra).
  reflexivity.
Qed.
Lemma convective_decreasing (k : R -> R) ambient t t' :
  (forall d, 0 <= d -> 0 < k d) -> (forall d d', 0 <= d <= d' -> k d <= k d') -> t < t' ->
  k (Rabs (ambient - t')) * (ambient - t') < k (Rabs (ambient - t)) * (ambient - t).
Proof.
  intros Kp Km Ht.
  pose proof (Kp _ (Rabs_pos (ambient - t))). pose proof (Kp _ (Rabs_pos (ambient - t'))).
  destruct (Rle_dec t' ambient) as [L|L].
  - rewrite !Rabs_right in * by lra.
    pose proof (Km (ambient - t') (ambient - t) ltac:(lra)). nra.
  - destruct (Rle_dec ambient t) as [L'|L'].
    + rewrite !Rabs_left1 in * by lra.
      pose proof (Km (- (ambient - t)) (- (ambient - t')) ltac:(lra)). nra.
    + nra.
Qed.
