(** Lemmas about the reward. *)
From Coq Require Import ZArith Reals Lra Lia Psatz Bool.
From Verif Require Import Model.Num Model.Safety Model.Balloon Model.Transforms Model.Reward.
From Verif Require Import Spec.RewardSpec Proofs.NumR.
From Verif Require Model.Units.
Open Scope R_scope.

(** ** exp(-0.69314718056) is one half to within 1e-11 *)
Lemma exp_neg_bounds c N : 0 <= c <= 1 ->
  sum_f_R0 (tg_alt (fun i => c ^ i / INR (fact i))) (S (2 * N)) <= exp (- c)
  <= sum_f_R0 (tg_alt (fun i => c ^ i / INR (fact i))) (2 * N).
Proof.
  intros Hc. apply alternated_series_ineq.
  - intro n. rewrite fact_simpl, mult_INR, S_INR. cbn [pow].
    assert (0 < INR (fact n)) by apply INR_fact_lt_0.
    assert (0 <= INR n) by apply pos_INR.
    assert (0 <= c ^ n) by (apply pow_le; lra).
    apply (Rmult_le_reg_r ((INR n + 1) * INR (fact n))); [nra|].
    replace (c * c ^ n / ((INR n + 1) * INR (fact n)) * ((INR n + 1) * INR (fact n)))
      with (c * c ^ n) by (field; lra).
    replace (c ^ n / INR (fact n) * ((INR n + 1) * INR (fact n)))
      with (c ^ n * (INR n + 1)) by (field; lra).
    nra.
  - apply (cv_speed_pow_fact c).
  - unfold exp. destruct (exist_exp (- c)) as [l Hl]. cbn [proj1_sig].
    unfold exp_in, infinite_sum in Hl. intros eps He. destruct (Hl eps He) as [n0 Hn].
    exists n0. intros n Hge. specialize (Hn n Hge).
    replace (sum_f_R0 (tg_alt (fun i => c ^ i / INR (fact i))) n)
      with (sum_f_R0 (fun i => / INR (fact i) * (- c) ^ i) n); [exact Hn|].
    apply sum_eq. intros i _. unfold tg_alt.
    replace (- c) with (-1 * c) by ring. rewrite Rpow_mult_distr. unfold Rdiv. ring.
Qed.

Definition half_const : R := exp (- (69314718056 / 100000000000)).

Lemma half_const_close : Rabs (half_const - 1 / 2) <= 1 / 100000000000.
Proof.
  unfold half_const.
  pose proof (exp_neg_bounds (69314718056 / 100000000000) 6 ltac:(lra)) as [L U].
  set (e := exp _) in *. clearbody e.
  change (2 * 6)%nat with 12%nat in L, U.
  cbn [sum_f_R0] in L, U. unfold tg_alt in L, U.
  assert (F : forall n z, INR (fact n) = IZR z -> INR (fact (S n)) = IZR (Z.of_nat (S n) * z)).
  { intros n z H. rewrite fact_simpl, mult_INR, H, mult_IZR, <- INR_IZR_INZ. reflexivity. }
  assert (F0 : INR (fact 0) = IZR 1) by reflexivity.
  assert (F1 : INR (fact 1) = IZR 1) by exact (F 0%nat _ F0).
  assert (F2 : INR (fact 2) = IZR 2) by exact (F 1%nat _ F1).
  assert (F3 : INR (fact 3) = IZR 6) by exact (F 2%nat _ F2).
  assert (F4 : INR (fact 4) = IZR 24) by exact (F 3%nat _ F3).
  assert (F5 : INR (fact 5) = IZR 120) by exact (F 4%nat _ F4).
  assert (F6 : INR (fact 6) = IZR 720) by exact (F 5%nat _ F5).
  assert (F7 : INR (fact 7) = IZR 5040) by exact (F 6%nat _ F6).
  assert (F8 : INR (fact 8) = IZR 40320) by exact (F 7%nat _ F7).
  assert (F9 : INR (fact 9) = IZR 362880) by exact (F 8%nat _ F8).
  assert (F10 : INR (fact 10) = IZR 3628800) by exact (F 9%nat _ F9).
  assert (F11 : INR (fact 11) = IZR 39916800) by exact (F 10%nat _ F10).
  assert (F12 : INR (fact 12) = IZR 479001600) by exact (F 11%nat _ F11).
  assert (F13 : INR (fact 13) = IZR 6227020800) by exact (F 12%nat _ F12).
  cbn [pow] in L, U.
  rewrite F0, F1, F2, F3, F4, F5, F6, F7, F8, F9, F10, F11, F12 in U.
  rewrite F0, F1, F2, F3, F4, F5, F6, F7, F8, F9, F10, F11, F12, F13 in L.
  clear F F0 F1 F2 F3 F4 F5 F6 F7 F8 F9 F10 F11 F12 F13.
  apply Rabs_le. split; lra.
Qed.


Lemma half_const_power t : Rpower half_const t
  = exp (- (69314718056 / 100000000000) * t).
Proof. unfold Rpower, half_const. rewrite ln_exp. f_equal. ring. Qed.

(** ** The value *)
Lemma reldist_km x y : Units.relative_distance x y = distance_km x y * 1000.
Proof.
  unfold Units.relative_distance, distance_km.
  replace (x ^ 2 + y ^ 2) with (x * x + y * y) by ring. field.
Qed.

Lemma excess_iff w s : excess_energy w s = true <->
  daytime_power_load s < solar_power_fn w (fst (sun w (x s) (y s) (date_time s))) (pressure s)
  /\ 0.99 < battery_charge s / battery_capacity s.
Proof.
  unfold excess_energy, battery_soc. numR. rewrite andb_true_iff, !Rltb_iff.
  replace (99 / 100) with 0.99 by lra. reflexivity.
Qed.

Lemma penalised_bool w s :
  is_down (last_command s) && negb (excess_energy w s) = true <-> penalised w s.
Proof.
  unfold penalised. rewrite andb_true_iff, negb_true_iff.
  rewrite <- excess_iff. destruct (excess_energy w s), (last_command s); cbn;
    split; intros [? ?]; split; try discriminate; auto;
    exfalso; auto.
Qed.

Lemma saturation_value v : exists y, linear_rescale_with_saturation v 100 300 = Some y /\
  is_power_factor v (95 / 100 - 3 / 10 * y).
Proof.
  unfold linear_rescale_with_saturation, linear_rescale_with_extrapolation.
  rewrite Rleb_false by lra. cbn. eexists; split; [reflexivity|].
  unfold np_clip, is_power_factor.
  destruct (Rle_dec v 100); [left; split; [lra|]|right].
  { rewrite Rmax_right by lra. rewrite Rmin_left by lra. lra. }
  destruct (Rle_dec 300 v); [right; split; [lra|]|left; split; [lra|]].
  { rewrite Rmax_left by lra. rewrite Rmin_right by lra. lra. }
  rewrite Rmax_left by lra. rewrite Rmin_left by lra. lra.
Qed.

Lemma is_power_factor_unique v f g : is_power_factor v f -> is_power_factor v g -> f = g.
Proof. unfold is_power_factor. intuition (subst; try lra). Qed.
Lemma is_power_factor_range v f : is_power_factor v f -> 0.65 <= f <= 0.95.
Proof. unfold is_power_factor. intuition (subst; try lra). Qed.
Lemma is_power_factor_mono v v' f f' : is_power_factor v f -> is_power_factor v' f' ->
  v <= v' -> f' <= f.
Proof. unfold is_power_factor. intuition (subst; try lra). Qed.
Lemma is_power_factor_strict v v' f f' : is_power_factor v f -> is_power_factor v' f' ->
  100 <= v -> v < v' -> v' <= 300 -> f' < f.
Proof. unfold is_power_factor. intuition (subst; try lra). Qed.

Lemma reward_value w s radius dropoff halflife : halflife <> 0 ->
  exists base factor,
    perciatelli_reward_function w s radius dropoff halflife = Some (base * factor) /\
    is_distance_reward half_const radius dropoff halflife (distance_km (x s) (y s)) base /\
    (penalised w s -> is_power_factor (acs_power s) factor) /\
    (~ penalised w s -> factor = 1).
Proof.
  intros Hh. unfold perciatelli_reward_function.
  set (d := distance_km (x s) (y s)). rewrite reldist_km. fold d.
  set (base := if Rleb d radius then 1 else dropoff * Rpower half_const ((d - radius) / halflife)).
  assert (Hb : is_distance_reward half_const radius dropoff halflife d base).
  { unfold base, is_distance_reward. destruct (Rleb_spec d radius).
    - left; split; auto. - right; split; [lra|reflexivity]. }
  assert (E : (if Rleb (d * 1000) (radius * 1000) then Some 1
    else if Reqb halflife 0 then None
    else Some (dropoff * exp (- (69314718056 / 100000000000) / halflife *
                 ((d * 1000 - radius * 1000) / 1000)))) = Some base).
  { unfold base. destruct (Rleb_spec (d * 1000) (radius * 1000)).
    - rewrite Rleb_true by lra. reflexivity.
    - rewrite Rleb_false by lra. destruct (Reqb_spec halflife 0); [contradiction|].
      rewrite half_const_power. do 3 f_equal. field. auto. }
  rewrite E. pose proof (penalised_bool w s) as P.
  destruct (is_down (last_command s) && negb (excess_energy w s)) eqn:Ep.
  - destruct (saturation_value (acs_power s)) as (v & -> & Hf).
    exists base, (95 / 100 - 3 / 10 * v). split; [reflexivity|]. split; [exact Hb|].
    split; [auto|]. intro N; exfalso; apply N, P; reflexivity.
  - exists base, 1. split; [f_equal; ring|]. split; [exact Hb|]. split; [|auto].
    intro Hp. apply P in Hp. discriminate.
Qed.

(** ** Range *)
Lemma Rpower_half_pos t : 0 < Rpower half_const t.
Proof. unfold Rpower. apply exp_pos. Qed.
Lemma Rpower_half_lt t t' : t < t' -> Rpower half_const t' < Rpower half_const t.
Proof.
  intro H. rewrite !half_const_power. apply exp_increasing. lra.
Qed.
Lemma Rpower_half_0 : Rpower half_const 0 = 1.
Proof. rewrite half_const_power, Rmult_0_r. apply exp_0. Qed.

Lemma distance_reward_range radius dropoff halflife d r :
  0 < dropoff < 1 -> 0 < halflife ->
  is_distance_reward half_const radius dropoff halflife d r ->
  0 < r <= 1 /\ (r = 1 <-> d <= radius) /\ (radius < d -> r < dropoff).
Proof.
  intros Hd Hh [[H ->]|[H ->]].
  - split; [lra|]. split; [tauto|lra].
  - pose proof (Rpower_half_pos ((d - radius) / halflife)).
    assert (0 < (d - radius) / halflife) by (apply Rdiv_lt_0_compat; lra).
    pose proof (Rpower_half_lt 0 _ H1) as L. rewrite Rpower_half_0 in L.
    split; [nra|]. split; [|nra]. split; [|lra]. intro E. exfalso. nra.
Qed.

Lemma reward_range_lemma w s radius dropoff halflife : 0 < dropoff < 1 -> 0 < halflife ->
  exists r, perciatelli_reward_function w s radius dropoff halflife = Some r /\
    0 < r <= 1 /\ (r = 1 <-> distance_km (x s) (y s) <= radius /\ ~ penalised w s).
Proof.
  intros Hd Hh. destruct (reward_value w s radius dropoff halflife ltac:(lra))
    as (b & f & E & Hb & Hp & Hn).
  pose proof (distance_reward_range _ _ _ _ _ Hd Hh Hb) as (Rb & Ib & _).
  exists (b * f). split; [exact E|].
  destruct (is_down (last_command s) && negb (excess_energy w s)) eqn:Ep.
  - assert (P : penalised w s) by (apply penalised_bool; exact Ep).
    specialize (Hp P). apply is_power_factor_range in Hp.
    split; [nra|]. split; [intro; exfalso; nra|]. intros [_ N]; contradiction.
  - assert (P : ~ penalised w s) by (rewrite <- penalised_bool, Ep; discriminate).
    rewrite (Hn P). rewrite Rmult_1_r. split; [exact Rb|].
    rewrite Ib. tauto.
Qed.

(** ** Shape *)
Lemma distance_reward_unique h radius dropoff halflife d r r' :
  is_distance_reward h radius dropoff halflife d r ->
  is_distance_reward h radius dropoff halflife d r' -> r = r'.
Proof. intros [[? ->]|[? ->]] [[? ->]|[? ->]]; auto; lra. Qed.

Lemma distance_reward_antitone radius dropoff halflife d d' r r' :
  0 < dropoff < 1 -> 0 < halflife -> d <= d' ->
  is_distance_reward half_const radius dropoff halflife d r ->
  is_distance_reward half_const radius dropoff halflife d' r' ->
  r' <= r /\ (d < d' -> radius < d' -> r' < r).
Proof.
  intros Hd Hh Hle H H'.
  pose proof (distance_reward_range _ _ _ _ _ Hd Hh H) as (Rr & _ & _).
  pose proof (distance_reward_range _ _ _ _ _ Hd Hh H') as (Rr' & _ & Hdrop).
  destruct H as [[H ->]|[H ->]], H' as [[H' ->]|[H' ->]]; try (split; [lra|intros; lra]).
  destruct Hle as [Hlt|Heq]; [|subst d'; split; [lra|intros; lra]].
  assert ((d - radius) / halflife < (d' - radius) / halflife).
    { apply Rmult_lt_compat_r; [apply Rinv_0_lt_compat; lra|lra]. }
    apply Rpower_half_lt in H0. split; [nra|intros; nra].
Qed.

Lemma factor_eq w s s' f f' : same_power w s s' ->
  (penalised w s -> is_power_factor (acs_power s) f) -> (~ penalised w s -> f = 1) ->
  (penalised w s' -> is_power_factor (acs_power s') f') -> (~ penalised w s' -> f' = 1) ->
  f = f' /\ 0 < f.
Proof.
  intros [Hi Ha] A1 A2 B1 B2. rewrite Ha in A1.
  destruct (is_down (last_command s) && negb (excess_energy w s)) eqn:Ep.
  - assert (P : penalised w s) by (apply penalised_bool; exact Ep).
    split; [apply (is_power_factor_unique _ _ _ (A1 P) (B1 (proj1 Hi P)))|].
    apply is_power_factor_range in A1; auto. lra.
  - assert (P : ~ penalised w s) by (rewrite <- penalised_bool, Ep; discriminate).
    assert (P' : ~ penalised w s') by tauto.
    rewrite (A2 P), (B2 P'). split; lra.
Qed.

Lemma reward_monotone w s s' radius dropoff halflife r r' :
  0 < dropoff < 1 -> 0 < halflife -> same_power w s s' ->
  perciatelli_reward_function w s radius dropoff halflife = Some r ->
  perciatelli_reward_function w s' radius dropoff halflife = Some r' ->
  let d := distance_km (x s) (y s) in
  let d' := distance_km (x s') (y s') in
  (d <= d' -> r' <= r) /\ (d < d' -> radius < d' -> r' < r) /\ (d = d' -> r = r') /\
  (radius < d -> d' = d + halflife -> r' = half_const * r).
Proof.
  intros Hd Hh Hs E E' d d'.
  destruct (reward_value w s radius dropoff halflife ltac:(lra)) as (b & f & E1 & Hb & Hp & Hn).
  destruct (reward_value w s' radius dropoff halflife ltac:(lra)) as (b' & f' & E1' & Hb' & Hp' & Hn').
  rewrite E in E1; rewrite E' in E1'. injection E1 as ->. injection E1' as ->.
  destruct (factor_eq _ _ _ _ _ Hs Hp Hn Hp' Hn') as [-> F0].
  fold d in Hb. fold d' in Hb'.
  pose proof (distance_reward_range _ _ _ _ _ Hd Hh Hb) as (Rr & _ & _).
  pose proof (distance_reward_range _ _ _ _ _ Hd Hh Hb') as (Rr' & _ & _).
  repeat split.
  - intro L. pose proof (distance_reward_antitone _ _ _ _ _ _ _ Hd Hh L Hb Hb') as [A _]. nra.
  - intros L O. pose proof (distance_reward_antitone _ _ _ _ _ _ _ Hd Hh (Rlt_le _ _ L) Hb Hb') as [_ A].
    specialize (A L O). nra.
  - intro Q. rewrite <- Q in Hb'. now rewrite (distance_reward_unique _ _ _ _ _ _ _ Hb Hb').
  - intros O Q. destruct Hb as [[? _]|[_ ->]]; [lra|]. destruct Hb' as [[? _]|[_ ->]]; [lra|].
    rewrite Q, !half_const_power.
    replace (- (69314718056 / 100000000000) * ((d + halflife - radius) / halflife))
      with (- (69314718056 / 100000000000) + - (69314718056 / 100000000000) * ((d - radius) / halflife))
      by (field; lra).
    rewrite exp_plus. fold half_const. ring.
Qed.

Lemma reward_vanishes radius dropoff halflife : 0 < dropoff < 1 -> 0 < halflife ->
  forall eps, 0 < eps -> exists D, forall w s r, D < distance_km (x s) (y s) ->
    perciatelli_reward_function w s radius dropoff halflife = Some r -> r < eps.
Proof.
  intros Hd Hh eps He.
  (* exp(-c t) <= 1/(c t) *)
  exists (Rmax radius (radius + halflife * (2 / eps))). intros w s r HD E.
  destruct (reward_value w s radius dropoff halflife ltac:(lra)) as (b & f & E1 & Hb & Hp & Hn).
  rewrite E in E1. injection E1 as ->.
  set (d := distance_km (x s) (y s)) in *.
  pose proof (Rmax_l radius (radius + halflife * (2 / eps))).
  pose proof (Rmax_r radius (radius + halflife * (2 / eps))).
  assert (Hf : 0 < f <= 1).
  { destruct (is_down (last_command s) && negb (excess_energy w s)) eqn:Ep.
    - assert (P : penalised w s) by (apply penalised_bool; exact Ep).
      specialize (Hp P). apply is_power_factor_range in Hp. lra.
    - rewrite Hn; [lra|]. rewrite <- penalised_bool, Ep; discriminate. }
  destruct Hb as [[? _]|[O ->]]; [lra|].
  set (t := (d - radius) / halflife).
  assert (Ht : 2 / eps < t).
  { unfold t. apply (Rmult_lt_reg_r halflife); [lra|].
    unfold Rdiv at 2. rewrite Rmult_assoc, Rinv_l by lra. lra. }
  assert (0 < 2 / eps) by (apply Rdiv_lt_0_compat; lra).
  rewrite half_const_power.
  replace (- (69314718056 / 100000000000) * t) with (- (69314718056 / 100000000000 * t)) by ring.
  rewrite exp_Ropp. pose proof (exp_ineq1_le (69314718056 / 100000000000 * t)) as X.
  set (e := exp _) in *.
  assert (Q : / e < eps).
  { apply (Rmult_lt_reg_r e); [lra|]. rewrite Rinv_l by lra.
    assert (eps * (2 / eps) = 2) by (field; lra). nra. }
  assert (0 < / e) by (apply Rinv_0_lt_compat; lra).
  assert (dropoff * / e < eps) by nra. nra.
Qed.

(** The penalty: among states at the same distance, more ACS power gives less
    reward, and a penalised state gets between 0.65 and 0.95 of the unpenalised
    reward. *)
Lemma reward_penalty w s s' radius dropoff halflife r r' :
  0 < dropoff < 1 -> 0 < halflife ->
  perciatelli_reward_function w s radius dropoff halflife = Some r ->
  perciatelli_reward_function w s' radius dropoff halflife = Some r' ->
  distance_km (x s) (y s) = distance_km (x s') (y s') ->
  ~ penalised w s -> penalised w s' ->
  exists f, is_power_factor (acs_power s') f /\ 0.65 <= f <= 0.95 /\ r' = f * r.
Proof.
  intros Hd Hh E E' Q P P'.
  destruct (reward_value w s radius dropoff halflife ltac:(lra)) as (b & f & E1 & Hb & Hp & Hn).
  destruct (reward_value w s' radius dropoff halflife ltac:(lra)) as (b' & f' & E1' & Hb' & Hp' & Hn').
  rewrite E in E1; rewrite E' in E1'. injection E1 as ->. injection E1' as ->.
  rewrite <- Q in Hb'. rewrite (distance_reward_unique _ _ _ _ _ _ _ Hb' Hb), (Hn P).
  exists f'. split; [auto|]. split; [eauto using is_power_factor_range|ring].
Qed.
Lemma reward_more_power w s s' radius dropoff halflife r r' :
  0 < dropoff < 1 -> 0 < halflife ->
  perciatelli_reward_function w s radius dropoff halflife = Some r ->
  perciatelli_reward_function w s' radius dropoff halflife = Some r' ->
  distance_km (x s) (y s) = distance_km (x s') (y s') ->
  penalised w s -> penalised w s' ->
  (acs_power s <= acs_power s' -> r' <= r) /\
  (100 <= acs_power s < acs_power s' -> acs_power s' <= 300 -> r' < r).
Proof.
  intros Hd Hh E E' Q P P'.
  destruct (reward_value w s radius dropoff halflife ltac:(lra)) as (b & f & E1 & Hb & Hp & Hn).
  destruct (reward_value w s' radius dropoff halflife ltac:(lra)) as (b' & f' & E1' & Hb' & Hp' & Hn').
  rewrite E in E1; rewrite E' in E1'. injection E1 as ->. injection E1' as ->.
  rewrite <- Q in Hb'. rewrite (distance_reward_unique _ _ _ _ _ _ _ Hb' Hb).
  pose proof (distance_reward_range _ _ _ _ _ Hd Hh Hb) as (Rr & _ & _).
  specialize (Hp P). specialize (Hp' P').
  split.
  - intro L. pose proof (is_power_factor_mono _ _ _ _ Hp Hp' L). nra.
  - intros L L2. pose proof (is_power_factor_strict _ _ _ _ Hp Hp' ltac:(lra) ltac:(lra) L2). nra.
Qed.
