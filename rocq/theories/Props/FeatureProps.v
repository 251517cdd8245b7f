(** Properties C24-C28, C67, C68: the observation vector. *)
From Coq Require Import ZArith Reals Lra Lia Psatz List Bool Arith.
From Verif Require Import Model.Num Model.Prng Model.Safety Model.Balloon Model.Atmosphere
  Model.Geometry Model.Solar Model.SolarSearch Model.Transforms Model.PowerTable Model.WindField Model.WindGP
  Model.PressureRange Model.Env Model.Features.
From Verif Require Import Spec.FeatureSpec Spec.SunSpec.
From Verif Require Import Proofs.NumR Proofs.SolarProofs Proofs.SolarSearchProofs Proofs.TablesProofs Proofs.WindGPProofs
  Proofs.FeatureProofs Props.GeometryProps.
From Verif Require Model.Units.
Import ListNotations.
Open Scope R_scope.

(** ** C28 *)
Theorem C28_nearest_level : forall p k, nearest_pressure_level p = Some k <-> nearest_level p k.
Proof. exact nearest_pressure_level_spec. Qed.

Theorem C28_total_and_monotone : forall p q, p <= q ->
  exists j k, nearest_pressure_level p = Some j /\ nearest_pressure_level q = Some k /\ (j <= k)%Z /\
    (5000 <= p <= 14000 -> Rabs (level_pressure j - p) <= 25) /\
    (p <= 5000 -> j = 0%Z) /\ (14000 <= p -> j = 180%Z).
Proof.
  intros p q H. rewrite !nearest_pressure_level_value.
  eexists. eexists. split; [reflexivity|]. split; [reflexivity|]. split.
  - apply py_round_mono. unfold Rmin, Rmax. repeat destruct Rle_dec; lra.
  - split; [|split].
    + intro B. replace (Rmin (Rmax p 5000) 14000) with p by (unfold Rmin, Rmax; repeat destruct Rle_dec; lra).
      destruct (py_round_spec ((p - 5000) / 50)) as [A _]. unfold level_pressure.
      revert A. set (k := IZR _). unfold Rabs. repeat destruct Rcase_abs; lra.
    + intro B. replace (Rmin (Rmax p 5000) 14000) with 5000 by (unfold Rmin, Rmax; repeat destruct Rle_dec; lra).
      apply py_round_unique; replace (0 - (5000 - 5000) / 50) with 0 by lra; rewrite Rabs_R0; lra.
    + intro B. replace (Rmin (Rmax p 5000) 14000) with 14000 by (unfold Rmin, Rmax; repeat destruct Rle_dec; lra).
      apply py_round_unique; replace (180 - (14000 - 5000) / 50) with 0 by lra; rewrite Rabs_R0; lra.
Qed.
(** A tie: 5025 Pa is as far from level 0 as from level 1. *)
Example C28_tie : nearest_pressure_level 5025 = Some 0%Z /\ nearest_pressure_level 5075 = Some 2%Z.
Proof.
  rewrite !nearest_pressure_level_value. split; f_equal; apply py_round_unique;
    unfold Rmin, Rmax; repeat destruct Rle_dec; try lra; unfold Rabs; repeat destruct Rcase_abs; try lra; reflexivity.
Qed.

Section Vector.
Context (P : prng) (F : forecaster P) (G : regressor).
Context (fcol : wind_field P F -> R -> R -> list R -> Z -> option (list wind)).
Notation get_features := (get_features P F G fcol).

(** ** C24 *)
Theorem C24_layout : forall w atm c center s v,
  get_features w atm c = Some v -> last_balloon_state c = Some (center, s) ->
  length v = (16 + 3 * 361)%nat /\
  (component v 8, component v 9, component v 10) =
    match last_command s with UP => (1, 0, 0) | STAY => (0, 1, 0) | DOWN => (0, 0, 1) end /\
  (component v 11, component v 12) = (if navigation_is_paused s then (1, 0) else (0, 1)).
Proof.
  intros w atm c center s v E L. apply get_features_spec in E.
  destruct E as (ce & s' & t & p & b & an & rg & ts & E & _ & _ & _ & _ & N & _ & Lt & _ & ->).
  rewrite L in E. injection E as <- <-. split.
  - rewrite app_length, ambient_length, flat3_length, column_length; [reflexivity|exact Lt|apply N].
  - unfold component. rewrite !app_nth1 by (rewrite ambient_length; lia).
    unfold ambient_list. destruct (latlng center (x s) (y s)). cbn [nth].
    destruct (last_command s), (navigation_is_paused s); split; reflexivity.
Qed.

(** ** C25 *)
Theorem C25_wind_column : forall w atm c center s v,
  (forall x y ps e, ps <> [] ->
     fcol w x y ps e = all_some (map (fun p => forecast P F w x y p e) ps)) ->
  get_features w atm c = Some v -> last_balloon_state c = Some (center, s) ->
  exists b range,
    nearest_level (pressure s) b /\
    get_pressure_range s (fst (latlng center (x s) (y s))) (snd (latlng center (x s) (y s))) atm
      = Some range /\
    forall k, (0 <= k <= 360)%Z ->
      let level := (b + k - 180)%Z in
      let reachable := is_level level /\
        min_pressure range <= level_pressure level <= max_pressure range in
      (reachable -> exists mu mv dev,
         query G (fcol w) (windgp c) (x s) (y s) (level_pressure level) (time_elapsed s)
           = Some ((mu, mv), dev) /\
         0 <= dev <= 1.00001 /\
         encodes (x s) (y s) mu mv dev (wind_entry v k)) /\
      (~ reachable -> wind_entry v k = unreachable).
Proof.
  intros w atm c center s v Hcol E L. apply get_features_spec in E.
  destruct E as (ce & s' & t & p & b & an & rg & ts & E & _ & _ & _ & Q & N & Er & Lt & Ht & ->).
  rewrite L in E. injection E as <- <-.
  exists b, rg. split; [exact N|]. split; [exact Er|]. intros k Hk level reachable.
  destruct N as [Nb _]. unfold is_level in Nb.
  assert (Ee : wind_entry (ambient_list atm center s t p ++
      flat3 (repeat unreachable (Z.to_nat (180 - b)) ++ ts ++ repeat unreachable (Z.to_nat b))) k =
    if ((0 <=? level) && (level <=? 180))%Z then nth (Z.to_nat level) ts unreachable else unreachable).
  { rewrite (entry_nth _ _ k unreachable); [apply column_entry; assumption|apply ambient_length|].
    rewrite column_length by assumption. lia. }
  rewrite Ee.
  assert (Dec : ((0 <=? level) && (level <=? 180))%Z = true <-> is_level level).
  { rewrite andb_true_iff, Z.leb_le, Z.leb_le. reflexivity. }
  apply (query_batch_spec G (forecast P F w) (fcol w)) in Q; [|exact (Hcol)].
  destruct Q as (_ & _ & F2).
  destruct ((0 <=? level) && (level <=? 180))%Z eqn:B.
  - assert (Hl : is_level level) by (apply Dec; reflexivity).
    assert (Hi : (Z.to_nat level < 181)%nat) by (unfold is_level in Hl; lia).
    specialize (Ht _ Hi). rewrite Z2Nat.id in Ht by (unfold is_level in Hl; lia).
    split.
    + intros [_ Hr]. destruct Ht as [[_ (d & a & m & -> & E1 & E2 & E3 & Bd)]|[Nr _]].
      2:{ elim Nr. exact Hr. }
      rewrite map_map in E2, E3. rewrite !nth_error_map in *.
      destruct (nth_error an (Z.to_nat level)) as [[[mu mv] dev]|] eqn:En; [|discriminate].
      cbn in E1, E2, E3. injection E1 as ->. injection E2 as <-. injection E3 as <-.
      exists mu, mv, d. split; [|split; [exact Bd|apply bearing_encodes]].
      apply (query_spec G (forecast P F w) (fcol w)); [exact Hcol|].
      assert (F2n : forall (A B : Type) (Rr : A -> B -> Prop) l l', Forall2 Rr l l' -> forall i a b,
        nth_error l i = Some a -> nth_error l' i = Some b -> Rr a b).
      { clear. intros A B Rr l l' H. induction H; intros [|i] a b Ea Eb; try discriminate; cbn in *.
        - congruence.
        - eapply IHForall2; eassumption. }
      apply (F2n _ _ _ _ _ F2 (Z.to_nat level)); [|exact En].
      rewrite nth_error_map.
      rewrite (nth_error_nth' pressure_levels 0) by (rewrite levels_length; exact Hi).
      rewrite levels_nth by exact Hi. cbn. rewrite Z2Nat.id by (unfold is_level in Hl; lia). reflexivity.
    + intro Hn. destruct Ht as [[Hr _]|[_ ->]]; [|reflexivity]. elim Hn. split; [exact Hl|exact Hr].
  - split; [|reflexivity]. intros [Hl _]. apply Dec in Hl. discriminate.
Qed.

(** ** C26 *)
Lemma features_named w atm c v : get_features w atm c = Some v ->
  exists n, new_named v = Some n /\ n_num_pressure_levels n = 361%nat /\ winds n = skipn 16 v /\
    length (winds n) = 1083%nat.
Proof.
  intro E. assert (Lv : length v = 1099%nat).
  { destruct (last_balloon_state c) as [[center s]|] eqn:L.
    - apply (C24_layout w atm c center s v E L).
    - unfold Features.get_features in E. rewrite L in E. discriminate. }
  unfold new_named. rewrite Lv. cbn [Nat.eqb negb]. rewrite skipn_length, Lv.
  replace ((1099 - 16) mod 3 =? 0)%nat with true by reflexivity. cbn [negb].
  unfold undo_linear_rescale_with_extrapolation, RANGE_MIN, RANGE_MAX. rewrite Rleb_false by lra.
  eexists. split; [reflexivity|]. cbn [n_num_pressure_levels winds].
  split; [reflexivity|]. split; [reflexivity|]. rewrite skipn_length, Lv. reflexivity.
Qed.

(** What the named view of an observation says about the balloon. *)
Theorem C26_named_features : forall w atm c center s v,
  get_features w atm c = Some v -> last_balloon_state c = Some (center, s) ->
  exists n t power, new_named v = Some n /\
    compute_sunrise_time (fst (latlng center (x s) (y s))) (snd (latlng center (x s) (y s)))
      (date_time s) = Some t /\
    lookup (pressure_ratio s) (battery_soc s) = Some power /\
    (5000 <= pressure s <= 14000 -> balloon_pressure n = pressure s) /\
    (pressure s <= 5000 -> balloon_pressure n = 5000) /\
    (14000 <= pressure s -> balloon_pressure n = 14000) /\
    n_battery_charge n = battery_charge s / battery_capacity s /\
    undo_linear_rescale_with_extrapolation (solar_elevation n) (-90) 90 =
      Some (fst (fst (solar_calculator (fst (latlng center (x s) (y s)))
                        (snd (latlng center (x s) (y s))) (date_time s)))) /\
    sin_normalized_solar_cycle n = sin t /\ cos_normalized_solar_cycle n = cos t /\
    sqrt (x s ^ 2 + y s ^ 2) * sin_heading_to_station n = 0 - x s /\
    sqrt (x s ^ 2 + y s ^ 2) * cos_heading_to_station n = 0 - y s /\
    undo_squash_to_unit_interval (distance_to_station n) 250 =
      Some (sqrt (x s ^ 2 + y s ^ 2) / 1000) /\
    n_last_command n = last_command s /\
    has_excess_energy n = (if excess_energy (world_of atm center) s then 1 else 0) /\
    (100 <= power <= 300 -> undo_linear_rescale_with_extrapolation (descent_cost n) 100 300 = Some power) /\
    internal_pressure_ratio n = pressure_ratio s.
Proof.
  intros w atm c center s v E L. destruct (features_named w atm c v E) as (n & En & _).
  apply get_features_spec in E.
  destruct E as (ce & s' & t & p & b & an & rg & ts & E & Et & _ & Elk & _ & N & _ & Lt & _ & ->).
  rewrite L in E. injection E as <- <-.
  exists n, t, p. split; [exact En|]. split; [exact Et|]. split; [exact Elk|].
  remember (ambient_list atm center s t p) as amb eqn:Eamb.
  remember (flat3 _) as rest eqn:Erest. clear Erest.
  assert (Lamb : length amb = 16%nat) by (subst amb; apply ambient_length).
  revert En. unfold new_named.
  destruct (negb _); [discriminate|]. destruct (negb _); [discriminate|].
  unfold undo_linear_rescale_with_extrapolation at 1, RANGE_MIN, RANGE_MAX. rewrite Rleb_false by lra.
  intro En. injection En as <-.
  cbn [balloon_pressure n_battery_charge solar_elevation sin_normalized_solar_cycle
       cos_normalized_solar_cycle sin_heading_to_station cos_heading_to_station distance_to_station
       n_last_command has_excess_energy descent_cost internal_pressure_ratio].
  rewrite !app_nth1 by (rewrite Lamb; lia). rewrite Eamb. clear Eamb Lamb amb.
  unfold ambient_list. destruct (latlng center (x s) (y s)) as [lat lng]. cbn [nth fst snd].
  pose proof (solar_calculator_ranges lat lng (date_time s)) as Hel. unfold compute_solar_angle.
  destruct (solar_calculator lat lng (date_time s)) as [[el az] flux]. cbn [fst]. destruct Hel as [Hel _].
  rewrite distance_pow.
  assert (Hsq : sqrt (x s ^ 2 + y s ^ 2) = sqrt ((- y s) * (- y s) + (- x s) * (- x s))) by (f_equal; ring).
  assert (Ha : atan2 (- (x s / 1000)) (- (y s / 1000)) = atan2 (- x s) (- y s)).
  { replace (- (x s / 1000)) with (/ 1000 * - x s) by lra.
    replace (- (y s / 1000)) with (/ 1000 * - y s) by lra. apply atan2_scale. lra. }
  destruct (atan2_polar (- x s) (- y s)) as [Hc Hs].
  unfold undo_linear_rescale_with_extrapolation, undo_squash_to_unit_interval, Transforms.np_clip.
  rewrite (Rleb_false 90 (-90)), (Rleb_false 250 0), (Rleb_false 300 100) by lra.
  set (d := sqrt (x s ^ 2 + y s ^ 2)) in *. assert (Hd : 0 <= d) by apply sqrt_pos.
  split; [intro; unfold Rmin, Rmax; repeat destruct Rle_dec; lra|].
  split; [intro; unfold Rmin, Rmax; repeat destruct Rle_dec; lra|].
  split; [intro; unfold Rmin, Rmax; repeat destruct Rle_dec; lra|].
  split; [reflexivity|].
  split; [f_equal; unfold Rmin, Rmax; repeat destruct Rle_dec; lra|].
  split; [reflexivity|]. split; [reflexivity|].
  split; [rewrite Ha, Hsq, Hs; lra|]. split; [rewrite Ha, Hsq, Hc; lra|].
  split.
  { rewrite (Rltb_false (d / 1000 / (d / 1000 + 250)) 0).
    - cbn [andb]. assert (Hr : 1 - d / 1000 / (d / 1000 + 250) = 250 / (d / 1000 + 250))
        by (field; lra).
      assert (0 < 250 / (d / 1000 + 250)) by (apply Rdiv_lt_0_compat; lra).
      destruct (Reqb_spec (1 - d / 1000 / (d / 1000 + 250)) 0); [lra|]. f_equal. field. lra.
    - apply Rle_not_lt. apply Rmult_le_pos; [lra|]. left. apply Rinv_0_lt_compat. lra. }
  split.
  { destruct (last_command s); cbn [command_eqb float_of_bool]; unfold argmax3;
      rewrite ?(Rltb_false 0 0), ?(Rltb_false 1 0), ?(Rltb_true 0 1) by lra; reflexivity. }
  split; [reflexivity|].
  split; [intro; f_equal; unfold Rmin, Rmax; repeat destruct Rle_dec; lra|]. reflexivity.
Qed.

(** The wind accessors: the column as laid out, its centre, and which levels count
    as valid. *)
Theorem C26_named_winds : forall w atm c center s v,
  get_features w atm c = Some v -> last_balloon_state c = Some (center, s) ->
  exists n b range, new_named v = Some n /\ wind_column_center n = Some 180%Z /\
    nearest_level (pressure s) b /\
    get_pressure_range s (fst (latlng center (x s) (y s))) (snd (latlng center (x s) (y s))) atm
      = Some range /\
    forall k, (0 <= k <= 360)%Z ->
      wind_at n k = Some (let '(un, be, ma) := wind_entry v k in mkFeature un be ma) /\
      exists valid, level_is_valid n k = Some valid /\
        (valid = true <-> is_level (b + k - 180) /\
           min_pressure range <= level_pressure (b + k - 180) <= max_pressure range).
Proof.
  intros w atm c center s v E L. destruct (features_named w atm c v E) as (n & En & Nn & Wn & Lw).
  assert (Lv : length v = 1099%nat) by apply (C24_layout w atm c center s v E L).
  pose proof E as E0. apply get_features_spec in E.
  destruct E as (ce & s' & t & p & b & an & rg & ts & E & _ & _ & _ & _ & N & Er & Lt & Ht & Ev).
  rewrite L in E. injection E as <- <-.
  exists n, b, rg. split; [exact En|]. split; [unfold wind_column_center; rewrite Nn; reflexivity|].
  split; [exact N|]. split; [exact Er|]. intros k Hk.
  assert (Sl : forall i (l : list R), (i + 3 <= length l)%nat ->
    firstn 3 (skipn i l) = [nth i l 0; nth (i + 1) l 0; nth (i + 2) l 0]).
  { clear. induction i as [|i IH]; intros l Hl.
    - destruct l as [|a [|b [|c l]]]; cbn in Hl; try lia. reflexivity.
    - destruct l as [|a l]; cbn in Hl; [lia|]. cbn [skipn Nat.add nth]. apply IH. lia. }
  assert (Nl : forall i m (l : list R), nth i (skipn m l) 0 = nth (m + i) l 0).
  { clear. intros i m. induction m as [|m IH]; intro l; [reflexivity|].
    destruct l as [|a l]; cbn [skipn Nat.add nth]; [now destruct i|apply IH]. }
  assert (Ew : wind_at n k = Some (let '(un, be, ma) := wind_entry v k in mkFeature un be ma)).
  { unfold wind_at. replace ((k <? 0)%Z && (Z.of_nat (n_num_pressure_levels n) <=? k)%Z) with false
      by (symmetry; apply andb_false_iff; left; apply Z.ltb_ge; lia).
    unfold py_slice. rewrite Lw. change (Z.of_nat 1083) with 1083%Z.
    replace (k * 3 + 3 <? 0)%Z with false by (symmetry; apply Z.ltb_ge; lia).
    replace (k * 3 <? 0)%Z with false by (symmetry; apply Z.ltb_ge; lia).
    rewrite (Z.min_r 1083 (k * 3 + 3)), (Z.min_r 1083 (k * 3)), !Z.max_r by lia.
    replace (Z.to_nat (k * 3 + 3 - k * 3)) with 3%nat by lia.
    rewrite Sl by (rewrite Lw; lia). rewrite Wn, !Nl. unfold wind_entry, component.
    replace (16 + Z.to_nat (k * 3))%nat with (Z.to_nat (16 + 3 * k)) by lia.
    replace (16 + (Z.to_nat (k * 3) + 1))%nat with (Z.to_nat (16 + 3 * k) + 1)%nat by lia.
    replace (16 + (Z.to_nat (k * 3) + 2))%nat with (Z.to_nat (16 + 3 * k) + 2)%nat by lia. reflexivity. }
  split; [exact Ew|]. unfold level_is_valid. rewrite Ew. cbn [option_map]. eexists. split; [reflexivity|].
  destruct N as [Nb _]. unfold is_level in Nb.
  assert (Ee : wind_entry v k =
    if ((0 <=? b + k - 180) && (b + k - 180 <=? 180))%Z then nth (Z.to_nat (b + k - 180)) ts unreachable else unreachable).
  { rewrite Ev, (entry_nth _ _ k unreachable); [apply column_entry; assumption|apply ambient_length|].
    rewrite column_length by assumption. lia. }
  rewrite Ee. destruct ((0 <=? b + k - 180) && (b + k - 180 <=? 180))%Z eqn:B.
  - apply andb_true_iff in B. rewrite !Z.leb_le in B.
    assert (Hi : (Z.to_nat (b + k - 180) < 181)%nat) by lia.
    specialize (Ht _ Hi). rewrite Z2Nat.id in Ht by lia.
    destruct Ht as [[Hr (d & a & m & -> & _ & _ & E3 & _)]|[Nr ->]].
    + split; [intros _; split; [exact B|exact Hr]|]. intros _.
      rewrite map_map, nth_error_map in E3.
      destruct (nth_error an (Z.to_nat (b + k - 180))) as [[[mu mv] dev]|]; [|discriminate].
      cbn in E3. injection E3 as <-. unfold is_valid_wind. cbn [magnitude bearing uncertainty].
      destruct (Reqb_spec (magnitude_of (mu, mv)) 1) as [Em|_]; [exfalso|reflexivity].
      unfold magnitude_of in Em. cbn [fst snd] in Em. set (q := sqrt (mu ^ 2 + mv ^ 2)) in *.
      assert (Hq : 0 <= q) by apply sqrt_pos.
      assert (q = q + 30); [|lia || lra].
      rewrite <- (Rmult_1_l (q + 30)), <- Em. field. lra.
    + unfold unreachable, is_valid_wind. cbn [magnitude bearing uncertainty].
      rewrite (proj2 (Reqb_iff 1 1) eq_refl), (proj2 (Reqb_iff 0 0) eq_refl). cbn. split; [discriminate|].
      intros [_ Hr]. contradiction.
  - unfold unreachable, is_valid_wind. cbn [magnitude bearing uncertainty].
    rewrite (proj2 (Reqb_iff 1 1) eq_refl), (proj2 (Reqb_iff 0 0) eq_refl). cbn. split; [discriminate|].
    intros [Hl _]. unfold is_level in Hl. apply andb_false_iff in B. rewrite !Z.leb_gt in B. lia.
Qed.

(** But the two navigation attributes bear each other's name: "navigation_paused"
    is 1 exactly when navigation is not paused. *)
Theorem C26_navigation_swapped_refuted : forall w atm c center s v n,
  get_features w atm c = Some v -> last_balloon_state c = Some (center, s) -> new_named v = Some n ->
  navigation_paused n = (if navigation_is_paused s then 0 else 1) /\
  navigation_enabled n = (if navigation_is_paused s then 1 else 0).
Proof.
  intros w atm c center s v n E L En. destruct (C24_layout w atm c center s v E L) as (_ & _ & C).
  revert En. unfold new_named. destruct (negb _); [discriminate|]. destruct (negb _); [discriminate|].
  destruct (undo_linear_rescale_with_extrapolation _ _ _); [|discriminate].
  intro En. injection En as <-. cbn [navigation_paused navigation_enabled].
  unfold component in C. destruct (navigation_is_paused s); injection C as C1 C2; auto.
Qed.

(** ** C27 *)
Definition in_space (v : list R) : Prop :=
  forall i, (i < 1099)%nat ->
    space_low i <= component v i /\ match space_high i with Some h => component v i <= h | None => True end.

(** Every standard deviation the regressor returns is at most that of the prior. *)
Definition prior_bounds_deviations : Prop :=
  forall data fitted r, fit G data = Some fitted ->
    forall mean du dv, predict G fitted r = (mean, (du, dv)) -> 0 <= du <= 3.6 /\ 0 <= dv <= 3.6.

Lemma query_deviations gc g rows out : query_batch G gc g rows = Some out -> prior_bounds_deviations ->
  forall mean un, In (mean, un) out -> 0 <= un <= 1.
Proof.
  intros Q Hprior mean un Hin. revert Q. unfold query_batch. destruct rows as [|r0 rows']; [discriminate|].
  destruct (raw_prediction G g (r0 :: rows') r0) as [raw|] eqn:Raw; [|discriminate].
  destruct (forallb (same_column r0) (r0 :: rows')); [|discriminate].
  destruct (gc _ _ _ _) as [fs|]; [|discriminate]. intro Q. injection Q as Q.
  assert (Out : forall m' d', In (m', d') raw -> 0 <= d' <= 1).
  { intros m' d' Hi'. revert Raw. generalize (r0 :: rows'). intros rows Raw. revert Raw. unfold raw_prediction.
    destruct (measurement_locations g).
    - intro Raw. injection Raw as <-. apply in_map_iff in Hi'. destruct Hi' as (r & Er & _). injection Er as <- <-. lra.
    - destruct (fit G _) as [fitted|] eqn:Ef; [|discriminate]. intro Raw. injection Raw as <-.
      apply in_map_iff in Hi'. destruct Hi' as (r & Er & _).
      destruct (predict G fitted r) as [mean' [du dv]] eqn:Ep. injection Er as _ <-.
      destruct (Hprior _ _ r Ef _ _ _ Ep) as [D1 D2]. unfold deviation, SIGMA_EXP_SQUARED. cbn [fst snd].
      assert (0 <= du ^ 2 <= 3.6 ^ 2) by nra. assert (0 <= dv ^ 2 <= 3.6 ^ 2) by nra. lra. }
  assert (Add : forall fs l, map snd (add_forecasts l fs) = map snd l).
  { clear. intros fs. induction fs as [|f fs IH]; intros [|[[a b'] d] l]; cbn; try reflexivity. f_equal. apply IH. }
  apply (in_map snd) in Hin. rewrite <- Q, Add in Hin.
  apply in_map_iff in Hin. destruct Hin as ([m' d'] & Es & Hin). cbn in Es. subst d'. exact (Out _ _ Hin).
Qed.

Theorem C27_in_observation_space : forall w atm c center s v,
  get_features w atm c = Some v -> last_balloon_state c = Some (center, s) ->
  0 < pressure s -> 0 <= battery_charge s <= battery_capacity s -> 0 < battery_capacity s ->
  (forall i, (i < 16)%nat ->
     space_low i <= component v i /\ match space_high i with Some h => component v i <= h | None => True end) /\
  (forall k, (0 <= k <= 360)%Z -> let '(un, be, ma) := wind_entry v k in
     0 <= un <= 1.00001 /\ 0 <= be <= 1 /\ 0 <= ma <= 1 /\ (wind_entry v k = unreachable \/ ma < 1)) /\
  component v 7 < 1 /\
  (prior_bounds_deviations -> in_space v).
Proof.
  intros w atm c center s v E L Hp Hb Hc. pose proof E as E0. apply get_features_spec in E.
  destruct E as (ce & s' & t & p & b & an & rg & ts & E & _ & _ & _ & Q & N & _ & Lt & Ht & Ev).
  rewrite L in E. injection E as <- <-.
  assert (Amb : forall i, (i < 16)%nat ->
     space_low i <= component v i /\ match space_high i with Some h => component v i <= h | None => True end).
  { intros i Hi. unfold component. rewrite Ev, app_nth1 by (rewrite ambient_length; lia).
    unfold ambient_list. destruct (latlng center (x s) (y s)) as [lat lng].
    assert (Cl : forall a, 0 <= Transforms.np_clip a 0 1 <= 1)
      by (intro a; unfold Transforms.np_clip, Rmin, Rmax; repeat destruct Rle_dec; lra).
    assert (Fb : forall q, 0 <= float_of_bool q <= 1) by (intros []; cbn; lra).
    pose proof (SIN_bound t). pose proof (COS_bound t).
    set (h := atan2 _ _). pose proof (SIN_bound h). pose proof (COS_bound h).
    assert (Soc : 0 <= battery_soc s <= 1).
    { unfold battery_soc. numR. split; [apply div_nonneg; lra|apply div_le1; lra]. }
    assert (Ra : 1 <= pressure_ratio s).
    { unfold pressure_ratio. rewrite pymax_R. numR. pose proof (Rmax_r (superpressure s) 0) as M.
      apply Rmult_le_reg_r with (pressure s); [exact Hp|]. unfold Rdiv. rewrite Rmult_assoc, Rinv_l by lra. lra. }
    assert (Di : 0 <= Units.relative_distance (x s) (y s) / 1000 / (Units.relative_distance (x s) (y s) / 1000 + 250) <= 1).
    { unfold Units.relative_distance. pose proof (sqrt_pos (x s * x s + y s * y s)).
      split; [apply div_nonneg; lra|apply div_le1; lra]. }
    do 16 (destruct i as [|i];
      [cbn [nth space_low space_high existsb Nat.eqb orb]; first [apply Cl|apply Fb|lra]|]).
    lia. }
  destruct N as [Nb _]. unfold is_level in Nb.
  assert (Ee : forall k, (0 <= k <= 360)%Z -> wind_entry v k =
    if ((0 <=? b + k - 180) && (b + k - 180 <=? 180))%Z then nth (Z.to_nat (b + k - 180)) ts unreachable else unreachable).
  { intros k Hk. rewrite Ev, (entry_nth _ _ k unreachable); [apply column_entry; assumption|apply ambient_length|].
    rewrite column_length by assumption. lia. }
  assert (Win : forall k, (0 <= k <= 360)%Z ->
    let '(un, be, ma) := wind_entry v k in
     (0 <= un <= 1.00001 /\ 0 <= be <= 1 /\ 0 <= ma <= 1 /\ (wind_entry v k = unreachable \/ ma < 1)) /\
     (un = 0 \/ exists mean, In (mean, un) an)).
  { intros k Hk. rewrite (Ee k Hk).
    destruct ((0 <=? b + k - 180) && (b + k - 180 <=? 180))%Z eqn:B.
    - apply andb_true_iff in B. rewrite !Z.leb_le in B.
      assert (Hi : (Z.to_nat (b + k - 180) < 181)%nat) by lia. specialize (Ht _ Hi).
      destruct Ht as [[_ (d & a & m & -> & E1 & E2 & E3 & Bd)]|[_ ->]].
      + rewrite map_map in E2, E3. rewrite !nth_error_map in *.
        destruct (nth_error an (Z.to_nat (b + k - 180))) as [[[mu mv] dev]|] eqn:En; [|discriminate].
        cbn in E1, E2, E3. injection E1 as ->. injection E2 as <-. injection E3 as <-.
        pose proof (bearing_encodes (x s) (y s) mu mv d) as (_ & _ & Hbe & _).
        split; [split; [exact Bd|split; [exact Hbe|]]|].
        * unfold magnitude_of. cbn [fst snd]. set (q := sqrt (mu ^ 2 + mv ^ 2)).
          assert (Hq : 0 <= q) by apply sqrt_pos.
          split; [split; [apply div_nonneg; lra|apply div_le1; lra]|]. right.
          apply Rmult_lt_reg_r with (q + 30); [lra|]. unfold Rdiv. rewrite Rmult_assoc, Rinv_l by lra. lra.
        * right. exists (mu, mv). eapply nth_error_In. exact En.
      + unfold unreachable at 1. split; [|now left]. repeat split; try lra. now left.
    - unfold unreachable at 1. split; [|now left]. repeat split; try lra. now left. }
  split; [exact Amb|]. split.
  { intros k Hk. specialize (Win k Hk). destruct (wind_entry v k) as [[un be] ma]. apply (proj1 Win). }
  split.
  { unfold component. rewrite Ev, app_nth1 by (rewrite ambient_length; lia).
    unfold ambient_list. destruct (latlng center (x s) (y s)) as [lat lng]. cbn [nth].
    unfold Units.relative_distance. pose proof (sqrt_pos (x s * x s + y s * y s)) as Sq.
    set (q := sqrt _ / 1000). assert (Hq : 0 <= q) by (unfold q; lra). clearbody q.
    apply Rmult_lt_reg_r with (q + 250); [lra|]. unfold Rdiv. rewrite Rmult_assoc, Rinv_l by lra. lra. }
  intros Hprior i Hi. destruct (Nat.lt_ge_cases i 16) as [Hs|Hs]; [exact (Amb i Hs)|].
  assert (Dev : forall mean un, In (mean, un) an -> 0 <= un <= 1).
  { intros mean un Hin. exact (query_deviations _ _ _ _ Q Hprior mean un Hin). }
  assert (Ek : exists k j, (0 <= k <= 360)%Z /\ (j < 3)%nat /\ i = (Z.to_nat (16 + 3 * k) + j)%nat).
  { exists (Z.of_nat ((i - 16) / 3)), ((i - 16) mod 3)%nat.
    pose proof (Nat.div_mod (i - 16) 3 ltac:(lia)). pose proof (Nat.mod_upper_bound (i - 16) 3 ltac:(lia)).
    split; [|lia]. assert ((i - 16) / 3 < 361)%nat by (apply Nat.div_lt_upper_bound; lia). lia. }
  destruct Ek as (k & j & Hk & Hj & Ei). specialize (Win k Hk).
  unfold space_low, space_high.
  replace (existsb (Nat.eqb i) [3; 4; 5; 6]%nat) with false.
  2:{ symmetry. cbn. repeat (destruct (Nat.eqb_spec i _); [lia|]). destruct (Nat.eqb_spec i 3), (Nat.eqb_spec i 4), (Nat.eqb_spec i 5), (Nat.eqb_spec i 6); try lia; reflexivity. }
  replace (i =? 15)%nat with false by (symmetry; apply Nat.eqb_neq; lia).
  unfold wind_entry in Win. rewrite Ei. destruct Win as [(W1 & W2 & W3 & _) Wd].
  destruct j as [|[|[|j]]]; [| | |lia].
  - rewrite Nat.add_0_r. destruct Wd as [->|(mean & Hin)]; [lra|]. specialize (Dev _ _ Hin). lra.
  - exact W2.
  - exact W3.
Qed.
End Vector.

(** The declared observation space: solar cycle and heading in [-1, 1], the pressure
    ratio from 1 without limit, everything else in [0, 1]. *)
Theorem C27_space : forall i, (i < 1099)%nat ->
  ((3 <= i <= 6)%nat -> space_low i = -1 /\ space_high i = Some 1) /\
  (i = 15%nat -> space_low i = 1 /\ space_high i = None) /\
  ((i < 3 \/ 6 < i)%nat -> i <> 15%nat -> space_low i = 0 /\ space_high i = Some 1).
Proof.
  intros i _. unfold space_low, space_high. cbn [existsb].
  split; [|split].
  - intro H. assert (i = 3 \/ i = 4 \/ i = 5 \/ i = 6)%nat as [->|[->|[->| ->]]] by lia; split; reflexivity.
  - intros ->. split; reflexivity.
  - intros H N. destruct (Nat.eqb_spec i 3), (Nat.eqb_spec i 4), (Nat.eqb_spec i 5), (Nat.eqb_spec i 6); try lia.
    destruct (Nat.eqb_spec i 15); [contradiction|]. split; reflexivity.
Qed.
Theorem C27_pressure_range : forall p, is_valid_pressure p = true <-> 5000 <= p <= 14000.
Proof.
  intro p. unfold is_valid_pressure, RANGE_MIN, RANGE_MAX. rewrite andb_true_iff, !Rleb_iff. tauto.
Qed.

(** ** C67 *)
(** The levels 0..360 are the only ones of the column.  The ones below -1 are not
    refused, though: they are read from the other end. *)
Theorem C67_wind_at : forall v n, new_named v = Some n ->
  (forall k, (0 <= k <= 360)%Z ->
     wind_at n k = Some (let '(un, be, ma) := wind_entry v k in mkFeature un be ma)) /\
  (forall k, (360 < k \/ k = -1 \/ k < -361)%Z -> wind_at n k = None).
Proof.
  intros v n En. destruct (named_winds v n En) as (Lv & Wn & Nn).
  split; intros k Hk.
  - rewrite (wind_at_slice n v k Wn Nn Lv) by lia. apply slice_inside; [exact Lv|exact Hk].
  - rewrite (wind_at_slice n v k Wn Nn Lv) by lia. rewrite slice_empty; [reflexivity|exact Lv|exact Hk].
Qed.

Theorem C67_negative_levels_refuted : forall v n, new_named v = Some n ->
  forall k, (-361 <= k <= -2)%Z ->
    wind_at n k = wind_at n (k + 361) /\ wind_at n k <> None.
Proof.
  intros v n En k Hk. destruct (named_winds v n En) as (Lv & Wn & Nn).
  assert (E : wind_at n k = wind_at n (k + 361)).
  { rewrite !(wind_at_slice n v _ Wn Nn Lv) by lia. rewrite slice_negative by (exact Lv || lia). reflexivity. }
  split; [exact E|]. rewrite E. rewrite (proj1 (C67_wind_at v n En)) by lia.
  destruct (wind_entry v (k + 361)) as [[? ?] ?]. discriminate.
Qed.

(** ** C68 *)
(** The normalised solar time: from 0 at the last sunrise to pi at the sunset, and
    from pi to 2 pi during the night. *)
Theorem C68_solar_cycle : forall lat lng now t,
  compute_sunrise_time lat lng now = Some t ->
  let day := (24 * 3600 * 1000000)%Z in
  exists sunrise sunset,
    get_next_sunrise_sunset (Rltb (Rabs (degrees lat)) 60) (-4.242)
      (fun time => fst (fst (solar_calculator lat lng time))) now (180 * 1000000)
      = Some (sunrise, sunset) /\
    (now <= sunrise <= now + day)%Z /\ (now <= sunset <= now + day)%Z /\
    0 <= t <= 2 * PI /\
    ((sunset < sunrise)%Z ->
       0 <= t <= PI /\ t * IZR (sunset - (sunrise - day)) = PI * IZR (now - (sunrise - day))) /\
    ((sunrise <= sunset)%Z ->
       PI <= t <= 2 * PI /\ (t - PI) * IZR (sunrise - (sunset - day)) = PI * IZR (now - (sunset - day))).
Proof.
  intros lat lng now t E day. unfold compute_sunrise_time in E.
  change (compute_solar_angle lat lng) with (fun time => fst (fst (solar_calculator lat lng time))) in E.
  replace (-4.242) with Solar.MIN_SOLAR_EL_DEG by (unfold Solar.MIN_SOLAR_EL_DEG; lra).
  destruct (get_next_sunrise_sunset _ _ _ now _) as [[r s]|] eqn:G; [|discriminate].
  exists r, s. split; [reflexivity|].
  destruct (sunrise_sunset_window _ _ _ _ _ _ _ G) as (_ & Hr & Hs).
  unfold SunSpec.one_day in *. split; [exact Hr|]. split; [exact Hs|].
  assert (HP := PI_RGT_0). clear G.
  destruct (normalized_value _ _ _ _ E Hr Hs) as [[C (V & B)]|[C (V & B)]].
  - split; [lra|]. split; [intros _; split; [exact B|exact V]|lia].
  - split; [lra|]. split; [lia|intros _; split; [exact B|exact V]].
Qed.

(** It fails only where the search for the sunrise fails, or where the two answers
    are exactly the two ends of the day. *)
Theorem C68_fails_only : forall lat lng now sunrise sunset,
  get_next_sunrise_sunset (Rltb (Rabs (degrees lat)) 60) (-4.242)
      (fun time => fst (fst (solar_calculator lat lng time))) now (180 * 1000000)
      = Some (sunrise, sunset) ->
  Z.abs (sunrise - sunset) <> (24 * 3600 * 1000000)%Z ->
  compute_sunrise_time lat lng now <> None.
Proof.
  intros lat lng now r s G N. unfold compute_sunrise_time.
  change (compute_solar_angle lat lng) with (fun time => fst (fst (solar_calculator lat lng time))).
  replace (-4.242) with Solar.MIN_SOLAR_EL_DEG in G by (unfold Solar.MIN_SOLAR_EL_DEG; lra).
  change SEARCH_TIME_DELTA with (180 * 1000000)%Z. rewrite G.
  destruct (sunrise_sunset_window _ _ _ _ _ _ _ G) as (_ & Hr & Hs).
  unfold SunSpec.one_day in *. apply normalized_total; assumption.
Qed.

(** A vector with an identifiable number in every place. *)
Example C67_example : exists n, new_named (map INR (seq 0 1099)) = Some n /\
  wind_at n 2 = Some (mkFeature 22 23 24) /\ wind_at n (-359) = wind_at n 2 /\ wind_at n (-1) = None.
Proof.
  assert (L : length (map INR (seq 0 1099)) = 1099%nat) by (rewrite map_length; apply seq_length).
  destruct (new_named (map INR (seq 0 1099))) as [n|] eqn:En.
  - exists n. split; [reflexivity|]. destruct (C67_wind_at _ _ En) as [A B].
    destruct (C67_negative_levels_refuted _ _ En (-359)) as [C _]; [lia|].
    split; [|split; [exact C|apply B; lia]]. rewrite A by lia. unfold wind_entry, component.
    assert (Nn : forall i, (i < 1099)%nat -> nth i (map INR (seq 0 1099)) 0 = IZR (Z.of_nat i)).
    { intros i Hi. rewrite (nth_indep _ 0 (INR 0)) by (rewrite map_length, seq_length; exact Hi).
      rewrite map_nth, seq_nth by exact Hi. apply INR_IZR_INZ. }
    rewrite !Nn by (cbn; lia). reflexivity.
  - exfalso. revert En. unfold new_named. rewrite L. cbn [Nat.eqb negb]. rewrite skipn_length, L.
    replace ((1099 - 16) mod 3 =? 0)%nat with true by reflexivity. cbn [negb].
    unfold undo_linear_rescale_with_extrapolation, RANGE_MIN, RANGE_MAX. rewrite Rleb_false by lra. discriminate.
Qed.

(** Six hours after a sunrise twelve hours before the sunset: a quarter of the
    cycle. *)
Example C68_example : normalized_time 0 (18 * 3600 * 1000000) (6 * 3600 * 1000000) = Some (PI / 2).
Proof. cbn. f_equal. lra. Qed.

Print Assumptions C24_layout.
Print Assumptions C25_wind_column.
Print Assumptions C26_named_features.
Print Assumptions C26_named_winds.
Print Assumptions C26_navigation_swapped_refuted.
Print Assumptions C27_in_observation_space.
Print Assumptions C27_space.
Print Assumptions C27_pressure_range.
Print Assumptions C28_nearest_level.
Print Assumptions C28_total_and_monotone.
Print Assumptions C67_wind_at.
Print Assumptions C67_negative_levels_refuted.
Print Assumptions C68_solar_cycle.
Print Assumptions C68_fails_only.
