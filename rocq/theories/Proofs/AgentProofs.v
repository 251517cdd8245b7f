From Coq Require Import ZArith Reals List Bool Arith Lia Lra Psatz.
From Verif Require Import Model.Num Model.Prng Model.Transforms Model.Sampling Model.Env Model.Agents
  Model.Features Model.FeatureAgents.
From Verif Require Import Spec.FeatureSpec Spec.SeekerSpec Spec.ReplaySpec.
From Verif Require Import Proofs.NumR Proofs.FeatureProofs.
Import ListNotations.
Open Scope R_scope.

Lemma new_named_total v : length v = 1099%nat -> exists n, new_named v = Some n /\
  balloon_pressure n = observed_pressure v /\ distance_to_station n = component v 7 /\
  wind_column_center n = Some 180%Z.
Proof.
  intro L. unfold new_named. rewrite L. cbn [Nat.eqb negb]. rewrite skipn_length, L.
  replace ((1099 - 16) mod 3 =? 0)%nat with true by reflexivity. cbn [negb].
  unfold undo_linear_rescale_with_extrapolation, RANGE_MIN, RANGE_MAX. rewrite Rleb_false by lra.
  eexists. split; [reflexivity|]. cbn [balloon_pressure distance_to_station]. unfold observed_pressure, component.
  split; [lra|]. split; reflexivity.
Qed.

(** ** StationSeeker *)
Definition entry_feature (e : R * R * R) : wind_feature := let '(un, be, ma) := e in mkFeature un be ma.

Section Seeker.
Context (v : list R) (n : named).
Hypothesis En : new_named v = Some n.
Hypothesis Pl : plausible v.

Lemma seeker_wind k : (0 <= k <= 360)%Z -> wind_at n k = Some (entry_feature (wind_entry v k)).
Proof.
  intro Hk. destruct (named_winds v n En) as (Lv & Wn & Nn).
  rewrite (wind_at_slice n v k Wn Nn Lv). rewrite (slice_inside v k Lv Hk).
  destruct (wind_entry v k) as [[? ?] ?]. reflexivity.
Qed.

Lemma seeker_valid k : (0 <= k <= 360)%Z ->
  exists b, level_is_valid n k = Some b /\ (b = true <-> usable v k).
Proof.
  intro Hk. unfold level_is_valid. rewrite (seeker_wind k Hk). cbn [option_map].
  eexists. split; [reflexivity|]. unfold usable. destruct (wind_entry v k) as [[un be] ma].
  unfold entry_feature, is_valid_wind, unreachable. cbn [magnitude bearing uncertainty].
  rewrite !orb_true_iff, !negb_true_iff.
  destruct (Reqb_spec ma 1) as [->|N1].
  2:{ split; [intros _; split; [exact Hk|congruence]|intros _; left; left; reflexivity]. }
  destruct (Reqb_spec be 1) as [->|N2].
  2:{ split; [intros _; split; [exact Hk|congruence]|intros _; left; right; reflexivity]. }
  destruct (Reqb_spec un 0) as [->|N3].
  2:{ split; [intros _; split; [exact Hk|congruence]|intros _; right; reflexivity]. }
  split; [intros [[H|H]|H]; discriminate|intros [_ H]; elim H; reflexivity].
Qed.

Lemma exp_le1 a : 0 <= a -> 0 < exp (- a) <= 1.
Proof.
  intro H. split; [apply exp_pos|]. rewrite <- exp_0. destruct H as [H|<-].
  - left. apply exp_increasing. lra.
  - right. f_equal. lra.
Qed.

Lemma unsquash_nonneg c a : 0 <= c -> 0 <= a < 1 -> 0 <= unsquash c a.
Proof.
  intros Hc Ha. unfold unsquash. apply Rmult_le_pos; [apply Rmult_le_pos; lra|].
  left. apply Rinv_0_lt_compat. lra.
Qed.

Lemma weight_clip d : close_bearing_weight + np_clip ((d - close_bearing) / (far_bearing - close_bearing)) 0 1
    * (far_bearing_weight - close_bearing_weight) = bearing_weight d /\ 0 < bearing_weight d.
Proof.
  unfold close_bearing_weight, far_bearing_weight, close_bearing, far_bearing, np_clip, bearing_weight, Rmin, Rmax.
  repeat destruct Rle_dec; split; lra.
Qed.

Lemma seeker_score k : usable v k -> altitude_score n k = Some (score v k) /\ 0 < score v k <= 1.06.
Proof.
  intro U. assert (Hk := proj1 U). destruct Pl as (Lv & Hd & Hw). specialize (Hw k U).
  destruct (new_named_total v Lv) as (n' & En' & _ & Di & Ce). rewrite En in En'. injection En' as <-.
  unfold altitude_score, wind_score. rewrite (seeker_wind k Hk), Ce.
  unfold score, entry_feature. destruct (wind_entry v k) as [[un be] ma].
  destruct Hw as (Hu & Hb & Hm).
  unfold convert_wind_feature_to_real_wind. cbn [bearing magnitude uncertainty]. rewrite Di.
  unfold undo_linear_rescale_with_extrapolation, undo_squash_to_unit_interval.
  assert (HP := PI_RGT_0). rewrite (Rleb_false PI 0), (Rleb_false 30 0), (Rleb_false 250 0) by lra.
  rewrite (Rltb_false ma 0), (Rltb_false (component v 7) 0) by lra. cbn [andb].
  destruct (Reqb_spec (1 - ma) 0); [lra|]. destruct (Reqb_spec (1 - component v 7) 0); [lra|].
  cbn [bearing magnitude uncertainty].
  replace (component v 7 * 250 / (1 - component v 7)) with (station_distance v)
    by (unfold station_distance, unsquash; unfold Rdiv; ring).
  replace (ma * 30 / (1 - ma)) with (unsquash 30 ma) by (unfold unsquash; unfold Rdiv; ring).
  assert (Dn : 0 <= station_distance v) by (apply unsquash_nonneg; lra).
  assert (Mn : 0 <= unsquash 30 ma) by (apply unsquash_nonneg; lra).
  destruct (weight_clip (station_distance v)) as [Ew Wp]. rewrite Ew.
  unfold score_of_level, score_of_wind.
  set (d := station_distance v) in *. set (m := unsquash 30 ma) in *. set (W := bearing_weight d) in *.
  replace (- d / half_radius) with (- (d / 35)) by (unfold half_radius; lra).
  replace (- magnitude_weight * m) with (- (0.07 * m)) by (unfold magnitude_weight; lra).
  replace (- W * (0 + be * (PI - 0))) with (- (W * (PI * be))) by ring.
  replace (- hysteresis_k3 * IZR (Z.abs (k - 180))) with (- (0.001 * IZR (Z.abs (k - 180))))
    by (unfold hysteresis_k3; lra).
  destruct (exp_le1 (d / 35)) as [A0 A1]; [lra|].
  destruct (exp_le1 (0.07 * m)) as [B0 B1]; [lra|].
  destruct (exp_le1 (W * (PI * be))) as [C0 C1]; [apply Rmult_le_pos; [lra|apply Rmult_le_pos; lra]|].
  destruct (exp_le1 (0.001 * IZR (Z.abs (k - 180)))) as [E0 E1].
  { assert (0 <= IZR (Z.abs (k - 180))) by (apply IZR_le; lia). lra. }
  set (a := exp (- (d / 35))) in *. set (b := exp (- (0.07 * m))) in *.
  set (c := exp (- (W * (PI * be)))) in *. set (e := exp _) in *. clearbody a b c e.
  unfold confidence_epsilon, default_score, hysteresis_k2.
  split; [f_equal; lra|].
  assert (S : 0 < (1 - a) * c + a * b <= 1) by (split; nra).
  set (s := (1 - a) * c + a * b) in *. clearbody s. split; nra.
Qed.

(** The loop keeps the first of the best usable levels. *)
Definition best_so_far (done : Z -> Prop) (best : option Z) (best_score : R) : Prop :=
  match best with
  | None => best_score = 0 /\ forall j, done j -> ~ usable v j
  | Some k => best_score = score v k /\ usable v k /\ done k /\
      forall j, done j -> usable v j -> score v j <= score v k /\ ((j < k)%Z -> score v j < score v k)
  end.

Lemma seeker_loop : forall count start best best_score,
  (start + count <= 361)%nat ->
  best_so_far (fun j => (0 <= j < Z.of_nat start)%Z) best best_score ->
  exists best', best_level_loop n (map Z.of_nat (seq start count)) best best_score = Some best' /\
    exists score', best_so_far (fun j => (0 <= j < Z.of_nat (start + count))%Z) best' score'.
Proof.
  induction count as [|count IH]; intros start best bs Hc B.
  - cbn. exists best. split; [reflexivity|]. exists bs. rewrite Nat.add_0_r. exact B.
  - cbn [seq map best_level_loop].
    assert (Hk : (0 <= Z.of_nat start <= 360)%Z) by lia.
    destruct (seeker_valid _ Hk) as (ok & Ev & Hv). rewrite Ev.
    replace (start + S count)%nat with (S start + count)%nat by lia.
    destruct ok.
    + assert (U : usable v (Z.of_nat start)) by (apply Hv; reflexivity).
      destruct (seeker_score _ U) as [Es Bs]. rewrite Es.
      rewrite (Rleb_true 0), (Rleb_true (score v (Z.of_nat start))) by
        (unfold max_altitude_score, hysteresis_k2, confidence_epsilon; lra).
      cbn [andb negb]. destruct (Rltb bs (score v (Z.of_nat start))) eqn:Lt.
      * apply IH; [lia|]. apply (proj1 (reflect_iff _ _ (Rltb_spec _ _))) in Lt || idtac.
        destruct (Rltb_spec bs (score v (Z.of_nat start))) as [Lt'|]; [|congruence].
        cbn [best_so_far]. split; [reflexivity|]. split; [exact U|]. split; [lia|]. intros j Hj Uj.
        destruct (Z.eq_dec j (Z.of_nat start)) as [->|Nj]; [split; [lra|intro; exfalso; lia]|].
        assert (Hj' : (0 <= j < Z.of_nat start)%Z) by lia.
        destruct best as [k|]; cbn [best_so_far] in B.
        -- destruct B as (-> & _ & _ & B). destruct (B j Hj' Uj) as [B' _]. split; [lra|intros _; lra].
        -- elim (proj2 B j Hj' Uj).
      * apply IH; [lia|]. destruct (Rltb_spec bs (score v (Z.of_nat start))) as [|Ge]; [congruence|].
        destruct best as [k|]; cbn [best_so_far] in B |- *.
        -- destruct B as (Eb & Uk & Dk & B). split; [exact Eb|]. split; [exact Uk|]. split; [lia|].
           intros j Hj Uj. destruct (Z.eq_dec j (Z.of_nat start)) as [->|Nj]; [split; [lra|intro; exfalso; lia]|].
           apply B; [lia|exact Uj].
        -- destruct B as [-> _]. lra.
    + apply IH; [lia|]. assert (NU : ~ usable v (Z.of_nat start)) by (intro U; apply Hv in U; discriminate).
      destruct best as [k|]; cbn [best_so_far] in B |- *.
      * destruct B as (Eb & Uk & Dk & B). split; [exact Eb|]. split; [exact Uk|]. split; [lia|].
        intros j Hj Uj. destruct (Z.eq_dec j (Z.of_nat start)) as [->|Nj]; [contradiction|].
        apply B; [lia|exact Uj].
      * destruct B as [-> B]. split; [reflexivity|]. intros j Hj.
        destruct (Z.eq_dec j (Z.of_nat start)) as [->|Nj]; [exact NU|]. apply B. lia.
Qed.
End Seeker.

Lemma pick_action_spec v : plausible v ->
  match pick_action v with
  | None => forall k, ~ usable v k
  | Some action => exists k, usable v k /\
      (forall j, usable v j -> score v j <= score v k /\ ((j < k)%Z -> score v j < score v k)) /\
      action = (if Z.ltb k 180 then 2 else if Z.ltb 180 k then 0 else 1)%Z
  end.
Proof.
  intro Pl. destruct (new_named_total v (proj1 Pl)) as (n & En & _ & _ & Ce).
  unfold pick_action, find_best_pressure_level. rewrite En, Ce.
  destruct (named_winds v n En) as (_ & _ & Nn). rewrite Nn.
  destruct (seeker_loop v n En Pl 361 0 None 0) as (best & El & sc & B); [lia| |].
  { cbn [best_so_far]. split; [reflexivity|lia]. }
  rewrite El. change (Z.of_nat (0 + 361)) with 361%Z in B.
  destruct best as [k|]; cbn [best_so_far] in B.
  - destruct B as (_ & U & D & B).
    assert (Hj : forall j, usable v j -> (0 <= j < 361)%Z) by (intros j [Hj _]; lia).
    destruct (Z.ltb_spec k 180); [|destruct (Z.ltb_spec 180 k)]; exists k;
      (split; [exact U|]; split; [intros j Uj; apply B; [exact (Hj j Uj)|exact Uj]|];
       destruct (Z.ltb_spec k 180); try lia; destruct (Z.ltb_spec 180 k); try lia; reflexivity).
  - intros k U. apply (proj2 B k); [|exact U]. destruct U as [Hk _]. lia.
Qed.

(** ** RandomWalk *)
Section Walk.
Context (P : prng).

Lemma walk_select a v : rw_select_action P a v =
  if (length v =? 1099)%nat then Some (walk_action (target_pressure P a) (observed_pressure v)) else None.
Proof.
  unfold rw_select_action. destruct (Nat.eqb_spec (length v) 1099) as [L|]; [|reflexivity]. cbn [negb].
  destruct (new_named_total v L) as (n & -> & -> & _). unfold walk_action, HYSTERESIS.
  destruct (Rltb_spec (target_pressure P a) (observed_pressure v - 100)), (Rlt_dec (target_pressure P a) (observed_pressure v - 100)); try contradiction; try reflexivity.
  destruct (Rltb_spec (observed_pressure v + 100) (target_pressure P a)), (Rlt_dec (observed_pressure v + 100) (target_pressure P a)); try contradiction; reflexivity.
Qed.

Definition walk_state (key0 : key P) (target0 : R) (m : nat) : random_walk P :=
  mkRandomWalk P (walk_key P key0 m) (AGENT_TIME_STEP * Z.of_nat m)
    (walk_target P (fun i => 180 * INR i) key0 target0 m).

Lemma walk_steps key0 target0 inputs : forall m,
  steps (random_walk_agent P) (walk_state key0 target0 m) inputs =
  if forallb (fun i => length (snd i) =? 1099)%nat inputs
  then Some (walk_state key0 target0 (m + length inputs),
             map (fun '(i, (_, o)) =>
                    walk_action (walk_target P (fun i => 180 * INR i) key0 target0 (S i)) (observed_pressure o))
                 (combine (seq m (length inputs)) inputs))
  else None.
Proof.
  induction inputs as [|[r o] rest IH]; intro m.
  - cbn. rewrite Nat.add_0_r. reflexivity.
  - cbn [steps ag_step random_walk_agent forallb snd]. unfold rw_step.
    set (a := mkRandomWalk P _ _ _).
    assert (Ea : a = walk_state key0 target0 (S m)).
    { unfold a, walk_state. cbn [rw_rng rw_time_elapsed target_pressure walk_key walk_target]. f_equal.
      - lia.
      - unfold noise, STDDEV. f_equal. f_equal. f_equal. rewrite S_INR, INR_IZR_INZ.
        replace (AGENT_TIME_STEP * Z.of_nat m + AGENT_TIME_STEP)%Z with (180000000 * (Z.of_nat m + 1))%Z
          by (unfold AGENT_TIME_STEP; lia).
        rewrite mult_IZR, plus_IZR. lra. }
    rewrite walk_select. destruct (length o =? 1099)%nat; cbn [option_map andb]; [|reflexivity].
    rewrite Ea. cbn [ag_state random_walk_agent] in IH |- *. rewrite IH.
    destruct (forallb _ rest); [|reflexivity].
    cbn [length seq combine map]. f_equal. f_equal.
    replace (m + S (length rest))%nat with (S m + length rest)%nat by lia. reflexivity.
Qed.
End Walk.
