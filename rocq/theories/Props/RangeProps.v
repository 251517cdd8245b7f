(** Property C50: the accessible pressure range. *)
From Coq Require Import ZArith Reals Lra Lia Psatz List Bool Sorted.
From Verif Require Import Model.Num Model.Safety Model.Balloon Model.Atmosphere Model.WindField
  Model.StableInit Model.PressureRange Model.Sampling.
From Verif Require Import Spec.RangeSpec Spec.WindSpec.
From Verif Require Import Proofs.NumR Proofs.AtmosphereProofs Proofs.RangeProofs Props.SamplingProps.
Import ListNotations.
Open Scope R_scope.

(** ** One search *)
(** [at_least a l], [at_most a l]: the members of [l] on one side of [a]. *)
Definition at_least (a : R) := filter (fun p => if Rle_dec a p then true else false).
Definition at_most (a : R) := filter (fun p => if Rle_dec p a then true else false).

Lemma plausible_max a l : filter (plausible dir_max a) l = at_least a l.
Proof.
  apply filter_ext. intro p. cbn [plausible]. destruct (Rleb_spec a p), (Rle_dec a p); reflexivity || contradiction.
Qed.
Lemma plausible_min a l : filter (plausible dir_min a) l = at_most a l.
Proof.
  apply filter_ext. intro p. cbn [plausible]. destruct (Rleb_spec p a), (Rle_dec p a); reflexivity || contradiction.
Qed.

Lemma sorted_rev levels : StronglySorted Rlt levels -> StronglySorted (fun a b => b < a) (rev levels).
Proof.
  induction 1 as [|a l S IH H]; [constructor|]. cbn [rev].
  assert (Q : forall l', StronglySorted (fun a b => b < a) l' -> Forall (fun b => a < b) l' ->
    StronglySorted (fun a b => b < a) (l' ++ [a])).
  { induction 1 as [|b l' S' IH' H']; intro F; [repeat constructor|]. inversion_clear F.
    cbn [app]. constructor; [apply IH'; assumption|]. apply Forall_app. split; [assumption|repeat constructor; assumption]. }
  apply Q; [exact IH|]. apply Forall_rev. exact H.
Qed.

(** For any superpressures and any increasing list of levels. *)
Theorem C50_search : forall f lowest highest levels start,
  StronglySorted Rlt levels ->
  ((forall r, search_for_safe_pressure f levels start lowest highest dir_max = Some r <->
      range_end f lowest highest start (at_least start levels) r) /\
   (search_for_safe_pressure f levels start lowest highest dir_max = None <->
      no_range_end f lowest highest start (at_least start levels))) /\
  ((forall r, search_for_safe_pressure f levels start lowest highest dir_min = Some r <->
      range_end f lowest highest start (at_most start (rev levels)) r) /\
   (search_for_safe_pressure f levels start lowest highest dir_min = None <->
      no_range_end f lowest highest start (at_most start (rev levels)))).
Proof.
  intros f lo hi levels start Srt.
  assert (Srt' := sorted_rev _ Srt).
  assert (G : forall d levels', 
    match search_for_safe_pressure f levels start lo hi d with
    | Some r => range_end f lo hi start levels' r
    | None => no_range_end f lo hi start levels'
    end ->
    (forall r, search_for_safe_pressure f levels start lo hi d = Some r <-> range_end f lo hi start levels' r) /\
    (search_for_safe_pressure f levels start lo hi d = None <-> no_range_end f lo hi start levels')).
  { intros d levels' H. destruct (search_for_safe_pressure f levels start lo hi d) as [r0|].
    - split.
      + intro r. split; [intros [= <-]; exact H|]. intro H'. f_equal. exact (range_end_unique _ _ _ _ _ _ _ H H').
      + split; [discriminate|]. intro N. elim (range_end_or_not _ _ _ _ _ _ H N).
    - split.
      + intro r. split; [discriminate|]. intro H'. elim (range_end_or_not _ _ _ _ _ _ H' H).
      + split; [intros _; exact H|reflexivity]. }
  split; apply G.
  - pose proof (search_spec f lo hi dir_max levels start Srt) as H. cbv zeta in H. rewrite plausible_max in H. exact H.
  - pose proof (search_spec f lo hi dir_min levels start Srt') as H. cbv zeta in H. rewrite plausible_min in H. exact H.
Qed.

(** ** The range *)
(** The twenty levels, from 1000 Pa to the pressure [bottom] at the lowest allowed
    altitude; the ratio of pressure and temperature in an atmosphere; and the one at
    which the fully inflated balloon floats (its mass is that of the displaced air). *)
Definition level (bottom : R) (i : nat) : R := 1000 + (bottom - 1000) * INR i / 19.
Definition ratio_at (atm : atmosphere) (p : R) : R :=
  match Atmosphere.at_pressure atm p with Some v => p / v_temperature v | None => 0 end.
Definition floating_ratio (b : bstate R) : R :=
  (payload_mass b + envelope_mass b + mols_lift_gas b * 0.004002602) * 8.3144621 /
  (0.02896492248116 * envelope_volume_base b).
(** The superpressure with which the balloon floats at [p] in equilibrium. *)
Definition floating_superpressure (b : bstate R) (lat lng : R) (atm : atmosphere) (p : R) : option R :=
  option_map sp_superpressure
    (calculate_stable_params_for_pressure p (envelope_volume_base b) (envelope_volume_dv_pressure b)
       (envelope_mass b) (payload_mass b) (mols_lift_gas b) lat lng (date_time b) (upwelling_infrared b) atm).

(** In every atmosphere of the simulator: the atmosphere lookups and the code's
    assertion on the table never fail; the range is given by the two searches. *)
Theorem C50_range : forall alpha b lat lng, 0 <= alpha <= 1 ->
  let atm := atmosphere_reset alpha in
  let sp := floating_superpressure b lat lng atm in
  let highest := envelope_max_superpressure b - 250 in
  exists floor top,
    at_height atm (50000 * 0.3048) = Some floor /\ 6500 < v_pressure floor /\
    let bottom := v_pressure floor in
    let levels := map (level bottom) (seq 0 20) in
    interpolates 20 (fun i => ratio_at atm (level bottom i)) (level bottom) (floating_ratio b) top /\
    match get_pressure_range b lat lng atm with
    | None => highest <= 0 \/
        no_range_end sp 250 highest top (at_least top levels) \/
        no_range_end sp 250 highest bottom (at_most bottom (rev levels))
    | Some r =>
        0 < highest /\
        range_end sp 250 highest top (at_least top levels) (min_pressure r) /\
        range_end sp 250 highest bottom (at_most bottom (rev levels)) (max_pressure r)
    end.
Proof.
  intros alpha b lat lng Ha atm sp highest.
  destruct (floor_pressure alpha Ha) as (vf & Ef & Hf).
  assert (Bot : 6500 < v_pressure vf) by exact Hf.
  set (bottom := v_pressure vf) in *.
  assert (Lv : map (linspace 1000 bottom 20) (seq 0 20) = map (level bottom) (seq 0 20)).
  { apply map_ext. intro i. unfold linspace, level. replace (INR (20 - 1)) with 19 by (cbn; lra). reflexivity. }
  assert (Sl : StronglySorted Rlt (map (level bottom) (seq 0 20))).
  { assert (Q : forall n a, StronglySorted Rlt (map (level bottom) (seq a n))).
    { induction n as [|n IH]; intro a; cbn [seq map]; constructor; [apply IH|].
      apply Forall_forall. intros p Hp. apply in_map_iff in Hp. destruct Hp as (j & <- & Hj). apply in_seq in Hj.
      assert (INR a < INR j) by (apply lt_INR; lia). unfold level. nra. }
    apply Q. }
  assert (Lr : forall i, (i < 20)%nat -> 1000 <= level bottom i <= bottom).
  { intros i Hi. unfold level. assert (0 <= INR i) by apply pos_INR.
    assert (INR i <= 19) by (replace 19 with (INR 19) by (cbn; lra); apply le_INR; lia). nra. }
  destruct (all_some_map (Atmosphere.at_pressure atm) (map (level bottom) (seq 0 20))) as (column & Ec & F2).
  { intros p Hp. apply in_map_iff in Hp. destruct Hp as (i & <- & Hi). apply in_seq in Hi.
    exact (level_lookup alpha _ _ Ha Ef (Lr i ltac:(lia))). }
  set (pot := map (fun c => v_pressure c / v_temperature c) column).
  assert (Pot : pot = map (ratio_at atm) (map (level bottom) (seq 0 20))).
  { unfold pot. clear -F2. induction F2 as [|p v l r E F2 IH]; [reflexivity|]. cbn [map]. rewrite IH. f_equal.
    unfold ratio_at. rewrite E. apply at_pressure_some in E. destruct E as (_ & -> & _). reflexivity. }
  assert (Nth : forall i, (i < 20)%nat -> nth i pot 0 = ratio_at atm (level bottom i)).
  { intros i Hi. rewrite Pot, map_map.
    rewrite (nth_indep _ 0 (ratio_at atm (level bottom 0))) by (rewrite map_length, seq_length; lia).
    rewrite (map_nth (fun i => ratio_at atm (level bottom i))). rewrite seq_nth by lia. reflexivity. }
  assert (NthL : forall i, (i < 20)%nat -> nth i (map (level bottom) (seq 0 20)) 0 = level bottom i).
  { intros i Hi. rewrite (nth_indep _ 0 (level bottom 0)) by (rewrite map_length, seq_length; lia).
    rewrite (map_nth (level bottom)). rewrite seq_nth by lia. reflexivity. }
  assert (Len : length pot = 20%nat) by (rewrite Pot, !map_length; apply seq_length).
  assert (Inc : increasing (fun i => nth i pot 0) (length pot)).
  { rewrite Len. intros i Hi. rewrite !Nth by lia.
    destruct (level_lookup alpha _ _ Ha Ef (Lr i ltac:(lia))) as (v & E).
    destruct (level_lookup alpha _ _ Ha Ef (Lr (S i) ltac:(lia))) as (v' & E').
    unfold ratio_at, atm. rewrite E, E'.
    assert (Hlt : level bottom i < level bottom (S i)) by (unfold level; rewrite S_INR; lra).
    pose proof (ratio_increases alpha _ _ _ _ Ha E E' Hlt) as Q.
    pose proof (at_pressure_some alpha _ _ E) as (_ & E1 & _). pose proof (at_pressure_some alpha _ _ E') as (_ & E2 & _).
    rewrite E1, E2 in Q. exact Q. }
  assert (Mono : monotonically_increasing pot = true).
  { clear -Inc. induction pot as [|a [|c l] IH]; [reflexivity|reflexivity|].
    change (Rltb a c && monotonically_increasing (c :: l) = true).
    rewrite (Rltb_true a c) by (apply (Inc O); cbn; lia). apply IH.
    intros i Hi. apply (Inc (S i)). cbn [length] in *. lia. }
  pose proof (interp_spec pot (map (level bottom) (seq 0 20)) (floating_ratio b) ltac:(lia) Inc) as Top.
  exists vf, (interp1d_extrapolate pot (map (level bottom) (seq 0 20)) (floating_ratio b)).
  set (top := interp1d_extrapolate _ _ _) in *.
  split; [exact Ef|]. split; [exact Bot|]. split.
  { rewrite Len in Top. destruct Top as (i & Hi & A & B & ->). exists i.
    rewrite !Nth, !NthL in * by lia. repeat split; assumption || lia. }
  unfold get_pressure_range. change (IZR ENV_BUFFER) with 250. fold highest.
  destruct (Rltb_spec 0 highest) as [Hh|Hh]; cbn [negb]; [|left; lra].
  replace (@MIN_ALTITUDE R Num_R) with MIN_ALTITUDE_M.
  2:{ unfold MIN_ALTITUDE_M, MIN_ALTITUDE, metres_of_feet. numR. lra. }
  fold atm in Ef. rewrite Ef. fold bottom. rewrite Lv, Ec. fold pot. rewrite Mono. cbn [negb].
  replace ((payload_mass b + envelope_mass b + mols_lift_gas b * HE_MOLAR_MASS) * UNIVERSAL_GAS_CONSTANT /
           (DRY_AIR_MOLAR_MASS * envelope_volume_base b)) with (floating_ratio b).
  2:{ unfold floating_ratio, HE_MOLAR_MASS, UNIVERSAL_GAS_CONSTANT, DRY_AIR_MOLAR_MASS. numR.
      repeat (f_equal; try lra). }
  fold top. fold sp.
  destruct (C50_search sp 250 highest (map (level bottom) (seq 0 20)) top Sl) as [[S1 N1] _].
  destruct (C50_search sp 250 highest (map (level bottom) (seq 0 20)) bottom Sl) as [_ [S2 N2]].
  fold (floating_superpressure b lat lng atm). fold sp.
  destruct (search_for_safe_pressure sp _ top 250 highest dir_max) as [lo|].
  - destruct (search_for_safe_pressure sp _ bottom 250 highest dir_min) as [hi|].
    + cbn [min_pressure max_pressure]. split; [exact Hh|]. split; [apply S1|apply S2]; reflexivity.
    + right. right. apply N2. reflexivity.
  - right. left. apply N1. reflexivity.
Qed.

(** ** What the range guarantees *)
Lemma end_from_above f lo hi start levels r : StronglySorted Rlt levels ->
  range_end f lo hi start (at_least start levels) r ->
  start <= r /\ (forall p, In p levels -> start <= p -> safe f lo hi p -> r <= p).
Proof.
  intros Srt H.
  assert (Ge : forall p, In p (at_least start levels) <-> In p levels /\ start <= p).
  { intro p. unfold at_least. rewrite filter_In. destruct (Rle_dec start p); intuition (discriminate || lra). }
  assert (S' : StronglySorted Rlt (at_least start levels)).
  { unfold at_least. apply filter_sorted. exact Srt. }
  destruct H as [[_ ->]|(_ & before & q & after & E & Fb & Sq & sp & sq & _ & _ & Hr & _)].
  { split; [lra|]. intros; assumption. }
  assert (Q : start <= last before start /\ last before start <= q).
  { destruct before as [|c l] using rev_ind.
    - cbn. assert (In q (at_least start levels)) by (rewrite E; left; reflexivity).
      apply Ge in H. lra.
    - rewrite last_last. assert (Hc : In c (at_least start levels)) by (rewrite E; apply in_or_app; left; apply in_or_app; right; left; reflexivity).
      apply Ge in Hc. split; [lra|]. rewrite E, <- app_assoc in S'. clear -S'.
      induction l as [|a l IH]; cbn [app] in S'; inversion_clear S'; [|apply IH; assumption].
      inversion_clear H0. lra. }
  split; [lra|]. intros p Hp Hs Sp. assert (Hp' : In p (at_least start levels)) by (apply Ge; split; assumption).
  rewrite E in Hp'. apply in_app_or in Hp'. destruct Hp' as [Hb|[<-|Ha]].
  - rewrite Forall_forall in Fb. apply Fb in Hb. destruct Hb as (s1 & E1 & N1), Sp as (s2 & E2 & N2).
    rewrite E1 in E2. injection E2 as <-. contradiction.
  - lra.
  - rewrite E in S'. assert (q < p).
    { clear -S' Ha. induction before as [|a l IH]; cbn [app] in S'; inversion_clear S'; [|apply IH; assumption].
      rewrite Forall_forall in H0. apply H0. exact Ha. }
    lra.
Qed.

Lemma end_from_below f lo hi start levels r : StronglySorted (fun a b => b < a) levels ->
  range_end f lo hi start (at_most start levels) r ->
  r <= start /\ (forall p, In p levels -> p <= start -> safe f lo hi p -> p <= r).
Proof.
  intros Srt H.
  assert (Ge : forall p, In p (at_most start levels) <-> In p levels /\ p <= start).
  { intro p. unfold at_most. rewrite filter_In. destruct (Rle_dec p start); intuition (discriminate || lra). }
  assert (S' : StronglySorted (fun a b => b < a) (at_most start levels)).
  { unfold at_most. apply filter_sorted. exact Srt. }
  destruct H as [[_ ->]|(_ & before & q & after & E & Fb & Sq & sp & sq & _ & _ & Hr & _)].
  { split; [lra|]. intros; assumption. }
  assert (Q : last before start <= start /\ q <= last before start).
  { destruct before as [|c l] using rev_ind.
    - cbn. assert (In q (at_most start levels)) by (rewrite E; left; reflexivity).
      apply Ge in H. lra.
    - rewrite last_last. assert (Hc : In c (at_most start levels)) by (rewrite E; apply in_or_app; left; apply in_or_app; right; left; reflexivity).
      apply Ge in Hc. split; [lra|]. rewrite E, <- app_assoc in S'. clear -S'.
      induction l as [|a l IH]; cbn [app] in S'; inversion_clear S'; [|apply IH; assumption].
      inversion_clear H0. lra. }
  split; [lra|]. intros p Hp Hs Sp. assert (Hp' : In p (at_most start levels)) by (apply Ge; split; assumption).
  rewrite E in Hp'. apply in_app_or in Hp'. destruct Hp' as [Hb|[<-|Ha]].
  - rewrite Forall_forall in Fb. apply Fb in Hb. destruct Hb as (s1 & E1 & N1), Sp as (s2 & E2 & N2).
    rewrite E1 in E2. injection E2 as <-. contradiction.
  - lra.
  - rewrite E in S'. assert (p < q).
    { clear -S' Ha. induction before as [|a l IH]; cbn [app] in S'; inversion_clear S'; [|apply IH; assumption].
      rewrite Forall_forall in H0. apply H0. exact Ha. }
    lra.
Qed.

(** Every sampled level below the ceiling at which the balloon floats safely is in the
    range, which lies between the ceiling and the pressure at the lowest altitude. *)
Theorem C50_contains : forall alpha b lat lng r, 0 <= alpha <= 1 ->
  get_pressure_range b lat lng (atmosphere_reset alpha) = Some r ->
  exists floor top,
    at_height (atmosphere_reset alpha) (50000 * 0.3048) = Some floor /\
    top <= min_pressure r /\ max_pressure r <= v_pressure floor /\
    let sp := floating_superpressure b lat lng (atmosphere_reset alpha) in
    (forall i, (i < 20)%nat -> top <= level (v_pressure floor) i ->
       safe sp 250 (envelope_max_superpressure b - 250) (level (v_pressure floor) i) ->
       min_pressure r <= level (v_pressure floor) i <= max_pressure r) /\
    (max_pressure r < min_pressure r ->
       forall i, (i < 20)%nat -> top <= level (v_pressure floor) i ->
         ~ safe sp 250 (envelope_max_superpressure b - 250) (level (v_pressure floor) i)).
Proof.
  intros alpha b lat lng r Ha E.
  destruct (C50_range alpha b lat lng Ha) as (vf & top & Ef & Bot & _ & H). cbv zeta in H. rewrite E in H.
  destruct H as (_ & H1 & H2). exists vf, top. split; [exact Ef|].
  set (bottom := v_pressure vf) in *.
  assert (Srt : StronglySorted Rlt (map (level bottom) (seq 0 20))).
  { assert (Q : forall n a, StronglySorted Rlt (map (level bottom) (seq a n))).
    { induction n as [|n IH]; intro a; cbn [seq map]; constructor; [apply IH|].
      apply Forall_forall. intros p Hp. apply in_map_iff in Hp. destruct Hp as (j & <- & Hj). apply in_seq in Hj.
      assert (INR a < INR j) by (apply lt_INR; lia). unfold level. nra. }
    apply Q. }
  destruct (end_from_above _ _ _ _ _ _ Srt H1) as [A1 A2].
  destruct (end_from_below _ _ _ _ _ _ (sorted_rev _ Srt) H2) as [B1 B2].
  assert (M : forall i, (i < 20)%nat -> In (level bottom i) (map (level bottom) (seq 0 20)) /\ level bottom i <= bottom).
  { intros i Hi. split; [apply in_map; apply in_seq; lia|]. unfold level.
    assert (INR i <= 19) by (replace 19 with (INR 19) by (cbn; lra); apply le_INR; lia). nra. }
  split; [exact A1|]. split; [exact B1|]. cbv zeta.
  assert (C : forall i, (i < 20)%nat -> top <= level bottom i ->
     safe (floating_superpressure b lat lng (atmosphere_reset alpha)) 250 (envelope_max_superpressure b - 250) (level bottom i) ->
     min_pressure r <= level bottom i <= max_pressure r).
  { intros i Hi Ht Sp. destruct (M i Hi) as [M1 M2]. split; [apply A2; assumption|].
    apply B2; [rewrite <- in_rev; exact M1|exact M2|exact Sp]. }
  split; [exact C|]. intros Lt i Hi Ht Sp. specialize (C i Hi Ht Sp). lra.
Qed.

(** The searches on a profile that is too low at the top and too high at the bottom:
    the ends are the interpolated crossings. *)
Example C50_witness :
  let f p := Some (p / 10) in
  let levels := [1000; 2000; 3000; 4000] in
  StronglySorted Rlt levels /\
  search_for_safe_pressure f levels 1000 250 350 dir_max = Some 2500 /\
  search_for_safe_pressure f levels 4000 250 350 dir_min = Some 3500 /\
  search_for_safe_pressure f levels 1000 450 550 dir_max = None.
Proof.
  intros f levels.
  assert (Srt : StronglySorted Rlt levels) by (unfold levels; repeat (constructor; try lra)).
  assert (U : forall lo hi p, ~ (lo <= p / 10 <= hi) -> unsafe f lo hi p).
  { intros lo hi p H. exists (p / 10). split; [reflexivity|exact H]. }
  assert (L : at_least 1000 levels = levels).
  { unfold at_least, levels. cbn [filter].
    repeat (destruct (Rle_dec _ _); [|lra]). reflexivity. }
  assert (L' : at_most 4000 (rev levels) = rev levels).
  { unfold at_most, levels. cbn [rev app filter].
    repeat (destruct (Rle_dec _ _); [|lra]). reflexivity. }
  split; [exact Srt|].
  destruct (C50_search f 250 350 levels 1000 Srt) as [[S1 _] _].
  destruct (C50_search f 250 350 levels 4000 Srt) as [_ [S2 _]].
  destruct (C50_search f 450 550 levels 1000 Srt) as [[_ N] _].
  rewrite L in *. rewrite L' in *. split; [|split].
  - apply S1. right. split; [apply U; lra|]. exists [1000; 2000], 3000, [4000].
    split; [reflexivity|]. split; [repeat constructor; apply U; lra|].
    split; [exists (3000/10); split; [reflexivity|lra]|].
    exists (2000/10), (3000/10). cbn [last]. split; [reflexivity|]. split; [reflexivity|]. split; [left; lra|].
    left. split; [lra|unfold on_line; lra].
  - apply S2. right. split; [apply U; lra|]. exists [4000], 3000, [2000; 1000].
    split; [reflexivity|]. split; [repeat constructor; apply U; lra|].
    split; [exists (3000/10); split; [reflexivity|lra]|].
    exists (4000/10), (3000/10). cbn [last]. split; [reflexivity|]. split; [reflexivity|]. split; [right; lra|].
    right. split; [lra|unfold on_line; lra].
  - apply N. right. split; [apply U; lra|]. left. unfold levels. repeat constructor; apply U; lra.
Qed.

Print Assumptions C50_search.
Print Assumptions C50_range.
Print Assumptions C50_contains.
