(** Transforms, power table and ACS tables. *)
From Coq Require Import ZArith Reals Lra Lia Psatz List Bool.
From Verif Require Import Model.Num Model.Transforms Model.PowerTable Model.Acs.
From Verif Require Import Spec.TablesSpec Proofs.NumR Proofs.AcsProofs.
Import ListNotations.
Open Scope R_scope.

Lemma div_nonneg a b : 0 <= a -> 0 < b -> 0 <= a / b.
Proof. intros. apply Rmult_le_pos; [assumption|left; apply Rinv_0_lt_compat; assumption]. Qed.
Lemma div_le1 a b : a <= b -> 0 < b -> a / b <= 1.
Proof. intros. apply Rmult_le_reg_r with b; [assumption|]. field_simplify; lra. Qed.

Lemma linear_rescale_facts vmin vmax :
  (vmin < vmax ->
    linear_rescale_with_extrapolation vmin vmin vmax = Some 0 /\
    linear_rescale_with_extrapolation vmax vmin vmax = Some 1 /\
    forall x, exists y, linear_rescale_with_extrapolation x vmin vmax = Some y /\
      undo_linear_rescale_with_extrapolation y vmin vmax = Some x /\
      (forall x' y', linear_rescale_with_extrapolation x' vmin vmax = Some y' ->
         (x < x' <-> y < y') /\ y' - y = (x' - x) / (vmax - vmin)) /\
      (exists z, undo_linear_rescale_with_extrapolation x vmin vmax = Some z /\
         linear_rescale_with_extrapolation z vmin vmax = Some x)) /\
  (vmax <= vmin -> forall x,
    linear_rescale_with_extrapolation x vmin vmax = None /\
    undo_linear_rescale_with_extrapolation x vmin vmax = None /\
    linear_rescale_with_saturation x vmin vmax = None).
Proof.
  unfold linear_rescale_with_saturation, linear_rescale_with_extrapolation,
    undo_linear_rescale_with_extrapolation. split; intro H.
  - rewrite Rleb_false by lra.
    split; [f_equal; field; lra|]. split; [f_equal; field; lra|].
    intro x. exists ((x - vmin) / (vmax - vmin)).
    split; [reflexivity|]. split; [f_equal; field; lra|]. split.
    + intros x' y' E. injection E; intro; subst y'. split.
      * split; intro L.
        -- apply Rmult_lt_compat_r; [apply Rinv_0_lt_compat|]; lra.
        -- apply Rmult_lt_reg_r in L; [lra|apply Rinv_0_lt_compat; lra].
      * field. lra.
    + eexists. split; [reflexivity|]. f_equal. field. lra.
  - intro x. rewrite Rleb_true by lra. repeat split.
Qed.

Lemma saturation_facts x vmin vmax : vmin < vmax ->
  exists y, linear_rescale_with_saturation x vmin vmax = Some y /\ 0 <= y <= 1 /\
    (x <= vmin -> y = 0) /\ (vmax <= x -> y = 1) /\
    (vmin <= x <= vmax -> linear_rescale_with_extrapolation x vmin vmax = Some y).
Proof.
  intro H. unfold linear_rescale_with_saturation, linear_rescale_with_extrapolation.
  rewrite Rleb_false by lra. cbn.
  set (y := (x - vmin) / (vmax - vmin)).
  assert (Ey : y * (vmax - vmin) = x - vmin) by (unfold y; field; lra).
  exists (np_clip y 0 1). unfold np_clip. split; [reflexivity|].
  assert (H0 : x <= vmin -> y <= 0) by (intro; nra).
  assert (H1 : vmax <= x -> 1 <= y) by (intro; nra).
  assert (H2 : vmin <= x -> 0 <= y) by (intro; unfold y; apply div_nonneg; lra).
  assert (H3 : x <= vmax -> y <= 1) by (intro; unfold y; apply div_le1; lra).
  unfold Rmin, Rmax. repeat destruct Rle_dec; repeat split; intros; try lra;
    f_equal; try (specialize (H0 ltac:(lra))); try (specialize (H1 ltac:(lra)));
    try (specialize (H2 ltac:(lra))); try (specialize (H3 ltac:(lra))); lra.
Qed.

Lemma squash_facts x c :
  (0 < c -> 0 <= x -> exists y, squash_to_unit_interval x c = Some y /\ 0 <= y < 1 /\
     undo_squash_to_unit_interval y c = Some x /\
     (forall x' y', 0 <= x' -> squash_to_unit_interval x' c = Some y' -> (x < x' <-> y < y')) /\
     (x = c -> y = 1 / 2) /\ (x = 0 -> y = 0)) /\
  (c <= 0 \/ x < 0 -> squash_to_unit_interval x c = None) /\
  (0 < c -> 0 <= x < 1 -> exists z, undo_squash_to_unit_interval x c = Some z /\ 0 <= z /\
     squash_to_unit_interval z c = Some x) /\
  (c <= 0 -> undo_squash_to_unit_interval x c = None).
Proof.
  unfold squash_to_unit_interval, undo_squash_to_unit_interval. split; [|split; [|split]].
  - intros Hc Hx. rewrite Rleb_false, Rltb_false by lra.
    assert (Hy : 0 <= x / (x + c) < 1).
    { split; [apply div_nonneg; lra|].
      apply Rmult_lt_reg_r with (x + c); [lra|]. field_simplify; lra. }
    exists (x / (x + c)). split; [reflexivity|]. split; [exact Hy|]. split; [|split; [|split]].
    + rewrite Rltb_false by lra. cbn [andb]. destruct (Reqb_spec (1 - x / (x + c)) 0); [lra|].
      f_equal. field. lra.
    + intros x' y' Hx'. rewrite Rltb_false by lra. injection 1; intro; subst y'.
      replace (x / (x + c)) with (1 - c / (x + c)) by (field; lra).
      replace (x' / (x' + c)) with (1 - c / (x' + c)) by (field; lra).
      split; intro L.
      * assert (c / (x' + c) < c / (x + c)); [|lra].
        apply Rmult_lt_compat_l; [assumption|]. apply Rinv_lt_contravar; [nra|lra].
      * destruct (Rlt_dec x x') as [|N]; [assumption|exfalso].
        assert (c / (x + c) <= c / (x' + c)); [|lra].
        apply Rmult_le_compat_l; [lra|]. apply Rinv_le_contravar; lra.
    + intros ->. field. lra.
    + intros ->. field. lra.
  - intros [Hc|Hx]; [rewrite Rleb_true by lra; reflexivity|].
    destruct (Rleb c 0); [reflexivity|]. rewrite Rltb_true by lra. reflexivity.
  - intros Hc Hx. rewrite Rleb_false, Rltb_false by lra. cbn [andb].
    assert (Hz : 0 <= x * c / (1 - x)) by (apply div_nonneg; [nra|lra]).
    destruct (Reqb_spec (1 - x) 0); [lra|].
    exists (x * c / (1 - x)). split; [reflexivity|]. split; [exact Hz|].
    rewrite Rltb_false by lra. f_equal. field. split; [|lra]. nra.
  - intro Hc. rewrite Rleb_true by lra. reflexivity.
Qed.

Lemma array_facts xs c vmin vmax :
  (forall ys, squash_to_unit_interval_array xs c = Some ys <->
     Forall2 (fun x y => squash_to_unit_interval x c = Some y) xs ys /\ 0 < c) /\
  (forall ys, linear_rescale_with_extrapolation_array xs vmin vmax = Some ys <->
     Forall2 (fun x y => linear_rescale_with_extrapolation x vmin vmax = Some y) xs ys
     /\ vmin < vmax).
Proof.
  split; intro ys.
  - unfold squash_to_unit_interval_array, squash_to_unit_interval.
    destruct (Rleb_spec c 0) as [Hc|Hc].
    + split; [discriminate|]. intros [_ ?]. lra.
    + split.
      * destruct (existsb (fun v => Rltb v 0) xs) eqn:E; [discriminate|].
        injection 1; intro; subst ys. split; [|lra]. clear H.
        induction xs as [|x xs IH]; cbn in *; [constructor|].
        apply orb_false_iff in E. destruct E as [E1 E2].
        constructor; [rewrite E1; reflexivity|]. apply IH. exact E2.
      * intros [HF _].
        assert (existsb (fun v => Rltb v 0) xs = false /\ map (fun v => v / (v + c)) xs = ys).
        { induction HF as [|x y xs ys Hxy HF IH]; [split; reflexivity|].
          destruct IH as [I1 I2]. cbn. destruct (Rltb x 0); [discriminate|].
          injection Hxy; intro; subst y. rewrite I1, I2. split; reflexivity. }
        destruct H as [H1 H2]. rewrite H1, H2. reflexivity.
  - unfold linear_rescale_with_extrapolation_array, linear_rescale_with_extrapolation.
    destruct (Rleb_spec vmax vmin) as [Hc|Hc].
    + split; [discriminate|]. intros [_ ?]. lra.
    + split.
      * injection 1; intro; subst ys. split; [|lra]. clear H.
        induction xs as [|x xs IH]; cbn; constructor; auto.
      * intros [HF _]. f_equal.
        induction HF as [|x y xs ys Hxy HF IH]; [reflexivity|].
        injection Hxy; intro; subst y. cbn. f_equal. exact IH.
Qed.

Lemma undo_squash_accepts x c : 0 < c ->
  (undo_squash_to_unit_interval x c = None <-> x = 1) /\
  (x < 0 \/ 1 < x -> exists z, undo_squash_to_unit_interval x c = Some z /\ z < 0 /\
     squash_to_unit_interval z c = None).
Proof.
  intro Hc. unfold undo_squash_to_unit_interval, squash_to_unit_interval. rewrite Rleb_false by lra.
  destruct (Rltb_spec x 0), (Rleb_spec 1 x); cbn [andb]; try lra;
    destruct (Reqb_spec (1 - x) 0); (split; [split; [intro; try discriminate; lra|intro; try reflexivity; lra]|]);
    intro Hx; try lra; (exists (x * c / (1 - x)); split; [reflexivity|]; 
    assert (Z : x * c / (1 - x) < 0);
      [|split; [exact Z|now rewrite Rltb_true]]).
  - apply Rmult_lt_reg_r with (1 - x); [lra|]. unfold Rdiv. rewrite Rmult_assoc, Rinv_l by lra. nra.
  - replace (x * c / (1 - x)) with (- (x * c / (x - 1))) by (field; lra).
    assert (0 < x * c / (x - 1)) by (apply Rdiv_lt_0_compat; nra). lra.
Qed.

(** ** Power table *)
Lemma bisect_spec3 a b c x :
  a <= b -> b <= c -> bisect [a; b; c] x =
  if Rle_dec c x then 3%nat else if Rle_dec b x then 2%nat else if Rle_dec a x then 1%nat else 0%nat.
Proof.
  intros. cbn. rcases; repeat destruct Rle_dec; try lra; reflexivity.
Qed.
Lemma bisect_spec2 a b x :
  a <= b -> bisect [a; b] x =
  if Rle_dec b x then 2%nat else if Rle_dec a x then 1%nat else 0%nat.
Proof.
  intros. cbn. rcases; repeat destruct Rle_dec; try lra; reflexivity.
Qed.

(** Index of the row. *)
Lemma ratio_row ratio : 0.99 <= ratio <= 5 ->
  exists k, bisect pressure_ratio_intervals ratio = k /\ (k < 8)%nat /\
    match nth_error power_rows k with
    | Some (lo, hi, _) => lo <= ratio < hi
    | None => False
    end.
Proof.
  intro H. eexists. split; [reflexivity|].
  unfold pressure_ratio_intervals. cbn [bisect].
  rcases; cbn; (split; [lia|]); lra.
Qed.

Lemma row_agrees k soc : (k < 8)%nat ->
  match nth_error soc_mappings k, nth_error power_rows k with
  | Some (socs, powers), Some (_, _, entries) =>
      nth_error powers (bisect socs soc) = Some (affordable entries soc 0)
  | _, _ => False
  end.
Proof.
  intro H. do 8 (destruct k as [|k]; [cbn [nth_error soc_mappings power_rows];
    first [rewrite bisect_spec3 by lra | rewrite bisect_spec2 by lra];
    cbn [affordable]; repeat destruct Rle_dec; try lra; reflexivity|]). lia.
Qed.

Lemma lookup_row ratio soc : 0.99 <= ratio <= 5 ->
  exists lo hi entries, In (lo, hi, entries) power_rows /\ lo <= ratio < hi /\
       lookup ratio soc = Some (affordable entries soc 0) /\
       forall soc', lookup ratio soc' = Some (affordable entries soc' 0).
Proof.
  intro H. destruct (ratio_row ratio H) as (k & Ek & Hk & Hrow).
  assert (R1 : forall s, lookup ratio s =
    match nth_error soc_mappings k with
    | Some (socs, powers) => nth_error powers (bisect socs s) | None => None end).
  { intro s. unfold lookup. rewrite !Rleb_true by lra. cbn [andb]. rewrite Ek. reflexivity. }
  pose proof (row_agrees k soc Hk) as Hag.
  pose proof (fun s => row_agrees k s Hk) as Hall.
  destruct (nth_error soc_mappings k) as [[socs powers]|] eqn:Es; [|contradiction].
  destruct (nth_error power_rows k) as [[[lo hi] entries]|] eqn:Er; [|contradiction].
  exists lo, hi, entries. split; [apply nth_error_In with k; exact Er|].
  split; [exact Hrow|]. split; [rewrite R1; exact Hag|].
  intro s. rewrite R1. exact (Hall s).
Qed.

Lemma lookup_out ratio soc : ratio < 0.99 \/ 5 < ratio -> lookup ratio soc = None.
Proof.
  intro H. unfold lookup. destruct (Rleb_spec 0.99 ratio), (Rleb_spec ratio 5); cbn; auto; lra.
Qed.

Lemma lookup_table ratio soc :
  (ratio < 0.99 \/ 5 < ratio -> lookup ratio soc = None) /\
  (0.99 <= ratio <= 5 ->
     exists lo hi entries, In (lo, hi, entries) power_rows /\ lo <= ratio < hi /\
       lookup ratio soc = Some (affordable entries soc 0)).
Proof.
  split; [apply lookup_out|].
  intro H. destruct (lookup_row ratio soc H) as (lo & hi & en & A & B & C & _).
  exists lo, hi, en. auto.
Qed.

Lemma lookup_in ratio soc p : lookup ratio soc = Some p -> 0.99 <= ratio <= 5.
Proof.
  intro H. destruct (Rlt_dec ratio 0.99); [rewrite lookup_out in H by lra; discriminate|].
  destruct (Rlt_dec 5 ratio); [rewrite lookup_out in H by lra; discriminate|]. lra.
Qed.

Lemma affordable_mono entries soc soc' : In entries (map snd power_rows) -> soc <= soc' ->
  affordable entries soc 0 <= affordable entries soc' 0.
Proof.
  intros Hin Hle. cbn in Hin.
  repeat (destruct Hin as [<-|Hin]; [cbn; repeat destruct Rle_dec; lra|]). contradiction.
Qed.

Lemma lookup_mono ratio soc soc' p p' :
  lookup ratio soc = Some p -> lookup ratio soc' = Some p' -> soc <= soc' -> p <= p'.
Proof.
  intros H H' Hle.
  destruct (lookup_row ratio soc (lookup_in _ _ _ H)) as (lo & hi & en & A & _ & _ & D).
  rewrite D in H, H'. injection H; injection H'; intros; subst.
  apply affordable_mono; [|assumption].
  apply in_map with (f := snd) in A. exact A.
Qed.

Lemma lookup_range ratio soc p : lookup ratio soc = Some p ->
  In p [0; 150; 175; 200; 225; 250; 275; 300; 325; 350] /\ (soc < 0.3 -> p = 0).
Proof.
  intro H. destruct (lookup_row ratio soc (lookup_in _ _ _ H)) as (lo & hi & en & A & _ & _ & D).
  rewrite D in H. injection H; intro; subst p.
  apply in_map with (f := snd) in A. cbn in A.
  repeat (destruct A as [<-|A];
    [cbn [affordable]; repeat destruct Rle_dec; split; try (cbn; tauto); intro; lra|]).
  contradiction.
Qed.

(** ** ACS *)
Lemma grid_agrees i j : (i < 13)%nat -> (j < 4)%nat ->
  nth i (nth j (eff_rows (T:=R)) []) 0 = efficiency_at i j.
Proof.
  intros Hi Hj. unfold eff_rows, efficiency_at, efficiency_grid. numR.
  do 4 (destruct j as [|j]; [cbn [map nth]; do 13 (destruct i as [|i]; [reflexivity|]); lia|]).
  lia.
Qed.

Lemma efficiency_bilinear_grid r p i j : (i < 12)%nat -> (j < 3)%nat ->
  let c := Rmax 1.05 (Rmin 1.35 r) in
  let q := Rmax 100 (Rmin 400 p) in
  let u := (c - (1.05 + 0.025 * INR i)) / 0.025 in
  let v := (q - (100 + 100 * INR j)) / 100 in
  0 <= u <= 1 -> 0 <= v <= 1 ->
  get_fan_efficiency r p =
    (1 - v) * ((1 - u) * efficiency_at i j + u * efficiency_at (S i) j)
    + v * ((1 - u) * efficiency_at i (S j) + u * efficiency_at (S i) (S j)).
Proof.
  intros Hi Hj c q u v Hu Hv.
  rewrite <- !grid_agrees by lia.
  apply (efficiency_bilinear r p i j Hi Hj); fold c q; rewrite S_INR; unfold u, v in *; lra.
Qed.

Lemma flow_range r p :
  0 <= get_fan_efficiency r p <= 0.4 /\
  (forall e, get_mass_flow p e = e * p / 3600) /\
  0 <= get_mass_flow (get_most_efficient_power r)
         (get_fan_efficiency r (get_most_efficient_power r)) <= 0.4 * 400 / 3600.
Proof.
  split; [apply fan_efficiency_range|]. split; [reflexivity|].
  pose proof (power_curve_range r) as Hp. rewrite <- most_efficient_power_curve in Hp.
  pose proof (fan_efficiency_range r (get_most_efficient_power r)) as He.
  unfold get_mass_flow. numR.
  set (q := get_most_efficient_power r) in *. set (e := get_fan_efficiency r q) in *.
  split; [|apply Rmult_le_compat_r; [lra|]; nra].
  apply Rmult_le_pos; [nra|lra].
Qed.
