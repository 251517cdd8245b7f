(** Property theorems C20, C21 (transforms), C29 (power table), C30 (ACS). *)
From Coq Require Import ZArith Reals Lra Lia Psatz List Bool.
From Verif Require Import Model.Num Model.Transforms Model.PowerTable Model.Acs.
From Verif Require Import Spec.TablesSpec Proofs.NumR Proofs.AcsProofs Proofs.TablesProofs.
Import ListNotations.
Open Scope R_scope.

(** ** C20 *)
Theorem C20_linear_rescale : forall vmin vmax,
  (* a non-degenerate range is accepted, and the map is the affine bijection
     sending the range to [0, 1]; a degenerate one is rejected *)
  (vmin < vmax ->
    linear_rescale_with_extrapolation vmin vmin vmax = Some 0 /\
    linear_rescale_with_extrapolation vmax vmin vmax = Some 1 /\
    forall x, exists y, linear_rescale_with_extrapolation x vmin vmax = Some y /\
      undo_linear_rescale_with_extrapolation y vmin vmax = Some x /\
      (forall x' y', linear_rescale_with_extrapolation x' vmin vmax = Some y' ->
         (x < x' <-> y < y') /\ y' - y = (x' - x) / (vmax - vmin)) /\
      (exists z, undo_linear_rescale_with_extrapolation x vmin vmax = Some z /\
         linear_rescale_with_extrapolation z vmin vmax = Some x)) /\
  (vmax <= vmin -> forall x,
    linear_rescale_with_extrapolation x vmin vmax = None /\
    undo_linear_rescale_with_extrapolation x vmin vmax = None /\
    linear_rescale_with_saturation x vmin vmax = None).
Proof. exact linear_rescale_facts. Qed.
Print Assumptions C20_linear_rescale.

Theorem C20_saturation : forall x vmin vmax, vmin < vmax ->
  exists y, linear_rescale_with_saturation x vmin vmax = Some y /\ 0 <= y <= 1 /\
    (x <= vmin -> y = 0) /\ (vmax <= x -> y = 1) /\
    (vmin <= x <= vmax -> linear_rescale_with_extrapolation x vmin vmax = Some y).
Proof. exact saturation_facts. Qed.
Print Assumptions C20_saturation.

Theorem C20_squash : forall x c,
  (0 < c -> 0 <= x -> exists y, squash_to_unit_interval x c = Some y /\ 0 <= y < 1 /\
     undo_squash_to_unit_interval y c = Some x /\
     (forall x' y', 0 <= x' -> squash_to_unit_interval x' c = Some y' -> (x < x' <-> y < y')) /\
     (x = c -> y = 1 / 2) /\ (x = 0 -> y = 0)) /\
  (c <= 0 \/ x < 0 -> squash_to_unit_interval x c = None) /\
  (0 < c -> 0 <= x < 1 -> exists z, undo_squash_to_unit_interval x c = Some z /\ 0 <= z /\
     squash_to_unit_interval z c = Some x) /\
  (c <= 0 -> undo_squash_to_unit_interval x c = None).
Proof. exact squash_facts. Qed.
Print Assumptions C20_squash.

(** Arrays are transformed entry by entry; a single negative entry, or a bad
    constant or range, rejects the whole array. *)
Theorem C20_arrays : forall xs c vmin vmax,
  (forall ys, squash_to_unit_interval_array xs c = Some ys <->
     Forall2 (fun x y => squash_to_unit_interval x c = Some y) xs ys /\ 0 < c) /\
  (forall ys, linear_rescale_with_extrapolation_array xs vmin vmax = Some ys <->
     Forall2 (fun x y => linear_rescale_with_extrapolation x vmin vmax = Some y) xs ys
     /\ vmin < vmax).
Proof. exact array_facts. Qed.
Print Assumptions C20_arrays.

Example C20_witness : linear_rescale_with_saturation 250 100 300 = Some 0.75 /\
  squash_to_unit_interval 30 10 = Some 0.75.
Proof.
  unfold linear_rescale_with_saturation, linear_rescale_with_extrapolation,
    squash_to_unit_interval. rewrite !Rleb_false, Rltb_false by lra. cbn.
  unfold np_clip. rewrite Rmax_left, Rmin_left by lra. split; f_equal; lra.
Qed.

(** ** C21 *)
(** The documented rejection of values outside [0, 1) does not happen: only 1
    fails (it divides by zero), and every negative or larger "squashed" value is
    converted to a negative number, which squash itself rejects. *)
Theorem C21_undo_squash_rejects_refuted : forall x c, 0 < c ->
  (undo_squash_to_unit_interval x c = None <-> x = 1) /\
  (x < 0 \/ 1 < x -> exists z, undo_squash_to_unit_interval x c = Some z /\ z < 0 /\
     squash_to_unit_interval z c = None).
Proof. exact undo_squash_accepts. Qed.
Print Assumptions C21_undo_squash_rejects_refuted.

(** ** C29 *)
Theorem C29_power_table : forall ratio soc,
  (ratio < 0.99 \/ 5 < ratio -> lookup ratio soc = None) /\
  (0.99 <= ratio <= 5 ->
     exists lo hi entries, In (lo, hi, entries) power_rows /\ lo <= ratio < hi /\
       lookup ratio soc = Some (affordable entries soc 0)).
Proof. exact lookup_table. Qed.
Print Assumptions C29_power_table.

Theorem C29_more_charge_never_less_power : forall ratio soc soc' p p',
  lookup ratio soc = Some p -> lookup ratio soc' = Some p' -> soc <= soc' -> p <= p'.
Proof. exact lookup_mono. Qed.
Print Assumptions C29_more_charge_never_less_power.

Theorem C29_range : forall ratio soc p, lookup ratio soc = Some p ->
  In p [0; 150; 175; 200; 225; 250; 275; 300; 325; 350] /\ (soc < 0.3 -> p = 0).
Proof. exact lookup_range. Qed.
Print Assumptions C29_range.

Example C29_witness : lookup 1.1 0.65 = Some 200 /\ lookup 5 0.6 = Some 350.
Proof.
  assert (E1 : bisect pressure_ratio_intervals 1.1 = 1%nat)
    by (unfold pressure_ratio_intervals; cbn [bisect]; rcases; try lra; reflexivity).
  assert (E2 : bisect pressure_ratio_intervals 5 = 7%nat)
    by (unfold pressure_ratio_intervals; cbn [bisect]; rcases; try lra; reflexivity).
  unfold lookup. rewrite E1, E2, !Rleb_true by lra. cbn [andb nth_error soc_mappings].
  rewrite bisect_spec3, bisect_spec2 by lra. repeat destruct Rle_dec; try lra.
  split; reflexivity.
Qed.

(** ** C30 *)
Theorem C30_power_curve : forall r,
  get_most_efficient_power r = efficient_power r /\
  100 <= get_most_efficient_power r <= 400 /\
  (forall r', r <= r' -> get_most_efficient_power r <= get_most_efficient_power r').
Proof.
  intro r. rewrite most_efficient_power_curve.
  split; [reflexivity|]. split; [exact (power_curve_range r)|].
  intros r' H. rewrite most_efficient_power_curve. exact (power_curve_mono r r' H).
Qed.
Print Assumptions C30_power_curve.

(** The efficiency is the bilinear interpolation of the published grid in the
    cell of the (clamped) arguments. *)
Theorem C30_efficiency_is_bilinear : forall r p i j, (i < 12)%nat -> (j < 3)%nat ->
  let c := Rmax 1.05 (Rmin 1.35 r) in
  let q := Rmax 100 (Rmin 400 p) in
  let u := (c - (1.05 + 0.025 * INR i)) / 0.025 in
  let v := (q - (100 + 100 * INR j)) / 100 in
  0 <= u <= 1 -> 0 <= v <= 1 ->
  get_fan_efficiency r p =
    (1 - v) * ((1 - u) * efficiency_at i j + u * efficiency_at (S i) j)
    + v * ((1 - u) * efficiency_at i (S j) + u * efficiency_at (S i) (S j)).
Proof. exact efficiency_bilinear_grid. Qed.
Print Assumptions C30_efficiency_is_bilinear.

Theorem C30_efficiency_and_flow_range : forall r p,
  0 <= get_fan_efficiency r p <= 0.4 /\
  (forall e, get_mass_flow p e = e * p / 3600) /\
  0 <= get_mass_flow (get_most_efficient_power r)
         (get_fan_efficiency r (get_most_efficient_power r)) <= 0.4 * 400 / 3600.
Proof. exact flow_range. Qed.
Print Assumptions C30_efficiency_and_flow_range.

(** At ratio 1.2 (300 W): grid node (6, 2), 20 percent. *)
Example C30_witness : get_most_efficient_power 1.2 = 300 /\ get_fan_efficiency 1.2 300 = 0.2.
Proof.
  split.
  - rewrite most_efficient_power_curve. unfold power_curve. repeat destruct Rle_dec; lra.
  - assert (E1 : Rmax 1.05 (Rmin 1.35 1.2) = 1.2)
      by (rewrite Rmin_right, Rmax_right by lra; reflexivity).
    assert (E2 : Rmax 100 (Rmin 400 300) = 300)
      by (rewrite Rmin_right, Rmax_right by lra; reflexivity).
    rewrite (C30_efficiency_is_bilinear 1.2 300 6 2 ltac:(lia) ltac:(lia));
      rewrite ?E1, ?E2; cbn -[Rmult]; unfold efficiency_at; cbn; lra.
Qed.
