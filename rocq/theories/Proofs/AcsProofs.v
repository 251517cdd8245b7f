(** Proofs about the ACS curves (real-number instance). *)
From Coq Require Import ZArith Reals Lra Lia Bool List.
From Verif Require Import Model.Num Model.Acs Proofs.NumR.
Import ListNotations.
Open Scope R_scope.

Ltac seg := unfold interp1d_extrapolate; cbn [searchsorted length Nat.sub Nat.max Nat.min nth].

(** Explicit form of the power curve. *)
Definition power_curve (r : R) : R :=
  if Rle_dec r 1.05 then 100
  else if Rle_dec r 1.2 then 100 + (r - 1.05) / 0.15 * 200
  else if Rle_dec r 1.25 then 300 + (r - 1.2) / 0.05 * 100
  else 400.

Lemma most_efficient_power_curve r :
  get_most_efficient_power r = power_curve r.
Proof.
  unfold get_most_efficient_power, power_xs, power_ys, interp1d_extrapolate, power_curve.
  cbn [searchsorted length]. numR.
  destruct (Rltb_spec (10/10) r);
  [destruct (Rltb_spec (105/100) r);
  [destruct (Rltb_spec (12/10) r);
  [destruct (Rltb_spec (125/100) r);
  [destruct (Rltb_spec (135/100) r)|]|]|]|];
  cbn [Nat.sub Nat.max Nat.min nth];
  repeat match goal with |- context [Rle_dec ?p ?q] => destruct (Rle_dec p q) end;
  try lra.
Qed.

Lemma power_curve_range r : 100 <= power_curve r <= 400.
Proof.
  unfold power_curve.
  repeat match goal with |- context [Rle_dec ?p ?q] => destruct (Rle_dec p q) end; lra.
Qed.

Lemma power_curve_mono r1 r2 : r1 <= r2 -> power_curve r1 <= power_curve r2.
Proof.
  intro H. unfold power_curve.
  repeat match goal with |- context [Rle_dec ?p ?q] => destruct (Rle_dec p q) end; lra.
Qed.

(** ** Interpolation inside a table stays between the table's bounds. *)

Lemma convex_between lo hi x0 x1 y0 y1 x :
  x0 < x1 -> x0 <= x <= x1 -> lo <= y0 <= hi -> lo <= y1 <= hi ->
  lo <= (y1 - y0) / (x1 - x0) * (x - x0) + y0 <= hi.
Proof.
  intros Hx [H1 H2] [A1 A2] [B1 B2].
  set (t := (x - x0) / (x1 - x0)).
  assert (Ht : 0 <= t <= 1).
  { unfold t. split.
    - apply Rmult_le_pos; [lra|]. apply Rlt_le, Rinv_0_lt_compat; lra.
    - apply Rmult_le_reg_r with (x1 - x0); [lra|]. field_simplify; lra. }
  replace ((y1 - y0) / (x1 - x0) * (x - x0) + y0) with ((1 - t) * y0 + t * y1)
    by (unfold t; field; lra).
  nra.
Qed.

(** Strictly increasing list of reals. *)
Fixpoint sorted_lt (xs : list R) : Prop :=
  match xs with
  | a :: ((b :: _) as tl) => a < b /\ sorted_lt tl
  | _ => True
  end.

Lemma sorted_lt_nth xs k : sorted_lt xs -> (S k < length xs)%nat ->
  nth k xs 0 < nth (S k) xs 0.
Proof.
  revert k; induction xs as [|a [|b tl] IH]; intros k H Hk; cbn in Hk; try lia.
  destruct H as [H1 H2]. destruct k as [|k]; [exact H1|].
  apply (IH k H2). cbn. lia.
Qed.


Lemma searchsorted_below xs x k :
  (k < searchsorted xs x)%nat -> nth k xs 0 < x.
Proof.
  revert k; induction xs as [|a xs IH]; intros k H; cbn in H; [lia|].
  destruct (Rltb_spec a x); [|lia].
  destruct k as [|k]; [assumption|]. cbn. apply IH; lia.
Qed.

Lemma searchsorted_above xs x :
  (searchsorted xs x < length xs)%nat -> x <= nth (searchsorted xs x) xs 0.
Proof.
  induction xs as [|a xs IH]; cbn; [lia|]. intro H.
  destruct (Rltb_spec a x).
  - apply IH. lia.
  - lra.
Qed.

Lemma interp_between xs ys x lo hi :
  sorted_lt xs -> (2 <= length xs)%nat -> length ys = length xs ->
  nth 0 xs 0 <= x <= nth (length xs - 1) xs 0 ->
  Forall (fun v => lo <= v <= hi) ys ->
  lo <= interp1d_extrapolate xs ys x <= hi.
Proof.
  intros Hs Hl El [Hx0 Hx1] Hys.
  unfold interp1d_extrapolate. numR.
  set (j := searchsorted xs x).
  set (h := Nat.min (Nat.max j 1) (length xs - 1)).
  assert (Hh : (1 <= h < length xs)%nat) by (unfold h; lia).
  assert (Hlow : nth (h - 1) xs 0 <= x).
  { destruct (Nat.le_gt_cases j 1) as [Hj|Hj].
    - replace (h - 1)%nat with 0%nat by (unfold h; lia). exact Hx0.
    - apply Rlt_le, searchsorted_below. fold j. unfold h. lia. }
  assert (Hhigh : x <= nth h xs 0).
  { destruct (Nat.le_gt_cases (length xs - 1) j) as [Hj|Hj].
    - replace h with (length xs - 1)%nat by (unfold h; lia). exact Hx1.
    - destruct (Nat.eq_dec j 0) as [E|E].
      + replace h with 1%nat by (unfold h; lia).
        pose proof (searchsorted_above xs x ltac:(fold j; lia)) as Q.
        fold j in Q. rewrite E in Q.
        pose proof (sorted_lt_nth xs 0 Hs ltac:(lia)). lra.
      + replace h with j by (unfold h; lia).
        apply searchsorted_above. fold j. lia. }
  pose proof (sorted_lt_nth xs (h - 1) Hs ltac:(lia)) as Hst.
  replace (S (h - 1)) with h in Hst by lia.
  rewrite Forall_forall in Hys.
  apply convex_between; auto; apply Hys, nth_In; lia.
Qed.

Lemma clamp_between lo hi x : lo <= hi -> lo <= clamp lo hi x <= hi.
Proof. intro H. unfold clamp. numR. rcases; lra. Qed.

Lemma interp_clamped_between xs ys x lo hi :
  sorted_lt xs -> (2 <= length xs)%nat -> length ys = length xs ->
  nth 0 xs 0 <= nth (length xs - 1) xs 0 ->
  Forall (fun v => lo <= v <= hi) ys ->
  lo <= interp1d_clamped xs ys x <= hi.
Proof.
  intros. unfold interp1d_clamped. numR.
  apply interp_between; auto. apply clamp_between; assumption.
Qed.

Lemma fan_efficiency_range r p : 0 <= get_fan_efficiency r p <= 0.4.
Proof.
  unfold get_fan_efficiency. apply interp_clamped_between.
  - cbn. repeat split; lra.
  - cbn; lia.
  - reflexivity.
  - cbn. lra.
  - assert (Hrow : forall row : list R, length row = 13%nat ->
        Forall (fun v => 0 <= v <= 0.4) row ->
        0 <= interp1d_clamped eff_xs row r <= 0.4).
    { intros row Hl Hr. apply interp_clamped_between.
      - unfold eff_xs. numR. cbn. repeat split; lra.
      - cbn; lia.
      - rewrite Hl. reflexivity.
      - unfold eff_xs. numR. cbn. lra.
      - exact Hr. }
    unfold eff_rows. cbn [map].
    apply Forall_cons; [|apply Forall_cons; [|apply Forall_cons;
      [|apply Forall_cons; [|apply Forall_nil]]]];
    (apply Hrow; [reflexivity|]); numR;
    repeat (apply Forall_cons; [lra|]); apply Forall_nil.
Qed.

Lemma mass_flow_nonneg p e : 0 <= p -> 0 <= e -> 0 <= get_mass_flow p e.
Proof.
  intros. unfold get_mass_flow. numR.
  apply Rmult_le_pos; [apply Rmult_le_pos; assumption|lra].
Qed.

(** ** On every segment the interpolant is the segment's line. *)
Lemma sorted_lt_mono xs i j : sorted_lt xs -> (i < j)%nat -> (j < length xs)%nat ->
  nth i xs 0 < nth j xs 0.
Proof.
  intros Hs Hij. induction Hij as [|j Hij IH]; intro Hj.
  - apply sorted_lt_nth; assumption.
  - apply Rlt_trans with (nth j xs 0); [apply IH; lia|]. apply sorted_lt_nth; assumption.
Qed.

(** Value at [x] of the line through points k and k+1. *)
Definition line (xs ys : list R) (k : nat) (x : R) : R :=
  nth k ys 0 + (x - nth k xs 0) / (nth (S k) xs 0 - nth k xs 0) * (nth (S k) ys 0 - nth k ys 0).

Lemma lines_agree xs ys x j k : sorted_lt xs ->
  (S j < length xs)%nat -> (S k < length xs)%nat -> (j < k)%nat ->
  nth j xs 0 <= x <= nth (S j) xs 0 -> nth k xs 0 <= x <= nth (S k) xs 0 ->
  line xs ys j x = line xs ys k x.
Proof.
  intros Hs Hj Hk Hjk [A1 A2] [B1 B2].
  assert (E : k = S j).
  { destruct (Nat.eq_dec k (S j)) as [E|E]; [exact E|exfalso].
    pose proof (sorted_lt_mono xs (S j) k Hs ltac:(lia) ltac:(lia)). lra. }
  subst k. assert (Ex : x = nth (S j) xs 0) by lra.
  pose proof (sorted_lt_nth xs j Hs Hj). pose proof (sorted_lt_nth xs (S j) Hs Hk).
  unfold line. rewrite Ex. field. lra.
Qed.

Lemma interp_segment xs ys x k : sorted_lt xs -> (S k < length xs)%nat ->
  nth k xs 0 <= x <= nth (S k) xs 0 ->
  interp1d_extrapolate xs ys x = line xs ys k x.
Proof.
  intros Hs Hk Hx.
  unfold interp1d_extrapolate. numR.
  set (j := searchsorted xs x).
  set (h := Nat.min (Nat.max j 1) (length xs - 1)).
  assert (Hh : (1 <= h < length xs)%nat) by (unfold h; lia).
  assert (Hx0 : nth 0 xs 0 <= x).
  { destruct (Nat.eq_dec k 0) as [->|Nk]; [lra|].
    pose proof (sorted_lt_mono xs 0 k Hs ltac:(lia) ltac:(lia)). lra. }
  assert (Hx1 : x <= nth (length xs - 1) xs 0).
  { destruct (Nat.eq_dec (S k) (length xs - 1)) as [<-|Nk]; [lra|].
    pose proof (sorted_lt_mono xs (S k) (length xs - 1) Hs ltac:(lia) ltac:(lia)). lra. }
  assert (Hlow : nth (h - 1) xs 0 <= x).
  { destruct (Nat.le_gt_cases j 1) as [Hj|Hj].
    - replace (h - 1)%nat with 0%nat by (unfold h; lia). exact Hx0.
    - apply Rlt_le, searchsorted_below. fold j. unfold h. lia. }
  assert (Hhigh : x <= nth h xs 0).
  { destruct (Nat.le_gt_cases (length xs - 1) j) as [Hj|Hj].
    - replace h with (length xs - 1)%nat by (unfold h; lia). exact Hx1.
    - destruct (Nat.eq_dec j 0) as [E|E].
      + replace h with 1%nat by (unfold h; lia).
        pose proof (searchsorted_above xs x ltac:(fold j; lia)) as Q.
        fold j in Q. rewrite E in Q.
        pose proof (sorted_lt_nth xs 0 Hs ltac:(lia)). lra.
      + replace h with j by (unfold h; lia).
        apply searchsorted_above. fold j. lia. }
  pose proof (sorted_lt_nth xs (h - 1) Hs ltac:(lia)) as Hst.
  replace (S (h - 1)) with h in Hst by lia.
  transitivity (line xs ys (h - 1) x).
  - unfold line. replace (S (h - 1)) with h by lia. field. lra.
  - assert (Hl2 : nth (h - 1) xs 0 <= x <= nth (S (h - 1)) xs 0).
    { replace (S (h - 1)) with h by lia. lra. }
    destruct (Nat.lt_trichotomy (h - 1) k) as [L|[->|L]].
    + apply lines_agree; auto; lia.
    + reflexivity.
    + symmetry. apply lines_agree; auto; lia.
Qed.

Lemma eff_xs_sorted : sorted_lt eff_xs.
Proof. unfold eff_xs. numR. cbn. repeat split; lra. Qed.
Lemma eff_ps_sorted : sorted_lt eff_ps.
Proof. cbn. repeat split; lra. Qed.

Lemma eff_xs_nth k : (k < 13)%nat -> nth k (eff_xs (T:=R)) 0 = 1.05 + 0.025 * INR k.
Proof.
  intro H. unfold eff_xs. numR.
  do 13 (destruct k as [|k]; [cbn; lra|]). lia.
Qed.
Lemma eff_ps_nth k : (k < 4)%nat -> nth k (eff_ps (T:=R)) 0 = 100 + 100 * INR k.
Proof.
  intro H. unfold eff_ps. numR.
  do 4 (destruct k as [|k]; [cbn; lra|]). lia.
Qed.

(** Clamped interpolation is the line of the segment containing the clamped
    argument. *)
Lemma interp_clamped_segment xs ys x k : sorted_lt xs -> (S k < length xs)%nat ->
  nth 0 xs 0 <= nth (length xs - 1) xs 0 ->
  let c := Rmax (nth 0 xs 0) (Rmin (nth (length xs - 1) xs 0) x) in
  nth k xs 0 <= c <= nth (S k) xs 0 ->
  interp1d_clamped xs ys x = line xs ys k c.
Proof.
  intros Hs Hk Hle c Hc. unfold interp1d_clamped. numR.
  replace (clamp (nth 0 xs 0) (nth (length xs - 1) xs 0) x) with c.
  - apply interp_segment; assumption.
  - unfold c, clamp. numR. unfold Rmax, Rmin. rcases; repeat destruct Rle_dec; lra.
Qed.

Lemma nth_rows (f : list R -> R) (rows : list (list R)) j : (j < length rows)%nat ->
  nth j (map f rows) 0 = f (nth j rows []).
Proof. intro H. rewrite (nth_indep _ 0 (f [])) by (rewrite map_length; exact H). apply map_nth. Qed.

Lemma efficiency_bilinear r p i j : (i < 12)%nat -> (j < 3)%nat ->
  let c := Rmax 1.05 (Rmin 1.35 r) in
  let q := Rmax 100 (Rmin 400 p) in
  1.05 + 0.025 * INR i <= c <= 1.05 + 0.025 * INR (S i) ->
  100 + 100 * INR j <= q <= 100 + 100 * INR (S j) ->
  let u := (c - (1.05 + 0.025 * INR i)) / 0.025 in
  let v := (q - (100 + 100 * INR j)) / 100 in
  let e a b := nth a (nth b eff_rows []) 0 in
  get_fan_efficiency r p =
    (1 - v) * ((1 - u) * e i j + u * e (S i) j)
    + v * ((1 - u) * e i (S j) + u * e (S i) (S j)).
Proof.
  intros Hi Hj c q Hc Hq u v e.
  assert (Hrow : forall row, interp1d_clamped eff_xs row r = nth i row 0 + u * (nth (S i) row 0 - nth i row 0)).
  { intro row. rewrite (interp_clamped_segment eff_xs row r i eff_xs_sorted).
    - unfold line. change (length (@eff_xs R Num_R) - 1)%nat with 12%nat.
      rewrite (eff_xs_nth i), (eff_xs_nth (S i)) by lia.
      replace (nth 0 eff_xs 0) with 1.05 by (rewrite eff_xs_nth by lia; cbn; lra).
      replace (nth 12 eff_xs 0) with 1.35 by (rewrite eff_xs_nth by lia; cbn; lra).
      fold c. unfold u. rewrite S_INR. field; lra.
    - change (length (@eff_xs R Num_R)) with 13%nat. lia.
    - change (length (@eff_xs R Num_R) - 1)%nat with 12%nat. rewrite !eff_xs_nth by lia. cbn. lra.
    - change (length (@eff_xs R Num_R) - 1)%nat with 12%nat. rewrite !eff_xs_nth by lia.
      replace (1.05 + 0.025 * INR 0) with 1.05 by (cbn; lra).
      replace (1.05 + 0.025 * INR 12) with 1.35 by (cbn; lra). exact Hc. }
  unfold get_fan_efficiency.
  rewrite (interp_clamped_segment eff_ps _ p j eff_ps_sorted).
  - unfold line. change (length (@eff_ps R Num_R) - 1)%nat with 3%nat.
    rewrite (eff_ps_nth j), (eff_ps_nth (S j)), (eff_ps_nth 0), (eff_ps_nth 3) by lia.
    rewrite !nth_rows by (change (length (@eff_rows R Num_R)) with 4%nat; lia).
    rewrite !Hrow. fold (e i j) (e (S i) j) (e i (S j)) (e (S i) (S j)).
    replace (100 + 100 * INR 0) with 100 by (cbn; lra).
    replace (100 + 100 * INR 3) with 400 by (cbn; lra).
    fold q. unfold v. rewrite S_INR. field; lra.
  - change (length (@eff_ps R Num_R)) with 4%nat. lia.
  - change (length (@eff_ps R Num_R) - 1)%nat with 3%nat. rewrite !eff_ps_nth by lia. cbn. lra.
  - change (length (@eff_ps R Num_R) - 1)%nat with 3%nat. rewrite !eff_ps_nth by lia.
    replace (100 + 100 * INR 0) with 100 by (cbn; lra).
    replace (100 + 100 * INR 3) with 400 by (cbn; lra). exact Hq.
Qed.
