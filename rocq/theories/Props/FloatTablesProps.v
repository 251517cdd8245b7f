(** Property C102: the ACS power curve and the power table in double precision.  [B2R f] is
    the real number a finite [f] stands for and [rnd r] the double nearest to r. *)
From Coq Require Import ZArith Reals Lra Lia Bool List Sorted.
From Flocq Require Import Core BinarySingleNaN.
From RecordUpdate Require Import RecordSet.
From Verif Require Import Model.Num Model.Float64 Model.Safety Model.Acs Model.Balloon Model.FloatTables.
From Verif Require Model.PowerTable.
From Verif Require Import Spec.TablesSpec Proofs.NumR Proofs.Float64Proofs Props.FloatProps Props.TablesProps.
Import ListNotations RecordSetNotations.
Open Scope R_scope.

(** With real numbers instead, the table is that of C29. *)
Theorem C102_same_code : forall ratio soc,
  option_map IZR (lookup ratio soc) = PowerTable.lookup ratio soc.
Proof.
  intros ratio soc.
  assert (B : forall l l' x, l = l' -> bisect l x = PowerTable.bisect l' x).
  { intros l l' x <-. induction l as [|y l IH]; [reflexivity|]. cbn [bisect PowerTable.bisect]. now rewrite IH. }
  assert (I : pressure_ratio_intervals = PowerTable.pressure_ratio_intervals).
  { unfold pressure_ratio_intervals, PowerTable.pressure_ratio_intervals. numR. repeat f_equal; lra. }
  assert (M : map (fun e => (fst e, map IZR (snd e))) soc_mappings = PowerTable.soc_mappings).
  { unfold soc_mappings, PowerTable.soc_mappings. cbn [map fst snd]. numR. repeat f_equal; lra. }
  unfold lookup, PowerTable.lookup. rewrite (B _ _ _ I), <- M, nth_error_map. numR.
  replace (99 / 100) with 0.99 by lra. replace (50 / 10) with 5 by lra.
  destruct (Rleb 0.99 ratio && Rleb ratio 5); [|reflexivity].
  destruct (nth_error soc_mappings _) as [[socs powers]|]; [|reflexivity]. cbn [option_map fst snd].
  rewrite nth_error_map, (B _ _ _ eq_refl). reflexivity.
Qed.

(** ** The pieces of the curve *)
Definition k100 : float := Bdiv mode_NE (float_of_Z 10) (float_of_Z 10).
Definition k105 : float := Bdiv mode_NE (float_of_Z 105) (float_of_Z 100).
Definition k120 : float := Bdiv mode_NE (float_of_Z 12) (float_of_Z 10).
Definition k125 : float := Bdiv mode_NE (float_of_Z 125) (float_of_Z 100).
Definition k135 : float := Bdiv mode_NE (float_of_Z 135) (float_of_Z 100).
Definition slope (y y' x x' : float) : float := Bdiv mode_NE (Bminus mode_NE y' y) (Bminus mode_NE x' x).
Definition slope2 : float := slope (float_of_Z 100) (float_of_Z 300) k105 k120.
Definition slope3 : float := slope (float_of_Z 300) (float_of_Z 400) k120 k125.
Definition piece (s lo y x : float) : float := Bplus mode_NE (Bmult mode_NE s (Bminus mode_NE x lo)) y.

Ltac val f := 
  let H := fresh in
  pose proof (value f _ _ _ ltac:(vm_compute; reflexivity)) as H;
  let F := fresh "F" in let V := fresh "V" in
  destruct H as [F V]; unfold F2R in V; cbn [Fnum Fexp cond_Zopp bpow] in V;
  repeat match type of V with context [Z.pow_pos ?a ?b] =>
    let c := eval vm_compute in (Z.pow_pos a b) in change (Z.pow_pos a b) with c in V end.

Lemma k100_value : is_finite k100 = true /\ B2R k100 = 1.
Proof. val k100. split; [assumption|]. rewrite V. lra. Qed.
Lemma k105_value : is_finite k105 = true /\ Rabs (B2R k105 - 1.05) <= / 10 ^ 16.
Proof. val k105. split; [assumption|]. rewrite V. apply Rabs_le. lra. Qed.
Lemma k120_value : is_finite k120 = true /\ Rabs (B2R k120 - 1.2) <= / 10 ^ 16.
Proof. val k120. split; [assumption|]. rewrite V. apply Rabs_le. lra. Qed.
Lemma k125_value : is_finite k125 = true /\ B2R k125 = 1.25.
Proof. val k125. split; [assumption|]. rewrite V. lra. Qed.
Lemma slope2_value : is_finite slope2 = true /\ Rabs (B2R slope2 - 4000 / 3) <= / 10 ^ 11.
Proof. val slope2. split; [assumption|]. rewrite V. apply Rabs_le. lra. Qed.
Lemma slope3_value : is_finite slope3 = true /\ Rabs (B2R slope3 - 2000) <= / 10 ^ 11.
Proof. val slope3. split; [assumption|]. rewrite V. apply Rabs_le. lra. Qed.

Lemma difference_finite (x lo : float) : is_finite x = true -> is_finite lo = true ->
  0 <= B2R x -> 0 <= B2R lo <= 2 -> is_finite (Bminus mode_NE x lo) = true.
Proof.
  intros Fx Fl Px Pl. destruct (sub_computes 53 1024 x lo Fx Fl) as [Nn E].
  apply (finite_of_ext 53 1024); [exact Nn|]. rewrite E.
  assert (U : near (B2R x - B2R lo) <= B2R x).
  { rewrite <- (near_of 53 1024 x) at 2. apply (near_mono 53 1024). lra. }
  assert (L : -2 <= near (B2R x - B2R lo)).
  { destruct (of_Z (-2) ltac:(lia)) as [_ V]. rewrite <- V, <- (near_of 53 1024 (float_of_Z (-2))).
    apply (near_mono 53 1024). rewrite V. lra. }
  pose proof (finite_lt 53 1024 x) as T. apply Rabs_def2 in T.
  assert (2 < bpow radix2 1024) by (change 2 with (bpow radix2 1); apply bpow_lt; lia).
  apply Rabs_def1; lra.
Qed.

Lemma flat_piece (x lo y : float) z : (0 < z < 2 ^ 53)%Z -> y = float_of_Z z ->
  is_finite (Bminus mode_NE x lo) = true -> piece (B754_zero false) lo y x = y.
Proof.
  intros Hz -> F. unfold piece. destruct (of_Z z ltac:(lia)) as [Fz Vz].
  assert (Pz : 0 < B2R (float_of_Z z)) by (rewrite Vz; apply IZR_lt; lia).
  destruct (Bminus mode_NE x lo) as [?|?| |?]; try discriminate F;
    (destruct (float_of_Z z) as [?|?| |?]; try discriminate Fz; [cbn in Pz; lra|reflexivity]).
Qed.

Lemma sloped_piece (s lo y x : float) : within 11 s -> within 1 lo -> within 1 x -> within 13 y ->
  is_finite (piece s lo y x) = true /\
  B2R (piece s lo y x) = rnd (rnd (B2R s * rnd (B2R x - B2R lo)) + B2R y).
Proof.
  intros Ws Wl Wx Wy. unfold piece.
  destruct (within_sub 53 1024 1 x lo ltac:(lia) Wx Wl) as [D Vd].
  destruct (within_mul 53 1024 11 2 s _ ltac:(lia) Ws D) as [M Vm].
  destruct (within_add 53 1024 13 _ y ltac:(lia) M Wy) as [[A _] Va].
  split; [exact A|]. now rewrite Va, Vm, Vd.
Qed.
Lemma small (f : float) k c : is_finite f = true -> 0 <= B2R f <= c -> c <= bpow radix2 k -> within k f.
Proof. intros F B L. split; [exact F|]. rewrite Rabs_pos_eq; lra. Qed.

(** A sloped piece as a function of real numbers. *)
Definition level (s lo y : float) (r : R) : R := rnd (rnd (B2R s * rnd (r - B2R lo)) + B2R y).
Lemma level_mono s lo y r r' : 0 <= B2R s -> r <= r' -> level s lo y r <= level s lo y r'.
Proof.
  intros S L. unfold level. apply (rnd_mono 53 1024), Rplus_le_compat_r, (rnd_mono 53 1024).
  apply Rmult_le_compat_l; [exact S|]. apply (rnd_mono 53 1024). lra.
Qed.
Lemma level_at (s lo y x : float) : within 11 s -> within 1 lo -> within 1 x -> within 13 y ->
  level s lo y (B2R x) = B2R (piece s lo y x).
Proof. intros A B C D. symmetry. exact (proj2 (sloped_piece s lo y x A B C D)). Qed.

Lemma knots : within 1 k105 /\ within 1 k120 /\ within 1 k125 /\ within 11 slope2 /\ within 11 slope3 /\
  within 13 (float_of_Z 100) /\ within 13 (float_of_Z 300) /\ 1 < B2R k105 < B2R k120 /\ B2R k120 < B2R k125 < 2 /\
  0 <= B2R slope2 /\ 0 <= B2R slope3.
Proof.
  destruct k105_value as [F1 V1], k120_value as [F2 V2], k125_value as [F3 V3], slope2_value as [F4 V4], slope3_value as [F5 V5].
  apply Rabs_le_inv in V1, V2, V4, V5.
  destruct (of_Z 100 ltac:(lia)) as [F6 V6]. destruct (of_Z 300 ltac:(lia)) as [F7 V7].
  assert (B1 : 2 <= bpow radix2 1) by (apply Req_le; reflexivity).
  assert (B11 : 2048 <= bpow radix2 11) by (apply Req_le; reflexivity).
  assert (B13 : 8192 <= bpow radix2 13) by (apply Req_le; reflexivity).
  repeat split; try assumption; try lra; rewrite Rabs_pos_eq; lra.
Qed.
Lemma level2_low : level slope2 k105 (float_of_Z 100) (B2R k105) = 100.
Proof.
  destruct knots as (W1 & W2 & W3 & W4 & W5 & W6 & W7 & _). rewrite level_at by assumption.
  replace (piece slope2 k105 (float_of_Z 100) k105) with (float_of_Z 100) by (apply B2SF_inj; vm_compute; reflexivity).
  exact (proj2 (of_Z 100 ltac:(lia))).
Qed.
Lemma level2_high : level slope2 k105 (float_of_Z 100) (B2R k120) = 300.
Proof.
  destruct knots as (W1 & W2 & W3 & W4 & W5 & W6 & W7 & _). rewrite level_at by assumption.
  replace (piece slope2 k105 (float_of_Z 100) k120) with (float_of_Z 300) by (apply B2SF_inj; vm_compute; reflexivity).
  exact (proj2 (of_Z 300 ltac:(lia))).
Qed.
Lemma level3_low : level slope3 k120 (float_of_Z 300) (B2R k120) = 300.
Proof.
  destruct knots as (W1 & W2 & W3 & W4 & W5 & W6 & W7 & _). rewrite level_at by assumption.
  replace (piece slope3 k120 (float_of_Z 300) k120) with (float_of_Z 300) by (apply B2SF_inj; vm_compute; reflexivity).
  exact (proj2 (of_Z 300 ltac:(lia))).
Qed.
Lemma level3_high : level slope3 k120 (float_of_Z 300) (B2R k125) = 400.
Proof.
  destruct knots as (W1 & W2 & W3 & W4 & W5 & W6 & W7 & _). rewrite level_at by assumption.
  replace (piece slope3 k120 (float_of_Z 300) k125) with (float_of_Z 400) by (apply B2SF_inj; vm_compute; reflexivity).
  exact (proj2 (of_Z 400 ltac:(lia))).
Qed.

(** The neighbours of the knots. *)
Lemma above_105 : 100 < level slope2 k105 (float_of_Z 100) (B2R (Bsucc k105)).
Proof.
  destruct knots as (W1 & W2 & W3 & W4 & W5 & W6 & W7 & _).
  rewrite level_at; try assumption.
  - val (piece slope2 k105 (float_of_Z 100) (Bsucc k105)). rewrite V. lra.
  - val (Bsucc k105). split; [exact F|]. rewrite V. change (bpow radix2 1) with 2. apply Rabs_le. lra.
Qed.
Lemma below_125 : level slope3 k120 (float_of_Z 300) (B2R (Bpred k125)) < 400.
Proof.
  destruct knots as (W1 & W2 & W3 & W4 & W5 & W6 & W7 & _).
  rewrite level_at; try assumption.
  - val (piece slope3 k120 (float_of_Z 300) (Bpred k125)). rewrite V. lra.
  - val (Bpred k125). split; [exact F|]. rewrite V. change (bpow radix2 1) with 2. apply Rabs_le. lra.
Qed.
Lemma next_105 (x : float) : B2R k105 < B2R x -> B2R (Bsucc k105) <= B2R x.
Proof.
  intro L. pose proof (Bsucc_correct 53 1024 _ _ k105 (proj1 k105_value)) as C.
  pose proof (succ_le_lt radix2 (SpecFloat.fexp 53 1024) (valid_exp := fexp_correct 53 1024 _) _ _
    (generic_format_B2R 53 1024 k105) (generic_format_B2R 53 1024 x) L) as Q.
  destruct (Rlt_bool_spec (succ radix2 (SpecFloat.fexp 53 1024) (B2R k105)) (bpow radix2 1024)) as [T|T].
  - destruct C as [-> _]. exact Q.
  - pose proof (finite_lt 53 1024 x) as U. apply Rabs_def2 in U. lra.
Qed.
Lemma previous_125 (x : float) : B2R x < B2R k125 -> B2R x <= B2R (Bpred k125).
Proof.
  intro L. pose proof (Bpred_correct 53 1024 _ _ k125 (proj1 k125_value)) as C.
  pose proof (pred_ge_gt radix2 (SpecFloat.fexp 53 1024) (valid_exp := fexp_correct 53 1024 _) _ _
    (generic_format_B2R 53 1024 x) (generic_format_B2R 53 1024 k125) L) as Q.
  destruct (Rlt_bool_spec (- bpow radix2 1024) (pred radix2 (SpecFloat.fexp 53 1024) (B2R k125))) as [T|T].
  - destruct C as [-> _]. exact Q.
  - pose proof (finite_lt 53 1024 x) as U. apply Rabs_def2 in U. lra.
Qed.

(** A sloped piece is close to the exact line. *)
Lemma level_error (s lo y : float) r sigma alpha : Rabs (B2R s - sigma) <= / 10 ^ 11 -> Rabs (B2R lo - alpha) <= / 10 ^ 16 ->
  0 <= sigma <= 2000 -> 0 <= B2R y <= 300 -> 0 <= r - B2R lo <= 0.2 -> sigma * (r - B2R lo) <= 250 ->
  Rabs (level s lo y r - (sigma * (r - alpha) + B2R y)) <= 4 / 10 ^ 12.
Proof.
  intros Es El Bs By Br Bm. unfold level.
  set (d := r - B2R lo) in *.
  assert (Ed : Rabs (rnd d - d) <= / 10 ^ 16).
  { eapply Rle_trans; [apply (rnd_error 53 1024 d (-2)); [lia|]|].
    - change (bpow radix2 (-2)) with (/ 4). rewrite Rabs_pos_eq; lra.
    - change (bpow radix2 (-2 - 53 - 1)) with (/ 72057594037927936). lra. }
  apply Rabs_le_inv in Es, El, Ed.
  assert (P1 : Rabs (B2R s * rnd d - sigma * d) <= 3 / 10 ^ 12).
  { replace (B2R s * rnd d - sigma * d) with ((B2R s - sigma) * rnd d + sigma * (rnd d - d)) by ring.
    eapply Rle_trans; [apply Rabs_triang|]. rewrite !Rabs_mult.
    assert (Q1 : Rabs (B2R s - sigma) * Rabs (rnd d) <= / 10 ^ 11 * 0.25).
    { apply Rmult_le_compat; try apply Rabs_pos; apply Rabs_le; lra. }
    assert (Q2 : Rabs sigma * Rabs (rnd d - d) <= 2000 * / 10 ^ 16).
    { apply Rmult_le_compat; try apply Rabs_pos; apply Rabs_le; lra. }
    lra. }
  apply Rabs_le_inv in P1.
  assert (Pm : 0 <= sigma * d) by (apply Rmult_le_pos; lra).
  assert (P2 : Rabs (rnd (B2R s * rnd d) - B2R s * rnd d) <= / 10 ^ 13).
  { eapply Rle_trans; [apply (rnd_error 53 1024 (B2R s * rnd d) 8); [lia|]|].
    - change (bpow radix2 8) with 256. apply Rabs_le. lra.
    - change (bpow radix2 (8 - 53 - 1)) with (/ 70368744177664). lra. }
  set (m := rnd (B2R s * rnd d)) in *. apply Rabs_le_inv in P2.
  assert (P3 : Rabs (rnd (m + B2R y) - (m + B2R y)) <= / 10 ^ 13).
  { eapply Rle_trans; [apply (rnd_error 53 1024 (m + B2R y) 10); [lia|]|].
    - change (bpow radix2 10) with 1024. apply Rabs_le. lra.
    - change (bpow radix2 (10 - 53 - 1)) with (/ 17592186044416). lra. }
  apply Rabs_le_inv in P3.
  assert (P4 : Rabs (sigma * d - sigma * (r - alpha)) <= 2000 * / 10 ^ 16).
  { unfold d. replace (sigma * (r - B2R lo) - sigma * (r - alpha)) with (sigma * (alpha - B2R lo)) by ring.
    rewrite Rabs_mult. apply Rmult_le_compat; try apply Rabs_pos; apply Rabs_le; lra. }
  apply Rabs_le_inv in P4. apply Rabs_le. lra.
Qed.

Section Pow.
Context (pow : float -> float -> float).
Local Instance N64 : Num float := Num_float pow.

(** ** Literals *)
Lemma lit_value n d : (Z.abs n < 2 ^ 53)%Z -> (0 < d < 2 ^ 53)%Z -> Rabs (IZR n / IZR d) <= bpow radix2 60 ->
  is_finite (lit n d) = true /\ B2R (lit n d) = rnd (IZR n / IZR d).
Proof.
  intros Hn Hd L. unfold lit. change (nofZ (T:=float)) with float_of_Z.
  destruct (of_Z n Hn) as [Fn Vn]. destruct (of_Z d ltac:(lia)) as [Fd Vd].
  assert (D : IZR d <> 0) by (apply IZR_neq; lia).
  pose proof (div_computes 53 1024 _ _ Fn Fd ltac:(rewrite Vd; exact D)) as C. rewrite Vn, Vd in C.
  destruct (computes_within 53 1024 _ _ 60 ltac:(lia) C L) as [[F _] V]. split; [exact F|exact V].
Qed.
Lemma lit_is n d r : (Z.abs n < 2 ^ 53)%Z -> (0 < d < 2 ^ 53)%Z -> r = IZR n / IZR d -> 0 <= r <= 1000 ->
  is_finite (lit (T:=float) n d) = true /\ B2R (lit (T:=float) n d) = rnd r.
Proof.
  intros Hn Hd -> L. apply lit_value; try assumption. rewrite Rabs_pos_eq by lra.
  change (bpow radix2 60) with 1152921504606846976. lra.
Qed.

(** The list of doubles written as the decimals of a list. *)
Definition written (l : list float) (cs : list R) : Prop :=
  Forall2 (fun f c => is_finite f = true /\ B2R f = rnd c) l cs.
Ltac wr := repeat first [apply Forall2_nil | apply Forall2_cons; [apply lit_is; [lia|lia|lra|lra]|]].

Lemma ltb_finite (f g : float) : is_finite f = true -> is_finite g = true -> nltb f g = Rlt_bool (B2R f) (B2R g).
Proof. intros Ff Fg. change (nltb f g) with (Bltb f g). now apply Bltb_correct. Qed.
Lemma leb_finite (f g : float) : is_finite f = true -> is_finite g = true -> nleb f g = Rle_bool (B2R f) (B2R g).
Proof. intros Ff Fg. change (nleb f g) with (Bleb f g). now apply Bleb_correct. Qed.

Lemma bisect_written l cs (f : float) : written l cs -> is_finite f = true ->
  bisect l f = PowerTable.bisect (map rnd cs) (B2R f).
Proof.
  intros W Ff. induction W as [|g c l cs [Fg Vg] W IH]; [reflexivity|].
  cbn [bisect PowerTable.bisect map]. rewrite ltb_finite, Vg, IH by assumption.
  unfold Rltb. destruct (Rlt_bool_spec (B2R f) (rnd c)), (Rlt_dec (B2R f) (rnd c)); try reflexivity; lra.
Qed.

Lemma intervals_written : written pressure_ratio_intervals [1.08; 1.11; 1.14; 1.17; 1.2; 1.23; 1.26].
Proof. unfold pressure_ratio_intervals. wr. Qed.
Lemma rnd_Z z : (Z.abs z < 2 ^ 53)%Z -> rnd (IZR z) = IZR z.
Proof. intro L. destruct (of_Z z L) as [_ <-]. apply rnd_of. Qed.
Lemma rnd_le a b : a <= b -> rnd a <= rnd b.
Proof. apply (rnd_mono 53 1024). Qed.

(** What is read at a row of the table. *)
Lemma row_read l cs powers entries (soc : float) :
  written l (map fst entries) -> cs = map rnd (map fst entries) -> powers = 0%Z :: map snd entries ->
  is_finite soc = true -> StronglySorted Rle cs ->
  exists p, nth_error powers (bisect l soc) = Some p /\
    IZR p = affordable (map (fun e => (rnd (fst e), IZR (snd e))) entries) (B2R soc) 0.
Proof.
  intros W -> -> Fs S. rewrite (bisect_written _ _ _ W Fs). clear W l.
  assert (None_left : forall e b, Forall (fun c => B2R soc < c) (map rnd (map fst e)) ->
            affordable (map (fun e => (rnd (fst e), IZR (snd e))) e) (B2R soc) b = b).
  { induction e as [|[n w] e IH]; intros b A; [reflexivity|]. cbn [map affordable fst snd] in *.
    inversion A as [|? ? A1 A2]. subst. destruct (Rle_dec (rnd n) (B2R soc)); [lra|]. now apply IH. }
  generalize 0%Z. induction entries as [|[n w] e IH]; intro best.
  - exists best. split; reflexivity.
  - cbn [map fst snd PowerTable.bisect affordable] in *. inversion S as [|? ? S1 S2]. subst.
    destruct (Rltb_spec (B2R soc) (rnd n)) as [L|L].
    + exists best. split; [reflexivity|]. destruct (Rle_dec (rnd n) (B2R soc)); [lra|].
      symmetry. apply None_left. rewrite Forall_forall in S2 |- *. intros c I. specialize (S2 c I). lra.
    + destruct (Rle_dec (rnd n) (B2R soc)); [|lra]. destruct (IH S1 w) as (p & A & B).
      exists p. split; [exact A|exact B].
Qed.

(** The table of the specification, with its thresholds rounded. *)
Definition doubles (entries : list (R * R)) : list (R * R) := map (fun e => (rnd (fst e), snd e)) entries.

(** The table is the published one at the doubles written for its decimal thresholds. *)
Theorem C102_table : forall ratio soc : float, is_finite ratio = true -> is_finite soc = true ->
  (B2R ratio < rnd 0.99 \/ 5 < B2R ratio -> lookup ratio soc = None) /\
  (rnd 0.99 <= B2R ratio <= 5 ->
     exists lo hi entries p, In (lo, hi, entries) power_rows /\ rnd lo <= B2R ratio < rnd hi /\
       lookup ratio soc = Some p /\ IZR p = affordable (doubles entries) (B2R soc) 0).
Proof.
  intros ratio soc Fr Fs. unfold lookup.
  destruct (lit_is 99 100 0.99 ltac:(lia) ltac:(lia) ltac:(lra) ltac:(lra)) as [F1 V1].
  destruct (lit_is 50 10 5 ltac:(lia) ltac:(lia) ltac:(lra) ltac:(lra)) as [F2 V2].
  rewrite !leb_finite, V1, V2, (rnd_Z 5 ltac:(lia)) by assumption. split.
  - intros [L|L].
    + rewrite Rle_bool_false by exact L. reflexivity.
    + rewrite (Rle_bool_false (B2R ratio)) by exact L. now rewrite andb_false_r.
  - intros [L1 L2]. rewrite !Rle_bool_true by assumption. cbn [andb].
    rewrite (bisect_written _ _ _ intervals_written Fr). cbn [map PowerTable.bisect].
    assert (K : forall l powers (entries : list (R * Z)) lo hi, written l (map fst entries) ->
       powers = 0%Z :: map snd entries -> StronglySorted Rle (map rnd (map fst entries)) ->
       In (lo, hi, map (fun e => (fst e, IZR (snd e))) entries) power_rows -> rnd lo <= B2R ratio < rnd hi ->
       exists lo hi entries p, In (lo, hi, entries) power_rows /\ rnd lo <= B2R ratio < rnd hi /\
       nth_error powers (bisect l soc) = Some p /\ IZR p = affordable (doubles entries) (B2R soc) 0).
    { intros l powers entries lo hi W P S I B. destruct (row_read l _ powers entries soc W eq_refl P Fs S) as (p & A & E).
      exists lo, hi, (map (fun e => (fst e, IZR (snd e))) entries), p. split; [exact I|]. split; [exact B|].
      split; [exact A|]. unfold doubles. rewrite map_map. cbn [fst snd]. exact E. }
    assert (R56 : rnd 6 = 6) by exact (rnd_Z 6 ltac:(lia)).
    Ltac sorted := cbn [map fst]; repeat apply SSorted_cons; repeat apply Forall_cons; try apply Forall_nil; try apply SSorted_nil; try (apply rnd_le; lra).
    repeat match goal with |- context [Rltb ?a ?b] => destruct (Rltb_spec a b) end; cbn [nth_error soc_mappings].
    + apply (K _ _ [(0.3, 150%Z); (0.4, 175%Z); (0.5, 200%Z)] 0.99 1.08); [cbn [map fst]; wr|reflexivity|sorted|cbn; tauto|lra].
    + apply (K _ _ [(0.3, 200%Z); (0.4, 200%Z); (0.7, 225%Z)] 1.08 1.11); [cbn [map fst]; wr|reflexivity|sorted|cbn; tauto|lra].
    + apply (K _ _ [(0.3, 225%Z); (0.4, 225%Z); (0.6, 250%Z)] 1.11 1.14); [cbn [map fst]; wr|reflexivity|sorted|cbn; tauto|lra].
    + apply (K _ _ [(0.3, 200%Z); (0.4, 225%Z); (0.5, 250%Z)] 1.14 1.17); [cbn [map fst]; wr|reflexivity|sorted|cbn; tauto|lra].
    + apply (K _ _ [(0.3, 225%Z); (0.4, 250%Z); (0.5, 275%Z)] 1.17 1.2); [cbn [map fst]; wr|reflexivity|sorted|cbn; tauto|lra].
    + apply (K _ _ [(0.4, 275%Z); (0.5, 300%Z)] 1.2 1.23); [cbn [map fst]; wr|reflexivity|sorted|cbn; tauto|lra].
    + apply (K _ _ [(0.5, 300%Z); (0.6, 325%Z)] 1.23 1.26); [cbn [map fst]; wr|reflexivity|sorted|cbn; tauto|lra].
    + apply (K _ _ [(0.5, 325%Z); (0.6, 350%Z)] 1.26 6); [cbn [map fst]; wr|reflexivity|sorted|cbn; tauto|lra].
Qed.

(** The thresholds of the table. *)
Definition ratios : list R := [0.99; 1.08; 1.11; 1.14; 1.17; 1.2; 1.23; 1.26; 5].
Definition charges : list R := [0.3; 0.4; 0.5; 0.6; 0.7].

Lemma bisect_agrees l cs (f : float) : written l cs -> is_finite f = true ->
  Forall (fun c => B2R f <> rnd c) cs -> bisect l f = PowerTable.bisect cs (B2R f).
Proof.
  intros W Ff A. rewrite (bisect_written _ _ _ W Ff). clear W. induction A as [|c cs Ne A IH]; [reflexivity|].
  cbn [map PowerTable.bisect]. rewrite IH.
  destruct (Rltb_spec (B2R f) (rnd c)) as [L|L], (Rltb_spec (B2R f) c) as [M|M]; try reflexivity; exfalso.
  - apply (rnd_le c (B2R f)) in M || (apply Rnot_lt_le in M; apply rnd_le in M); rewrite rnd_of in M; lra.
  - apply Rlt_le, rnd_le in M. rewrite rnd_of in M. lra.
Qed.

(** It is exactly the table of C29 except when an argument is itself one of those doubles. *)
Theorem C102_agrees : forall ratio soc : float, is_finite ratio = true -> is_finite soc = true ->
  (forall c, In c ratios -> B2R ratio <> rnd c) -> (forall c, In c charges -> B2R soc <> rnd c) ->
  option_map IZR (lookup ratio soc) = PowerTable.lookup (B2R ratio) (B2R soc).
Proof.
  intros ratio soc Fr Fs Ar As. unfold lookup, PowerTable.lookup.
  destruct (lit_is 99 100 0.99 ltac:(lia) ltac:(lia) ltac:(lra) ltac:(lra)) as [F1 V1].
  destruct (lit_is 50 10 5 ltac:(lia) ltac:(lia) ltac:(lra) ltac:(lra)) as [F2 V2].
  rewrite !leb_finite, V1, V2, (rnd_Z 5 ltac:(lia)) by assumption.
  assert (E : Rle_bool (rnd 0.99) (B2R ratio) = Rleb 0.99 (B2R ratio)).
  { pose proof (Ar 0.99 ltac:(cbn; tauto)) as Ne.
    destruct (Rle_bool_spec (rnd 0.99) (B2R ratio)) as [L|L], (Rleb_spec 0.99 (B2R ratio)) as [M|M]; try reflexivity; exfalso.
    - apply Rnot_le_lt, Rlt_le, rnd_le in M. rewrite rnd_of in M. lra.
    - apply rnd_le in M. rewrite rnd_of in M. lra. }
  assert (E' : Rle_bool (B2R ratio) 5 = Rleb (B2R ratio) 5).
  { destruct (Rle_bool_spec (B2R ratio) 5), (Rleb_spec (B2R ratio) 5); try reflexivity; lra. }
  rewrite E, E'. destruct (Rleb 0.99 (B2R ratio) && Rleb (B2R ratio) 5); [|reflexivity].
  rewrite (bisect_agrees _ _ _ intervals_written Fr) by (repeat apply Forall_cons; try apply Forall_nil; apply Ar; cbn; tauto).
  unfold PowerTable.pressure_ratio_intervals.
  assert (K : forall l cs ps, written l cs -> incl cs charges ->
     option_map IZR (nth_error ps (bisect l soc)) = nth_error (map IZR ps) (PowerTable.bisect cs (B2R soc))).
  { intros l cs ps W I. rewrite nth_error_map. rewrite (bisect_agrees _ _ _ W Fs); [reflexivity|].
    apply Forall_forall. intros c J. apply As, I, J. }
  generalize (PowerTable.bisect [1.08; 1.11; 1.14; 1.17; 1.2; 1.23; 1.26] (B2R ratio)). intro n.
  do 8 (destruct n as [|n]; [cbn [nth_error soc_mappings PowerTable.soc_mappings];
    apply K; [wr|intros c J; cbn in J |- *; tauto]|]).
  destruct n; reflexivity.
Qed.

(** A ratio that is infinite or not a number is rejected, but a charge that is not a number
    counts as a full battery. *)
Theorem C102_not_a_number : forall ratio soc : float,
  (is_finite ratio = false -> lookup ratio soc = None) /\
  (is_nan soc = true -> lookup ratio soc = lookup ratio (float_of_Z 1)).
Proof.
  intros ratio soc. split.
  - intro F. unfold lookup. destruct ratio as [?|[]| |?]; try discriminate F; reflexivity.
  - intro Nn. rewrite (nan_is soc Nn). unfold lookup. destruct (_ && _); [|reflexivity].
    generalize (bisect (T:=float) pressure_ratio_intervals ratio). intro n.
    do 8 (destruct n as [|n]; [vm_compute; reflexivity|]). destruct n; reflexivity.
Qed.


Notation P := get_most_efficient_power.
Lemma curve_cases (x : float) : is_finite x = true ->
  (B2R x <= B2R k105 /\ P x = piece (B754_zero false) k100 (float_of_Z 100) x) \/
  (B2R k105 < B2R x <= B2R k120 /\ P x = piece slope2 k105 (float_of_Z 100) x) \/
  (B2R k120 < B2R x <= B2R k125 /\ P x = piece slope3 k120 (float_of_Z 300) x) \/
  (B2R k125 < B2R x /\ P x = piece (B754_zero false) k125 (float_of_Z 400) x).
Proof.
  intro Fx. unfold get_most_efficient_power, interp1d_extrapolate.
  assert (S : searchsorted power_xs x =
    if Rlt_bool 1 (B2R x) then S (if Rlt_bool (B2R k105) (B2R x) then S (if Rlt_bool (B2R k120) (B2R x) then
      S (if Rlt_bool (B2R k125) (B2R x) then S (if Rlt_bool (B2R k135) (B2R x) then 1 else 0) else 0) else 0) else 0) else 0%nat).
  { unfold power_xs. cbn [searchsorted].
    change (@lit float N64 10 10) with k100. change (@lit float N64 105 100) with k105.
    change (@lit float N64 12 10) with k120. change (@lit float N64 125 100) with k125.
    change (@lit float N64 135 100) with k135.
    assert (F5 : is_finite k135 = true) by (vm_compute; reflexivity).
    rewrite !ltb_finite by first [assumption | apply k100_value | apply k105_value | apply k120_value | apply k125_value].
    rewrite (proj2 k100_value). reflexivity. }
  rewrite S. clear S. destruct k105_value as [_ K1], k120_value as [_ K2], k125_value as [_ K3].
  apply Rabs_le_inv in K1, K2.
  assert (Z : @slope (float_of_Z 100) (float_of_Z 100) k100 k105 = B754_zero false) by (apply B2SF_inj; vm_compute; reflexivity).
  assert (Z' : @slope (float_of_Z 400) (float_of_Z 400) k125 k135 = B754_zero false) by (apply B2SF_inj; vm_compute; reflexivity).
  destruct (Rlt_bool_spec 1 (B2R x)) as [L1|L1].
  2: { left. split; [lra|]. rewrite <- Z. reflexivity. }
  destruct (Rlt_bool_spec (B2R k105) (B2R x)) as [L2|L2].
  2: { left. split; [exact L2|]. rewrite <- Z. reflexivity. }
  right. destruct (Rlt_bool_spec (B2R k120) (B2R x)) as [L3|L3].
  2: { left. split; [lra|]. reflexivity. }
  right. destruct (Rlt_bool_spec (B2R k125) (B2R x)) as [L4|L4].
  2: { left. split; [lra|]. reflexivity. }
  right. split; [exact L4|]. rewrite <- Z'. destruct (Rlt_bool (B2R k135) (B2R x)); reflexivity.
Qed.

Lemma curve_levels (x : float) : is_finite x = true -> 0 <= B2R x -> is_finite (P x) = true /\
  ((B2R x <= B2R k105 /\ B2R (P x) = 100) \/
   (B2R k105 < B2R x <= B2R k120 /\ B2R (P x) = level slope2 k105 (float_of_Z 100) (B2R x)) \/
   (B2R k120 < B2R x <= B2R k125 /\ B2R (P x) = level slope3 k120 (float_of_Z 300) (B2R x)) \/
   (B2R k125 < B2R x /\ B2R (P x) = 400)).
Proof.
  intros Fx Px. destruct knots as (W1 & W2 & W3 & W4 & W5 & W6 & W7 & L1 & L2 & _).
  assert (In1 : 1 < B2R x <= B2R k125 -> within 1 x).
  { intro B. apply (small x 1 2); [exact Fx|lra|apply Req_le; reflexivity]. }
  destruct k100_value as [F0 V0], k125_value as [F3 V3].
  destruct (curve_cases x Fx) as [[B E]|[[B E]|[[B E]|[B E]]]]; rewrite E.
  - rewrite (flat_piece x k100 (float_of_Z 100) 100) by
      (lia || reflexivity || (apply difference_finite; [assumption..|rewrite V0; lra])).
    destruct (of_Z 100 ltac:(lia)) as [F V]. split; [exact F|]. left. now split.
  - destruct (sloped_piece slope2 k105 (float_of_Z 100) x W4 W1 (In1 ltac:(lra)) W6) as [F V].
    split; [exact F|]. right; left. split; [exact B|exact V].
  - destruct (sloped_piece slope3 k120 (float_of_Z 300) x W5 W2 (In1 ltac:(lra)) W7) as [F V].
    split; [exact F|]. right; right; left. split; [exact B|exact V].
  - rewrite (flat_piece x k125 (float_of_Z 400) 400) by
      (lia || reflexivity || (apply difference_finite; [assumption..|rewrite V3; lra])).
    destruct (of_Z 400 ltac:(lia)) as [F V]. split; [exact F|]. right; right; right. now split.
Qed.

(** The power of the curve: a number of watts between 100 and 400, never less at a higher
    ratio, 100 up to the double written 1.05 and no further, 400 from 1.25 on and no
    earlier. *)
Theorem C102_curve : forall r : float, is_finite r = true -> 0 <= B2R r ->
  is_finite (get_most_efficient_power r) = true /\
  100 <= B2R (get_most_efficient_power r) <= 400 /\
  (B2R (get_most_efficient_power r) = 100 <-> B2R r <= rnd 1.05) /\
  (B2R (get_most_efficient_power r) = 400 <-> 1.25 <= B2R r) /\
  (forall r' : float, is_finite r' = true -> B2R r <= B2R r' ->
     B2R (get_most_efficient_power r) <= B2R (get_most_efficient_power r')).
Proof.
  intros x Fx Px. destruct knots as (_ & _ & _ & _ & _ & _ & _ & L1 & L2 & S2 & S3).
  assert (R2 : forall z : float, B2R k105 < B2R z <= B2R k120 -> 100 < level slope2 k105 (float_of_Z 100) (B2R z) <= 300).
  { intros z B. split.
    - eapply Rlt_le_trans; [exact above_105|]. apply level_mono; [exact S2|]. apply next_105. lra.
    - rewrite <- level2_high. apply level_mono; [exact S2|lra]. }
  assert (R3 : forall z, B2R k120 < z -> 300 <= level slope3 k120 (float_of_Z 300) z).
  { intros z B. rewrite <- level3_low. apply level_mono; [exact S3|lra]. }
  assert (R3' : forall z, z <= B2R k125 -> level slope3 k120 (float_of_Z 300) z <= 400).
  { intros z B. rewrite <- level3_high. apply level_mono; [exact S3|lra]. }
  assert (R3'' : forall z : float, B2R z < B2R k125 -> level slope3 k120 (float_of_Z 300) (B2R z) < 400).
  { intros z B. eapply Rle_lt_trans; [|exact below_125]. apply level_mono; [exact S3|]. now apply previous_125. }
  destruct (lit_is 105 100 1.05 ltac:(lia) ltac:(lia) ltac:(lra) ltac:(lra)) as [_ V1].
  change (@lit float N64 105 100) with k105 in V1. rewrite <- V1.
  destruct k125_value as [_ V3]. rewrite <- V3.
  destruct (curve_levels x Fx Px) as [F C]. split; [exact F|].
  split; [|split; [|split]].
  - destruct C as [[B E]|[[B E]|[[B E]|[B E]]]]; rewrite E; try lra.
    + specialize (R2 x B). lra.
    + specialize (R3 (B2R x) (proj1 B)). specialize (R3' (B2R x) (proj2 B)). lra.
  - destruct C as [[B E]|[[B E]|[[B E]|[B E]]]]; rewrite E; try lra.
    + specialize (R2 x B). lra.
    + specialize (R3 (B2R x) (proj1 B)). lra.
  - destruct C as [[B E]|[[B E]|[[B E]|[B E]]]]; rewrite E; try lra.
    + specialize (R2 x B). lra.
    + split; intro H; [|replace (B2R x) with (B2R k125) by lra; exact level3_high].
      destruct (Rlt_le_dec (B2R x) (B2R k125)) as [L|L]; [|lra]. specialize (R3'' x L). lra.
  - intros y Fy L. destruct (curve_levels y Fy ltac:(lra)) as [_ D].
    destruct C as [[B E]|[[B E]|[[B E]|[B E]]]]; rewrite E;
      destruct D as [[B' E']|[[B' E']|[[B' E']|[B' E']]]]; rewrite E'; try lra;
      try (specialize (R2 x ltac:(lra)));
      try (specialize (R2 y ltac:(lra))); try lra;
      try (apply level_mono; assumption);
      try (pose proof (R3 (B2R x) ltac:(lra)); pose proof (R3' (B2R x) ltac:(lra)));
      try (pose proof (R3 (B2R y) ltac:(lra)); pose proof (R3' (B2R y) ltac:(lra))); lra.
Qed.

(** It is within 5 picowatts of the published curve. *)
Theorem C102_curve_error : forall r : float, is_finite r = true -> 0 <= B2R r ->
  Rabs (B2R (get_most_efficient_power r) - efficient_power (B2R r)) <= 5 / 10 ^ 12.
Proof.
  intros x Fx Px. destruct (curve_levels x Fx Px) as [_ C].
  destruct k105_value as [_ V1], k120_value as [_ V2], k125_value as [_ V3], slope2_value as [_ V4], slope3_value as [_ V5].
  pose proof (Rabs_le_inv _ _ V1) as V1'. pose proof (Rabs_le_inv _ _ V2) as V2'.
  destruct (of_Z 100 ltac:(lia)) as [_ Y1]. destruct (of_Z 300 ltac:(lia)) as [_ Y3].
  unfold efficient_power.
  destruct C as [[B E]|[[B E]|[[B E]|[B E]]]]; rewrite E.
  - repeat destruct Rle_dec; apply Rabs_le; lra.
  - pose proof (level_error slope2 k105 (float_of_Z 100) (B2R x) (4000 / 3) 1.05 V4 V1 ltac:(lra) ltac:(rewrite Y1; lra)
      ltac:(lra) ltac:(lra)) as Q. rewrite Y1 in Q. apply Rabs_le_inv in Q.
    repeat destruct Rle_dec; apply Rabs_le; lra.
  - pose proof (level_error slope3 k120 (float_of_Z 300) (B2R x) 2000 1.2 V5 V2 ltac:(lra) ltac:(rewrite Y3; lra)
      ltac:(lra) ltac:(lra)) as Q. rewrite Y3 in Q. apply Rabs_le_inv in Q.
    repeat destruct Rle_dec; apply Rabs_le; lra.
  - repeat destruct Rle_dec; apply Rabs_le; lra.
Qed.

(** At a ratio that is infinite or not a number the power is not a number. *)
Theorem C102_no_power : forall r : float, is_finite r = false ->
  is_nan (get_most_efficient_power r) = true.
Proof. intros r F. destruct r as [?|[]| |?]; try discriminate F; vm_compute; reflexivity. Qed.

Lemma substep_acs w wind a stride (s s' : bstate float) :
  simulate_substep w wind a stride s = Some s' -> acs_power s' = fst (acs_step s a).
Proof.
  intro H. unfold simulate_substep in H.
  destruct (next_pressure w s stride) as [np|]; [|discriminate H].
  destruct (at_pressure w (pressure s)) as [[? na]|]; [|discriminate H].
  destruct (sun w (x s) (y s) (date_time s)) as [el flux].
  destruct (d_temperature _ _ _ _ _ _ _ _ _) as [dt|]; [|discriminate H].
  destruct (calculate_superpressure_and_volume _ _ _ _ _ _) as [nv ns].
  destruct (acs_step s a) as [p fl]. apply some_eq in H. rewrite <- H. reflexivity.
Qed.
(** In every sub-step of the simulator the ACS draws nothing unless it is told to descend,
    and then what the curve says at the ratio before the sub-step: between 100 and 400 W. *)
Theorem C102_acs_power : forall w wind a stride (s s' : bstate float),
  simulate_substep w wind a stride s = Some s' ->
  (a <> DOWN -> acs_power s' = B754_zero false) /\
  (a = DOWN -> is_finite (pressure_ratio s) = true -> 0 <= B2R (pressure_ratio s) ->
     is_finite (acs_power s') = true /\ 100 <= B2R (acs_power s') <= 400 /\
     Rabs (B2R (acs_power s') - efficient_power (B2R (pressure_ratio s))) <= 5 / 10 ^ 12).
Proof.
  intros w wind a stride s s' H.
  pose proof (substep_acs w wind a stride s s' H) as E.
  rewrite E. split.
  - intro A. destruct a; try contradiction; reflexivity.
  - intros -> Fr Pr. cbn [acs_step fst].
    destruct (C102_curve (pressure_ratio s) Fr Pr) as (F & B & _).
    split; [exact F|]. split; [exact B|]. now apply C102_curve_error.
Qed.
End Pow.

Print Assumptions C102_same_code.
Print Assumptions C102_table.
Print Assumptions C102_agrees.
Print Assumptions C102_not_a_number.
Print Assumptions C102_curve.
Print Assumptions C102_curve_error.
Print Assumptions C102_no_power.
Print Assumptions C102_acs_power.

(** The doubles written 1.2 and 1.1, at which the curve gives 300 W exactly and not quite
    500/3 W; the table at the doubles written 1.08 and 0.3, which count as reached, and just
    below; a descending balloon. *)
Example C102_witness :
  is_finite k120 = true /\ 0 <= B2R k120 /\
  (@get_most_efficient_power _ DF k120) = float_of_Z 300 /\
  Rabs (B2R (@get_most_efficient_power _ DF (@lit _ DF 11 10)) - 500 / 3) < / 10 ^ 12 /\
  @lookup _ DF (@lit _ DF 108 100) (@lit _ DF 3 10) = Some 200%Z /\
  @lookup _ DF (Bpred (@lit _ DF 108 100)) (@lit _ DF 3 10) = Some 150%Z /\
  @lookup _ DF (@lit _ DF 108 100) (Bpred (@lit _ DF 3 10)) = Some 0%Z /\
  @lookup _ DF (float_of_Z 1) B754_nan = Some 200%Z /\
  (exists s', @simulate_substep _ DF demo_world (float_of_Z 1, float_of_Z 1) DOWN 10000000 demo_start = Some s' /\
     is_finite (acs_power s') = true /\ 100 < B2R (acs_power s') < 400) /\
  is_finite (@pressure_ratio _ DF demo_start) = true /\ 1 < B2R (@pressure_ratio _ DF demo_start).
Proof.
  split; [exact (proj1 k120_value)|].
  split; [pose proof (Rabs_le_inv _ _ (proj2 k120_value)); lra|].
  split; [apply B2SF_inj; vm_compute; reflexivity|].
  split. { val (@get_most_efficient_power _ DF (@lit _ DF 11 10)). rewrite V. apply Rabs_def1; lra. }
  split; [vm_compute; reflexivity|]. split; [vm_compute; reflexivity|].
  split; [vm_compute; reflexivity|]. split; [vm_compute; reflexivity|]. split.
  - destruct (@simulate_substep _ DF demo_world (float_of_Z 1, float_of_Z 1) DOWN 10000000 demo_start) as [s'|] eqn:E.
    + exists s'. split; [reflexivity|].
      assert (A : acs_power s' = @get_most_efficient_power _ DF (@pressure_ratio _ DF demo_start)) by exact (substep_acs _ _ _ _ _ _ _ E).
      rewrite A. val (@get_most_efficient_power _ DF (@pressure_ratio _ DF demo_start)). rewrite V. split; [exact F|lra].
    + exfalso. assert (X : match @simulate_substep _ DF demo_world (float_of_Z 1, float_of_Z 1) DOWN 10000000 demo_start with Some _ => true | None => false end = true) by (vm_compute; reflexivity).
      rewrite E in X. discriminate X.
  - val (@pressure_ratio _ DF demo_start). rewrite V. split; [exact F|lra].
Qed.
