(** Convex hulls in the plane: separation from the origin and Caratheodory's theorem. *)
From Coq Require Import ZArith Reals List Bool Lra Lia Psatz.
From Verif Require Import Model.Num Model.StationWinds Spec.HullSpec Proofs.NumR.
Import ListNotations.
Open Scope R_scope.

Definition cross (a b : R * R) : R := fst a * snd b - snd a * fst b.
(** The origin in a (possibly degenerate) triangle of points of l. *)
Definition tri0 (l : list (R * R)) : Prop := exists a b c x y z,
  In a l /\ In b l /\ In c l /\ 0 <= x /\ 0 <= y /\ 0 <= z /\ x + y + z = 1 /\
  x * fst a + y * fst b + z * fst c = 0 /\ x * snd a + y * snd b + z * snd c = 0.
Lemma tri0_mono l l' : incl l l' -> tri0 l -> tri0 l'.
Proof.
  intros H (a & b & c & x & y & z & Ha & Hb & Hc & R).
  exists a, b, c, x, y, z. repeat split; try apply H; tauto.
Qed.

(** Positive combinations with weights not summing to 1. *)
Lemma tri0_scale l a b c x y z :
  In a l -> In b l -> In c l -> 0 <= x -> 0 <= y -> 0 <= z -> 0 < x + y + z ->
  x * fst a + y * fst b + z * fst c = 0 -> x * snd a + y * snd b + z * snd c = 0 -> tri0 l.
Proof.
  intros Ha Hb Hc Hx Hy Hz Hs H1 H2. set (s := x + y + z) in *.
  assert (0 < / s) by (apply Rinv_0_lt_compat; exact Hs).
  exists a, b, c, (x * / s), (y * / s), (z * / s).
  repeat split; auto; try (apply Rmult_le_pos; lra).
  - replace (x * / s + y * / s + z * / s) with (s * / s) by (unfold s; ring). apply Rinv_r; lra.
  - replace (x * / s * fst a + y * / s * fst b + z * / s * fst c)
      with ((x * fst a + y * fst b + z * fst c) * / s) by ring. rewrite H1; ring.
  - replace (x * / s * snd a + y * / s * snd b + z * / s * snd c)
      with ((x * snd a + y * snd b + z * snd c) * / s) by ring. rewrite H2; ring.
Qed.

(** The origin among the points, between two of them, or in a genuine triangle of them. *)
Definition zero_in (l : list (R * R)) : Prop :=
  In (0, 0) l \/
  (exists a b t, In a l /\ In b l /\ a <> (0, 0) /\ t < 0 /\ fst b = t * fst a /\ snd b = t * snd a) \/
  (exists a b c x y z, In a l /\ In b l /\ In c l /\ area2 a b c <> 0 /\ 0 <= x /\ 0 <= y /\ 0 <= z /\
     0 < x + y + z /\ x * fst a + y * fst b + z * fst c = 0 /\ x * snd a + y * snd b + z * snd c = 0).
Lemma zero_in_mono l l' : incl l l' -> zero_in l -> zero_in l'.
Proof.
  intros H [K|[(a & b & t & Ha & Hb & K)|(a & b & c & x & y & z & Ha & Hb & Hc & K)]].
  - left. apply H, K.
  - right; left. exists a, b, t. repeat split; try apply H; tauto.
  - right; right. exists a, b, c, x, y, z. repeat split; try apply H; tauto.
Qed.
Lemma zero_in_tri0 l : zero_in l -> tri0 l.
Proof.
  intros [K|[(a & b & t & Ha & Hb & _ & Ht & E1 & E2)|(a & b & c & x & y & z & Ha & Hb & Hc & _ & Hx & Hy & Hz & K)]].
  - apply (tri0_scale _ (0, 0) (0, 0) (0, 0) 1 0 0); cbn; auto; lra.
  - apply (tri0_scale _ b a a 1 (- t) 0); auto; try lra; rewrite ?E1, ?E2; ring.
  - apply (tri0_scale _ a b c x y z); auto; tauto.
Qed.

(** All points on a ray, or in a wedge. *)
Definition ray (l : list (R * R)) : Prop := exists a, In a l /\ a <> (0, 0) /\
  forall p, In p l -> exists x, 0 < x /\ fst p = x * fst a /\ snd p = x * snd a.
Definition wedge (l : list (R * R)) : Prop := exists a b, In a l /\ In b l /\ cross a b <> 0 /\
  forall p, In p l -> exists x y, 0 <= x /\ 0 <= y /\ 0 < x + y /\
    fst p = x * fst a + y * fst b /\ snd p = x * snd a + y * snd b.

Lemma nonzero_dec (w : R * R) : w = (0, 0) \/ (w <> (0, 0) /\ 0 < fst w * fst w + snd w * snd w).
Proof.
  destruct w as [u v]; cbn. destruct (Req_dec u 0) as [->|Hu].
  - destruct (Req_dec v 0) as [->|Hv]; [left; reflexivity|].
    right. split; [intros [= E]; lra|nra].
  - right. split; [intros [= E]; lra|nra].
Qed.

Lemma hull_step w l : ray l \/ wedge l -> zero_in (w :: l) \/ ray (w :: l) \/ wedge (w :: l).
Proof.
  destruct (nonzero_dec w) as [->|[Hw Hn]].
  { intros _. left. left. left. reflexivity. }
  intros [(a & Ha & Hna & Hr) | (a & b & Ha & Hb & Hab & Hc)].
  - destruct (nonzero_dec a) as [->|[_ Hna2]]; [tauto|].
    destruct (Req_dec (cross a w) 0) as [E|E].
    + (* w = t a *)
      set (n := fst a * fst a + snd a * snd a) in *.
      set (t := (fst w * fst a + snd w * snd a) / n).
      assert (F1 : fst w = t * fst a).
      { apply (Rmult_eq_reg_r n); [|lra].
        transitivity ((fst w * fst a + snd w * snd a) * fst a - snd a * cross a w);
          [unfold n, cross; ring|rewrite E; unfold t; field; lra]. }
      assert (F2 : snd w = t * snd a).
      { apply (Rmult_eq_reg_r n); [|lra].
        transitivity ((fst w * fst a + snd w * snd a) * snd a + fst a * cross a w);
          [unfold n, cross; ring|rewrite E; unfold t; field; lra]. }
      clearbody t. destruct (Rlt_le_dec 0 t) as [Ht|Ht].
      * right; left. exists a. repeat split; [right; exact Ha|exact Hna|].
        intros p [<-|Hp]; [exists t; auto|apply Hr; exact Hp].
      * left. right; left. exists a, w, t. repeat split; cbn; auto.
        destruct Ht as [Ht| ->]; [exact Ht|]. rewrite F1, F2 in Hn. lra.
    + right; right. exists a, w. repeat split; [right; exact Ha|left; reflexivity|exact E|].
      intros p [<-|Hp].
      * exists 0, 1. repeat split; lra.
      * destruct (Hr p Hp) as (x & Hx & -> & ->). exists x, 0. repeat split; lra.
  - set (s := cross a b) in *.
    set (x := cross w b / s). set (y := cross a w / s).
    assert (F1 : fst w = x * fst a + y * fst b).
    { unfold x, y. field_simplify_eq; [|exact Hab]. unfold s, cross. ring. }
    assert (F2 : snd w = x * snd a + y * snd b).
    { unfold x, y. field_simplify_eq; [|exact Hab]. unfold s, cross. ring. }
    assert (Cwb : cross w b = x * s) by (unfold x; field; exact Hab).
    assert (Caw : cross a w = y * s) by (unfold y; field; exact Hab).
    clearbody x y.
    assert (Na : a <> (0, 0)) by (intros ->; apply Hab; unfold s, cross; cbn; ring).
    assert (Nb : b <> (0, 0)) by (intros ->; apply Hab; unfold s, cross; cbn; ring).
    destruct (Rle_lt_dec 0 x) as [Hx|Hx]; destruct (Rle_lt_dec 0 y) as [Hy|Hy].
    + right; right. exists a, b. repeat split; [right; auto|right; auto|exact Hab|].
      intros p [<-|Hp]; [|apply Hc; exact Hp].
      exists x, y. repeat split; auto.
      destruct (Req_dec (x + y) 0) as [E|E]; [|lra].
      exfalso. assert (x = 0) by lra. assert (y = 0) by lra. subst x y.
      rewrite F1, F2 in Hn. lra.
    + destruct (Req_dec x 0) as [E|E].
      * left. right; left. exists b, w, y. repeat split; cbn; auto; rewrite ?F1, ?F2, E; ring.
      * (* a = w/x - (y/x) b *)
        assert (Hx' : 0 < / x) by (apply Rinv_0_lt_compat; lra).
        right; right. exists w, b. repeat split; [left; auto|right; auto| |].
        { rewrite Cwb. apply Rmult_integral_contrapositive. split; [lra|exact Hab]. }
        intros p [<-|Hp]; [exists 1, 0; repeat split; lra|].
        destruct (Hc p Hp) as (al & be & H1 & H2 & H3 & -> & ->).
        exists (al * / x), (be + al * (- y) * / x).
        assert (0 <= al * / x) by (apply Rmult_le_pos; lra).
        assert (0 <= al * (- y) * / x) by (apply Rmult_le_pos; [apply Rmult_le_pos|]; lra).
        repeat split; try lra.
        { destruct (Req_dec al 0) as [E0|E0]; [subst al; lra|].
          assert (0 < al * / x) by (apply Rmult_lt_0_compat; lra). lra. }
        { rewrite F1. field. lra. } { rewrite F2. field. lra. }
    + destruct (Req_dec y 0) as [E|E].
      * left. right; left. exists a, w, x. repeat split; cbn; auto; rewrite ?F1, ?F2, E; ring.
      * assert (Hy' : 0 < / y) by (apply Rinv_0_lt_compat; lra).
        right; right. exists a, w. repeat split; [right; auto|left; auto| |].
        { rewrite Caw. apply Rmult_integral_contrapositive. split; [lra|exact Hab]. }
        intros p [<-|Hp]; [exists 0, 1; repeat split; lra|].
        destruct (Hc p Hp) as (al & be & H1 & H2 & H3 & -> & ->).
        exists (al + be * (- x) * / y), (be * / y).
        assert (0 <= be * / y) by (apply Rmult_le_pos; lra).
        assert (0 <= be * (- x) * / y) by (apply Rmult_le_pos; [apply Rmult_le_pos|]; lra).
        repeat split; try lra.
        { destruct (Req_dec be 0) as [E0|E0]; [subst be; lra|].
          assert (0 < be * / y) by (apply Rmult_lt_0_compat; lra). lra. }
        { rewrite F1. field. lra. } { rewrite F2. field. lra. }
    + left. right; right. exists w, a, b, 1, (- x), (- y).
      assert (HA : area2 w a b = s * (1 - x - y)) by (unfold area2; rewrite F1, F2; unfold s, cross; ring).
      repeat split; cbn; auto; try lra.
      rewrite HA. apply Rmult_integral_contrapositive. split; [exact Hab|lra].
Qed.

Lemma hull_cases l : l = [] \/ zero_in l \/ ray l \/ wedge l.
Proof.
  induction l as [|w l IH]; [left; reflexivity|right].
  destruct IH as [->|[H|H]].
  - destruct (nonzero_dec w) as [->|[Hw _]].
    + left. left. left. reflexivity.
    + right; left. exists w. repeat split; [left; auto|exact Hw|].
      intros p [<-|[]]. exists 1. repeat split; lra.
  - left. revert H. apply zero_in_mono. intros p Hp; right; exact Hp.
  - apply hull_step. exact H.
Qed.

(** Points on a ray or in a wedge have a direction all of them are against. *)
Lemma against l : ray l \/ wedge l -> exists dx dy, forall p, In p l -> fst p * dx + snd p * dy < 0.
Proof.
  intros [(a & Ha & Hna & Hr) | (a & b & Ha & Hb & Hab & Hc)].
  - destruct (nonzero_dec a) as [->|[_ Hn]]; [tauto|].
    exists (- fst a), (- snd a). intros p Hp. destruct (Hr p Hp) as (x & Hx & -> & ->). nra.
  - set (s := cross a b) in *.
    set (dx := - (snd b - snd a) / s). set (dy := - (fst a - fst b) / s).
    assert (Da : fst a * dx + snd a * dy = -1).
    { unfold dx, dy. field_simplify_eq; [|exact Hab]. unfold s, cross. ring. }
    assert (Db : fst b * dx + snd b * dy = -1).
    { unfold dx, dy. field_simplify_eq; [|exact Hab]. unfold s, cross. ring. }
    clearbody dx dy. exists dx, dy. intros p Hp.
    destruct (Hc p Hp) as (x & y & Hx & Hy & Hs & -> & ->).
    replace ((x * fst a + y * fst b) * dx + (x * snd a + y * snd b) * dy)
      with (x * (fst a * dx + snd a * dy) + y * (fst b * dx + snd b * dy)) by ring.
    rewrite Da, Db. lra.
Qed.

Lemma way_zero_in l : always_a_way l -> zero_in l.
Proof.
  intros H. destruct (hull_cases l) as [->|[T|C]]; [|exact T|].
  - destruct (H 0 0) as (p & [] & _).
  - destruct (against l C) as (dx & dy & K). destruct (H dx dy) as (p & Hp & Hd).
    specialize (K p Hp). lra.
Qed.

(** Weighted sums. *)
Lemma total_nonneg ws : Forall (fun w => 0 <= w) ws -> 0 <= total ws.
Proof. induction 1; cbn; lra. Qed.
(** An affine function is at most its largest value over the points. *)
Lemma mix_le f fx fy f0 l :
  (forall p : R * R, f p = fst p * fx + snd p * fy + f0) ->
  forall ws m, length ws = length l -> Forall (fun w => 0 <= w) ws -> (forall p, In p l -> f p <= m) ->
  fst (mix ws l) * fx + snd (mix ws l) * fy + f0 * total ws <= m * total ws.
Proof.
  intros Hf. induction l as [|p l IH]; intros [|w ws] m HL HW Hm; try discriminate; cbn; [lra|].
  inversion HW as [|? ? H0 HW']; subst. injection HL as HL.
  specialize (IH ws m HL HW' (fun q Hq => Hm q (or_intror Hq))).
  pose proof (Hm p (or_introl eq_refl)) as Hp. rewrite Hf in Hp. nra.
Qed.
Lemma hull_le l q fx fy m :
  in_hull l q -> (forall p, In p l -> fst p * fx + snd p * fy <= m) -> fst q * fx + snd q * fy <= m.
Proof.
  intros (ws & HL & HW & HT & <-) H.
  pose proof (mix_le (fun p => fst p * fx + snd p * fy) fx fy 0 l (fun p => ltac:(cbn; ring)) ws m HL HW H) as K.
  rewrite HT in K. lra.
Qed.
Lemma hull_const l q fx fy m :
  in_hull l q -> (forall p, In p l -> fst p * fx + snd p * fy = m) -> fst q * fx + snd q * fy = m.
Proof.
  intros Hq H. pose proof (hull_le l q fx fy m Hq (fun p Hp => Req_le _ _ (H p Hp))).
  assert (K : fst q * - fx + snd q * - fy <= - m).
  { apply (hull_le l q (- fx) (- fy) (- m) Hq). intros p Hp. specialize (H p Hp). lra. }
  lra.
Qed.
(** A linear function is at least as large at some point as in the hull. *)
Lemma hull_some l q fx fy : in_hull l q -> exists p, In p l /\ fst q * fx + snd q * fy <= fst p * fx + snd p * fy.
Proof.
  intros Hq. assert (E : forall l : list (R * R), l <> [] -> exists p, In p l /\ forall r, In r l -> fst r * fx + snd r * fy <= fst p * fx + snd p * fy).
  { clear. induction l as [|a l IH]; intros H; [tauto|]. destruct l as [|b l].
    - exists a. split; [left; auto|]. intros r [<-|[]]. lra.
    - destruct IH as (p & Hp & K); [discriminate|].
      destruct (Rle_dec (fst a * fx + snd a * fy) (fst p * fx + snd p * fy)) as [C|C].
      + exists p. split; [right; auto|]. intros r [<-|Hr]; [exact C|apply K; exact Hr].
      + exists a. split; [left; auto|]. intros r [<-|Hr]; [lra|specialize (K r Hr); lra]. }
  destruct l as [|a l].
  - destruct Hq as ([|w ws] & HL & _ & HT & _); [cbn in HT; lra|discriminate].
  - destruct (E (a :: l)) as (p & Hp & K); [discriminate|]. exists p. split; [exact Hp|].
    apply (hull_le (a :: l)); auto.
Qed.
Lemma hull_way l : in_hull l (0, 0) -> always_a_way l.
Proof.
  intros H dx dy. destruct (hull_some l (0, 0) dx dy H) as (p & Hp & K). exists p. cbn in K. split; [exact Hp|lra].
Qed.

(** A weight at one point of a list. *)
Fixpoint weight_at (l : list (R * R)) (i : nat) (x : R) : list R :=
  match l with
  | [] => []
  | _ :: l' => match i with O => x :: map (fun _ => 0) l' | S i' => 0 :: weight_at l' i' x end
  end.
Lemma zeros (l : list (R * R)) : total (map (fun _ => 0) l) = 0 /\ mix (map (fun _ => 0) l) l = (0, 0).
Proof.
  induction l as [|p l [IH1 IH2]]; cbn; [auto|]. rewrite IH1, IH2. cbn. split; [lra|f_equal; ring].
Qed.
Lemma weight_at_spec l i x : (i < length l)%nat -> 0 <= x ->
  length (weight_at l i x) = length l /\ Forall (fun w => 0 <= w) (weight_at l i x) /\
  total (weight_at l i x) = x /\
  mix (weight_at l i x) l = (x * fst (nth i l (0, 0)), x * snd (nth i l (0, 0))).
Proof.
  revert i. induction l as [|p l IH]; intros i Hi Hx; [cbn in Hi; lia|]. destruct i as [|i]; cbn.
  - destruct (zeros l) as [Z1 Z2]. rewrite map_length, Z1, Z2. cbn. repeat split; try lra.
    + constructor; [exact Hx|]. apply Forall_forall. intros y Hy. apply in_map_iff in Hy as (? & <- & _). lra.
    + f_equal; ring.
  - cbn in Hi. destruct (IH i ltac:(lia) Hx) as (I1 & I2 & I3 & I4). rewrite I1, I3, I4. cbn.
    repeat split; try lra; [constructor; [lra|exact I2]|f_equal; ring].
Qed.
Fixpoint addw (a b : list R) : list R :=
  match a, b with x :: a', y :: b' => (x + y) :: addw a' b' | _, _ => [] end.
Lemma addw_spec l : forall a b, length a = length l -> length b = length l ->
  Forall (fun w => 0 <= w) a -> Forall (fun w => 0 <= w) b ->
  length (addw a b) = length l /\ Forall (fun w => 0 <= w) (addw a b) /\
  total (addw a b) = total a + total b /\
  mix (addw a b) l = (fst (mix a l) + fst (mix b l), snd (mix a l) + snd (mix b l)).
Proof.
  induction l as [|p l IH]; intros [|x a] [|y b] La Lb Fa Fb; try discriminate; cbn.
  - repeat split; try lra; auto. f_equal; lra.
  - inversion Fa; inversion Fb; subst. injection La as La; injection Lb as Lb.
    destruct (IH a b La Lb) as (I1 & I2 & I3 & I4); auto. rewrite I1, I3, I4. cbn.
    repeat split; try lra; [constructor; [lra|exact I2]|f_equal; ring].
Qed.
Lemma hull_of_three l a b c x y z :
  In a l -> In b l -> In c l -> 0 <= x -> 0 <= y -> 0 <= z -> x + y + z = 1 ->
  in_hull l (x * fst a + y * fst b + z * fst c, x * snd a + y * snd b + z * snd c).
Proof.
  intros Ha Hb Hc Hx Hy Hz Hs.
  apply (In_nth _ _ (0, 0)) in Ha as (i & Hi & <-). apply (In_nth _ _ (0, 0)) in Hb as (j & Hj & <-).
  apply (In_nth _ _ (0, 0)) in Hc as (k & Hk & <-).
  destruct (weight_at_spec l i x Hi Hx) as (I1 & I2 & I3 & I4).
  destruct (weight_at_spec l j y Hj Hy) as (J1 & J2 & J3 & J4).
  destruct (weight_at_spec l k z Hk Hz) as (K1 & K2 & K3 & K4).
  destruct (addw_spec l _ _ I1 J1 I2 J2) as (S1 & S2 & S3 & S4).
  destruct (addw_spec l _ _ S1 K1 S2 K2) as (T1 & T2 & T3 & T4).
  exists (addw (addw (weight_at l i x) (weight_at l j y)) (weight_at l k z)).
  repeat split; auto; [lra|]. rewrite T4, S4, I4, J4, K4. reflexivity.
Qed.
Lemma hull_self l p : In p l -> in_hull l p.
Proof.
  intros H. replace p with (1 * fst p + 0 * fst p + 0 * fst p, 1 * snd p + 0 * snd p + 0 * snd p).
  - apply hull_of_three; auto; lra.
  - destruct p; cbn; f_equal; ring.
Qed.
Lemma tri0_hull l : tri0 l -> in_hull l (0, 0).
Proof.
  intros (a & b & c & x & y & z & Ha & Hb & Hc & Hx & Hy & Hz & Hs & E1 & E2).
  rewrite <- E1 at 1. rewrite <- E2. apply hull_of_three; auto.
Qed.
Lemma way_iff l : in_hull l (0, 0) <-> always_a_way l.
Proof. split; [apply hull_way|intros H; apply tri0_hull, zero_in_tri0, way_zero_in, H]. Qed.

(** Membership in a triangle. *)
Lemma contains_iff a b c q : area2 a b c <> 0 -> contains a b c q = true <-> in_hull [a; b; c] q.
Proof.
  intros HA. set (A := area2 a b c) in *.
  assert (HS : side a b q + side b c q + side c a q = A) by (unfold side, A, area2; ring).
  assert (HX : side b c q * fst a + side c a q * fst b + side a b q * fst c = A * fst q)
    by (unfold side, A, area2; ring).
  assert (HY : side b c q * snd a + side c a q * snd b + side a b q * snd c = A * snd q)
    by (unfold side, A, area2; ring).
  split.
  - intros H.
    assert (K : (0 <= side b c q * / A) /\ (0 <= side c a q * / A) /\ (0 <= side a b q * / A)).
    { unfold contains in H. apply orb_true_iff in H as [H|H];
        apply andb_true_iff in H as [H H3]; apply andb_true_iff in H as [H1 H2];
        apply Rleb_iff in H1; apply Rleb_iff in H2; apply Rleb_iff in H3.
      - assert (0 < / A) by (apply Rinv_0_lt_compat; lra). repeat split; apply Rmult_le_pos; lra.
      - assert (/ A < 0) by (apply Rinv_lt_0_compat; lra). repeat split; nra. }
    destruct K as (K1 & K2 & K3).
    pose proof (hull_of_three [a; b; c] a b c (side b c q * / A) (side c a q * / A) (side a b q * / A)) as T.
    replace q with (side b c q * / A * fst a + side c a q * / A * fst b + side a b q * / A * fst c,
                    side b c q * / A * snd a + side c a q * / A * snd b + side a b q * / A * snd c) at 1.
    + apply T; cbn; auto.
      replace (side b c q * / A + side c a q * / A + side a b q * / A)
        with ((side a b q + side b c q + side c a q) * / A) by ring.
      rewrite HS. apply Rinv_r. exact HA.
    + destruct q as [qx qy]. cbn [fst snd] in HX, HY. f_equal.
      * transitivity ((side b c (qx, qy) * fst a + side c a (qx, qy) * fst b + side a b (qx, qy) * fst c) * / A); [ring|].
        rewrite HX. field. exact HA.
      * transitivity ((side b c (qx, qy) * snd a + side c a (qx, qy) * snd b + side a b (qx, qy) * snd c) * / A); [ring|].
        rewrite HY. field. exact HA.
  - intros (ws & HL & HW & HT & <-). destruct ws as [|x [|y [|z [|]]]]; try discriminate.
    inversion HW as [|? ? Hx HW1]; subst. inversion HW1 as [|? ? Hy HW2]; subst.
    inversion HW2 as [|? ? Hz _]; subst. clear HW HW1 HW2 HS HX HY HL. cbn in HT.
    set (q := mix [x; y; z] [a; b; c]).
    assert (Ez : z = 1 - x - y) by lra.
    assert (S1 : side a b q = z * A) by (unfold q, side, A, area2; cbn; rewrite Ez; ring).
    assert (S2 : side b c q = x * A) by (unfold q, side, A, area2; cbn; rewrite Ez; ring).
    assert (S3 : side c a q = y * A) by (unfold q, side, A, area2; cbn; rewrite Ez; ring).
    clearbody q. unfold contains. rewrite S1, S2, S3. apply orb_true_iff.
    destruct (Rlt_le_dec 0 A) as [P|P]; [left|right];
      repeat (apply andb_true_iff; split); apply Rleb_true; nra.
Qed.

Lemma find_simplex_ge points ts q : forall i, (0 <= i)%Z ->
  ((0 <= find_simplex points ts q i)%Z <->
   exists a b c, In (a, b, c) ts /\
     contains (nth a points (0, 0)) (nth b points (0, 0)) (nth c points (0, 0)) q = true).
Proof.
  induction ts as [|[[a b] c] ts IH]; intros i Hi; cbn.
  - split; [lia|]. intros (? & ? & ? & [] & _).
  - destruct (contains _ _ _ _) eqn:E.
    + split; [|lia]. intros _. exists a, b, c. split; [left; reflexivity|exact E].
    + rewrite (IH (i + 1)%Z) by lia. split; intros (a' & b' & c' & H1 & H2).
      * exists a', b', c'. split; [right; exact H1|exact H2].
      * destruct H1 as [[= -> -> ->]|H1]; [congruence|]. exists a', b', c'. split; [exact H1|exact H2].
Qed.

(** The hull of points on a line is on that line. *)
Lemma flat_hull l p q r : flat l -> in_hull l p -> in_hull l q -> in_hull l r -> area2 p q r = 0.
Proof.
  intros HF Hp Hq Hr. destruct l as [|a l].
  { destruct Hp as ([|w ws] & HL & _ & HT & _); [cbn in HT; lra|discriminate]. }
  destruct (Forall_Exists_dec (fun b => b = a) (fun b => ltac:(destruct (Req_EM_T (fst b) (fst a)) as [E1|E1];
     [destruct (Req_EM_T (snd b) (snd a)) as [E2|E2]; [left; destruct b, a; cbn in *; congruence|right; congruence]|right; congruence])) (a :: l)) as [HA|HE].
  - rewrite Forall_forall in HA.
    assert (K : forall t, in_hull (a :: l) t -> fst t = fst a /\ snd t = snd a).
    { intros t Ht. split.
      - assert (E : fst t * 1 + snd t * 0 = fst a); [|lra].
        apply (hull_const (a :: l)); [exact Ht|]. intros s Hs. rewrite (HA s Hs). ring.
      - assert (E : fst t * 0 + snd t * 1 = snd a); [|lra].
        apply (hull_const (a :: l)); [exact Ht|]. intros s Hs. rewrite (HA s Hs). ring. }
    destruct (K p Hp) as [P1 P2], (K q Hq) as [Q1 Q2], (K r Hr) as [R1 R2].
    unfold area2. rewrite P1, P2, Q1, Q2, R1, R2. ring.
  - apply Exists_exists in HE as (b & Hb & Hne).
    set (dx := fst b - fst a). set (dy := snd b - snd a).
    assert (K : forall t, in_hull (a :: l) t -> fst t * - dy + snd t * dx = dx * snd a - dy * fst a).
    { intros t Ht. apply (hull_const (a :: l)); [exact Ht|]. intros s Hs.
      pose proof (HF a b s (or_introl eq_refl) Hb Hs) as E. unfold area2 in E. fold dx dy in E. lra. }
    pose proof (K p Hp) as P. pose proof (K q Hq) as Q. pose proof (K r Hr) as R0.
    assert (D : dx <> 0 \/ dy <> 0).
    { destruct (Req_dec dx 0) as [E1|E1]; [|left; exact E1]. right. intros E2. apply Hne.
      destruct a, b; unfold dx, dy in *; cbn in *. f_equal; lra. }
    unfold area2.
    assert (E1 : (snd q - snd p) * dx = (fst q - fst p) * dy) by lra.
    assert (E2 : (snd r - snd p) * dx = (fst r - fst p) * dy) by lra.
    destruct D as [D|D].
    + apply (Rmult_eq_reg_r dx); [|exact D].
      transitivity ((fst q - fst p) * ((snd r - snd p) * dx) - ((snd q - snd p) * dx) * (fst r - fst p)); [ring|].
      rewrite E1, E2. ring.
    + apply (Rmult_eq_reg_r dy); [|exact D].
      transitivity (((fst q - fst p) * dy) * (snd r - snd p) - (snd q - snd p) * ((fst r - fst p) * dy)); [ring|].
      rewrite <- E1, <- E2. ring.
Qed.

(** Among points that are not on a line, a genuine triangle contains the origin. *)
Lemma Exists_or_all (f : R * R -> R) l : (exists p, In p l /\ f p <> 0) \/ (forall p, In p l -> f p = 0).
Proof.
  induction l as [|a l [(p & Hp & H)|IH]]; [right; intros p []|left; exists p; split; [right; exact Hp|exact H]|].
  destruct (Req_dec (f a) 0) as [E|E]; [|left; exists a; split; [left; reflexivity|exact E]].
  right. intros p [<-|Hp]; auto.
Qed.
Lemma on_line l (a : R * R) : a <> (0, 0) -> (forall p, In p l -> cross a p = 0) -> flat l.
Proof.
  intros Ha H p q r Hp Hq Hr. pose proof (H p Hp) as P. pose proof (H q Hq) as Q. pose proof (H r Hr) as R0.
  unfold cross in *. destruct a as [ax ay]. cbn in *.
  assert (E1 : ax * (snd q - snd p) = ay * (fst q - fst p)) by lra.
  assert (E2 : ax * (snd r - snd p) = ay * (fst r - fst p)) by lra.
  unfold area2. destruct (Req_dec ax 0) as [->|D].
  - assert (ay <> 0) by (intros ->; apply Ha; reflexivity).
    assert (fst q - fst p = 0) by nra. assert (fst r - fst p = 0) by nra. nra.
  - apply (Rmult_eq_reg_l ax); [|exact D].
    transitivity ((fst q - fst p) * (ax * (snd r - snd p)) - (ax * (snd q - snd p)) * (fst r - fst p)); [ring|].
    rewrite E1, E2. ring.
Qed.
Lemma genuine l : ~ flat l -> zero_in l -> exists a b c, In a l /\ In b l /\ In c l /\ area2 a b c <> 0 /\
  in_hull [a; b; c] (0, 0).
Proof.
  intros HN [K|[(a & b & t & Ha & Hb & Na & Ht & E1 & E2)|(a & b & c & x & y & z & Ha & Hb & Hc & HA & K)]].
  - (* the origin is a point: take two points not in line with it *)
    destruct (Exists_or_all (fun p => fst p * fst p + snd p * snd p) l) as [(a & Ha & Na)|HZ].
    + assert (Na' : a <> (0, 0)) by (intros ->; apply Na; cbn; ring).
      destruct (Exists_or_all (cross a) l) as [(b & Hb & Nb)|HC].
      * exists (0, 0), a, b. repeat split; auto.
        { intros E. apply Nb. unfold area2 in E. unfold cross. cbn in E. lra. }
        apply hull_self. left; reflexivity.
      * exfalso. apply HN. apply (on_line l a Na' HC).
    + exfalso. apply HN. intros p q r Hp Hq Hr.
      assert (Z : forall t : R * R, In t l -> fst t = 0 /\ snd t = 0) by (intros t Ht; specialize (HZ t Ht); cbn in HZ; nra).
      destruct (Z p Hp), (Z q Hq), (Z r Hr). unfold area2. nra.
  - destruct (Exists_or_all (cross a) l) as [(p & Hp & Np)|HC].
    + exists b, a, p. repeat split; auto.
      { intros E. apply Np. unfold area2 in E. unfold cross. rewrite E1, E2 in E.
        assert ((1 - t) * (fst a * snd p - snd a * fst p) = 0) by lra.
        apply Rmult_integral in H as [H|H]; lra. }
      assert (T : tri0 [b; a; p]).
      { apply (tri0_scale _ b a a 1 (- t) 0); cbn; auto; try lra; rewrite ?E1, ?E2; ring. }
      apply tri0_hull, T.
    + exfalso. apply HN. apply (on_line l a Na HC).
  - exists a, b, c. repeat split; auto. apply tri0_hull. apply (tri0_scale _ a b c x y z); cbn; tauto.
Qed.
