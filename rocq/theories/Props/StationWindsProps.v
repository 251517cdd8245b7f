(** Property C85: when a column of winds supports station keeping. *)
From Coq Require Import ZArith Reals List Bool Lra Lia Psatz.
From Verif Require Import Model.Num Model.StationWinds Spec.HullSpec Proofs.NumR Proofs.HullProofs.
Import ListNotations.
Open Scope R_scope.

Section Library.
Context (Q : qhull) (HQ : correct_qhull Q).

(** The points the triangulation is built from: winds of the column, and not on a line. *)
Lemma support_facts col vs : convex_hull Q col = Some vs ->
  let support := map (fun i => nth i col (0, 0)) vs in
  incl support col /\ (flat support -> flat col) /\ (always_a_way col -> always_a_way support).
Proof.
  intros E support. destruct (hull_vertices Q HQ col vs E) as [HI HH]. fold support in HH.
  repeat split.
  - intros p Hp. apply in_map_iff in Hp as (i & <- & Hi). apply nth_In, HI, Hi.
  - intros HF a b c Ha Hb Hc. apply (flat_hull support); auto.
  - intros HW dx dy. destruct (HW dx dy) as (p & Hp & Hd).
    destruct (hull_some support p dx dy (HH p Hp)) as (q & Hq & K). exists q. split; [exact Hq|lra].
Qed.

(** It raises exactly for columns whose winds are all on one line (also: fewer than three). *)
Theorem C85_raises col : is_station_keeping_winds Q col = None <-> flat col.
Proof.
  unfold is_station_keeping_winds. destruct (convex_hull Q col) as [vs|] eqn:E.
  - destruct (support_facts col vs E) as (HI & HF & _).
    set (support := map (fun i => nth i col (0, 0)) vs) in *.
    destruct (delaunay Q support) as [ts|] eqn:E2; split; try discriminate.
    + intros H. apply (hull_fails Q HQ) in H. congruence.
    + intros _. apply HF. apply (delaunay_fails Q HQ). exact E2.
    + reflexivity.
  - split; [intros _; apply (hull_fails Q HQ); exact E|reflexivity].
Qed.

(** Otherwise it answers yes exactly if, whatever the direction one wants to go, some wind is
    not against it ... *)
Theorem C85_directions col b : is_station_keeping_winds Q col = Some b -> (b = true <-> always_a_way col).
Proof.
  unfold is_station_keeping_winds. destruct (convex_hull Q col) as [vs|] eqn:E; [|discriminate].
  destruct (support_facts col vs E) as (HI & _ & HW).
  set (support := map (fun i => nth i col (0, 0)) vs) in *.
  destruct (delaunay Q support) as [ts|] eqn:E2; [|discriminate]. intros [= <-].
  rewrite Z.leb_le, (find_simplex_ge support ts (0, 0) 0 ltac:(lia)). split.
  - intros (i & j & k & Ht & HC). destruct (delaunay_triangles Q HQ _ _ E2 i j k Ht) as (Hi & Hj & Hk & HA).
    apply (contains_iff _ _ _ _ HA) in HC. intros dx dy.
    destruct (hull_some _ _ dx dy HC) as (p & Hp & K). cbn in K. exists p. split; [|lra].
    apply HI. destruct Hp as [<-|[<-|[<-|[]]]]; apply nth_In; assumption.
  - intros H. assert (H0 : in_hull support (0, 0)) by (apply way_iff, HW, H).
    destruct (delaunay_covers Q HQ _ _ E2 _ H0) as (i & j & k & Ht & HC).
    destruct (delaunay_triangles Q HQ _ _ E2 i j k Ht) as (_ & _ & _ & HA).
    exists i, j, k. split; [exact Ht|]. apply (contains_iff _ _ _ _ HA). exact HC.
Qed.
(** ... and exactly if the balloon can share its time among the levels so that the winds
    cancel on average. *)
Theorem C85_time_shares col b : is_station_keeping_winds Q col = Some b ->
  (b = true <-> exists shares, length shares = length col /\ Forall (fun w => 0 <= w) shares /\
     total shares = 1 /\ mix shares col = (0, 0)).
Proof. intros H. rewrite (C85_directions col b H). symmetry. apply way_iff. Qed.

(** Three levels are then enough. *)
Theorem C85_three_levels col : is_station_keeping_winds Q col = Some true ->
  exists p q r x y z, In p col /\ In q col /\ In r col /\ 0 <= x /\ 0 <= y /\ 0 <= z /\ x + y + z = 1 /\
    x * fst p + y * fst q + z * fst r = 0 /\ x * snd p + y * snd q + z * snd r = 0.
Proof.
  intros H. apply zero_in_tri0, way_zero_in. apply (C85_directions col true H). reflexivity.
Qed.

(** A further level never turns a yes into a no; nor do the order of the levels and repeated
    winds matter. *)
Theorem C85_more_levels col col' :
  incl col col' -> is_station_keeping_winds Q col = Some true -> is_station_keeping_winds Q col' = Some true.
Proof.
  intros HI H. pose proof (proj1 (C85_directions col true H) eq_refl) as W.
  assert (NF : ~ flat col).
  { intros HF. apply C85_raises in HF. congruence. }
  destruct (is_station_keeping_winds Q col') as [b|] eqn:E.
  - f_equal. apply (C85_directions col' b E). intros dx dy. destruct (W dx dy) as (p & Hp & K).
    exists p. split; [apply HI; exact Hp|exact K].
  - exfalso. apply NF. apply C85_raises in E. intros a b c Ha Hb Hc. apply E; apply HI; assumption.
Qed.
(** Winds all blowing to one side: no. *)
Theorem C85_one_sided col b dx dy :
  (forall p, In p col -> 0 < fst p * dx + snd p * dy) -> is_station_keeping_winds Q col = Some b -> b = false.
Proof.
  intros H E. destruct b; [exfalso|reflexivity].
  destruct (proj1 (C85_directions col true E) eq_refl (- dx) (- dy)) as (p & Hp & K).
  specialize (H p Hp). lra.
Qed.
(** Only the directions of the winds matter: scaling each wind by its own positive factor
    changes nothing. *)
Theorem C85_directions_only col col' b b' :
  Forall2 (fun p p' => exists s, 0 < s /\ fst p' = s * fst p /\ snd p' = s * snd p) col col' ->
  is_station_keeping_winds Q col = Some b -> is_station_keeping_winds Q col' = Some b' -> b = b'.
Proof.
  intros HS E E'.
  assert (K : always_a_way col <-> always_a_way col').
  { assert (A : forall p, In p col -> exists p' s, In p' col' /\ 0 < s /\ fst p' = s * fst p /\ snd p' = s * snd p).
    { clear - HS. induction HS as [|p p' l l' (s & Hs & H1 & H2) _ IH]; intros q; [intros []|].
      intros [<-|Hq]; [exists p', s; repeat split; auto; left; reflexivity|].
      destruct (IH q Hq) as (q' & t & Hq' & Ht & K). exists q', t. split; [right; exact Hq'|auto]. }
    assert (B : forall p', In p' col' -> exists p s, In p col /\ 0 < s /\ fst p' = s * fst p /\ snd p' = s * snd p).
    { clear - HS. induction HS as [|p p' l l' (s & Hs & H1 & H2) _ IH]; intros q; [intros []|].
      intros [<-|Hq]; [exists p, s; repeat split; auto; left; reflexivity|].
      destruct (IH q Hq) as (q' & t & Hq' & Ht & K). exists q', t. split; [right; exact Hq'|auto]. }
    split; intros W dx dy; destruct (W dx dy) as (p & Hp & Hd).
    - destruct (A p Hp) as (p' & s & Hp' & Hs & E1 & E2). exists p'. split; [exact Hp'|].
      rewrite E1, E2. replace (s * fst p * dx + s * snd p * dy) with (s * (fst p * dx + snd p * dy)) by ring.
      apply Rmult_le_pos; lra.
    - destruct (B p Hp) as (p' & s & Hp' & Hs & E1 & E2). exists p'. split; [exact Hp'|].
      rewrite E1, E2 in Hd. replace (s * fst p' * dx + s * snd p' * dy) with (s * (fst p' * dx + snd p' * dy)) in Hd by ring.
      destruct (Rle_lt_dec 0 (fst p' * dx + snd p' * dy)) as [L|L]; [exact L|]. nra. }
  pose proof (C85_directions col b E) as D. pose proof (C85_directions col' b' E') as D'.
  destruct b, b'; try reflexivity; exfalso; intuition discriminate.
Qed.
End Library.

(** ** The contract can be met: all points as vertices, all genuine triangles of them *)
Definition flatb (l : list (R * R)) : bool :=
  forallb (fun a => forallb (fun b => forallb (fun c => Reqb (area2 a b c) 0) l) l) l.
Lemma flatb_iff l : flatb l = true <-> flat l.
Proof.
  unfold flatb. rewrite forallb_forall. split.
  - intros H a b c Ha Hb Hc. specialize (H a Ha). rewrite forallb_forall in H. specialize (H b Hb).
    rewrite forallb_forall in H. apply Reqb_iff, H, Hc.
  - intros H a Ha. apply forallb_forall. intros b Hb. apply forallb_forall. intros c Hc.
    apply Reqb_iff, H; assumption.
Qed.
Definition all_triangles (l : list (R * R)) : list (nat * nat * nat) :=
  filter (fun t => negb (Reqb (area2 (nth (fst (fst t)) l (0, 0)) (nth (snd (fst t)) l (0, 0)) (nth (snd t) l (0, 0))) 0))
    (list_prod (list_prod (seq 0 (length l)) (seq 0 (length l))) (seq 0 (length l))).
Definition plain_qhull : qhull := mkQhull
  (fun l => if flatb l then None else Some (seq 0 (length l)))
  (fun l => if flatb l then None else Some (all_triangles l)).
Lemma all_triangles_in l i j k : In (i, j, k) (all_triangles l) <->
  (i < length l)%nat /\ (j < length l)%nat /\ (k < length l)%nat /\
  area2 (nth i l (0, 0)) (nth j l (0, 0)) (nth k l (0, 0)) <> 0.
Proof.
  unfold all_triangles. rewrite filter_In, !in_prod_iff, !in_seq, negb_true_iff. cbn [fst snd].
  split.
  - intros (H & E). repeat split; try lia. intros E'. apply Reqb_iff in E'. congruence.
  - intros (H1 & H2 & H3 & E). repeat split; try lia.
    destruct (Reqb_spec (area2 (nth i l (0, 0)) (nth j l (0, 0)) (nth k l (0, 0))) 0); [contradiction|reflexivity].
Qed.
Lemma all_points l : map (fun i => nth i l (0, 0)) (seq 0 (length l)) = l.
Proof.
  apply (nth_ext _ _ (0, 0) (0, 0)); rewrite map_length, seq_length; [reflexivity|].
  intros n Hn. rewrite (nth_indep _ (0, 0) ((fun i => nth i l (0, 0)) 0%nat)) by (rewrite map_length, seq_length; exact Hn).
  rewrite (map_nth (fun i => nth i l (0, 0))), seq_nth by exact Hn. reflexivity.
Qed.
(** Moving the origin. *)
Definition shift (q p : R * R) : R * R := (fst p - fst q, snd p - snd q).
Lemma mix_shift q l : forall ws, length ws = length l ->
  mix ws (map (shift q) l) = (fst (mix ws l) - total ws * fst q, snd (mix ws l) - total ws * snd q).
Proof.
  induction l as [|p l IH]; intros [|w ws] HL; try discriminate; cbn; [f_equal; ring|].
  injection HL as HL. rewrite (IH ws HL). cbn. f_equal; ring.
Qed.
Lemma hull_shift q l r : in_hull l r <-> in_hull (map (shift q) l) (shift q r).
Proof.
  split; intros (ws & HL & HW & HT & E).
  - exists ws. rewrite map_length. repeat split; auto. rewrite mix_shift, HT, E by exact HL.
    unfold shift. f_equal; ring.
  - rewrite map_length in HL. exists ws. repeat split; auto. rewrite mix_shift, HT in E by exact HL.
    unfold shift in E. injection E as E1 E2. destruct (mix ws l) as [a b], r as [c d]. cbn in *. f_equal; lra.
Qed.
Lemma area_shift q a b c : area2 (shift q a) (shift q b) (shift q c) = area2 a b c.
Proof. unfold area2, shift. cbn. ring. Qed.
Lemma genuine_at l q : ~ flat l -> in_hull l q -> exists a b c, In a l /\ In b l /\ In c l /\ area2 a b c <> 0 /\
  in_hull [a; b; c] q.
Proof.
  intros HN HQ. destruct (genuine (map (shift q) l)) as (a & b & c & Ha & Hb & Hc & HA & HH).
  - intros HF. apply HN. intros a b c Ha Hb Hc. rewrite <- (area_shift q). apply HF; apply in_map; assumption.
  - apply way_zero_in, way_iff. apply (hull_shift q) in HQ. unfold shift at 2 in HQ.
    replace (fst q - fst q) with 0 in HQ by ring. replace (snd q - snd q) with 0 in HQ by ring. exact HQ.
  - apply in_map_iff in Ha as (a' & <- & Ha). apply in_map_iff in Hb as (b' & <- & Hb).
    apply in_map_iff in Hc as (c' & <- & Hc). exists a', b', c'. repeat split; auto.
    + rewrite <- (area_shift q). exact HA.
    + apply (hull_shift q). cbn [map]. unfold shift at 4. rewrite !Rminus_diag_eq by reflexivity. exact HH.
Qed.
Lemma plain_correct : correct_qhull plain_qhull.
Proof.
  split; cbn.
  - intros l. rewrite <- flatb_iff. destruct (flatb l); split; congruence.
  - intros l vs. destruct (flatb l); [discriminate|]. intros [= <-]. split.
    + intros i Hi. apply in_seq in Hi. lia.
    + rewrite all_points. intros p. apply hull_self.
  - intros l. rewrite <- flatb_iff. destruct (flatb l); split; congruence.
  - intros l ts. destruct (flatb l); [discriminate|]. intros [= <-] i j k. apply all_triangles_in.
  - intros l ts. destruct (flatb l) eqn:E; [discriminate|]. intros [= <-] q Hq.
    assert (NF : ~ flat l) by (rewrite <- flatb_iff; congruence).
    destruct (genuine_at l q NF Hq) as (a & b & c & Ha & Hb & Hc & HA & HH).
    apply (In_nth _ _ (0, 0)) in Ha as (i & Hi & <-). apply (In_nth _ _ (0, 0)) in Hb as (j & Hj & <-).
    apply (In_nth _ _ (0, 0)) in Hc as (k & Hk & <-).
    exists i, j, k. split; [|exact HH]. apply all_triangles_in. auto.
Qed.

(** The four winds of the compass: yes.  Three winds to the north east: no.  Two opposite
    winds: an exception, although the winds cancel. *)
Example C85_witness :
  is_station_keeping_winds plain_qhull [(1, 0); (-1, 0); (0, -1); (0, 1)] = Some true /\
  is_station_keeping_winds plain_qhull [(1, 1.2); (2, 3.2); (10.2, 33.4)] = Some false /\
  is_station_keeping_winds plain_qhull [(1, 0); (-1, 0)] = None.
Proof.
  repeat split.
  - destruct (is_station_keeping_winds plain_qhull [(1, 0); (-1, 0); (0, -1); (0, 1)]) as [b|] eqn:E.
    + f_equal. apply (C85_directions _ plain_correct _ _ E). intros dx dy.
      destruct (Rle_lt_dec 0 dx); [exists (1, 0)|exists (-1, 0)]; cbn; split; auto; lra.
    + exfalso. apply (C85_raises _ plain_correct) in E.
      specialize (E (1, 0) (-1, 0) (0, 1)). unfold area2 in E. cbn in E.
      assert (H := E ltac:(auto) ltac:(auto) ltac:(auto)). lra.
  - destruct (is_station_keeping_winds plain_qhull [(1, 1.2); (2, 3.2); (10.2, 33.4)]) as [b|] eqn:E.
    + f_equal. apply (C85_one_sided _ plain_correct _ _ 1 0) in E; [exact E|].
      intros p [<-|[<-|[<-|[]]]]; cbn; lra.
    + exfalso. apply (C85_raises _ plain_correct) in E.
      specialize (E (1, 1.2) (2, 3.2) (10.2, 33.4)). unfold area2 in E. cbn in E.
      assert (H := E ltac:(auto) ltac:(auto) ltac:(auto)). lra.
  - apply (C85_raises _ plain_correct). intros a b c [<-|[<-|[]]] [<-|[<-|[]]] [<-|[<-|[]]]; unfold area2; cbn; lra.
Qed.
Print Assumptions C85_raises.
Print Assumptions C85_directions.
Print Assumptions C85_time_shares.
Print Assumptions C85_three_levels.
Print Assumptions C85_more_levels.
Print Assumptions C85_one_sided.
Print Assumptions C85_directions_only.
