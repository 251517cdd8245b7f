(** Lemmas about the feature vector. *)
From Coq Require Import ZArith Reals Lra Lia Psatz List Bool Arith.
From Verif Require Import Model.Num Model.Prng Model.Safety Model.Balloon Model.Atmosphere
  Model.Geometry Model.Solar Model.SolarSearch Model.Transforms Model.PowerTable Model.WindField
  Model.WindGP Model.PressureRange Model.Env Model.Features Spec.FeatureSpec
  Proofs.NumR Proofs.TablesProofs Proofs.WindGPProofs.
From Verif Require Model.Units.
Import ListNotations.
Open Scope R_scope.

(** ** Writing *)
Lemma write_app d a b z : write (d ++ a :: z) (length d) b = Some (d ++ b :: z).
Proof. induction d as [|c d IH]; [reflexivity|]. cbn. rewrite IH. reflexivity. Qed.

Lemma write3_app d a b c z0 z1 z2 z :
  write_all (d ++ z0 :: z1 :: z2 :: z)
    [(length d, a); ((length d + 1)%nat, b); ((length d + 2)%nat, c)]
  = Some (d ++ [a; b; c] ++ z).
Proof.
  cbn [write_all]. rewrite write_app.
  replace (d ++ a :: z1 :: z2 :: z) with ((d ++ [a]) ++ z1 :: z2 :: z) by now rewrite <- app_assoc.
  replace (length d + 1)%nat with (length (d ++ [a])) by (rewrite app_length; reflexivity).
  rewrite write_app.
  replace ((d ++ [a]) ++ b :: z2 :: z) with ((d ++ [a; b]) ++ z2 :: z) by now rewrite <- !app_assoc.
  replace (length d + 2)%nat with (length (d ++ [a; b])) by (rewrite app_length; reflexivity).
  rewrite write_app. now rewrite <- app_assoc.
Qed.

Definition flat3 (l : list (R * R * R)) : list R := flat_map (fun '(a, b, c) => [a; b; c]) l.
Lemma flat3_app l l' : flat3 (l ++ l') = flat3 l ++ flat3 l'.
Proof. apply flat_map_app. Qed.
Lemma flat3_length l : length (flat3 l) = (3 * length l)%nat.
Proof. induction l as [|[[a b] c] l IH]; [reflexivity|]. cbn [flat3 flat_map app length] in *. unfold flat3 in IH. lia. Qed.

Lemma add_unreachable_app : forall k d n,
  add_unreachable_pressure_levels (d ++ repeat 0 (3 * k + n)) (length d) k
  = Some (d ++ flat3 (repeat unreachable k) ++ repeat 0 n, (length d + 3 * k)%nat).
Proof.
  induction k as [|k IH]; intros d n.
  - cbn. now rewrite Nat.add_0_r.
  - cbn [add_unreachable_pressure_levels].
    replace (repeat 0 (3 * S k + n)) with (0 :: 0 :: 0 :: repeat 0 (3 * k + n))
      by (replace (3 * S k + n)%nat with (S (S (S (3 * k + n)))) by lia; reflexivity).
    rewrite write3_app.
    replace (d ++ [0; 1; 1] ++ repeat 0 (3 * k + n)) with ((d ++ [0; 1; 1]) ++ repeat 0 (3 * k + n))
      by now rewrite <- app_assoc.
    replace (length d + 3)%nat with (length (d ++ [0; 1; 1])) by (rewrite app_length; reflexivity).
    rewrite IH. rewrite app_length. cbn [length repeat]. unfold unreachable at 2. cbn [flat3 flat_map].
    fold (flat3 (repeat unreachable k)). rewrite <- !app_assoc.
    replace (length d + 3 + 3 * k)%nat with (length d + 3 * S k)%nat by lia. reflexivity.
Qed.

(** What add_levels writes for the levels from [level] on. *)
Definition reachable_in (range : pressure_range) (p : R) : Prop :=
  min_pressure range <= p <= max_pressure range.
Lemma reachable_dec range p :
  Rltb p (min_pressure range) || Rltb (max_pressure range) p = false <-> reachable_in range p.
Proof. unfold reachable_in. rcases; cbn; split; intros; try discriminate; try reflexivity; lra. Qed.

Definition triple_ok (range : pressure_range) (deviations angles magnitudes : list R)
    (level : nat) (p : R) (t : R * R * R) : Prop :=
  (reachable_in range p /\
   (exists d a m, t = (d, a, m) /\ nth_error deviations level = Some d /\
      nth_error angles level = Some a /\ nth_error magnitudes level = Some m /\ 0 <= d <= 1.00001)) \/
  (~ reachable_in range p /\ t = unreachable).

Lemma add_levels_app range devs angs mags : forall ps level d n v idx,
  add_levels ps level range devs angs mags (d ++ repeat 0 (3 * length ps + n)) (length d)
    = Some (v, idx) <->
  exists ts, v = d ++ flat3 ts ++ repeat 0 n /\ idx = (length d + 3 * length ps)%nat /\
    length ts = length ps /\
    forall i, (i < length ps)%nat ->
      triple_ok range devs angs mags (level + i) (nth i ps 0) (nth i ts unreachable).
Proof.
  induction ps as [|p ps IH]; intros level d n v idx.
  - cbn [length add_levels]. split.
    + intro E. injection E as <- <-. exists []. cbn. repeat split; try lia.
    + intros (ts & -> & -> & L & _). destruct ts; [|discriminate]. cbn. now rewrite Nat.add_0_r.
  - cbn [length add_levels].
    assert (Z3 : repeat 0 (3 * S (length ps) + n) = 0 :: 0 :: 0 :: repeat 0 (3 * length ps + n))
      by (replace (3 * S (length ps) + n)%nat with (S (S (S (3 * length ps + n)))) by lia; reflexivity).
    assert (Step : forall a b c,
      (exists ts, v = (d ++ [a; b; c]) ++ flat3 ts ++ repeat 0 n /\
         idx = (length (d ++ [a; b; c]) + 3 * length ps)%nat /\ length ts = length ps /\
         forall i, (i < length ps)%nat ->
           triple_ok range devs angs mags (S level + i) (nth i ps 0) (nth i ts unreachable)) ->
      triple_ok range devs angs mags level p (a, b, c) ->
      exists ts, v = d ++ flat3 ts ++ repeat 0 n /\ idx = (length d + 3 * S (length ps))%nat /\
        length ts = S (length ps) /\
        forall i, (i < S (length ps))%nat ->
          triple_ok range devs angs mags (level + i) (nth i (p :: ps) 0) (nth i ts unreachable)).
    { intros a b c (ts & -> & -> & L & H) T. exists ((a, b, c) :: ts).
      split; [cbn [flat3 flat_map]; fold (flat3 ts); now rewrite <- !app_assoc|].
      split; [rewrite app_length; cbn [length]; lia|].
      split; [cbn; now rewrite L|]. intros [|i] Hi; cbn [nth].
      - now rewrite Nat.add_0_r.
      - replace (level + S i)%nat with (S level + i)%nat by lia. apply H. lia. }
    assert (Back : forall a b c ts,
      (forall i, (i < S (length ps))%nat ->
          triple_ok range devs angs mags (level + i) (nth i (p :: ps) 0) (nth i ((a, b, c) :: ts) unreachable)) ->
      v = d ++ flat3 ((a, b, c) :: ts) ++ repeat 0 n -> idx = (length d + 3 * S (length ps))%nat ->
      length ts = length ps ->
      exists ts, v = (d ++ [a; b; c]) ++ flat3 ts ++ repeat 0 n /\
         idx = (length (d ++ [a; b; c]) + 3 * length ps)%nat /\ length ts = length ps /\
         forall i, (i < length ps)%nat ->
           triple_ok range devs angs mags (S level + i) (nth i ps 0) (nth i ts unreachable)).
    { intros a b c ts H -> -> L. exists ts.
      split; [cbn [flat3 flat_map]; fold (flat3 ts); now rewrite <- !app_assoc|].
      split; [rewrite app_length; cbn [length]; lia|].
      split; [exact L|]. intros i Hi. specialize (H (S i) ltac:(lia)). cbn [nth] in H.
      replace (level + S i)%nat with (S level + i)%nat in H by lia. exact H. }
    rewrite Z3. destruct (Rltb p (min_pressure range) || Rltb (max_pressure range) p) eqn:Er.
    + assert (Nr : ~ reachable_in range p) by (rewrite <- reachable_dec, Er; discriminate).
      cbn [add_unreachable_pressure_levels]. rewrite write3_app.
      replace (length d + 3)%nat with (length (d ++ [0; 1; 1])) by (rewrite app_length; reflexivity).
      replace (d ++ [0; 1; 1] ++ repeat 0 (3 * length ps + n))
        with ((d ++ [0; 1; 1]) ++ repeat 0 (3 * length ps + n)) by now rewrite <- app_assoc.
      rewrite IH. split.
      * intro H. apply Step in H; [exact H|]. right. split; [exact Nr|reflexivity].
      * intros (ts & Ev & Ei & L & H). destruct ts as [|t ts]; [discriminate|].
        assert (T := H 0%nat ltac:(lia)). cbn [nth] in T.
        destruct T as [[Rr _]|[_ ->]]; [contradiction|]. unfold unreachable in Ev.
        apply (Back 0 1 1 ts); try assumption. cbn in L. lia.
    + apply reachable_dec in Er. destruct (nth_error devs level) as [dv|] eqn:E1.
      2:{ split; [discriminate|]. intros (ts & _ & _ & _ & H). specialize (H 0%nat ltac:(lia)). cbn [nth] in H.
          rewrite Nat.add_0_r in H. destruct H as [[_ (? & ? & ? & _ & E & _)]|[N _]]; [congruence|contradiction]. }
      destruct (nth_error angs level) as [an|] eqn:E2.
      2:{ split; [discriminate|]. intros (ts & _ & _ & _ & H). specialize (H 0%nat ltac:(lia)). cbn [nth] in H.
          rewrite Nat.add_0_r in H. destruct H as [[_ (? & ? & ? & _ & _ & E & _)]|[N _]]; [congruence|contradiction]. }
      destruct (nth_error mags level) as [mg|] eqn:E3.
      2:{ split; [discriminate|]. intros (ts & _ & _ & _ & H). specialize (H 0%nat ltac:(lia)). cbn [nth] in H.
          rewrite Nat.add_0_r in H. destruct H as [[_ (? & ? & ? & _ & _ & _ & E & _)]|[N _]]; [congruence|contradiction]. }
      destruct (negb (Rleb 0 dv && Rleb dv 1.00001)) eqn:Ed.
      * split; [discriminate|]. intros (ts & _ & _ & _ & H). specialize (H 0%nat ltac:(lia)). cbn [nth] in H.
        rewrite Nat.add_0_r in H. destruct H as [[_ (d' & ? & ? & _ & E & _ & _ & B)]|[N _]]; [|contradiction].
        rewrite E1 in E. injection E as <-. rewrite !Rleb_true in Ed by lra. discriminate.
      * assert (B : 0 <= dv <= 1.00001) by (revert Ed; rcases; cbn; intros; try discriminate; lra).
        rewrite write3_app.
        replace (length d + 3)%nat with (length (d ++ [dv; an; mg])) by (rewrite app_length; reflexivity).
        replace (d ++ [dv; an; mg] ++ repeat 0 (3 * length ps + n))
          with ((d ++ [dv; an; mg]) ++ repeat 0 (3 * length ps + n)) by now rewrite <- app_assoc.
        rewrite IH. split.
        -- intro H. apply Step in H; [exact H|]. left. split; [exact Er|]. exists dv, an, mg. auto 6.
        -- intros (ts & Ev & Ei & L & H). destruct ts as [|t ts]; [discriminate|].
           assert (T := H 0%nat ltac:(lia)). cbn [nth] in T. rewrite Nat.add_0_r in T.
           destruct T as [[_ (d' & a' & m' & -> & F1 & F2 & F3 & _)]|[N _]]; [|contradiction].
           replace d' with dv in * by congruence. replace a' with an in * by congruence.
           replace m' with mg in * by congruence.
           apply (Back dv an mg ts); try assumption. cbn in L. lia.
Qed.

(** ** The nearest level *)
Lemma levels_length : length pressure_levels = 181%nat.
Proof. reflexivity. Qed.
Lemma levels_nth i : (i < 181)%nat -> nth i pressure_levels 0 = level_pressure (Z.of_nat i).
Proof.
  intro Hi. unfold pressure_levels.
  rewrite (nth_indep _ 0 (linspace RANGE_MIN RANGE_MAX NUM_LEVELS 0)) by (rewrite map_length, seq_length; exact Hi).
  rewrite map_nth, seq_nth by exact Hi. unfold linspace, level_pressure, RANGE_MIN, RANGE_MAX, NUM_LEVELS.
  cbn [Nat.add Nat.sub]. rewrite <- INR_IZR_INZ. replace (INR 180) with 180 by (rewrite INR_IZR_INZ; reflexivity). lra.
Qed.

Lemma py_round_spec q :
  Rabs (IZR (py_round q) - q) <= 1 / 2 /\
  (Rabs (IZR (py_round q) - q) = 1 / 2 -> Z.even (py_round q) = true).
Proof.
  unfold py_round. destruct (base_Int_part q) as [A B].
  assert (E1 : IZR (Int_part q + 1) = IZR (Int_part q) + 1) by (rewrite plus_IZR; reflexivity).
  destruct (Rltb_spec (q - IZR (Int_part q)) (1 / 2)) as [L|L].
  { unfold Rabs. destruct Rcase_abs; split; lra. }
  destruct (Rltb_spec (1 / 2) (q - IZR (Int_part q))) as [M|M].
  { rewrite E1. unfold Rabs. destruct Rcase_abs; split; lra. }
  destruct (Z.even (Int_part q)) eqn:Ev.
  - split; [|intros; exact Ev]. unfold Rabs. destruct Rcase_abs; lra.
  - split.
    + rewrite E1. unfold Rabs. destruct Rcase_abs; lra.
    + intros _. rewrite Z.even_add, Ev. reflexivity.
Qed.
Lemma py_round_unique q k :
  Rabs (IZR k - q) <= 1 / 2 -> (Rabs (IZR k - q) = 1 / 2 -> Z.even k = true) -> py_round q = k.
Proof.
  intros A B. destruct (py_round_spec q) as [C D]. set (j := py_round q) in *.
  assert (H : (-1 <= j - k <= 1)%Z).
  { split; apply le_IZR; rewrite minus_IZR; unfold Rabs in *; destruct (Rcase_abs (IZR k - q)), (Rcase_abs (IZR j - q)); lra. }
  destruct (Z.eq_dec j k) as [E|N]; [exact E|exfalso].
  assert (E : j = (k + 1)%Z \/ j = (k - 1)%Z) by lia.
  assert (T : Rabs (IZR k - q) = 1 / 2 /\ Rabs (IZR j - q) = 1 / 2).
  { destruct E as [E|E]; rewrite E in *; rewrite ?plus_IZR, ?minus_IZR in *; unfold Rabs in *;
      destruct (Rcase_abs (IZR k - q)); repeat destruct Rcase_abs; lra. }
  destruct T as [T1 T2]. specialize (B T1). specialize (D T2).
  destruct E as [E|E]; rewrite E in D; rewrite ?Z.even_add, ?Z.even_sub, B in D; discriminate.
Qed.
Lemma py_round_mono q q' : q <= q' -> (py_round q <= py_round q')%Z.
Proof.
  intro H. destruct (py_round_spec q) as [A B], (py_round_spec q') as [A' B'].
  destruct (Z_le_gt_dec (py_round q) (py_round q')) as [L|G]; [exact L|exfalso].
  assert (G' : IZR (py_round q') + 1 <= IZR (py_round q)) by (rewrite <- (plus_IZR _ 1); apply IZR_le; lia).
  assert (E : q = q') by (unfold Rabs in *; repeat destruct Rcase_abs; lra).
  subst. lia.
Qed.

Lemma clamp_value p : (if Rltb p RANGE_MIN || Rltb RANGE_MAX p then pymin (pymax p RANGE_MIN) RANGE_MAX else p)
  = Rmin (Rmax p 5000) 14000.
Proof.
  rewrite pymin_R, pymax_R. unfold RANGE_MIN, RANGE_MAX, Rmin, Rmax.
  rcases; cbn; repeat destruct Rle_dec; lra.
Qed.
Lemma nearest_pressure_level_value p :
  nearest_pressure_level p = Some (py_round ((Rmin (Rmax p 5000) 14000 - 5000) / 50)).
Proof.
  unfold nearest_pressure_level. rewrite clamp_value.
  replace (2 <=? length pressure_levels)%nat with true by reflexivity. cbn [negb].
  rewrite (levels_nth 0), (levels_nth 1) by lia.
  replace (level_pressure (Z.of_nat 1) - level_pressure (Z.of_nat 0)) with 50
    by (unfold level_pressure; cbn [Z.of_nat Pos.of_succ_nat]; lra).
  unfold RANGE_MIN at 1 2.
  set (q := (Rmin (Rmax p 5000) 14000 - 5000) / 50).
  assert (Q : 0 <= q <= 180).
  { subst q. unfold Rmin, Rmax. repeat destruct Rle_dec; lra. }
  destruct (py_round_spec q) as [A _].
  assert (B : (-1 < py_round q < 181)%Z).
  { split; apply lt_IZR; unfold Rabs in A; destruct Rcase_abs; lra. }
  replace ((0 <=? py_round q)%Z && (py_round q <? Z.of_nat NUM_LEVELS)%Z) with true; [reflexivity|].
  symmetry. apply andb_true_intro. split; [apply Z.leb_le; lia|apply Z.ltb_lt; cbn; lia].
Qed.

Lemma Rabs_cases x : (0 <= x /\ Rabs x = x) \/ (x < 0 /\ Rabs x = - x).
Proof. unfold Rabs. destruct Rcase_abs; [right|left]; lra. Qed.

Lemma nearest_pressure_level_spec p k : nearest_pressure_level p = Some k <-> nearest_level p k.
Proof.
  rewrite nearest_pressure_level_value. set (c := Rmin (Rmax p 5000) 14000). set (q := (c - 5000) / 50).
  assert (C : 5000 <= c <= 14000) by (subst c; unfold Rmin, Rmax; repeat destruct Rle_dec; lra).
  assert (Pc : (p < 5000 /\ c = 5000) \/ (14000 < p /\ c = 14000) \/ p = c)
    by (subst c; unfold Rmin, Rmax; repeat destruct Rle_dec; lra).
  assert (Lb : forall j, is_level j -> 5000 <= level_pressure j <= 14000).
  { intros j [J1 J2]. apply IZR_le in J1, J2. unfold level_pressure. lra. }
  assert (Lc : forall j, level_pressure j - c = 50 * (IZR j - q)) by (intro j; unfold level_pressure, q; lra).
  (* distances to p and to c order levels alike *)
  assert (Dc : exists e, forall j, is_level j -> Rabs (level_pressure j - p) = Rabs (level_pressure j - c) + e).
  { exists (Rabs (c - p)). intros j Hj. specialize (Lb j Hj).
    destruct Pc as [[Hp E]|[[Hp E]|E]].
    - rewrite !Rabs_right by lra. lra.
    - rewrite (Rabs_left1 (level_pressure j - p)), (Rabs_left1 (level_pressure j - c)), (Rabs_left (c - p)) by lra. lra.
    - replace (c - p) with 0 by lra. rewrite Rabs_R0, E. lra. }
  assert (Lj : forall j, Rabs (level_pressure j - c) = 50 * Rabs (IZR j - q)).
  { intro j. rewrite Lc, Rabs_mult, (Rabs_right 50) by lra. reflexivity. }
  assert (Q : 0 <= q <= 180) by (unfold q; lra).
  destruct Dc as [e De].
  split.
  - intro E. injection E as <-. destruct (py_round_spec q) as [A B].
    assert (Lv : is_level (py_round q)).
    { assert (B0 : (-1 < py_round q < 181)%Z) by (split; apply lt_IZR; unfold Rabs in A; destruct Rcase_abs; lra).
      split; lia. }
    split; [exact Lv|]. split.
    + intros j Hj. rewrite !De, !Lj by assumption.
      enough (Rabs (IZR (py_round q) - q) <= Rabs (IZR j - q)) by lra.
      destruct (Z.eq_dec j (py_round q)) as [->|N]; [lra|].
      assert (S : IZR j + 1 <= IZR (py_round q) \/ IZR (py_round q) + 1 <= IZR j).
      { rewrite <- !(plus_IZR _ 1). destruct (Z_lt_ge_dec j (py_round q)); [left|right]; apply IZR_le; lia. }
      unfold Rabs in *; repeat destruct Rcase_abs; lra.
    + intros j Hj N E. rewrite !De, !Lj in E by assumption. apply B.
      assert (S : IZR j + 1 <= IZR (py_round q) \/ IZR (py_round q) + 1 <= IZR j).
      { rewrite <- !(plus_IZR _ 1). destruct (Z_lt_ge_dec j (py_round q)); [left|right]; apply IZR_le; lia. }
      unfold Rabs in *; repeat destruct Rcase_abs; lra.
  - intros (Lv & M & T). f_equal.
    assert (M' : forall j, is_level j -> Rabs (IZR k - q) <= Rabs (IZR j - q)).
    { intros j Hj. specialize (M j Hj). rewrite !De, !Lj in M by assumption. lra. }
    assert (T' : forall j, is_level j -> j <> k -> Rabs (IZR j - q) = Rabs (IZR k - q) -> Z.even k = true).
    { intros j Hj N E. apply (T j Hj N). rewrite !De, !Lj by assumption. lra. }
    destruct Lv as [K1 K2]. pose proof (IZR_le _ _ K1) as K1'. pose proof (IZR_le _ _ K2) as K2'. cbn in K1', K2'.
    apply py_round_unique.
    + destruct (Z.eq_dec k 0) as [->|K0]; [destruct (Z.eq_dec 180 0); [lia|]|].
      * pose proof (M' 1%Z ltac:(split; lia)). unfold Rabs in *; repeat destruct Rcase_abs; lra.
      * pose proof (M' (k - 1)%Z ltac:(split; lia)) as H1. rewrite minus_IZR in H1.
        destruct (Z.eq_dec k 180) as [->|K3].
        -- unfold Rabs in *; repeat destruct Rcase_abs; lra.
        -- pose proof (M' (k + 1)%Z ltac:(split; lia)) as H2. rewrite plus_IZR in H2.
           unfold Rabs in *; repeat destruct Rcase_abs; lra.
    + intro H. destruct (Rabs_cases (IZR k - q)) as [[S E]|[S E]]; rewrite E in H.
      * apply (T' (k - 1)%Z).
        -- split; [|lia]. assert (0 < k)%Z; [|lia]. apply lt_IZR. lra.
        -- lia.
        -- rewrite minus_IZR, E, Rabs_left1 by lra. lra.
      * apply (T' (k + 1)%Z).
        -- split; [lia|]. assert (k < 180)%Z; [|lia]. apply lt_IZR. lra.
        -- lia.
        -- rewrite plus_IZR, E, Rabs_right by lra. lra.
Qed.

(** ** The wind column *)
Lemma flat3_nth : forall l k d, (k < length l)%nat ->
  (nth (3 * k) (flat3 l) 0, nth (3 * k + 1) (flat3 l) 0, nth (3 * k + 2) (flat3 l) 0) = nth k l d.
Proof.
  induction l as [|[[a b] c] l IH]; intros [|k] d Hk; try (cbn in Hk; lia); [reflexivity|].
  replace (3 * S k)%nat with (S (S (S (3 * k)))) by lia. cbn [flat3 flat_map app nth Nat.add].
  apply IH. cbn in Hk. lia.
Qed.
Lemma entry_nth amb l k d : length amb = 16%nat -> (0 <= k < Z.of_nat (length l))%Z ->
  wind_entry (amb ++ flat3 l) k = nth (Z.to_nat k) l d.
Proof.
  intros La Hk. unfold wind_entry, component. rewrite !app_nth2 by lia. rewrite La.
  replace (Z.to_nat (16 + 3 * k) - 16)%nat with (3 * Z.to_nat k)%nat by lia.
  replace (Z.to_nat (16 + 3 * k) + 1 - 16)%nat with (3 * Z.to_nat k + 1)%nat by lia.
  replace (Z.to_nat (16 + 3 * k) + 2 - 16)%nat with (3 * Z.to_nat k + 2)%nat by lia.
  apply flat3_nth. lia.
Qed.

(** Bearing and magnitude written for a predicted mean wind. *)
Definition bearing_of (x y : R) (mean : R * R) : R :=
  let d := Units.relative_distance x y in
  (if Rltb d TOLERANCE then 0
   else angle_error (- x / (d + TOLERANCE), - y / (d + TOLERANCE)) mean) / PI.
Definition magnitude_of (mean : R * R) : R :=
  let m := sqrt (fst mean ^ 2 + snd mean ^ 2) in m / (m + 30).

Lemma existsb_false {A} (f : A -> bool) l : (forall a, In a l -> f a = false) -> existsb f l = false.
Proof.
  intro H. destruct (existsb f l) eqn:E; [|reflexivity]. apply existsb_exists in E.
  destruct E as (a & Ha & Ea). rewrite H in Ea; [discriminate|exact Ha].
Qed.

Section Column.
Context (P : prng) (F : forecaster P) (G : regressor).
Context (fcol : wind_field P F -> R -> R -> list R -> Z -> option (list wind)).

Lemma add_wind_features_spec w atm g center s amb v : length amb = 16%nat ->
  add_wind_features P F G fcol w atm g center s (amb ++ repeat 0 1083) = Some v <->
  exists b answers range ts,
    query_batch G (fcol w) g
      (map (fun p => mkLoc (x s) (y s) p (seconds_of (time_elapsed s))) pressure_levels) = Some answers /\
    nearest_level (pressure s) b /\
    get_pressure_range s (fst (latlng center (x s) (y s))) (snd (latlng center (x s) (y s))) atm = Some range /\
    length ts = 181%nat /\
    (forall i, (i < 181)%nat ->
       triple_ok range (map snd answers) (map (bearing_of (x s) (y s)) (map fst answers))
         (map magnitude_of (map fst answers)) i (level_pressure (Z.of_nat i)) (nth i ts unreachable)) /\
    v = amb ++ flat3 (repeat unreachable (Z.to_nat (180 - b)) ++ ts ++ repeat unreachable (Z.to_nat b)).
Proof.
  intros La. unfold add_wind_features.
  set (rows := map _ pressure_levels).
  destruct (query_batch G (fcol w) g rows) as [answers|] eqn:Eq.
  2:{ split; [discriminate|]. intros (b & a & r & ts & E & _). discriminate. }
  destruct (nearest_pressure_level (pressure s)) as [b|] eqn:Eb.
  2:{ split; [discriminate|]. intros (b & a & r & ts & _ & Hb & _).
      apply nearest_pressure_level_spec in Hb. congruence. }
  apply nearest_pressure_level_spec in Eb as Nb.
  assert (Bb : (0 <= b <= 180)%Z) by apply Nb.
  replace (negb ((0 <=? b)%Z && (b <? Z.of_nat NUM_LEVELS)%Z)) with false.
  2:{ symmetry. apply negb_false_iff, andb_true_intro. split; [apply Z.leb_le|apply Z.ltb_lt; cbn]; lia. }
  change (Z.of_nat NUM_LEVELS) with 181%Z.
  replace (181 * 2 - 1 - (181 - b - 1) - 181)%Z with b by lia.
  replace (181 - b - 1)%Z with (180 - b)%Z by lia.
  replace (negb (0 <=? b)%Z) with false by (symmetry; apply negb_false_iff, Z.leb_le; lia).
  pose (lo := Z.to_nat (180 - b)). pose (hi := Z.to_nat b).
  assert (LH : (lo + hi = 180)%nat) by (unfold lo, hi; lia). fold lo hi.
  replace 1083%nat with (3 * lo + (3 * 181 + 3 * hi))%nat by lia.
  pose proof (add_unreachable_app lo amb (3 * 181 + 3 * hi)) as U. rewrite La in U. rewrite U. clear U.
  destruct (latlng center (x s) (y s)) as [lat lng] eqn:El. cbn [fst snd].
  destruct (get_pressure_range s lat lng atm) as [range|] eqn:Er.
  2:{ split; [discriminate|]. intros (b' & a & r & ts & _ & _ & E & _). discriminate. }
  set (means := map fst answers). set (devs := map snd answers).
  set (dist := Units.relative_distance (x s) (y s)).
  set (dir := (- x s / (dist + TOLERANCE), - y s / (dist + TOLERANCE))).
  assert (Ea : linear_rescale_with_extrapolation_array
                 (if Rltb dist TOLERANCE then map (fun _ => 0) means else map (angle_error dir) means) 0 PI
               = Some (map (bearing_of (x s) (y s)) means)).
  { unfold linear_rescale_with_extrapolation_array. rewrite Rleb_false by (pose proof PI_RGT_0; lra).
    f_equal. unfold bearing_of. fold dist. destruct (Rltb dist TOLERANCE); rewrite map_map; apply map_ext; intro m.
    - now rewrite !Rminus_0_r.
    - fold dir. now rewrite !Rminus_0_r. }
  assert (Em : squash_to_unit_interval_array (map (fun m => sqrt (fst m ^ 2 + snd m ^ 2)) means) 30
               = Some (map magnitude_of means)).
  { unfold squash_to_unit_interval_array. rewrite Rleb_false by lra.
    rewrite existsb_false; [rewrite map_map; reflexivity|].
    intros a Ha. apply in_map_iff in Ha. destruct Ha as (m & <- & _). apply Rltb_false.
    pose proof (sqrt_pos (fst m ^ 2 + snd m ^ 2)). lra. }
  rewrite Ea, Em.
  set (bs := map (bearing_of (x s) (y s)) means). set (ms := map magnitude_of means).
  set (pre := amb ++ flat3 (repeat unreachable lo)).
  assert (Lp : length pre = (16 + 3 * lo)%nat) by (unfold pre; rewrite app_length, flat3_length, repeat_length; lia).
  replace (amb ++ flat3 (repeat unreachable lo) ++ repeat 0 (3 * 181 + 3 * hi))
    with (pre ++ repeat 0 (3 * length pressure_levels + 3 * hi)) by (unfold pre; now rewrite <- app_assoc, levels_length).
  rewrite <- Lp.
  assert (Fin : forall ts, length ts = 181%nat ->
    add_unreachable_pressure_levels (pre ++ flat3 ts ++ repeat 0 (3 * hi)) (length pre + 3 * length pressure_levels) hi
    = Some (pre ++ flat3 ts ++ flat3 (repeat unreachable hi), length (pre ++ flat3 ts ++ flat3 (repeat unreachable hi)))).
  { intros ts Lt. pose proof (add_unreachable_app hi (pre ++ flat3 ts) 0) as H.
    rewrite Nat.add_0_r in H. cbn [repeat] in H. rewrite app_nil_r, <- !app_assoc in H.
    rewrite levels_length. rewrite app_length, flat3_length, Lt in H. rewrite H. f_equal. f_equal.
    rewrite !app_length, !flat3_length, repeat_length, Lt. lia. }
  assert (Vf : forall ts, pre ++ flat3 ts ++ flat3 (repeat unreachable hi)
               = amb ++ flat3 (repeat unreachable lo ++ ts ++ repeat unreachable hi)).
  { intro ts. unfold pre. now rewrite !flat3_app, <- !app_assoc. }
  assert (Ln : forall i, (i < 181)%nat -> nth i pressure_levels 0 = level_pressure (Z.of_nat i)) by exact levels_nth.
  destruct (add_levels pressure_levels 0 range devs bs ms (pre ++ repeat 0 (3 * length pressure_levels + 3 * hi)) (length pre))
    as [[v1 i1]|] eqn:Al.
  - apply add_levels_app in Al. destruct Al as (ts & -> & -> & Lt & Ht). rewrite levels_length in Lt.
    rewrite Fin by exact Lt. rewrite Nat.eqb_refl. split.
    + intro E. injection E as <-. exists b, answers, range, ts. rewrite <- Vf.
      repeat (split; [first [reflexivity|assumption]|]). split; [|reflexivity].
      intros i Hi. rewrite <- Ln by exact Hi. apply (Ht i). now rewrite levels_length.
    + intros (b' & a' & r' & ts' & E1 & Nb' & E2 & Lt' & Ht' & ->).
      injection E1 as <-. injection E2 as <-.
      assert (b' = b) as -> by (apply nearest_pressure_level_spec in Nb'; congruence).
      fold lo hi. rewrite <- Vf. f_equal. f_equal. f_equal.
      apply (f_equal (fun l => flat3 l)).
      apply nth_ext with (d := unreachable) (d' := unreachable); [congruence|].
      intros i Hi. rewrite Lt in Hi. specialize (Ht i ltac:(rewrite levels_length; exact Hi)).
      specialize (Ht' i Hi). rewrite Ln in Ht by exact Hi. cbn [Nat.add] in Ht.
      destruct Ht as [[R1 (d1 & a1 & m1 & E1 & N1 & N2 & N3 & _)]|[R1 E1]],
               Ht' as [[R2 (d2 & a2 & m2 & E2 & N1' & N2' & N3' & _)]|[R2 E2]]; try contradiction.
      * rewrite E1, E2. fold means devs bs ms in N1', N2', N3'. congruence.
      * congruence.
  - split; [discriminate|]. intros (b' & a' & r' & ts' & E1 & Nb' & E2 & Lt' & Ht' & _).
    injection E1 as <-. injection E2 as <-. exfalso.
    assert (H : add_levels pressure_levels 0 range devs bs ms
                  (pre ++ repeat 0 (3 * length pressure_levels + 3 * hi)) (length pre)
                = Some (pre ++ flat3 ts' ++ repeat 0 (3 * hi), (length pre + 3 * length pressure_levels)%nat)).
    { apply add_levels_app. exists ts'. repeat (split; [first [reflexivity|assumption]|]).
      intros i Hi. rewrite levels_length in Hi. rewrite Ln by exact Hi. apply (Ht' i Hi). }
    congruence.
Qed.
End Column.

(** ** The ambient features *)
Definition ambient_list (atm : atmosphere) (center : R * R) (s : bstate R) (t power : R) : list R :=
  let '(lat, lng) := latlng center (x s) (y s) in
  let heading := atan2 (- (x s / 1000)) (- (y s / 1000)) in
  [ Transforms.np_clip ((pressure s - 5000) / 9000) 0 1; battery_soc s;
    Transforms.np_clip ((compute_solar_angle lat lng (date_time s) + 90) / 180) 0 1; sin t; cos t;
    sin heading; cos heading;
    Units.relative_distance (x s) (y s) / 1000 / (Units.relative_distance (x s) (y s) / 1000 + 250);
    float_of_bool (command_eqb (last_command s) UP);
    float_of_bool (command_eqb (last_command s) STAY);
    float_of_bool (command_eqb (last_command s) DOWN);
    float_of_bool (navigation_is_paused s); float_of_bool (negb (navigation_is_paused s));
    float_of_bool (excess_energy (world_of atm center) s);
    Transforms.np_clip ((power - 100) / 200) 0 1; pressure_ratio s ].

Lemma add_ambient_spec atm center s n v :
  add_ambient_features atm center s (repeat 0 (16 + n)) = Some v <->
  exists t power,
    compute_sunrise_time (fst (latlng center (x s) (y s))) (snd (latlng center (x s) (y s))) (date_time s) = Some t /\
    0 <= t <= 2 * PI + 1e-6 /\ lookup (pressure_ratio s) (battery_soc s) = Some power /\
    v = ambient_list atm center s t power ++ repeat 0 n.
Proof.
  unfold add_ambient_features, ambient_list. destruct (latlng center (x s) (y s)) as [lat lng]. cbn [fst snd].
  unfold linear_rescale_with_saturation, linear_rescale_with_extrapolation, squash_to_unit_interval,
    RANGE_MIN, RANGE_MAX.
  rewrite (Rleb_false 14000 5000), (Rleb_false 90 (-90)), (Rleb_false 250 0), (Rleb_false 300 100) by lra.
  rewrite (Rltb_false (Units.relative_distance (x s) (y s) / 1000) 0).
  2:{ unfold Units.relative_distance. pose proof (sqrt_pos (x s * x s + y s * y s)). lra. }
  cbn [option_map].
  replace (pressure s - 5000) with (pressure s - 5000) by reflexivity.
  replace (14000 - 5000) with 9000 by lra. replace (90 - -90) with 180 by lra.
  replace (300 - 100) with 200 by lra.
  replace (compute_solar_angle lat lng (date_time s) - -90) with (compute_solar_angle lat lng (date_time s) + 90) by lra.
  destruct (compute_sunrise_time lat lng (date_time s)) as [t|].
  2:{ split; [discriminate|]. intros (t & p & E & _). discriminate. }
  destruct (negb (Rleb 0 t && Rleb t (2 * PI + 1e-6))) eqn:Et.
  { split; [discriminate|]. intros (t' & p & E & B & _). injection E as <-.
    rewrite !Rleb_true in Et by lra. discriminate. }
  assert (B : 0 <= t <= 2 * PI + 1e-6) by (revert Et; rcases; cbn; intros; try discriminate; lra).
  destruct (lookup (pressure_ratio s) (battery_soc s)) as [power|].
  2:{ split; [discriminate|]. intros (t' & p & _ & _ & E & _). discriminate. }
  cbn [repeat Nat.add write_all write option_map]. split.
  - intro E. injection E as <-. exists t, power. auto.
  - intros (t' & p & E1 & _ & E2 & ->). injection E1 as <-. injection E2 as <-. reflexivity.
Qed.

(** ** Reading back *)
Lemma ambient_length atm center s t p : length (ambient_list atm center s t p) = 16%nat.
Proof. unfold ambient_list. destruct (latlng center (x s) (y s)). reflexivity. Qed.

Lemma distance_pow x y : Units.relative_distance x y = sqrt (x ^ 2 + y ^ 2).
Proof. unfold Units.relative_distance. f_equal. ring. Qed.

Lemma cauchy a b c d :
  Rabs (a * c + b * d) <= sqrt (a ^ 2 + b ^ 2) * sqrt (c ^ 2 + d ^ 2).
Proof.
  rewrite <- sqrt_mult_alt by nra. rewrite <- sqrt_Rsqr_abs. apply sqrt_le_1_alt. unfold Rsqr.
  pose proof (pow2_ge_0 (a * d - b * c)). nra.
Qed.

Lemma bearing_encodes x y mu mv dev :
  encodes x y mu mv dev (dev, bearing_of x y (mu, mv), magnitude_of (mu, mv)).
Proof.
  unfold encodes, bearing_of, magnitude_of, angle_error, TOLERANCE. cbn [fst snd].
  rewrite distance_pow. set (d := sqrt (x ^ 2 + y ^ 2)). set (m := sqrt (mu ^ 2 + mv ^ 2)).
  pose proof PI_RGT_0 as Hpi.
  assert (Hd : 0 <= d) by apply sqrt_pos. assert (Hm : 0 <= m) by apply sqrt_pos.
  split; [reflexivity|]. split; [reflexivity|].
  assert (Q : forall a, 0 <= a <= PI -> 0 <= a / PI <= 1).
  { intros a Ha. split; [apply Rmult_le_reg_r with PI; [lra|]|apply Rmult_le_reg_r with PI; [lra|]];
      unfold Rdiv; rewrite ?Rmult_assoc, ?Rinv_l by lra; lra. }
  destruct (Rltb_spec d 1e-5) as [L|L].
  { split; [apply Q; lra|]. split; [intros _; lra|]. split; lra. }
  destruct (Rltb_spec m 1e-5) as [M|M].
  { split; [apply Q; lra|]. split; [lra|]. split; [intros _ _; field; lra|lra]. }
  set (dot := mu / (m + 1e-5) * (- x / (d + 1e-5)) + mv / (m + 1e-5) * (- y / (d + 1e-5))).
  assert (E : dot * ((m + 1e-5) * (d + 1e-5)) = mu * (0 - x) + mv * (0 - y)) by (unfold dot; field; lra).
  pose proof (cauchy mu mv (0 - x) (0 - y)) as C.
  replace ((0 - x) ^ 2) with (x ^ 2) in C by ring. replace ((0 - y) ^ 2) with (y ^ 2) in C by ring.
  fold d m in C. rewrite <- E in C.
  assert (D : -1 <= dot <= 1).
  { rewrite Rabs_mult, (Rabs_right ((m + 1e-5) * (d + 1e-5))) in C by nra.
    assert (K : m * d < (m + 1e-5) * (d + 1e-5)) by nra.
    assert (K0 : 0 <= m * d) by nra.
    set (k := (m + 1e-5) * (d + 1e-5)) in *.
    assert (H : Rabs dot <= 1).
    { destruct (Rle_lt_dec (Rabs dot) 1) as [O|O]; [exact O|exfalso].
      assert (1 * k < Rabs dot * k) by (apply Rmult_lt_compat_r; lra). lra. }
    destruct (Rabs_cases dot) as [[? ?]|[? ?]]; lra. }
  assert (Ec : Transforms.np_clip dot (-1) 1 = dot)
    by (unfold Transforms.np_clip, Rmin, Rmax; repeat destruct Rle_dec; lra).
  rewrite Ec. pose proof (acos_bound dot) as B.
  split; [apply Q; lra|]. split; [lra|]. split; [lra|]. intros _ _.
  replace (acos dot / PI * PI) with (acos dot) by (field; lra). rewrite cos_acos by lra. exact E.
Qed.

(** ** The whole vector *)
Section Vector.
Context (P : prng) (F : forecaster P) (G : regressor).
Context (fcol : wind_field P F -> R -> R -> list R -> Z -> option (list wind)).

Lemma get_features_spec w atm c v :
  get_features P F G fcol w atm c = Some v <->
  exists center s t power b answers range ts,
    last_balloon_state c = Some (center, s) /\
    compute_sunrise_time (fst (latlng center (x s) (y s))) (snd (latlng center (x s) (y s))) (date_time s) = Some t /\
    0 <= t <= 2 * PI + 1e-6 /\ lookup (pressure_ratio s) (battery_soc s) = Some power /\
    query_batch G (fcol w) (windgp c)
      (map (fun p => mkLoc (x s) (y s) p (seconds_of (time_elapsed s))) pressure_levels) = Some answers /\
    nearest_level (pressure s) b /\
    get_pressure_range s (fst (latlng center (x s) (y s))) (snd (latlng center (x s) (y s))) atm = Some range /\
    length ts = 181%nat /\
    (forall i, (i < 181)%nat ->
       triple_ok range (map snd answers) (map (bearing_of (x s) (y s)) (map fst answers))
         (map magnitude_of (map fst answers)) i (level_pressure (Z.of_nat i)) (nth i ts unreachable)) /\
    v = ambient_list atm center s t power ++
        flat3 (repeat unreachable (Z.to_nat (180 - b)) ++ ts ++ repeat unreachable (Z.to_nat b)).
Proof.
  unfold get_features. destruct (last_balloon_state c) as [[center s]|].
  2:{ split; [discriminate|]. intros (? & ? & ? & ? & ? & ? & ? & ? & E & _). discriminate. }
  change NUM_FEATURES with (16 + 1083)%nat.
  destruct (add_ambient_features atm center s (repeat 0 (16 + 1083))) as [v0|] eqn:Ea.
  - apply add_ambient_spec in Ea. destruct Ea as (t & power & Et & Bt & El & ->).
    rewrite add_wind_features_spec by apply ambient_length. split.
    + intros (b & an & range & ts & H). exists center, s, t, power, b, an, range, ts. tauto.
    + intros (c' & s' & t' & p' & b & an & range & ts & E & Et' & _ & El' & H).
      injection E as <- <-. replace t' with t in * by congruence. replace p' with power in * by congruence.
      exists b, an, range, ts. exact H.
  - split; [discriminate|]. intros (c' & s' & t' & p' & b & an & range & ts & E & Et & Bt & El & _).
    injection E as <- <-. exfalso.
    assert (H : add_ambient_features atm center s (repeat 0 (16 + 1083))
                = Some (ambient_list atm center s t' p' ++ repeat 0 1083)).
    { apply add_ambient_spec. exists t', p'. auto. }
    congruence.
Qed.

(** Entry k of the column. *)
Lemma column_entry ts b k : length ts = 181%nat -> (0 <= b <= 180)%Z -> (0 <= k <= 360)%Z ->
  nth (Z.to_nat k) (repeat unreachable (Z.to_nat (180 - b)) ++ ts ++ repeat unreachable (Z.to_nat b)) unreachable
  = if ((0 <=? b + k - 180) && (b + k - 180 <=? 180))%Z
    then nth (Z.to_nat (b + k - 180)) ts unreachable else unreachable.
Proof.
  intros Lt Hb Hk.
  destruct (Z.leb_spec 0 (b + k - 180)) as [A|A]; cbn [andb].
  - rewrite app_nth2 by (rewrite repeat_length; lia). rewrite repeat_length.
    replace (Z.to_nat k - Z.to_nat (180 - b))%nat with (Z.to_nat (b + k - 180)) by lia.
    destruct (Z.leb_spec (b + k - 180) 180) as [B|B].
    + apply app_nth1. lia.
    + rewrite app_nth2 by lia. apply nth_repeat.
  - rewrite app_nth1 by (rewrite repeat_length; lia). apply nth_repeat.
Qed.
Lemma column_length ts b : length ts = 181%nat -> (0 <= b <= 180)%Z ->
  length (repeat unreachable (Z.to_nat (180 - b)) ++ ts ++ repeat unreachable (Z.to_nat b)) = 361%nat.
Proof. intros. rewrite !app_length, !repeat_length. lia. Qed.
End Vector.

(** ** Reading *)
Lemma named_winds v n : new_named v = Some n ->
  length v = 1099%nat /\ winds n = skipn 16 v /\ n_num_pressure_levels n = 361%nat.
Proof.
  unfold new_named. destruct (Nat.eqb_spec (length v) 1099) as [L|]; [|discriminate]. cbn [negb].
  destruct (negb _); [discriminate|]. destruct (undo_linear_rescale_with_extrapolation _ _ _); [|discriminate].
  remember (skipn 16 v) as w eqn:Ew. remember (length w / 3)%nat as k eqn:Ek.
  intro E. injection E as <-. cbn [winds n_num_pressure_levels]. split; [exact L|]. split; [reflexivity|].
  rewrite Ek, Ew, skipn_length, L. reflexivity.
Qed.

Lemma wind_at_slice n v k : winds n = skipn 16 v -> n_num_pressure_levels n = 361%nat ->
  length v = 1099%nat ->
  wind_at n k = match py_slice (skipn 16 v) (k * 3) (k * 3 + 3) with
                | [a; b; c] => Some (mkFeature a b c) | _ => None end.
Proof.
  intros Wn Nn Lv. unfold wind_at. rewrite Nn, Wn.
  replace ((k <? 0)%Z && (Z.of_nat 361 <=? k)%Z) with false; [reflexivity|].
  symmetry. apply andb_false_iff. change (Z.of_nat 361) with 361%Z.
  rewrite Z.ltb_ge, Z.leb_gt. lia.
Qed.

Lemma winds_length (v : list R) : length v = 1099%nat -> length (skipn 16 v) = 1083%nat.
Proof. intro L. rewrite skipn_length, L. reflexivity. Qed.

Lemma slice_inside v k : length v = 1099%nat -> (0 <= k <= 360)%Z ->
  match py_slice (skipn 16 v) (k * 3) (k * 3 + 3) with
  | [a; b; c] => Some (mkFeature a b c) | _ => None end =
  Some (let '(un, be, ma) := wind_entry v k in mkFeature un be ma).
Proof.
  intros Lv Hk.
  assert (Sl : forall i (l : list R), (i + 3 <= length l)%nat ->
    firstn 3 (skipn i l) = [nth i l 0; nth (i + 1) l 0; nth (i + 2) l 0]).
  { clear. induction i as [|i IH]; intros l Hl.
    - destruct l as [|a [|b [|c l]]]; cbn in Hl; try lia. reflexivity.
    - destruct l as [|a l]; cbn in Hl; [lia|]. cbn [skipn Nat.add nth]. apply IH. lia. }
  assert (Nl : forall i m (l : list R), nth i (skipn m l) 0 = nth (m + i) l 0).
  { clear. intros i m. induction m as [|m IH]; intro l; [reflexivity|].
    destruct l as [|a l]; cbn [skipn Nat.add nth]; [now destruct i|apply IH]. }
  unfold py_slice. rewrite (winds_length v Lv). change (Z.of_nat 1083) with 1083%Z.
  replace (k * 3 + 3 <? 0)%Z with false by (symmetry; apply Z.ltb_ge; lia).
  replace (k * 3 <? 0)%Z with false by (symmetry; apply Z.ltb_ge; lia).
  rewrite (Z.min_r 1083 (k * 3 + 3)), (Z.min_r 1083 (k * 3)), !Z.max_r by lia.
  replace (Z.to_nat (k * 3 + 3 - k * 3)) with 3%nat by lia.
  rewrite Sl by (rewrite winds_length by exact Lv; lia). rewrite !Nl. unfold wind_entry, component.
  replace (16 + Z.to_nat (k * 3))%nat with (Z.to_nat (16 + 3 * k)) by lia.
  replace (16 + (Z.to_nat (k * 3) + 1))%nat with (Z.to_nat (16 + 3 * k) + 1)%nat by lia.
  replace (16 + (Z.to_nat (k * 3) + 2))%nat with (Z.to_nat (16 + 3 * k) + 2)%nat by lia. reflexivity.
Qed.

Lemma slice_empty v k : length v = 1099%nat -> (360 < k \/ k = -1 \/ k < -361)%Z ->
  py_slice (skipn 16 v) (k * 3) (k * 3 + 3) = [].
Proof.
  intros Lv Hk. unfold py_slice. rewrite (winds_length v Lv). change (Z.of_nat 1083) with 1083%Z.
  match goal with |- firstn (Z.to_nat ?e) _ = _ => replace (Z.to_nat e) with 0%nat; [reflexivity|] end.
  destruct (Z.ltb_spec (k * 3 + 3) 0), (Z.ltb_spec (k * 3) 0); lia.
Qed.

Lemma slice_negative v k : length v = 1099%nat -> (-361 <= k <= -2)%Z ->
  py_slice (skipn 16 v) (k * 3) (k * 3 + 3) =
  py_slice (skipn 16 v) ((k + 361) * 3) ((k + 361) * 3 + 3).
Proof.
  intros Lv Hk. unfold py_slice. rewrite (winds_length v Lv). change (Z.of_nat 1083) with 1083%Z.
  destruct (Z.ltb_spec (k * 3 + 3) 0), (Z.ltb_spec (k * 3) 0),
    (Z.ltb_spec ((k + 361) * 3 + 3) 0), (Z.ltb_spec ((k + 361) * 3) 0); try lia.
  f_equal; [|f_equal]; lia.
Qed.

(** ** The solar cycle *)
Lemma normalized_value now r s t : normalized_time now r s = Some t ->
  let day := us_per_day in
  (now <= r <= now + day)%Z -> (now <= s <= now + day)%Z ->
  ((s < r)%Z /\ t * IZR (s - (r - day)) = PI * IZR (now - (r - day)) /\ 0 <= t <= PI) \/
  ((r <= s)%Z /\ (t - PI) * IZR (r - (s - day)) = PI * IZR (now - (s - day)) /\ PI <= t <= 2 * PI).
Proof.
  intros E day Hr Hs. revert E. unfold normalized_time. fold day. assert (HP := PI_RGT_0).
  destruct (negb _); [discriminate|]. destruct (negb _); [discriminate|].
  assert (Key : forall a b, (0 < b)%Z -> (0 <= a <= b)%Z -> 0 <= PI * IZR a / IZR b <= PI).
  { intros a b Hb Ha. apply IZR_lt in Hb. destruct Ha as [A1 A2]. apply IZR_le in A1, A2.
    split.
    - apply Rmult_le_pos; [apply Rmult_le_pos; lra|]. left. apply Rinv_0_lt_compat. exact Hb.
    - apply Rmult_le_reg_r with (IZR b); [exact Hb|]. unfold Rdiv.
      rewrite Rmult_assoc, Rinv_l, Rmult_1_r by lra. apply Rmult_le_compat_l; lra. }
  destruct (Z.ltb_spec s r) as [C|C].
  - destruct (Z.eqb_spec (s - (r - day)) 0) as [|N]; [discriminate|].
    intro E. injection E as <-. left. split; [exact C|].
    split.
    + field. apply not_0_IZR. exact N.
    + apply Key; lia.
  - destruct (Z.eqb_spec (r - (s - day)) 0) as [|N]; [discriminate|].
    intro E. injection E as <-. right. split; [exact C|].
    split.
    + field. apply not_0_IZR. exact N.
    + assert (0 <= PI * IZR (now - (s - day)) / IZR (r - (s - day)) <= PI) by (apply Key; lia). lra.
Qed.

Lemma normalized_total now r s :
  (now <= r <= now + us_per_day)%Z -> (now <= s <= now + us_per_day)%Z ->
  Z.abs (r - s) <> us_per_day -> normalized_time now r s <> None.
Proof.
  intros Hr Hs N. unfold normalized_time.
  replace (_ && _) with true by (symmetry; apply andb_true_iff; rewrite !Z.leb_le; lia).
  replace (_ && _) with true by (symmetry; apply andb_true_iff; rewrite !Z.leb_le; lia). cbn [negb].
  destruct (Z.ltb_spec s r).
  - destruct (Z.eqb_spec (s - (r - us_per_day)) 0); [lia|discriminate].
  - destruct (Z.eqb_spec (r - (s - us_per_day)) 0); [lia|discriminate].
Qed.
