(** Grid interpolation: cells, range, exactness, continuity. *)
From Coq Require Import ZArith Reals Lra Lia Psatz List Bool Arith.
From Verif Require Import Model.Num Model.Prng Model.WindField Spec.WindSpec Proofs.NumR.
Import ListNotations.
Open Scope R_scope.

Lemma Rabs_within x a : Rabs x <= a -> - a <= x <= a.
Proof. intro H. unfold Rabs in H. destruct (Rcase_abs x); lra. Qed.

(** ** Cells *)
Lemma increasing_lt g n i j : increasing g n -> (i < j)%nat -> (j < n)%nat -> g i < g j.
Proof.
  intros H Hij Hj. induction j as [|j IH]; [lia|].
  destruct (Nat.eq_dec i j) as [->|Hne]; [apply H; lia|].
  specialize (IH ltac:(lia) ltac:(lia)). pose proof (H j ltac:(lia)). lra.
Qed.
Lemma increasing_le g n i j : increasing g n -> (i <= j)%nat -> (j < n)%nat -> g i <= g j.
Proof.
  intros H Hij Hj. destruct (Nat.eq_dec i j) as [->|Hne]; [lra|].
  left. apply (increasing_lt g n); [exact H|lia|exact Hj].
Qed.

Lemma searchsorted_spec g n x : increasing g n ->
  forall m, (m <= n)%nat -> (searchsorted g m x <= m)%nat /\
    forall i, (i < m)%nat -> (g i < x <-> (i < searchsorted g m x)%nat).
Proof.
  intros Hg. induction m as [|m IH]; intros Hm; [cbn; split; [lia|intros; lia]|].
  destruct (IH ltac:(lia)) as [B C]. cbn [searchsorted].
  destruct (Rltb_spec (g m) x) as [L|L].
  - assert (E : searchsorted g m x = m).
    { destruct m as [|m']; [cbn in *; lia|].
      assert (g m' < x) by (pose proof (Hg m' ltac:(lia)); lra).
      apply C in H; lia. }
    rewrite E. split; [lia|]. intros i Hi. split; [intros _; lia|]. intros _.
    destruct (Nat.eq_dec i m) as [->|Hne]; [exact L|].
    pose proof (increasing_lt g n i m Hg ltac:(lia) ltac:(lia)). lra.
  - rewrite Nat.add_0_r. split; [lia|]. intros i Hi.
    destruct (Nat.eq_dec i m) as [->|Hne]; [|apply C; lia].
    split; [intro; contradiction|lia].
Qed.

Lemma find_index_cell g n x : (2 <= n)%nat -> increasing g n -> inside g n x = true ->
  (S (find_index g n x) < n)%nat /\
  g (find_index g n x) <= x <= g (S (find_index g n x)).
Proof.
  intros Hn Hg Hi. unfold inside in Hi. apply andb_true_iff in Hi.
  rewrite !Rleb_iff in Hi. destruct Hi as [H0 H1].
  destruct (searchsorted_spec g n x Hg n ltac:(lia)) as [B C].
  unfold find_index. set (c := searchsorted g n x) in *.
  assert (Hc : (c < n)%nat).
  { destruct (Nat.lt_ge_cases c n) as [|Hge]; [assumption|].
    assert (g (n - 1)%nat < x) by (apply C; lia). lra. }
  destruct c as [|c'].
  - cbn [pred]. rewrite Nat.min_0_l. split; [lia|]. split; [exact H0|].
    destruct (Rle_dec x (g 1%nat)) as [|Hgt]; [assumption|].
    assert (g 0%nat < x) by (pose proof (Hg 0%nat ltac:(lia)); lra).
    apply C in H; lia.
  - cbn [pred]. rewrite Nat.min_l by lia. split; [lia|]. split.
    + left. apply C; lia.
    + destruct (Rle_dec x (g (S c'))) as [|Hgt]; [assumption|].
      assert (Hlt : g (S c') < x) by lra. apply C in Hlt; lia.
Qed.

(** ** Linear interpolation *)
Lemma cell_fraction a b x : a < b -> a <= x <= b -> 0 <= (x - a) / (b - a) <= 1.
Proof.
  intros Hab Hx. split.
  - apply Rmult_le_pos; [lra|left; apply Rinv_0_lt_compat; lra].
  - apply (Rmult_le_reg_r (b - a)); [lra|]. unfold Rdiv. rewrite Rmult_assoc, Rinv_l by lra. lra.
Qed.

Lemma lerp_range g n f x v lo hi : increasing g n -> is_lerp g n f x v ->
  (forall i, (i < n)%nat -> lo <= f i <= hi) -> lo <= v <= hi.
Proof.
  intros Hg (i & Hi & Hx & ->) Hf.
  pose proof (cell_fraction _ _ _ (Hg i Hi) Hx) as Ht. set (t := _ / _) in *. clearbody t.
  pose proof (Hf i ltac:(lia)). pose proof (Hf (S i) ltac:(lia)). nra.
Qed.

Lemma lerp_exact g n f m v : increasing g n -> (m < n)%nat -> is_lerp g n f (g m) v -> v = f m.
Proof.
  intros Hg Hm (i & Hi & Hx & ->). pose proof (Hg i Hi) as Hlt.
  destruct (Nat.lt_trichotomy m i) as [L|[->|L]].
  - pose proof (increasing_lt g n m i Hg L ltac:(lia)). lra.
  - unfold Rminus at 2. rewrite Rplus_opp_r. unfold Rdiv. rewrite Rmult_0_l. lra.
  - destruct (Nat.eq_dec m (S i)) as [->|Hne].
    + unfold Rdiv. rewrite Rinv_r by lra. lra.
    + pose proof (increasing_lt g n (S i) m Hg ltac:(lia) Hm). lra.
Qed.

Lemma slope_telescope g n f L i j : increasing g n ->
  (forall k, (S k < n)%nat -> Rabs (f (S k) - f k) <= L * (g (S k) - g k)) ->
  (i <= j)%nat -> (j < n)%nat -> Rabs (f j - f i) <= L * (g j - g i).
Proof.
  intros Hg Hf Hij Hj. induction j as [|j IH].
  - assert (i = 0%nat) by lia. subst. rewrite !Rminus_diag_eq, Rabs_R0 by reflexivity. lra.
  - destruct (Nat.eq_dec i (S j)) as [->|Hne].
    + rewrite !Rminus_diag_eq, Rabs_R0 by reflexivity. lra.
    + specialize (IH ltac:(lia) ltac:(lia)). pose proof (Hf j ltac:(lia)).
      replace (f (S j) - f i) with ((f (S j) - f j) + (f j - f i)) by ring.
      pose proof (Rabs_triang (f (S j) - f j) (f j - f i)). lra.
Qed.

Lemma lerp_lipschitz_le g n f L x x' v v' : increasing g n -> 0 <= L ->
  (forall k, (S k < n)%nat -> Rabs (f (S k) - f k) <= L * (g (S k) - g k)) ->
  is_lerp g n f x v -> is_lerp g n f x' v' -> x <= x' -> Rabs (v' - v) <= L * (x' - x).
Proof.
  intros Hg HL Hf (i & Hi & Hx & Ev) (j & Hj & Hx' & Ev') Hle.
  assert (Slope : forall k, (S k < n)%nat -> exists q, - L <= q <= L /\
             f (S k) - f k = q * (g (S k) - g k)).
  { intros k Hk. pose proof (Hg k Hk). exists ((f (S k) - f k) / (g (S k) - g k)). split.
    - pose proof (Hf k Hk) as A. apply Rabs_within in A.
      split; apply (Rmult_le_reg_r (g (S k) - g k)); try lra;
        unfold Rdiv; rewrite Rmult_assoc, Rinv_l by lra; lra.
    - field. lra. }
  destruct (Slope i Hi) as (qi & Hqi & Ei). destruct (Slope j Hj) as (qj & Hqj & Ej).
  assert (Vi : v = f i + qi * (x - g i)).
  { rewrite Ev, Ei. field. pose proof (Hg i Hi). lra. }
  assert (Vj : v' = f j + qj * (x' - g j)).
  { rewrite Ev', Ej. field. pose proof (Hg j Hj). lra. }
  destruct (Nat.lt_trichotomy i j) as [Lt|[<-|Gt]].
  - pose proof (slope_telescope g n f L (S i) j Hg Hf ltac:(lia) ltac:(lia)) as T.
    pose proof (increasing_le g n (S i) j Hg ltac:(lia) ltac:(lia)).
    assert (D : v' - v = qj * (x' - g j) + (f j - f (S i)) + qi * (g (S i) - x)) by (rewrite Vi, Vj; lra).
    apply Rabs_within in T. apply Rabs_le. nra.
  - assert (Eq : qi = qj).
    { pose proof (Hg i Hi). apply (Rmult_eq_reg_r (g (S i) - g i)); lra. }
    subst qj. apply Rabs_le. rewrite Vi, Vj. nra.
  - (* j < i: then x <= x' <= g (S j) <= g i <= x *)
    pose proof (increasing_le g n (S j) i Hg ltac:(lia) ltac:(lia)).
    assert (x = x') by lra. subst x'.
    assert (Hm : x = g i) by lra. assert (Hm' : x = g (S j)) by lra.
    assert (v = f i) by (rewrite Vi, Hm; lra).
    assert (Sj : (S j = i)%nat).
    { destruct (Nat.eq_dec (S j) i) as [|Hne]; [assumption|].
      pose proof (increasing_lt g n (S j) i Hg ltac:(lia) ltac:(lia)). lra. }
    assert (v' = f (S j)) by (rewrite Vj, Hm', <- Ej; lra).
    subst i. rewrite H0, H1. rewrite !Rminus_diag_eq, Rabs_R0 by reflexivity. lra.
Qed.

Lemma lerp_lipschitz g n f L x x' v v' : increasing g n -> 0 <= L ->
  (forall k, (S k < n)%nat -> Rabs (f (S k) - f k) <= L * (g (S k) - g k)) ->
  is_lerp g n f x v -> is_lerp g n f x' v' -> Rabs (v' - v) <= L * Rabs (x' - x).
Proof.
  intros Hg HL Hf H H'. destruct (Rle_dec x x') as [Hle|Hgt].
  - rewrite (Rabs_right (x' - x)) by lra. eapply lerp_lipschitz_le; eassumption.
  - rewrite Rabs_minus_sym, (Rabs_minus_sym x'), (Rabs_right (x - x')) by lra.
    eapply lerp_lipschitz_le; try eassumption. lra.
Qed.

(** Two interpolations at the same place, of close values. *)
Lemma lerp_close g n f f' x v v' d : increasing g n ->
  is_lerp g n f x v -> is_lerp g n f' x v' ->
  (forall i, (i < n)%nat -> Rabs (f' i - f i) <= d) -> Rabs (v' - v) <= d.
Proof.
  intros Hg (i & Hi & Hx & ->) (j & Hj & Hx' & ->) Hd.
  assert (Key : forall k, (S k < n)%nat -> g k <= x <= g (S k) ->
    Rabs ((f' k + (f' (S k) - f' k) * ((x - g k) / (g (S k) - g k)))
          - (f k + (f (S k) - f k) * ((x - g k) / (g (S k) - g k)))) <= d).
  { intros k Hk Hxk. pose proof (cell_fraction _ _ _ (Hg k Hk) Hxk) as Ht.
    set (t := _ / _) in *. clearbody t.
    pose proof (Hd k ltac:(lia)) as A. pose proof (Hd (S k) ltac:(lia)) as B.
    apply Rabs_within in A. apply Rabs_within in B. apply Rabs_le. split; nra. }
  destruct (Nat.eq_dec i j) as [<-|Hne]; [apply Key; assumption|].
  (* different cells: x is a grid point common to both *)
  assert (Same : forall (h : nat -> R) v, is_lerp g n h x v -> v =
      h i + (h (S i) - h i) * ((x - g i) / (g (S i) - g i))).
  { intros h w (k & Hk & Hxk & ->).
    assert (Pt : forall a b, (S a < n)%nat -> (S b < n)%nat -> g a <= x <= g (S a) ->
        g b <= x <= g (S b) -> (a < b)%nat ->
        h a + (h (S a) - h a) * ((x - g a) / (g (S a) - g a)) =
        h b + (h (S b) - h b) * ((x - g b) / (g (S b) - g b))).
    { intros a b Ha Hb Hxa Hxb Lab.
      pose proof (increasing_le g n (S a) b Hg ltac:(lia) ltac:(lia)).
      assert (S a = b).
      { destruct (Nat.eq_dec (S a) b) as [|Hn]; [assumption|].
        pose proof (increasing_lt g n (S a) b Hg ltac:(lia) ltac:(lia)). lra. }
      subst b. assert (x = g (S a)) by lra. subst x.
      pose proof (Hg a Ha). pose proof (Hg (S a) Hb). field. lra. }
    destruct (Nat.lt_trichotomy k i) as [Lt|[->|Gt]]; [apply Pt; assumption|reflexivity|].
    symmetry. apply Pt; assumption. }
  rewrite (Same f' (f' j + (f' (S j) - f' j) * ((x - g j) / (g (S j) - g j)))).
  2:{ exists j. auto. }
  apply Key; assumption.
Qed.

(** ** Four axes *)
Lemma lerp4_range g1 g2 g3 g4 n1 n2 n3 n4 f x y p t w lo hi :
  increasing g1 n1 -> increasing g2 n2 -> increasing g3 n3 -> increasing g4 n4 ->
  (forall i j k l, lo <= f i j k l <= hi) ->
  is_lerp4 g1 g2 g3 g4 n1 n2 n3 n4 f x y p t w -> lo <= w <= hi.
Proof.
  intros H1 H2 H3 H4 Hf (a & b & c & A & B & C & D).
  eapply lerp_range; [exact H1|exact D|]. intros i _.
  eapply lerp_range; [exact H2|apply C|]. intros j _.
  eapply lerp_range; [exact H3|apply B|]. intros k _.
  eapply lerp_range; [exact H4|apply A|]. intros; apply Hf.
Qed.

Lemma lerp4_exact g1 g2 g3 g4 n1 n2 n3 n4 f i j k l w :
  increasing g1 n1 -> increasing g2 n2 -> increasing g3 n3 -> increasing g4 n4 ->
  (i < n1)%nat -> (j < n2)%nat -> (k < n3)%nat -> (l < n4)%nat ->
  is_lerp4 g1 g2 g3 g4 n1 n2 n3 n4 f (g1 i) (g2 j) (g3 k) (g4 l) w -> w = f i j k l.
Proof.
  intros H1 H2 H3 H4 Hi Hj Hk Hl (a & b & c & A & B & C & D).
  rewrite (lerp_exact _ _ _ _ _ H1 Hi D), (lerp_exact _ _ _ _ _ H2 Hj (C i)),
    (lerp_exact _ _ _ _ _ H3 Hk (B i j)). exact (lerp_exact _ _ _ _ _ H4 Hl (A i j k)).
Qed.

Lemma lerp4_time_lipschitz g1 g2 g3 g4 n1 n2 n3 n4 f x y p t t' w w' L :
  increasing g1 n1 -> increasing g2 n2 -> increasing g3 n3 -> increasing g4 n4 -> 0 <= L ->
  (forall i j k l, (S l < n4)%nat -> Rabs (f i j k (S l) - f i j k l) <= L * (g4 (S l) - g4 l)) ->
  is_lerp4 g1 g2 g3 g4 n1 n2 n3 n4 f x y p t w ->
  is_lerp4 g1 g2 g3 g4 n1 n2 n3 n4 f x y p t' w' ->
  Rabs (w' - w) <= L * Rabs (t' - t).
Proof.
  intros H1 H2 H3 H4 HL Hf (a & b & c & A & B & C & D) (a' & b' & c' & A' & B' & C' & D').
  eapply lerp_close; [exact H1|exact D|exact D'|]. intros i _.
  eapply lerp_close; [exact H2|apply C|apply C'|]. intros j _.
  eapply lerp_close; [exact H3|apply B|apply B'|]. intros k _.
  eapply lerp_lipschitz; [exact H4|exact HL|apply Hf|apply A|apply A'].
Qed.

(** ** The sum over corners is the iterated interpolation *)
Lemma corners_lerp4 s q f :
  let gl := latlng_grid s in let gp := pressure_grid s in let gt := time_grid s in
  let nl := latlng_slices s in let np := pressure_slices s in let nt := time_slices s in
  (2 <= nl)%nat -> (2 <= np)%nat -> (2 <= nt)%nat ->
  increasing gl nl -> increasing gp np -> increasing gt nt -> in_bounds s q = true ->
  is_lerp4 gl gl gp gt nl nl np nt f (px q) (py q) (pp q) (pt q) (corners s q f).
Proof.
  cbv zeta. intros N1 N2 N3 I1 I2 I3 Hb. unfold in_bounds in Hb.
  rewrite !andb_true_iff in Hb. destruct Hb as [[[B1 B2] B3] B4].
  pose proof (find_index_cell _ _ _ N1 I1 B1) as [S1 C1].
  pose proof (find_index_cell _ _ _ N1 I1 B2) as [S2 C2].
  pose proof (find_index_cell _ _ _ N2 I2 B3) as [S3 C3].
  pose proof (find_index_cell _ _ _ N3 I3 B4) as [S4 C4].
  set (lerp1 := fun (g : nat -> R) (n : nat) (x : R) (h : nat -> R) =>
     h (find_index g n x) + (h (S (find_index g n x)) - h (find_index g n x)) * norm_distance g n x).
  exists (fun i j k => lerp1 (time_grid s) (time_slices s) (pt q) (f i j k)).
  exists (fun i j => lerp1 (pressure_grid s) (pressure_slices s) (pp q)
    (fun k => lerp1 (time_grid s) (time_slices s) (pt q) (f i j k))).
  exists (fun i => lerp1 (latlng_grid s) (latlng_slices s) (py q)
    (fun j => lerp1 (pressure_grid s) (pressure_slices s) (pp q)
      (fun k => lerp1 (time_grid s) (time_slices s) (pt q) (f i j k)))).
  split; [intros i j k; eexists; split; [exact S4|]; split; [exact C4|reflexivity]|].
  split; [intros i j; eexists; split; [exact S3|]; split; [exact C3|reflexivity]|].
  split; [intros i; eexists; split; [exact S2|]; split; [exact C2|reflexivity]|].
  eexists; split; [exact S1|]. split; [exact C1|].
  unfold corners, lerp1, sum2, edge, norm_distance. cbv zeta.
  rewrite !Nat.add_0_r, !Nat.add_1_r.
  set (i := find_index (latlng_grid s) (latlng_slices s) (px q)).
  set (j := find_index (latlng_grid s) (latlng_slices s) (py q)).
  set (k := find_index (pressure_grid s) (pressure_slices s) (pp q)).
  set (l := find_index (time_grid s) (time_slices s) (pt q)).
  set (a := (px q - latlng_grid s i) / _). set (b := (py q - _) / _).
  set (c := (pp q - _) / _). set (d := (pt q - _) / _). ring.
Qed.

(** ** The grids *)
Lemma linspace_first a b n : linspace a b n 0 = a.
Proof. unfold linspace. cbn [INR]. unfold Rdiv. rewrite Rmult_0_r, Rmult_0_l. lra. Qed.
Lemma linspace_last a b n : (2 <= n)%nat -> linspace a b n (n - 1) = b.
Proof.
  intro H. unfold linspace. assert (INR (n - 1) <> 0) by (apply not_0_INR; lia). field. assumption.
Qed.
Lemma linspace_step a b n i : (2 <= n)%nat ->
  linspace a b n (S i) = linspace a b n i + (b - a) / INR (n - 1).
Proof.
  intro H. unfold linspace. rewrite S_INR. assert (INR (n - 1) <> 0) by (apply not_0_INR; lia).
  field. assumption.
Qed.
Lemma linspace_increasing a b n : (2 <= n)%nat -> a < b -> increasing (linspace a b n) n.
Proof.
  intros Hn Hab i Hi. rewrite linspace_step by exact Hn.
  assert (0 < INR (n - 1)) by (apply lt_0_INR; lia).
  assert (0 < (b - a) / INR (n - 1)) by (apply Rdiv_lt_0_compat; lra). lra.
Qed.
Lemma Int_part_le_IZR x z : IZR z <= x -> (z <= Int_part x)%Z.
Proof.
  intro H. destruct (base_Int_part x) as [_ B].
  apply Z.lt_succ_r. apply lt_IZR. rewrite succ_IZR. lra.
Qed.
Lemma Int_part_unique x z : IZR z <= x < IZR z + 1 -> Int_part x = z.
Proof.
  intros [A B]. destruct (base_Int_part x) as [C D].
  assert (IZR (Int_part x) < IZR (z + 1)) by (rewrite plus_IZR; lra).
  assert (IZR z < IZR (Int_part x + 1)) by (rewrite plus_IZR; lra).
  apply lt_IZR in H. apply lt_IZR in H0. lia.
Qed.
Lemma Int_part_step x d : 1 <= d -> (Int_part x < Int_part (x + d))%Z.
Proof.
  intro Hd. destruct (base_Int_part x) as [A _].
  assert (IZR (Int_part x + 1) <= x + d) by (rewrite plus_IZR; lra).
  apply Int_part_le_IZR in H. lia.
Qed.
Lemma Int_part_IZR z : Int_part (IZR z) = z.
Proof. apply Int_part_unique. lra. Qed.
Lemma time_grid_increasing s : (2 <= time_slices s)%nat ->
  INR (time_slices s - 1) <= IZR (time_horizon_hours s) ->
  increasing (time_grid s) (time_slices s).
Proof.
  intros Hn Hh i Hi. unfold time_grid. rewrite linspace_step by exact Hn. apply IZR_lt.
  apply Int_part_step. assert (0 < INR (time_slices s - 1)) by (apply lt_0_INR; lia).
  apply (Rmult_le_reg_r (INR (time_slices s - 1))); [assumption|].
  unfold Rdiv. rewrite Rmult_assoc, Rinv_l by lra. lra.
Qed.
Lemma time_grid_ends s : (2 <= time_slices s)%nat ->
  time_grid s 0 = 0 /\ time_grid s (time_slices s - 1) = IZR (time_horizon_hours s).
Proof.
  intro Hn. unfold time_grid. rewrite linspace_first, linspace_last by exact Hn.
  rewrite !Int_part_IZR. split; reflexivity.
Qed.
