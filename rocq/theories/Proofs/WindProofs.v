(** Wind fields: queries, time reflection, noise. *)
From Coq Require Import ZArith Reals Lra Lia Psatz List Bool Arith.
From Verif Require Import Model.Num Model.Prng Model.WindField Spec.WindSpec Spec.PrngSpec
  Proofs.NumR Proofs.InterpProofs.
Import ListNotations.
Open Scope R_scope.

(** ** Time reflection *)
Lemma boomerang_reflects t H : 0 < H -> 0 <= t -> reflected H t (boomerang t H).
Proof.
  intros HH Ht. unfold boomerang.
  assert (Hq : 0 <= t / H) by (apply Rmult_le_pos; [lra|left; apply Rinv_0_lt_compat; lra]).
  rewrite (Rleb_true 0 (t / H)) by exact Hq. rewrite Z.mod_mod by lia.
  destruct (base_Int_part (t / H)) as [A B]. set (m := Int_part (t / H)) in *.
  assert (E : t = t / H * H) by (field; lra).
  assert (C : IZR m * H <= t < IZR m * H + H) by (rewrite E; nra).
  pose proof (Z.div_mod m 2 ltac:(lia)) as Dm. pose proof (Z.mod_pos_bound m 2 ltac:(lia)).
  destruct (Z.eqb_spec (m mod 2) 0) as [Ev|Od].
  - split; [lra|]. exists (m / 2)%Z. left. rewrite Dm at 1. rewrite Ev, Z.add_0_r, mult_IZR. ring.
  - split; [lra|]. exists (m / 2 + 1)%Z. right.
    assert (Em : m = (2 * (m / 2) + 1)%Z) by lia. rewrite Em at 1.
    rewrite plus_IZR, mult_IZR, plus_IZR. ring.
Qed.

Lemma reflected_nearest H t r : 0 < H -> reflected H t r ->
  (exists k, r = Rabs (t - 2 * IZR k * H)) /\ forall m, r <= Rabs (t - 2 * IZR m * H).
Proof.
  intros HH [Hr (k & Ek)].
  assert (Er : r = Rabs (t - 2 * IZR k * H)).
  { destruct Ek as [Ek|Ek].
    - rewrite Ek at 1. rewrite Rabs_right; [reflexivity|lra].
    - rewrite Ek at 1. rewrite Rabs_left1; [ring|lra]. }
  split; [exists k; exact Er|]. intro m.
  destruct (Z.eq_dec m k) as [->|Hne]; [lra|].
  assert (Hi : 1 <= IZR (Z.abs (m - k))) by (apply IZR_le; lia).
  rewrite abs_IZR, minus_IZR in Hi.
  assert (Hd : 2 * H <= Rabs (2 * IZR m * H - 2 * IZR k * H)).
  { replace (2 * IZR m * H - 2 * IZR k * H) with ((IZR m - IZR k) * (2 * H)) by ring.
    rewrite Rabs_mult, (Rabs_right (2 * H)) by lra. nra. }
  replace (2 * IZR m * H - 2 * IZR k * H) with ((t - 2 * IZR k * H) + - (t - 2 * IZR m * H)) in Hd by ring.
  pose proof (Rabs_triang (t - 2 * IZR k * H) (- (t - 2 * IZR m * H))) as T.
  rewrite Rabs_Ropp in T. lra.
Qed.
Lemma reflected_lipschitz H t t' r r' : 0 < H -> reflected H t r -> reflected H t' r' ->
  Rabs (r' - r) <= Rabs (t' - t).
Proof.
  intros HH A B. destruct (reflected_nearest _ _ _ HH A) as [(k & Ek) Fk].
  destruct (reflected_nearest _ _ _ HH B) as [(k' & Ek') Fk'].
  specialize (Fk k'). specialize (Fk' k).
  assert (T1 : Rabs (t' - 2 * IZR k * H) <= Rabs (t' - t) + Rabs (t - 2 * IZR k * H)).
  { replace (t' - 2 * IZR k * H) with ((t' - t) + (t - 2 * IZR k * H)) by ring. apply Rabs_triang. }
  assert (T2 : Rabs (t - 2 * IZR k' * H) <= Rabs (t' - t) + Rabs (t' - 2 * IZR k' * H)).
  { rewrite (Rabs_minus_sym t' t).
    replace (t - 2 * IZR k' * H) with ((t - t') + (t' - 2 * IZR k' * H)) by ring. apply Rabs_triang. }
  apply Rabs_le. lra.
Qed.
Lemma reflected_unique H t r r' : 0 < H -> reflected H t r -> reflected H t r' -> r = r'.
Proof.
  intros HH A B. pose proof (reflected_lipschitz H t t r r' HH A B) as L.
  replace (t - t) with 0 in L by ring. rewrite Rabs_R0 in L.
  pose proof (Rabs_pos (r' - r)). assert (Rabs (r' - r) = 0) by lra.
  destruct (Req_dec r r'); [assumption|]. exfalso. apply (Rabs_no_R0 (r' - r)); lra.
Qed.

Lemma hours_nonneg e : 0 <= hours e <-> (0 <= e)%Z.
Proof.
  unfold hours. split; intro H.
  - apply le_IZR. lra.
  - apply IZR_le in H. lra.
Qed.

Lemma time_position_reflects s e : (0 < time_horizon_hours s)%Z -> (0 <= e)%Z ->
  reflected (IZR (time_horizon_hours s)) (hours e) (time_position s e).
Proof.
  intros HH He. apply hours_nonneg in He. apply IZR_lt in HH. unfold time_position.
  destruct (Rltb_spec (hours e) (IZR (time_horizon_hours s))) as [L|L].
  - split; [lra|]. exists 0%Z. left. ring.
  - apply boomerang_reflects; lra.
Qed.

(** ** Clipping *)
Lemma clip_nearest x lo hi : lo <= hi -> nearest lo hi x (np_clip x lo hi).
Proof.
  intro H. unfold nearest, np_clip, Rmin, Rmax.
  destruct (Rle_dec x lo), (Rle_dec lo hi), (Rle_dec x hi); try lra;
    (split; [lra|]; intros d Hd; unfold Rabs; repeat destruct Rcase_abs; lra).
Qed.
Lemma nearest_unique lo hi x c c' : nearest lo hi x c -> nearest lo hi x c' -> c = c'.
Proof.
  intros [A F] [B G]. pose proof (F c' B) as Fc. pose proof (G c A) as Gc.
  pose proof (F ((c + c') / 2) ltac:(lra)) as M.
  unfold Rabs in *. repeat destruct Rcase_abs; lra.
Qed.

(** ** Grid queries *)
Definition wf_shape (s : field_shape) : Prop :=
  (2 <= latlng_slices s)%nat /\ (2 <= pressure_slices s)%nat /\ (2 <= time_slices s)%nat /\
  0 < latlng_displacement_km s /\ min_pressure_pa s < max_pressure_pa s /\
  INR (time_slices s - 1) <= IZR (time_horizon_hours s).

Lemma wf_grids s : wf_shape s ->
  increasing (latlng_grid s) (latlng_slices s) /\
  increasing (pressure_grid s) (pressure_slices s) /\
  increasing (time_grid s) (time_slices s) /\ (0 < time_horizon_hours s)%Z.
Proof.
  intros (A & B & C & D & E & F).
  split; [apply linspace_increasing; [exact A|lra]|].
  split; [apply linspace_increasing; [exact B|lra]|].
  split; [apply time_grid_increasing; assumption|].
  apply lt_IZR. assert (0 < INR (time_slices s - 1)) by (apply lt_0_INR; lia). lra.
Qed.

Lemma prepared_in_bounds s x y p e : wf_shape s ->
  forall q, In q (prepare s x y [p] e) -> in_bounds s q = inside (time_grid s) (time_slices s) (time_position s e).
Proof.
  intros (A & B & C & D & E & F) q [<-|[]]. unfold in_bounds. cbn [px py pp pt].
  unfold inside, latlng_grid, pressure_grid.
  rewrite !linspace_first, !linspace_last by assumption.
  pose proof (clip_nearest (x / 1000) (- latlng_displacement_km s) (latlng_displacement_km s) ltac:(lra)) as [X _].
  pose proof (clip_nearest (y / 1000) (- latlng_displacement_km s) (latlng_displacement_km s) ltac:(lra)) as [Y _].
  pose proof (clip_nearest p (min_pressure_pa s) (max_pressure_pa s) ltac:(lra)) as [Z _].
  rewrite !Rleb_true by lra. reflexivity.
Qed.

Lemma time_inside s e : wf_shape s ->
  inside (time_grid s) (time_slices s) (time_position s e) = true <-> (0 <= e)%Z.
Proof.
  intros W. pose proof (wf_grids s W) as (_ & _ & _ & HH). destruct W as (A & B & C & D & E & F).
  unfold inside. destruct (time_grid_ends s C) as [-> ->].
  rewrite andb_true_iff, !Rleb_iff. split.
  - intros [H0 _]. destruct (Z_le_dec 0 e) as [|Hn]; [assumption|exfalso].
    assert (hours e < 0) by (destruct (Rlt_dec (hours e) 0); [assumption|exfalso; apply Hn, hours_nonneg; lra]).
    unfold time_position in H0. apply IZR_lt in HH. rewrite Rltb_true in H0 by lra. lra.
  - intro He. destruct (time_position_reflects s e HH He) as [R _]. exact R.
Qed.

Lemma grid_forecast_value s (fd : field) x y p e : wf_shape s -> (0 <= e)%Z ->
  exists w qx qy qp qt, grid_forecast s (Some fd) x y p e = Some w /\
    nearest (- latlng_displacement_km s) (latlng_displacement_km s) (x / 1000) qx /\
    nearest (- latlng_displacement_km s) (latlng_displacement_km s) (y / 1000) qy /\
    nearest (min_pressure_pa s) (max_pressure_pa s) p qp /\
    reflected (IZR (time_horizon_hours s)) (hours e) qt /\
    (forall part, (part = u \/ part = v) ->
       is_lerp4 (latlng_grid s) (latlng_grid s) (pressure_grid s) (time_grid s)
         (latlng_slices s) (latlng_slices s) (pressure_slices s) (time_slices s)
         (fun i j k l => part (fd i j k l)) qx qy qp qt (part w)).
Proof.
  intros W He. pose proof (wf_grids s W) as (G1 & G2 & G3 & HH).
  assert (IB : in_bounds s (hd (mkPoint 0 0 0 0) (prepare s x y [p] e)) = true).
  { rewrite (prepared_in_bounds s x y p e W); [apply time_inside; assumption|]. left. reflexivity. }
  pose proof W as (A & B & C & D & E & F).
  cbn [prepare map hd] in IB. unfold grid_forecast, interpn. cbn [prepare map forallb]. rewrite IB.
  cbn [andb]. cbn [map]. do 5 eexists. split; [reflexivity|].
  split; [apply clip_nearest; lra|]. split; [apply clip_nearest; lra|]. split; [apply clip_nearest; lra|].
  split; [apply time_position_reflects; assumption|].
  intros part [-> | ->]; cbn [u v].
  - exact (corners_lerp4 s _ _ A B C G1 G2 G3 IB).
  - exact (corners_lerp4 s _ _ A B C G1 G2 G3 IB).
Qed.

Lemma grid_forecast_none s fd x y p e : wf_shape s ->
  grid_forecast s fd x y p e = None <-> fd = None \/ (e < 0)%Z.
Proof.
  intros W. destruct fd as [fd|]; cbn [grid_forecast]; [|split; auto].
  destruct (Z_le_dec 0 e) as [He|He].
  - destruct (grid_forecast_value s fd x y p e W He) as (w & _ & _ & _ & _ & E & _).
    cbn [grid_forecast] in E. rewrite E. split; [discriminate|]. intros [|]; [discriminate|lia].
  - unfold interpn. cbn [prepare map forallb].
    rewrite (prepared_in_bounds s x y p e W) by (left; reflexivity).
    destruct (inside (time_grid s) (time_slices s) (time_position s e)) eqn:I.
    + apply (time_inside s e W) in I. lia.
    + cbn [andb]. split; [intros _; right; lia|reflexivity].
Qed.

Lemma grid_column s (fd : field) x y ps e :
  grid_forecast_column s (Some fd) x y ps e
  = all_some (map (fun p => grid_forecast s (Some fd) x y p e) ps).
Proof.
  cbn [grid_forecast_column]. unfold grid_forecast, interpn, prepare.
  induction ps as [|p ps IH]; [reflexivity|].
  cbn [map forallb all_some]. cbn [map forallb] in IH.
  destruct (in_bounds s _) eqn:I1; cbn [andb]; [|reflexivity]. cbn [map].
  rewrite <- IH. destruct (forallb _ _); reflexivity.
Qed.

Lemma grid_time_lipschitz s (fd : field) x y p e e' L w w' : wf_shape s -> 0 <= L ->
  (forall i j k l part, part = u \/ part = v -> (S l < time_slices s)%nat ->
     Rabs (part (fd i j k (S l)) - part (fd i j k l)) <= L * (time_grid s (S l) - time_grid s l)) ->
  grid_forecast s (Some fd) x y p e = Some w -> grid_forecast s (Some fd) x y p e' = Some w' ->
  Rabs (u w' - u w) <= L * Rabs (hours e' - hours e) /\
  Rabs (v w' - v w) <= L * Rabs (hours e' - hours e).
Proof.
  intros W HL Hf E E'. pose proof (wf_grids s W) as (G1 & G2 & G3 & HH).
  assert (He : (0 <= e)%Z).
  { destruct (Z_le_dec 0 e); [assumption|]. rewrite (proj2 (grid_forecast_none s (Some fd) x y p e W)) in E by (right; lia). discriminate. }
  assert (He' : (0 <= e')%Z).
  { destruct (Z_le_dec 0 e'); [assumption|]. rewrite (proj2 (grid_forecast_none s (Some fd) x y p e' W)) in E' by (right; lia). discriminate. }
  destruct (grid_forecast_value s fd x y p e W He) as (w1 & qx & qy & qp & qt & E1 & N1 & N2 & N3 & R1 & M1).
  destruct (grid_forecast_value s fd x y p e' W He') as (w2 & qx' & qy' & qp' & qt' & E2 & N1' & N2' & N3' & R2 & M2).
  rewrite E in E1. injection E1 as <-. rewrite E' in E2. injection E2 as <-.
  rewrite <- (nearest_unique _ _ _ _ _ N1 N1'), <- (nearest_unique _ _ _ _ _ N2 N2'),
    <- (nearest_unique _ _ _ _ _ N3 N3') in M2.
  apply IZR_lt in HH.
  pose proof (reflected_lipschitz _ _ _ _ _ HH R1 R2) as LR.
  assert (Q : forall part, part = u \/ part = v -> Rabs (part w' - part w) <= L * Rabs (qt' - qt)).
  { intros part Hp. apply (lerp4_time_lipschitz _ _ _ _ _ _ _ _ _ _ _ _ _ _ _ _ L G1 G1 G2 G3 HL
      (fun i j k l => Hf i j k l part Hp) (M1 part Hp) (M2 part Hp)). }
  pose proof (Q u (or_introl eq_refl)). pose proof (Q v (or_intror eq_refl)). nra.
Qed.

(** ** Noise *)
Section Noise.
Context (P : prng) (noise4d : Z -> R -> R -> R -> R -> R).
Notation hnoise := (harmonic_noise noise4d).

Lemma noise_loop_value hs x y p e : forall ns a b c,
  map (fun h => hnoise h x y p e) hs = map Some ns ->
  noise_loop noise4d hs x y p e a b c =
  Some (a + weighted (map (fun h => weight (params h)) hs) ns,
        b + sum (map (fun h => weight (params h)) hs),
        c + sum (map (fun w => w * w) (map (fun h => weight (params h)) hs))).
Proof.
  induction hs as [|h hs IH]; intros ns a b c E.
  - destruct ns; [|discriminate]. cbn. rewrite !Rplus_0_r. reflexivity.
  - destruct ns as [|n ns]; [discriminate|]. cbn [map] in E. injection E as E1 E2.
    cbn [noise_loop]. rewrite E1, (IH ns _ _ _ E2).
    apply f_equal. unfold weighted, sum. cbn [map combine fold_right fst snd].
    apply pair_equal_spec; split; [apply pair_equal_spec; split|]; ring.
Qed.
Lemma component_noise_value hs x y p e ns :
  map (fun h => hnoise h x y p e) hs = map Some ns ->
  component_noise noise4d hs x y p e =
  Some (mixture (map (fun h => weight (params h)) hs) ns).
Proof.
  intro E. unfold component_noise. rewrite (noise_loop_value _ _ _ _ _ ns _ _ _ E).
  unfold mixture. rewrite !Rplus_0_l. reflexivity.
Qed.

Lemma reset_from_params k n : forall hs i, map params (reset_from P k n i hs) = map params hs.
Proof. induction hs as [|h hs IH]; intro i; cbn; [reflexivity|]. now rewrite IH. Qed.
Definition draw (k : key P) : Z * simplex_offset :=
  (choice P k 1634753849,
   mkOff (2 * uniforms P k 4 0 - 1) (2 * uniforms P k 4 1 - 1)
         (2 * uniforms P k 4 2 - 1) (2 * uniforms P k 4 3 - 1)).
End Noise.

(** ** Bounds of the mixture *)
Lemma weighted_bound B : forall ws ns, length ns = length ws -> (forall w, In w ws -> 0 <= w) ->
  (forall n, In n ns -> Rabs n <= B) -> Rabs (weighted ws ns) <= sum ws * B.
Proof.
  induction ws as [|w ws IH]; intros ns Hl Hw Hn.
  - destruct ns; [|discriminate]. unfold weighted, sum. cbn. rewrite Rabs_R0. lra.
  - destruct ns as [|n ns]; [discriminate|]. unfold weighted, sum. cbn [combine map fold_right fst snd].
    fold (sum ws). fold (weighted ws ns).
    specialize (IH ns ltac:(cbn in Hl; lia) ltac:(intros; apply Hw; now right) ltac:(intros; apply Hn; now right)).
    unfold weighted, sum in *.
    eapply Rle_trans; [apply Rabs_triang|]. rewrite Rabs_mult.
    pose proof (Hw w (or_introl eq_refl)). pose proof (Hn n (or_introl eq_refl)).
    rewrite (Rabs_right w) by lra. nra.
Qed.

Lemma latlng_grid_ends s : (2 <= latlng_slices s)%nat ->
  latlng_grid s 0 = - latlng_displacement_km s /\
  latlng_grid s (latlng_slices s - 1) = latlng_displacement_km s.
Proof. intro H. unfold latlng_grid. rewrite linspace_first, linspace_last by assumption. auto. Qed.
Lemma pressure_grid_ends s : (2 <= pressure_slices s)%nat ->
  pressure_grid s 0 = min_pressure_pa s /\ pressure_grid s (pressure_slices s - 1) = max_pressure_pa s.
Proof. intro H. unfold pressure_grid. rewrite linspace_first, linspace_last by assumption. auto. Qed.

Lemma forall2_map_some {A B} (f : A -> option B) l ns :
  Forall2 (fun a b => f a = Some b) l ns <-> map f l = map Some ns.
Proof.
  split.
  - intro F. induction F; cbn; [reflexivity|]. now f_equal.
  - revert ns; induction l as [|a l IH]; intros [|n ns] E; try discriminate; constructor.
    + now injection E.
    + apply IH. now injection E.
Qed.
Lemma noise_loop_none noise4d h x y p e : generator h = None -> forall hs, In h hs ->
  forall a b q, noise_loop noise4d hs x y p e a b q = None.
Proof.
  intros Eg. induction hs as [|h0 hs IH]; intros Hi a b q; [destruct Hi|]. cbn [noise_loop].
  destruct Hi as [->|Hi].
  - unfold harmonic_noise. now rewrite Eg.
  - destruct (harmonic_noise noise4d h0 x y p e); [|reflexivity]. now apply IH.
Qed.

(** Effective coefficients of the mixture. *)
Lemma weighted_scale c : forall ws ns, weighted (map (fun w => w * c) ws) ns = weighted ws ns * c.
Proof.
  induction ws as [|w ws IH]; intros [|n ns]; unfold weighted, sum in *; cbn; try lra.
  rewrite IH. lra.
Qed.
Lemma sum_sq_scale c : forall ws,
  sum (map (fun w => w * w) (map (fun w => w * c) ws)) = sum (map (fun w => w * w) ws) * (c * c).
Proof. induction ws as [|w ws IH]; unfold sum in *; cbn; [lra|]. rewrite IH. lra. Qed.
Lemma mixture_coefficients ws : 0 < sum ws -> 0 < sum (map (fun w => w * w) ws) ->
  exists cs, length cs = length ws /\ (forall ns, mixture ws ns = weighted cs ns) /\
    sum (map (fun c => c * c) cs) = / sum ws.
Proof.
  intros H1 H2. set (W := sum ws) in *. set (S2 := sum (map (fun w => w * w) ws)) in *.
  exists (map (fun w => w * (/ W * sqrt (W / S2))) ws). split; [now rewrite map_length|]. split.
  - intro ns. rewrite weighted_scale. unfold mixture. fold W S2. unfold Rdiv. ring.
  - rewrite sum_sq_scale. fold S2.
    replace (/ W * sqrt (W / S2) * (/ W * sqrt (W / S2))) with (/ W * / W * (sqrt (W / S2) * sqrt (W / S2))) by ring.
    rewrite sqrt_sqrt by (apply Rlt_le, Rdiv_lt_0_compat; assumption). field. lra.
Qed.
Lemma mixture_bound ws ns B C : length ns = length ws -> (forall w, In w ws -> 0 <= w) ->
  0 < sum ws -> (forall n, In n ns -> Rabs n <= B) -> 0 <= B -> 0 <= C ->
  B * B * (sum ws / sum (map (fun w => w * w) ws)) <= C * C ->
  0 <= sum ws / sum (map (fun w => w * w) ws) -> Rabs (mixture ws ns) <= C.
Proof.
  intros Hl Hw HW Hn HB HC Hc Hq. unfold mixture.
  pose proof (weighted_bound B ws ns Hl Hw Hn) as Hb.
  set (W := sum ws) in *. set (S2 := sum (map (fun w => w * w) ws)) in *.
  rewrite Rabs_mult. rewrite (Rabs_right (sqrt _)) by (apply Rle_ge, sqrt_pos).
  assert (A : Rabs (weighted ws ns / W) <= B).
  { unfold Rdiv. rewrite Rabs_mult, (Rabs_right (/ W)) by (apply Rle_ge, Rlt_le, Rinv_0_lt_compat; lra).
    apply Rmult_le_reg_r with W; [lra|]. rewrite Rmult_assoc, Rinv_l by lra. lra. }
  apply Rle_trans with (B * sqrt (W / S2)).
  { apply Rmult_le_compat_r; [apply sqrt_pos|exact A]. }
  rewrite <- (sqrt_square C) by exact HC.
  rewrite <- (sqrt_square B) at 1 by exact HB. rewrite <- sqrt_mult; [|nra|exact Hq].
  apply sqrt_le_1_alt. exact Hc.
Qed.
