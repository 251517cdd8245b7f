(** Properties C34 (time reflection), C35 (wind queries), C36 (wind noise). *)
From Coq Require Import ZArith Reals Lra Lia Psatz List Bool Arith.
From Verif Require Import Model.Num Model.Prng Model.WindField Spec.WindSpec Spec.PrngSpec
  Proofs.NumR Proofs.InterpProofs Proofs.WindProofs.
Import ListNotations.
Open Scope R_scope.

(** A usable field shape: two or more points per axis, nonempty ranges, and time
    slices at least an hour apart. *)
Definition usable (s : field_shape) : Prop :=
  (2 <= latlng_slices s)%nat /\ (2 <= pressure_slices s)%nat /\ (2 <= time_slices s)%nat /\
  0 < latlng_displacement_km s /\ min_pressure_pa s < max_pressure_pa s /\
  INR (time_slices s - 1) <= IZR (time_horizon_hours s).

(** ** C34 *)

(** The time looked up is the elapsed time reflected into [0, horizon] (there is
    only one such time), so itself within the horizon; it is 1-Lipschitz and has
    period twice the horizon. *)
Theorem C34_time_reflection (s : field_shape) (e : Z) :
  (0 < time_horizon_hours s)%Z -> (0 <= e)%Z ->
  let H := IZR (time_horizon_hours s) in
  let r := time_position s e in
  reflected H (hours e) r /\
  (forall r', reflected H (hours e) r' -> r' = r) /\
  (hours e <= H -> r = hours e) /\
  (forall e', (0 <= e')%Z -> Rabs (time_position s e' - r) <= Rabs (hours e' - hours e)) /\
  (forall e', hours e' = hours e + 2 * H -> time_position s e' = r).
Proof.
  intros HH He. cbv zeta. pose proof (time_position_reflects s e HH He) as R1.
  assert (HH' : 0 < IZR (time_horizon_hours s)) by (apply IZR_lt; exact HH).
  pose proof (proj2 (hours_nonneg e) He) as Hh.
  split; [exact R1|].
  split; [intros r' R2; exact (reflected_unique _ _ _ _ HH' R2 R1)|].
  split.
  { intro L. apply (reflected_unique _ _ _ _ HH' R1). split; [lra|]. exists 0%Z. left. ring. }
  split.
  { intros e' He'. exact (reflected_lipschitz _ _ _ _ _ HH' R1 (time_position_reflects s e' HH He')). }
  intros e' Ee'. assert (He' : (0 <= e')%Z) by (apply hours_nonneg; lra).
  apply (reflected_unique _ _ _ _ HH' (time_position_reflects s e' HH He')).
  destruct R1 as [Rg (k & Ek)]. split; [exact Rg|].
  destruct Ek as [Ek|Ek]; exists (k + 1)%Z; rewrite plus_IZR, Ee'; [left|right]; lra.
Qed.
Print Assumptions C34_time_reflection.

(** So the forecast never jumps in time: if the field changes by at most [L] m/s
    per hour between neighbouring time slices, so does the forecast, at every
    place and over any lapse of time, horizon included. *)
Theorem C34_forecast_never_jumps (s : field_shape) (fd : field) (x y p L : R) (e e' : Z) (w w' : wind) :
  usable s -> 0 <= L ->
  (forall i j k l part, part = u \/ part = v -> (S l < time_slices s)%nat ->
     Rabs (part (fd i j k (S l)) - part (fd i j k l)) <= L * (time_grid s (S l) - time_grid s l)) ->
  grid_forecast s (Some fd) x y p e = Some w -> grid_forecast s (Some fd) x y p e' = Some w' ->
  Rabs (u w' - u w) <= L * Rabs (hours e' - hours e) /\
  Rabs (v w' - v w) <= L * Rabs (hours e' - hours e).
Proof. exact (grid_time_lipschitz s fd x y p e e' L w w'). Qed.
Print Assumptions C34_forecast_never_jumps.

(** ** C35 *)

(** The forecast is the interpolation, along x, y, pressure and time, of the grid
    at the point of the field nearest to the query and at the reflected time. *)
Theorem C35_forecast_value (s : field_shape) (fd : field) (x y p : R) (e : Z) :
  usable s -> (0 <= e)%Z ->
  exists w qx qy qp qt, grid_forecast s (Some fd) x y p e = Some w /\
    nearest (- latlng_displacement_km s) (latlng_displacement_km s) (x / 1000) qx /\
    nearest (- latlng_displacement_km s) (latlng_displacement_km s) (y / 1000) qy /\
    nearest (min_pressure_pa s) (max_pressure_pa s) p qp /\
    reflected (IZR (time_horizon_hours s)) (IZR e / 3600000000) qt /\
    forall part, part = u \/ part = v ->
      is_lerp4 (latlng_grid s) (latlng_grid s) (pressure_grid s) (time_grid s)
        (latlng_slices s) (latlng_slices s) (pressure_slices s) (time_slices s)
        (fun i j k l => part (fd i j k l)) qx qy qp qt (part w).
Proof.
  intros W He. destruct (grid_forecast_value s fd x y p e W He) as (w & a & b & c & d & Q).
  exists w, a, b, c, d. unfold hours in Q.
  replace (IZR e / 1000000 / 3600) with (IZR e / 3600000000) in Q by lra. exact Q.
Qed.
Print Assumptions C35_forecast_value.

(** It refuses exactly when the field was never reset or the time is negative. *)
Theorem C35_refuses (s : field_shape) (fd : option field) (x y p : R) (e : Z) : usable s ->
  grid_forecast s fd x y p e = None <-> fd = None \/ (e < 0)%Z.
Proof. exact (grid_forecast_none s fd x y p e). Qed.
Print Assumptions C35_refuses.

(** A column query is the list of the single queries. *)
Theorem C35_column_agrees (s : field_shape) (fd : field) (x y : R) (ps : list R) (e : Z) :
  usable s -> (0 <= e)%Z ->
  exists ws, grid_forecast_column s (Some fd) x y ps e = Some ws /\
    Forall2 (fun p w => grid_forecast s (Some fd) x y p e = Some w) ps ws.
Proof.
  intros W He. rewrite grid_column. induction ps as [|p ps IH].
  - exists []. split; [reflexivity|constructor].
  - destruct IH as (ws & E & F). destruct (grid_forecast_value s fd x y p e W He) as (w & _ & _ & _ & _ & Ew & _).
    exists (w :: ws). split; [|constructor; assumption]. cbn [map all_some]. now rewrite Ew, E.
Qed.
Print Assumptions C35_column_agrees.

(** The grid of the environment's own wind fields: every 50 km, every 1000 Pa,
    every 6 hours; the forecast at a grid point is the field's value there, and
    it never exceeds the field's largest values. *)
Theorem C35_environment_grid :
  usable default_shape /\
  (forall i, latlng_grid default_shape i = -500 + 50 * INR i) /\
  (forall k, pressure_grid default_shape k = 5000 + 1000 * INR k) /\
  (forall l, time_grid default_shape l = 6 * INR l).
Proof.
  split.
  { unfold usable. cbn. repeat split; try lia; lra. }
  split; [intro i; unfold latlng_grid, linspace; cbn; field|].
  split; [intro i; unfold pressure_grid, linspace; cbn; field|].
  intro l. unfold time_grid, linspace. cbn [time_slices default_shape time_horizon_hours].
  rewrite (Int_part_unique _ (6 * Z.of_nat l)).
  - rewrite mult_IZR, <- INR_IZR_INZ. reflexivity.
  - rewrite mult_IZR, <- INR_IZR_INZ. replace (INR (9 - 1)) with 8 by (cbn; lra). lra.
Qed.
Print Assumptions C35_environment_grid.

Theorem C35_exact_and_bounded (s : field_shape) (fd : field) (x y p : R) (e : Z) (w : wind) part :
  usable s -> part = u \/ part = v -> grid_forecast s (Some fd) x y p e = Some w ->
  (* on the grid *)
  (forall i j k l, (i < latlng_slices s)%nat -> (j < latlng_slices s)%nat ->
     (k < pressure_slices s)%nat -> (l < time_slices s)%nat ->
     x / 1000 = latlng_grid s i -> y / 1000 = latlng_grid s j ->
     p = pressure_grid s k -> hours e = time_grid s l -> part w = part (fd i j k l)) /\
  (* everywhere *)
  (forall lo hi, (forall i j k l, lo <= part (fd i j k l) <= hi) -> lo <= part w <= hi).
Proof.
  intros W Hp E. pose proof (wf_grids s W) as (G1 & G2 & G3 & HH).
  assert (He : (0 <= e)%Z).
  { destruct (Z_le_dec 0 e); [assumption|].
    rewrite (proj2 (grid_forecast_none s (Some fd) x y p e W)) in E by (right; lia). discriminate. }
  destruct (grid_forecast_value s fd x y p e W He) as (w1 & qx & qy & qp & qt & E1 & N1 & N2 & N3 & R1 & M1).
  rewrite E in E1. injection E1 as <-. specialize (M1 part Hp).
  pose proof W as (A & B & C & D & E0 & F). split.
  - intros i j k l Hi Hj Hk Hl Ex Ey Ep Et.
    assert (In1 : forall g n m, increasing g n -> (m < n)%nat -> g 0%nat <= g m <= g (n - 1)%nat).
    { intros g n m Hg Hm. split; apply (increasing_le g n); try exact Hg; lia. }
    assert (Self : forall lo hi a c, lo <= a <= hi -> nearest lo hi a c -> c = a).
    { intros lo hi a c Ha Hc. apply (nearest_unique lo hi a c a Hc). split; [exact Ha|].
      intros d _. rewrite (Rminus_diag_eq a a eq_refl), Rabs_R0. apply Rabs_pos. }
    pose proof (In1 _ _ _ G1 Hi) as B1. pose proof (In1 _ _ _ G1 Hj) as B2.
    pose proof (In1 _ _ _ G2 Hk) as B3. pose proof (In1 _ _ _ G3 Hl) as B4.
    destruct (latlng_grid_ends s A) as [L0 L1]. destruct (pressure_grid_ends s B) as [P0 P1].
    rewrite L0, L1 in B1, B2. rewrite P0, P1 in B3.
    destruct (time_grid_ends s C) as [T0 T1]. rewrite T0, T1 in B4.
    rewrite Ex in N1. rewrite Ey in N2. rewrite Ep in N3. rewrite Et in R1.
    apply Self in N1; [|exact B1]. apply Self in N2; [|exact B2]. apply Self in N3; [|exact B3].
    assert (qt = time_grid s l).
    { apply IZR_lt in HH. apply (reflected_unique _ _ _ _ HH R1). split; [exact B4|].
      exists 0%Z. left. ring. }
    subst qx qy qp qt. exact (lerp4_exact _ _ _ _ _ _ _ _ _ _ _ _ _ _ G1 G1 G2 G3 Hi Hj Hk Hl M1).
  - intros lo hi Hf. eapply (lerp4_range _ _ _ _ _ _ _ _ (fun i j k l => part (fd i j k l)));
      [exact G1|exact G1|exact G2|exact G3|exact Hf|exact M1].
Qed.
Print Assumptions C35_exact_and_bounded.

(** The actual wind is the forecast plus the noise at the same point, for any
    forecast; the default column query is the list of single queries; the static
    field blows east, north, west, south by pressure band. *)
Theorem C35_ground_truth (P : prng) noise4d (F : forecaster P) (wf : wind_field P F)
    (x y p : R) (e : Z) :
  (forall w, ground_truth P noise4d F wf x y p e = Some w <->
     exists f n, forecast P F wf x y p e = Some f /\
       wind_noise noise4d (noise P F wf) x y p e = Some n /\
       u w = u f + u n /\ v w = v f + v n) /\
  (forall ps ws, default_forecast_column P F wf x y ps e = Some ws <->
     Forall2 (fun p w => forecast P F wf x y p e = Some w) ps ws).
Proof.
  split.
  - intro w. unfold ground_truth. split.
    + intro E. destruct (forecast P F wf x y p e) as [f|]; [|discriminate].
      destruct (wind_noise noise4d (noise P F wf) x y p e) as [n|]; [|discriminate].
      injection E as <-. exists f, n. auto.
    + intros (f & n & -> & -> & Eu & Ev). destruct w as [wu wv]. cbn in Eu, Ev. subst. reflexivity.
  - unfold default_forecast_column. induction ps as [|q ps IH]; intro ws; cbn [map all_some].
    + split; [intro E; injection E as <-; constructor|]. intro F2. inversion F2. reflexivity.
    + destruct (forecast P F wf x y q e) as [f|] eqn:Ef.
      * destruct (all_some (map (fun p0 => forecast P F wf x y p0 e) ps)) as [r|] eqn:Er.
        -- split.
           ++ intro E. injection E as <-. constructor; [exact Ef|]. apply IH. reflexivity.
           ++ intro F2. inversion F2 as [|? w0 ? ws0 H1 H2]; subst. rewrite Ef in H1.
              injection H1 as <-. apply IH in H2. injection H2 as <-. reflexivity.
        -- split; [discriminate|]. intro F2. inversion F2 as [|? w0 ? ws0 H1 H2]; subst.
           apply IH in H2. discriminate.
      * split; [discriminate|]. intro F2. inversion F2 as [|? w0 ? ws0 H1 H2]; subst. congruence.
Qed.
Print Assumptions C35_ground_truth.

Theorem C35_static_field (P : prng) (st : option unit) (x y p : R) (e : Z) :
  exists w, get_forecast P (static_field P) st x y p e = Some w /\
    (p < 8000 -> w = mkWind 10 0) /\ (8000 <= p < 10000 -> w = mkWind 0 10) /\
    (10000 <= p < 12000 -> w = mkWind (-10) 0) /\ (12000 <= p -> w = mkWind 0 (-10)).
Proof.
  eexists; split; [reflexivity|]. unfold static_forecast.
  destruct (Rltb_spec p 8000), (Rltb_spec p 10000), (Rltb_spec p 12000);
    repeat split; intro; try reflexivity; exfalso; lra.
Qed.
Print Assumptions C35_static_field.

(** A concrete field: wind u = 3 in the first time slice, 9 in the others. *)
Definition two_slices : field := fun _ _ _ l => mkWind (match l with O => 3 | _ => 9 end) 0.
Example C34_C35_witness :
  (forall i j k l part, part = u \/ part = v -> (S l < 9)%nat ->
     Rabs (part (two_slices i j k (S l)) - part (two_slices i j k l))
     <= 1 * (time_grid default_shape (S l) - time_grid default_shape l)) /\
  exists w, grid_forecast default_shape (Some two_slices) 123456789 0 7000 (3 * 3600 * 1000000) = Some w /\
    3 <= u w <= 9.
Proof.
  destruct C35_environment_grid as (W & _ & _ & T). split.
  - intros i j k l part Hp Hl. rewrite !T, S_INR.
    replace (1 * (6 * (INR l + 1) - 6 * INR l)) with 6 by ring.
    destruct Hp as [-> | ->]; destruct l; cbn; apply Rabs_le; lra.
  - destruct (C35_forecast_value default_shape two_slices 123456789 0 7000 (3 * 3600 * 1000000) W ltac:(lia))
      as (w & _ & _ & _ & _ & E & _). exists w. split; [exact E|].
    apply (proj2 (C35_exact_and_bounded _ _ _ _ _ _ w u W (or_introl eq_refl) E)).
    intros i j k l. unfold two_slices. cbn. destruct l; lra.
Qed.

(** ** C36 *)

(** The noise of a component is the mixture of its harmonics' noises; it raises
    exactly when some harmonic was never reset. *)
Theorem C36_mixture (noise4d : Z -> R -> R -> R -> R -> R) (c : list harmonic) (x y p : R) (e : Z) :
  (forall r, component_noise noise4d c x y p e = Some r ->
     exists ns, Forall2 (fun h n => harmonic_noise noise4d h x y p e = Some n) c ns /\
       r = mixture (map (fun h => weight (params h)) c) ns) /\
  (component_noise noise4d c x y p e = None <-> exists h, In h c /\ generator h = None).
Proof.
  assert (D : (exists ns, map (fun h => harmonic_noise noise4d h x y p e) c = map Some ns) \/
              exists h, In h c /\ generator h = None).
  { induction c as [|h c IH]; [left; now exists []|].
    destruct (generator h) as [[sd o]|] eqn:Eg; [|right; exists h; split; [now left|exact Eg]].
    destruct IH as [(ns & F)|(h' & Hi & E)]; [|right; exists h'; split; [now right|exact E]].
    left. eexists (_ :: ns). cbn [map]. rewrite F. f_equal. unfold harmonic_noise. rewrite Eg. reflexivity. }
  assert (N : (exists h, In h c /\ generator h = None) -> component_noise noise4d c x y p e = None).
  { intros (h & Hi & Eg). unfold component_noise. now rewrite (noise_loop_none noise4d h x y p e Eg c Hi). }
  split.
  - intros r E. destruct D as [(ns & F)|D]; [|rewrite (N D) in E; discriminate].
    exists ns. split; [now apply forall2_map_some|].
    rewrite (component_noise_value noise4d c x y p e ns F) in E. now injection E as <-.
  - split; [|exact N]. intro E. destruct D as [(ns & F)|D]; [|exact D].
    rewrite (component_noise_value noise4d c x y p e ns F) in E. discriminate.
Qed.
Print Assumptions C36_mixture.

(** After [wind_field.reset(key, date)], the noise at any place and time is, per
    component, the documented five-mode mixture; the generators of the modes come
    from the keys  split(split(split(key)[0])[component], 5)[mode], however often
    the field was reset before. *)
Definition reset_history (P : prng) (F : forecaster P) (hist : list (key P * Z)) : wind_field P F :=
  fold_left (fun w kd => wind_reset P F w (fst kd) (snd kd)) hist (new_wind_field P F).
Definition mode_key (P : prng) (k : key P) (comp i : nat) : key P :=
  split P (split P (split P k 2 0) 2 comp) 5 i.
Definition drawn (P : prng) (k : key P) : Z * (nat -> R) :=
  (choice P k 1634753849, fun i => 2 * uniforms P k 4 i - 1).

Lemma reset_params P F hist : map params (noise_u (noise P F (reset_history P F hist))) = U_HARMONICS /\
  map params (noise_v (noise P F (reset_history P F hist))) = V_HARMONICS.
Proof.
  induction hist as [|[k d] hist [IHu IHv]] using rev_ind; [split; reflexivity|].
  unfold reset_history in *. rewrite fold_left_app. cbn [fold_left].
  split; cbn [wind_reset noise noise_reset noise_u noise_v]; unfold component_reset;
    rewrite reset_from_params; assumption.
Qed.

Theorem C36_after_reset (P : prng) noise4d (F : forecaster P) (hist : list (key P * Z))
    (k : key P) (date : Z) (x y p : R) (e : Z) :
  let wf := wind_reset P F (reset_history P F hist) k date in
  wind_noise noise4d (noise P F wf) x y p e
  = Some (mkWind
      (modes_noise noise4d u_modes (fun i => drawn P (mode_key P k 0 i)) x y p (IZR e / 3600000000))
      (modes_noise noise4d v_modes (fun i => drawn P (mode_key P k 1 i)) x y p (IZR e / 3600000000))) /\
  forecast_state P F wf = Some (reset_forecast P F (split P k 2 1) date).
Proof.
  cbv zeta. split; [|reflexivity]. destruct (reset_params P F hist) as [Eu Ev].
  cbn [wind_reset noise noise_reset noise_u noise_v].
  destruct (noise P F (reset_history P F hist)) as [cu cv]. cbn [noise_u noise_v] in *.
  assert (Main : forall ms hs c kk, map params c = hs ->
    hs = map (fun m => mkH (share m) (scale_x m) (scale_y m) (scale_p m) (scale_t m)) ms ->
    (forall m, In m ms -> scale_x m <> 0 /\ scale_y m <> 0) ->
    component_noise noise4d (component_reset P c kk) x y p e
    = Some (modes_noise noise4d ms (fun i => drawn P (split P kk (length ms) i)) x y p (IZR e / 3600000000))).
  { intros ms hs c kk Ec Eh Hnz.
    assert (Lc : length c = length ms) by (rewrite <- (map_length params c), Ec, Eh, map_length; reflexivity).
    unfold component_reset. rewrite Lc.
    rewrite (component_noise_value noise4d _ x y p e
       (map (fun i => mode_noise noise4d (nth i ms (mkMode 0 1 1 1 1)) (fst (drawn P (split P kk (length ms) i)))
          (snd (drawn P (split P kk (length ms) i))) x y p (IZR e / 3600000000)) (seq 0 (length ms)))).
    - unfold modes_noise. do 2 f_equal.
      transitivity (map weight (map params (reset_from P kk (length ms) 0 c))); [now rewrite map_map|].
      rewrite reset_from_params, Ec, Eh, map_map. reflexivity.
    - assert (Gen : forall n0 (pre : list mode) c1 ms1, n0 = length ms -> ms = pre ++ ms1 ->
        map params c1 = map (fun m => mkH (share m) (scale_x m) (scale_y m) (scale_p m) (scale_t m)) ms1 ->
        map (fun h => harmonic_noise noise4d h x y p e) (reset_from P kk n0 (length pre) c1)
        = map Some (map (fun i => mode_noise noise4d (nth i ms (mkMode 0 1 1 1 1)) (fst (drawn P (split P kk n0 i)))
          (snd (drawn P (split P kk n0 i))) x y p (IZR e / 3600000000)) (seq (length pre) (length ms1)))).
      { intros n0 pre c1 ms1 En. revert pre c1. induction ms1 as [|m ms1 IH]; intros pre [|h c1] Em E1; try discriminate; [reflexivity|].
        cbn [map reset_from length seq]. injection E1 as Eh1 E1. f_equal.
        - rewrite Em. rewrite app_nth2, Nat.sub_diag by lia. cbn [nth].
          unfold harmonic_noise, harmonic_reset. cbn [generator params]. rewrite Eh1.
          cbn [x_spacing y_spacing pressure_spacing time_spacing]. unfold mode_noise, drawn, hours. cbn [fst snd].
          destruct (Hnz m) as [Nx Ny]. { rewrite Em. apply in_or_app. right. now left. }
          unfold NOISE_MAGNITUDE. cbn [off_x off_y off_pressure off_time]. do 2 f_equal.
          replace (IZR e / 1000000 / 3600) with (IZR e / 3600000000) by lra.
          f_equal; try ring; field; assumption.
        - specialize (IH (pre ++ [m]) c1). rewrite app_length in IH. cbn [length] in IH.
          rewrite Nat.add_1_r in IH. apply IH; [rewrite <- app_assoc; exact Em|exact E1]. }
      apply (Gen (length ms) [] c ms eq_refl eq_refl). rewrite Ec. exact Eh. }
  unfold wind_noise, mode_key, noise_reset. cbn [noise_u noise_v].
  change 5%nat with (length u_modes) at 1. change 5%nat with (length v_modes).
  rewrite (Main u_modes _ cu (split P (split P k 2 0) 2 0) Eu), (Main v_modes _ cv (split P (split P k 2 0) 2 1) Ev);
    try reflexivity; intros m Hm; cbn in Hm; repeat (destruct Hm as [<-|Hm]; [cbn; split; lra|]); destruct Hm.
Qed.
Print Assumptions C36_after_reset.

(** If simplex noise lies in [-1, 1], either component of the noise stays below
    9 m/s; and each is a combination of the modes whose squared coefficients add
    up to one, so it has the variance of a single mode. *)
Lemma shares_facts ms : ms = u_modes \/ ms = v_modes ->
  sum (map share ms) = 1 /\ 0.2225 <= sum (map (fun w => w * w) (map share ms)) /\
  (forall w, In w (map share ms) -> 0 <= w).
Proof.
  intros [-> | ->]; unfold sum; cbn; (split; [lra|]; split; [lra|]);
    intros w Hw; repeat (destruct Hw as [<-|Hw]; [lra|]); destruct Hw.
Qed.
Theorem C36_size (simplex : Z -> R -> R -> R -> R -> R) (ms : list mode) gen (x y p h : R) :
  ms = u_modes \/ ms = v_modes -> (forall s a b c d, Rabs (simplex s a b c d) <= 1) ->
  Rabs (modes_noise simplex ms gen x y p h) < 9.
Proof.
  intros Hm Hs. destruct (shares_facts ms Hm) as (S1 & S2 & S3).
  apply Rle_lt_trans with 8.9999; [|lra]. unfold modes_noise.
  assert (Q : 0 < 1.02 / 0.0569) by lra.
  apply (mixture_bound _ _ (sqrt (1.02 / 0.0569))).
  - now rewrite !map_length, seq_length.
  - exact S3.
  - lra.
  - intros n Hn. apply in_map_iff in Hn. destruct Hn as (i & <- & _). unfold mode_noise.
    rewrite Rabs_mult, (Rabs_right (sqrt _)) by (apply Rle_ge, sqrt_pos).
    rewrite <- (Rmult_1_r (sqrt _)) at 2. apply Rmult_le_compat_l; [apply sqrt_pos|apply Hs].
  - apply sqrt_pos.
  - lra.
  - rewrite sqrt_sqrt, S1 by lra.
    assert (1 / sum (map (fun w => w * w) (map share ms)) <= 1 / 0.2225).
    { unfold Rdiv. rewrite !Rmult_1_l. apply Rinv_le_contravar; lra. }
    apply Rle_trans with (1.02 / 0.0569 * (1 / 0.2225)); [apply Rmult_le_compat_l; lra|lra].
  - rewrite S1. apply Rlt_le, Rdiv_lt_0_compat; lra.
Qed.
Print Assumptions C36_size.
Theorem C36_unit_variance (ms : list mode) : ms = u_modes \/ ms = v_modes ->
  exists cs, (forall simplex gen x y p h, modes_noise simplex ms gen x y p h =
      weighted cs (map (fun i => mode_noise simplex (nth i ms (mkMode 0 1 1 1 1))
                                   (fst (gen i)) (snd (gen i)) x y p h) (seq 0 5))) /\
    length cs = 5%nat /\ sum (map (fun c => c * c) cs) = 1.
Proof.
  intros Hm. destruct (shares_facts ms Hm) as (S1 & S2 & S3).
  destruct (mixture_coefficients (map share ms)) as (cs & Lc & M & V); [lra|lra|].
  exists cs. split; [|split].
  - intros. unfold modes_noise. rewrite M. destruct Hm as [-> | ->]; reflexivity.
  - rewrite Lc. destruct Hm as [-> | ->]; reflexivity.
  - rewrite V, S1. field.
Qed.
Print Assumptions C36_unit_variance.

(** With a generator whose splits never collide, the ten modes and the forecast
    use eleven different keys; but a mode's seed and shifts come from one key. *)
Theorem C36_keys (P : prng) (k : key P) : splits_injectively P ->
  (forall c i c' i', (c < 2)%nat -> (c' < 2)%nat -> (i < 5)%nat -> (i' < 5)%nat ->
     mode_key P k c i = mode_key P k c' i' -> c = c' /\ i = i') /\
  (split P k 2 0 <> split P k 2 1).
Proof.
  intros Hs. split.
  - intros c i c' i' H1 H2 H3 H4 E. unfold mode_key in E.
    destruct (Hs _ _ _ _ _ _ H3 H4 E) as (E1 & _ & ->).
    destruct (Hs _ _ _ _ _ _ H1 H2 E1) as (_ & _ & ->). auto.
  - intro E. destruct (Hs k k 2%nat 2%nat 0%nat 1%nat (ltac:(lia)) (ltac:(lia)) E) as (_ & _ & Q). discriminate.
Qed.
Print Assumptions C36_keys.

(** A generator meeting the hypotheses: keys are derivation paths. *)
Definition path_prng : prng :=
  mkPrng (list (nat * nat)) (fun _ => []) (fun k n i => (n, i) :: k) (fun _ _ => 0%Z)
    (fun _ a _ => a) (fun _ _ _ => 0) (fun _ _ _ => 0) (fun _ _ _ => 0) (fun _ => 1) (fun _ => 1).
Example C36_witness :
  splits_injectively path_prng /\ lawful path_prng /\
  (forall (s : Z) (a b c d : R), Rabs ((fun (_ : Z) (a _ _ _ : R) => sin a) s a b c d) <= 1) /\
  exists w, wind_noise (fun _ a _ _ _ => sin a)
    (noise path_prng _ (wind_reset path_prng (static_field _) (new_wind_field _ _) [] 0)) 1000 2000 9000 60000000
    = Some w /\ Rabs (u w) < 9.
Proof.
  assert (B : forall (s : Z) (a b c d : R), Rabs ((fun (_ : Z) (a _ _ _ : R) => sin a) s a b c d) <= 1).
  { intros. cbn. apply Rabs_le. destruct (SIN_bound a). lra. }
  split; [|split; [|split; [exact B|]]].
  - intros k k' n n' i i' _ _ E. cbn in E. injection E as -> -> ->. auto.
  - constructor; cbn; intros; try lia; lra.
  - destruct (C36_after_reset path_prng (fun _ a _ _ _ => sin a) (static_field _) [] [] 0 1000 2000 9000 60000000)
      as [E _]. eexists. split; [exact E|]. cbn [u].
    exact (C36_size _ u_modes _ _ _ _ _ (or_introl eq_refl) B).
Qed.
