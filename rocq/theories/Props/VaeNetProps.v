(** Property C78 (the wind VAE's networks), and more of C57 and C59. *)
From Coq Require Import ZArith Reals List Bool Lia Lra Psatz.
From Verif Require Import Model.Num Model.WindField Model.Vae.
From Verif Require Import Spec.VaeSpec.
From Verif Require Import Proofs.NumR Proofs.VaeProofs Proofs.VaeNetProofs Props.VaeProps.
Import ListNotations.
Open Scope R_scope.

(** ** Sizes *)
(** The default field has 21 * 21 * 10 * 9 grid points with two components each; the
    decoder's perceptron has 7 * 7 * 10 * 9 outputs. *)
Theorem C57_sizes :
  Z.of_nat (num_grid_points default_shape) = 39690%Z /\
  Z.of_nat (output_length default_shape) = 79380%Z /\
  Z.of_nat (num_flow_field_units default_shape) = 4410%Z.
Proof.
  unfold output_length, num_flow_field_units, num_grid_points, num_flow_fields, FLOW_FIELD_WIDTH.
  cbn [latlng_slices pressure_slices time_slices default_shape]. rewrite !Nat2Z.inj_mul. repeat split.
Qed.
(** For every shape, each output of the perceptron is one value of one 7 by 7 stream
    function, and each value is one of the outputs. *)
Theorem C57_units : forall s,
  (forall q, (q < num_flow_field_units s)%nat -> exists a b p t,
     (a < 7)%nat /\ (b < 7)%nat /\ (p < pressure_slices s)%nat /\ (t < time_slices s)%nat /\
     forall z, flow_fields s z a b (p * time_slices s + t) = z q) /\
  (forall a b p t, (a < 7)%nat -> (b < 7)%nat -> (p < pressure_slices s)%nat -> (t < time_slices s)%nat ->
     exists q, (q < num_flow_field_units s)%nat /\ forall z, flow_fields s z a b (p * time_slices s + t) = z q).
Proof.
  intro s. split.
  - intros q H. unfold num_flow_field_units, FLOW_FIELD_WIDTH in H.
    assert (T : (0 < time_slices s)%nat) by (unfold num_flow_fields in H; nia).
    assert (F : (0 < num_flow_fields s)%nat) by nia.
    set (k := (q mod num_flow_fields s)%nat). set (ab := (q / num_flow_fields s)%nat).
    assert (Hk : (k < num_flow_fields s)%nat) by (apply Nat.mod_upper_bound; lia).
    assert (Hab : (ab < 49)%nat) by (apply Nat.div_lt_upper_bound; lia).
    assert (Eq : q = (ab * num_flow_fields s + k)%nat).
    { pose proof (Nat.div_mod q (num_flow_fields s) ltac:(lia)) as D. fold k ab in D. lia. }
    pose proof (Nat.div_mod ab 7 ltac:(lia)) as D7. pose proof (Nat.mod_upper_bound ab 7 ltac:(lia)) as M7.
    pose proof (Nat.div_mod k (time_slices s) ltac:(lia)) as Dk.
    pose proof (Nat.mod_upper_bound k (time_slices s) ltac:(lia)) as Mk.
    exists (ab / 7)%nat, (ab mod 7)%nat, (k / time_slices s)%nat, (k mod time_slices s)%nat.
    split; [lia|]. split; [lia|].
    split; [apply Nat.div_lt_upper_bound; [lia|]; unfold num_flow_fields in Hk; lia|]. split; [exact Mk|].
    intro z. unfold flow_fields, FLOW_FIELD_WIDTH. f_equal.
    replace (k / time_slices s * time_slices s + k mod time_slices s)%nat with k by lia.
    replace (ab / 7 * 7 + ab mod 7)%nat with ab by lia. lia.
  - intros a b p t Ha Hb Hp Ht. eexists. split; [|intro z; unfold flow_fields; reflexivity].
    unfold num_flow_field_units, num_flow_fields, FLOW_FIELD_WIDTH.
    assert (p * time_slices s + t < pressure_slices s * time_slices s)%nat by nia. nia.
Qed.

(** ** The networks *)
(** Output [q] of the decoder's perceptron: three rectified hidden layers of 1000 units,
    and a layer of weighted sums. *)
Theorem C78_decoder_network : forall d1 d2 d3 d latents z q,
  let weight k i j := kernel (nth k [d1; d2; d3] d) i j in
  let offset k j := bias (nth k [d1; d2; d3] d) j in
  decoder_mlp (mkParams [d1; d2; d3] d) latents z q
  = bias d q + weighted 1000 (fun i => kernel d i q) (unit_value weight offset latents z 3).
Proof.
  intros d1 d2 d3 d latents z q weight offset. unfold decoder_mlp. cbn [hidden output_layer].
  destruct (hidden_value [d1; d2; d3] [] [d1; d2; d3] d latents z eq_refl latents z eq_refl (fun j => eq_refl)) as (W & V).
  destruct (hidden_layers [d1; d2; d3] latents 1000 z) as (m, h). cbn [fst snd] in W, V.
  rewrite dense_weighted. f_equal. subst m. cbn [length layer_width]. apply weighted_ext. intro i. exact (V i).
Qed.
(** The encoder: every component of the field, x, enters as x / (50 + |x|); component
    [q] of the mean and of the logarithm of the variance. *)
Theorem C78_encoder_network : forall s d1 d2 d3 dm dv fd q,
  let weight k i j := kernel (nth k [d1; d2; d3] dm) i j in
  let offset k j := bias (nth k [d1; d2; d3] dm) j in
  let input i := ravel s fd i / (50 + Rabs (ravel s fd i)) in
  let units := unit_value weight offset (output_length s) input 3 in
  let out := encode s (mkEncParams [d1; d2; d3] dm dv) fd in
  fst out q = bias dm q + weighted 1000 (fun i => kernel dm i q) units /\
  snd out q = bias dv q + weighted 1000 (fun i => kernel dv i q) units.
Proof.
  intros s d1 d2 d3 dm dv fd q weight offset input units out.
  assert (SQ : forall x, squash x 50 = x / (50 + Rabs x)).
  { intro x. unfold squash, sign. f_equal. destruct (Rltb_spec 0 x); [rewrite Rabs_right by lra; lra|].
    destruct (Rltb_spec x 0); [rewrite Rabs_left by lra; lra|]. rewrite Rabs_right by lra. lra. }
  subst out. unfold encode. cbn [enc_hidden mean_layer logvar_layer].
  destruct (hidden_value [d1; d2; d3] [] [d1; d2; d3] dm (output_length s) input eq_refl (output_length s)
    (fun i => squash (ravel s fd i) 50) eq_refl (fun j => SQ _)) as (W & V).
  destruct (hidden_layers [d1; d2; d3] (output_length s) 1000 (fun i => squash (ravel s fd i) 50)) as (m, h).
  cbn [fst snd] in W, V |- *. rewrite !dense_weighted. subst m. cbn [length layer_width].
  split; f_equal; apply weighted_ext; intro i; exact (V i).
Qed.
(** The encoder reads every component of every grid point. *)
Theorem C78_encoder_reads : forall s fd,
  (forall i j p t, (i < latlng_slices s)%nat -> (j < latlng_slices s)%nat ->
     (p < pressure_slices s)%nat -> (t < time_slices s)%nat ->
     exists q, (S q < output_length s)%nat /\ ravel s fd q = u (fd i j p t) /\ ravel s fd (S q) = v (fd i j p t)) /\
  (forall q, (q < output_length s)%nat -> exists i j p t,
     (i < latlng_slices s)%nat /\ (j < latlng_slices s)%nat /\ (p < pressure_slices s)%nat /\ (t < time_slices s)%nat /\
     (ravel s fd q = u (fd i j p t) \/ ravel s fd q = v (fd i j p t))).
Proof.
  intros s fd. set (L := latlng_slices s). set (P := pressure_slices s). set (T := time_slices s). split.
  - intros i j p t Hi Hj Hp Ht.
    assert (DM : forall a n b, (b < n)%nat -> ((a * n + b) / n = a /\ (a * n + b) mod n = b)%nat).
    { intros a n b Hb. split.
      - symmetry. apply (Nat.div_unique (a * n + b) n a b); lia.
      - symmetry. apply (Nat.mod_unique (a * n + b) n a b); lia. }
    set (n3 := (i * L + j)%nat). set (n2 := (n3 * P + p)%nat). set (n1 := (n2 * T + t)%nat).
    destruct (DM i L j Hj) as (A1 & A2). destruct (DM n3 P p Hp) as (A3 & A4). destruct (DM n2 T t Ht) as (A5 & A6).
    destruct (DM n1 2%nat 0%nat ltac:(lia)) as (A7 & A8). destruct (DM n1 2%nat 1%nat ltac:(lia)) as (A9 & A10).
    exists (n1 * 2)%nat. fold n3 in A1, A2. fold n2 in A3, A4. fold n1 in A5, A6. rewrite Nat.add_0_r in A7, A8.
    replace (S (n1 * 2)) with (n1 * 2 + 1)%nat by lia. split.
    + unfold output_length, num_grid_points. fold L P T.
      assert (n3 < L * L)%nat by (unfold n3; nia). assert (n2 < L * L * P)%nat by (unfold n2; nia).
      assert (n1 < L * L * P * T)%nat by (unfold n1; nia). lia.
    + unfold ravel. fold L P T. rewrite A7, A8, A9, A10, A5, A6, A3, A4, A1, A2. now split.
  - intros q Hq. unfold output_length, num_grid_points in Hq. fold L P T in Hq.
    assert (T0 : (0 < T)%nat) by nia. assert (P0 : (0 < P)%nat) by nia. assert (L0 : (0 < L)%nat) by nia.
    unfold ravel. fold L P T. set (q1 := (q / 2)%nat). set (q2 := (q1 / T)%nat). set (q3 := (q2 / P)%nat).
    exists (q3 / L)%nat, (q3 mod L)%nat, (q2 mod P)%nat, (q1 mod T)%nat.
    split.
    { unfold q3, q2, q1. rewrite !Nat.div_div by lia. apply Nat.div_lt_upper_bound; [nia|]. nia. }
    split; [apply Nat.mod_upper_bound; lia|]. split; [apply Nat.mod_upper_bound; lia|].
    split; [apply Nat.mod_upper_bound; lia|]. destruct (_ =? _)%nat; auto.
Qed.

(** ** Stability *)
(** For given parameters, the generated wind depends on the latents at most
    proportionally: latents that differ by at most [c] give winds that differ by at most
    [k * c] at every grid point. *)
Theorem C78_generator_stable : forall ps latents, exists k, forall z z' c,
  (forall i, (i < latents)%nat -> Rabs (z i - z' i) <= c) -> 0 <= c ->
  forall i j p t, (i < 21)%nat -> (j < 21)%nat -> (p < 10)%nat -> (t < 9)%nat ->
  let w := decode default_shape ps latents z i j p t in
  let w' := decode default_shape ps latents z' i j p t in
  Rabs (u w - u w') <= k * c /\ Rabs (v w - v w') <= k * c.
Proof.
  intros ps latents. destruct (hidden_lipschitz (hidden ps) 1000 latents) as (k & Hk & L).
  set (n := match hidden ps with [] => latents | _ => 1000%nat end).
  set (g := gain (output_layer ps) n (num_flow_field_units default_shape)).
  exists (g * k). intros z z' c H Hc i j p t Hi Hj Hp Ht. cbv zeta. unfold decode.
  assert (S5 : (5 <= latlng_slices default_shape)%nat) by (cbn [latlng_slices default_shape]; lia).
  refine (decode_output_lipschitz default_shape (decoder_mlp ps latents z) (decoder_mlp ps latents z') (g * k * c) S5 _ i j p t Hi Hj Hp Ht).
  intros q Hq. specialize (L z z' c Hc H). unfold decoder_mlp.
  pose proof (hidden_width (hidden ps) latents 1000 z) as Wz. pose proof (hidden_width (hidden ps) latents 1000 z') as Wz'.
  fold n in Wz, Wz'.
  destruct (hidden_layers (hidden ps) latents 1000 z) as (m, h), (hidden_layers (hidden ps) latents 1000 z') as (m', h').
  cbn [fst snd] in *. subst m m'. rewrite Rmult_assoc. apply dense_lipschitz; [exact Hq|now apply Rmult_le_pos|exact L].
Qed.
(** For given parameters, the encoder's mean and the logarithm of its variance are
    bounded, however strong the winds of the field are. *)
Theorem C78_encoder_bounded : forall s ps latents, exists b, forall fd i, (i < latents)%nat ->
  Rabs (fst (encode s ps fd) i) <= b /\ Rabs (snd (encode s ps fd) i) <= b.
Proof.
  intros s ps latents. destruct (hidden_bound (enc_hidden ps) 1000 (output_length s)) as (k & Hk & L).
  set (n := match enc_hidden ps with [] => output_length s | _ => 1000%nat end).
  destruct (dense_bound (mean_layer ps) n latents) as (k1 & H1 & D1).
  destruct (dense_bound (logvar_layer ps) n latents) as (k2 & H2 & D2).
  set (e := k * (1 + 1) + 1). assert (He : 0 <= e) by (unfold e; lra).
  exists (k1 * e + k2 * e). intros fd i Hi.
  pose proof (Rmult_le_pos _ _ H1 He). pose proof (Rmult_le_pos _ _ H2 He).
  assert (Hsq : forall q, (q < output_length s)%nat -> Rabs (squash (ravel s fd q) 50) <= 1).
  { intros q _. left. apply C59_squash. lra. }
  specialize (L (fun q => squash (ravel s fd q) 50) 1 ltac:(lra) Hsq). unfold encode.
  pose proof (hidden_width (enc_hidden ps) (output_length s) 1000 (fun q => squash (ravel s fd q) 50)) as W. fold n in W.
  destruct (hidden_layers (enc_hidden ps) (output_length s) 1000 (fun q => squash (ravel s fd q) 50)) as (m, h).
  cbn [fst snd] in *. subst m.
  assert (P0 : 0 <= k * (1 + 1)) by lra.
  pose proof (D1 h _ i Hi P0 L) as B1. pose proof (D2 h _ i Hi P0 L) as B2. fold e in B1, B2. lra.
Qed.
(** The two together: for given parameters and given noise, the reconstructed winds of
    all fields lie within one bound. *)
Theorem C78_reconstruction_bounded : forall es ds reparameterize_latents eps, exists b, forall fd i j p t,
  (i < 21)%nat -> (j < 21)%nat -> (p < 10)%nat -> (t < 9)%nat ->
  let w := vae_call default_shape es ds reparameterize_latents eps fd i j p t in
  Rabs (u w) <= b /\ Rabs (v w) <= b.
Proof.
  intros es ds r eps. destruct (C78_encoder_bounded default_shape es 64) as (b0 & E).
  destruct (C78_generator_stable ds 64) as (k & G).
  set (zero := fun _ : nat => 0). set (spread := sumn 64 (fun i => Rabs (eps i))).
  assert (Sp : forall i, (i < 64)%nat -> Rabs (eps i) <= spread).
  { intros i Hi. apply (sumn_ge_term 64 (fun i => Rabs (eps i))); [intros; apply Rabs_pos|exact Hi]. }
  assert (B0 : 0 <= b0).
  { destruct (E (fun _ _ _ _ => mkWind 0 0) 0%nat ltac:(lia)) as (B & _).
    eapply Rle_trans; [apply Rabs_pos|exact B]. }
  assert (S0 : 0 <= spread) by (apply sumn_nonneg; intros; apply Rabs_pos).
  set (c := b0 + spread * exp (/ 2 * b0)).
  assert (C0 : 0 <= c). { pose proof (Rmult_le_pos _ _ S0 (Rlt_le _ _ (exp_pos (/ 2 * b0)))). unfold c. lra. }
  set (m := sumn 21 (fun i => sumn 21 (fun j => sumn 10 (fun p => sumn 9 (fun t =>
    Rabs (u (decode default_shape ds 64 zero i j p t)) + Rabs (v (decode default_shape ds 64 zero i j p t))))))).
  exists (m + k * c). intros fd i j p t Hi Hj Hp Ht. cbv zeta. unfold vae_call.
  assert (Ef : forall i, (i < 64)%nat -> Rabs (fst (encode default_shape es fd) i) <= b0 /\
                                       Rabs (snd (encode default_shape es fd) i) <= b0) by (apply E).
  destruct (encode default_shape es fd) as (mean, logvar). cbn [fst snd] in Ef.
  set (z := if r then reparameterize eps mean logvar else mean).
  assert (Z : forall i, (i < 64)%nat -> Rabs (z i - zero i) <= c).
  { intros l Hl. unfold zero. rewrite Rminus_0_r. destruct (Ef l Hl) as (M & V). unfold z. destruct r.
    - unfold reparameterize. eapply Rle_trans; [apply Rabs_triang|]. apply Rplus_le_compat; [exact M|].
      rewrite Rabs_mult, (Rabs_right (exp _)) by (left; apply exp_pos).
      apply Rmult_le_compat; [apply Rabs_pos|left; apply exp_pos|now apply Sp|].
      destruct (Rle_lt_or_eq_dec (/ 2 * logvar l) (/ 2 * b0)) as [Lt|Eq].
      { pose proof (Rle_abs (logvar l)). lra. }
      { left. now apply exp_increasing. }
      { rewrite Eq. lra. }
    - pose proof (Rmult_le_pos _ _ S0 (Rlt_le _ _ (exp_pos (/ 2 * b0)))). unfold c. lra. }
  destruct (G z zero c Z C0 i j p t Hi Hj Hp Ht) as (Gu & Gv). cbv zeta in Gu, Gv.
  assert (M : Rabs (u (decode default_shape ds 64 zero i j p t)) + Rabs (v (decode default_shape ds 64 zero i j p t)) <= m).
  { set (f := fun i j p t => Rabs (u (decode default_shape ds 64 zero i j p t)) + Rabs (v (decode default_shape ds 64 zero i j p t))).
    change (f i j p t <= sumn 21 (fun i => sumn 21 (fun j => sumn 10 (fun p => sumn 9 (fun t => f i j p t))))).
    assert (F : forall i j p t, 0 <= f i j p t).
    { intros. unfold f. pose proof (Rabs_pos (u (decode default_shape ds 64 zero i0 j0 p0 t0))).
      pose proof (Rabs_pos (v (decode default_shape ds 64 zero i0 j0 p0 t0))). lra. }
    clearbody f.
    apply Rle_trans with (sumn 9 (fun t => f i j p t)).
    { apply (sumn_ge_term 9 (fun t => f i j p t)); [intros; apply F|exact Ht]. }
    apply Rle_trans with (sumn 10 (fun p => sumn 9 (fun t => f i j p t))).
    { apply (sumn_ge_term 10 (fun p => sumn 9 (fun t => f i j p t))); [intros; apply sumn_nonneg; intros; apply F|exact Hp]. }
    apply Rle_trans with (sumn 21 (fun j => sumn 10 (fun p => sumn 9 (fun t => f i j p t)))).
    { apply (sumn_ge_term 21 (fun j => sumn 10 (fun p => sumn 9 (fun t => f i j p t))));
        [intros; repeat (apply sumn_nonneg; intros); apply F|exact Hj]. }
    apply (sumn_ge_term 21 (fun i => sumn 21 (fun j => sumn 10 (fun p => sumn 9 (fun t => f i j p t)))));
      [intros; repeat (apply sumn_nonneg; intros); apply F|exact Hi]. }
  set (w := decode default_shape ds 64 z i j p t) in *. set (w0 := decode default_shape ds 64 zero i j p t) in *.
  clearbody w w0 m.
  pose proof (Rabs_pos (u w0)). pose proof (Rabs_pos (v w0)).
  pose proof (Rabs_triang (u w - u w0) (u w0)). pose proof (Rabs_triang (v w - v w0) (v w0)).
  replace (u w - u w0 + u w0) with (u w) in * by ring. replace (v w - v w0 + v w0) with (v w) in * by ring. lra.
Qed.

(** ** The latents and the speeds *)
(** The latents drawn with normal samples [eps]: deviation from the mean, in units of a
    standard deviation whose square is the variance. *)
Theorem C59_latents : forall eps mean logvar i, exists std,
  0 < std /\ std ^ 2 = exp (logvar i) /\ (reparameterize eps mean logvar i - mean i) / std = eps i.
Proof.
  intros eps mean logvar i. exists (exp (/ 2 * logvar i)). pose proof (exp_pos (/ 2 * logvar i)) as P.
  split; [exact P|]. split; [|unfold reparameterize; field; lra].
  replace (logvar i) with (/ 2 * logvar i + / 2 * logvar i) at 2 by lra. rewrite exp_plus. ring.
Qed.
(** The reported speed is the length of the wind vector; the reported mean is the mean
    over all grid points. *)
Theorem C59_speed : forall w, 0 <= wind_speed w /\ wind_speed w ^ 2 = u w ^ 2 + v w ^ 2.
Proof.
  intro w. unfold wind_speed. split; [apply sqrt_pos|].
  replace (u w ^ 2 + v w ^ 2) with (u w * u w + v w * v w) by ring. apply pow2_sqrt. nra.
Qed.
Definition grid_points : list (nat * nat * nat * nat) :=
  list_prod (list_prod (list_prod (seq 0 21) (seq 0 21)) (seq 0 10)) (seq 0 9).
Lemma total_concat {A} (f : A -> list R) l : total (concat (map f l)) = total (map (fun x => total (f x)) l).
Proof. induction l; cbn [map concat]; [reflexivity|]. rewrite total_app, IHl. reflexivity. Qed.
Lemma total_prod {A B} (f : A -> B -> R) la lb :
  total (map (fun x => f (fst x) (snd x)) (list_prod la lb)) = total (map (fun a => total (map (f a) lb)) la).
Proof.
  induction la; cbn [list_prod map]; [reflexivity|]. rewrite map_app, total_app, IHla, map_map. reflexivity.
Qed.
Theorem C59_mean_speed : forall fd,
  mean_speed default_shape fd * 39690 =
    total (map (fun x => let '(i, j, p, t) := x in wind_speed (fd i j p t)) grid_points) /\
  (forall lo hi, (forall i j p t, (i < 21)%nat -> (j < 21)%nat -> (p < 10)%nat -> (t < 9)%nat ->
     lo <= wind_speed (fd i j p t) <= hi) -> lo <= mean_speed default_shape fd <= hi).
Proof.
  intro fd.
  assert (N : INR (num_grid_points default_shape) = 39690).
  { rewrite INR_IZR_INZ. destruct C57_sizes as (E & _). now rewrite E. }
  unfold mean_speed. rewrite N. cbn [latlng_slices pressure_slices time_slices default_shape].
  set (f := fun i j p t => wind_speed (fd i j p t)). split.
  - unfold Rdiv. rewrite Rmult_assoc, Rinv_l, Rmult_1_r by lra. unfold grid_points.
    transitivity (total (map (fun i => total (map (fun j => total (map (fun p => total (map (fun t => f i j p t)
      (seq 0 9))) (seq 0 10))) (seq 0 21))) (seq 0 21))).
    { rewrite sumn_total. apply total_map_ext. intros i _. rewrite sumn_total. apply total_map_ext. intros j _.
      rewrite sumn_total. apply total_map_ext. intros p _. rewrite sumn_total. reflexivity. }
    symmetry.
    rewrite (total_map_ext _ (fun x => (fun ijp t => f (fst (fst ijp)) (snd (fst ijp)) (snd ijp) t) (fst x) (snd x)))
      by (intros [[[i j] p] t] _; reflexivity).
    rewrite (total_prod (fun ijp t => f (fst (fst ijp)) (snd (fst ijp)) (snd ijp) t)).
    rewrite (total_prod (fun ij p => total (map (fun t => f (fst ij) (snd ij) p t) (seq 0 9)))).
    rewrite (total_prod (fun i j => total (map (fun p => total (map (fun t => f i j p t) (seq 0 9))) (seq 0 10)))).
    reflexivity.
  - intros lo hi H.
    assert (C : forall c, sumn 21 (fun _ => sumn 21 (fun _ => sumn 10 (fun _ => sumn 9 (fun _ => c)))) = 39690 * c).
    { intro c. rewrite !sumn_const, !INR_IZR_INZ. cbn [Z.of_nat Pos.of_succ_nat Pos.succ]. lra. }
    assert (Lo : 39690 * lo <= sumn 21 (fun i => sumn 21 (fun j => sumn 10 (fun p => sumn 9 (fun t => f i j p t))))).
    { rewrite <- C. repeat (apply sumn_le; intros). now apply H. }
    assert (Hi : sumn 21 (fun i => sumn 21 (fun j => sumn 10 (fun p => sumn 9 (fun t => f i j p t)))) <= 39690 * hi).
    { rewrite <- C. repeat (apply sumn_le; intros). now apply H. }
    unfold f in *. lra.
Qed.

(** A concrete decoder: one latent is copied through the three hidden layers and becomes
    the stream function's slope. *)
Definition copy_dense : dense := mkDense (fun i j => if (i =? 0)%nat && (j =? 0)%nat then 1 else 0) (fun _ => 0).
Example C78_witness : forall z, 0 <= z 0%nat ->
  decoder_mlp (mkParams [copy_dense; copy_dense; copy_dense] copy_dense) 64 z 0 = z 0%nat.
Proof.
  intros z Hz.
  assert (S0 : forall n x, (0 < n)%nat -> sumn n (fun i => x i * kernel copy_dense i 0) = x 0%nat).
  { intros n x. induction n as [|[|n] IH]; [lia| |]; intro Hn; cbn [sumn].
    - cbn [kernel copy_dense Nat.eqb andb]. lra.
    - cbn [sumn] in IH. rewrite IH by lia. cbn [kernel copy_dense Nat.eqb andb]. lra. }
  unfold decoder_mlp. cbn [hidden hidden_layers output_layer]. unfold apply_dense at 1.
  rewrite S0 by lia. unfold apply_dense at 1. rewrite S0 by lia. unfold apply_dense at 1. rewrite S0 by lia.
  unfold apply_dense at 1. rewrite S0 by lia. cbn [bias copy_dense]. unfold relu.
  rewrite !Rplus_0_r, !(Rmax_left (z 0%nat)) by exact Hz. reflexivity.
Qed.

Print Assumptions C57_sizes.
Print Assumptions C57_units.
Print Assumptions C78_decoder_network.
Print Assumptions C78_encoder_network.
Print Assumptions C78_encoder_reads.
Print Assumptions C78_generator_stable.
Print Assumptions C78_encoder_bounded.
Print Assumptions C78_reconstruction_bounded.
Print Assumptions C59_latents.
Print Assumptions C59_speed.
Print Assumptions C59_mean_speed.
