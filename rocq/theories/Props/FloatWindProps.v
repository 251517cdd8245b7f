(** Property C97: where a generated wind field is read, in double and single precision.
    [B2R f] is the real number a finite [f] stands for. *)
From Coq Require Import ZArith Reals Lra Lia Bool List.
From Flocq Require Import Core BinarySingleNaN.
From Verif Require Import Model.Num Model.Float64 Model.WindField Model.FloatWind.
From Verif Require Import Spec.WindSpec Proofs.Float64Proofs Proofs.WindProofs Proofs.FloatWindProofs.
From Verif Require Import Props.FloatProps Props.FloatFeatureProps.
Import ListNotations.
Open Scope R_scope.

(** ** The reflection of time *)
(** For a horizon of whole hours the number of reflections is always the exact one: the
    reflected time lies in the field and is off by 2^-33 hours at the most. *)
Theorem C97_reflection : forall (t : float) (h : Z),
  is_finite t = true -> 0 <= B2R t <= 2 ^ 50 -> (1 <= h <= 2 ^ 20)%Z ->
  exists r exact, boomerang64 t (float_of_Z h) = Some r /\ is_finite r = true /\ 0 <= B2R r <= IZR h /\
    reflected (IZR h) (B2R t) exact /\ Rabs (B2R r - exact) <= / 2 ^ 33.
Proof.
  intros t h Ft Bt Hh. assert (P50 : 2 ^ 50 = bpow radix2 50) by (cbn; lra). rewrite P50 in Bt.
  destruct (of_Z h ltac:(lia)) as [Fh Vh]. assert (Ph : 1 <= IZR h <= 1048576) by (split; apply IZR_le; lia).
  assert (Small : B2R t + IZR h < bpow radix2 53).
  { change (bpow radix2 53) with 9007199254740992. change (bpow radix2 50) with 1125899906842624 in Bt. lra. }
  destruct (quotient_trunc t h Ft (proj1 Bt) (proj1 Hh) Small) as (k & K0 & Ek & B).
  destruct (mod_exact t (float_of_Z h) k Ft Fh ltac:(lra) ltac:(rewrite Vh; lra) ltac:(rewrite Vh; lra)) as (m & Em & Fm & Vm).
  rewrite Vh in Vm. unfold boomerang64. rewrite Ek, Em. rewrite Z.mod_mod by lia.
  assert (Bm : 0 <= B2R m < IZR h) by (rewrite Vm; lra).
  destruct (Z.eqb_spec (k mod 2) 0) as [Ev|Od].
  - exists m, (B2R m). split; [reflexivity|]. split; [exact Fm|]. split; [lra|]. split.
    + split; [lra|]. exists (k / 2)%Z. left. rewrite Vm. rewrite (Z.div_mod k 2) at 1 by lia. rewrite Ev, Z.add_0_r, mult_IZR. ring.
    + unfold Rminus. rewrite Rplus_opp_r, Rabs_R0. left. apply Rinv_0_lt_compat. apply pow_lt. lra.
  - assert (Od' : (k mod 2 = 1)%Z) by (pose proof (Z.mod_pos_bound k 2 ltac:(lia)); lia).
    assert (W : forall f : float, is_finite f = true -> 0 <= B2R f <= IZR h -> within 20 f).
    { intros f Ff Bf. split; [exact Ff|]. change (bpow radix2 20) with 1048576. rewrite Rabs_pos_eq; lra. }
    destruct (within_sub 53 1024 20 (float_of_Z h) m ltac:(lia) (W _ Fh ltac:(rewrite Vh; lra)) (W _ Fm ltac:(lra))) as [[Fd _] Vd].
    rewrite Vh in Vd. exists (Bminus mode_NE (float_of_Z h) m), (IZR h - B2R m).
    split; [reflexivity|]. split; [exact Fd|]. rewrite Vd. split; [|split].
    + pose proof (rnd_mono 53 1024 0 (IZR h - B2R m) ltac:(lra)) as A. pose proof (rnd_mono 53 1024 (IZR h - B2R m) (IZR h) ltac:(lra)) as C.
      unfold Float64Proofs.rnd at 1 in A. rewrite round_0 in A by exact _.
      unfold Float64Proofs.rnd at 2 in C. rewrite round_generic in C by (exact _ || (apply whole_format; lia)). lra.
    + split; [lra|]. exists (k / 2 + 1)%Z. right. rewrite Vm. pose proof (Z.div_mod k 2 ltac:(lia)) as DM. rewrite Od' in DM.
      rewrite DM at 1. rewrite !plus_IZR, mult_IZR. ring.
    + eapply Rle_trans; [apply (rnd_error 53 1024 _ 20); [lia|]|].
      * change (bpow radix2 20) with 1048576. rewrite Rabs_pos_eq; lra.
      * cbn. lra.
Qed.
Print Assumptions C97_reflection.

(** The horizon has to be whole hours.  With one of 60.2 hours, hour 301 should be read almost
    at the end of the field; it is read at its beginning. *)
Definition horizon_60_2 : float := binary_normalize 53 1024 _ _ mode_NE 8472396798990746 (-47) false.
Theorem C97_fraction_refuted : exists (t h r : float) (exact : R),
  is_finite t = true /\ 60 < B2R h < 61 /\ B2R t = 301 /\
  boomerang64 t h = Some r /\ reflected (B2R h) (B2R t) exact /\ B2R r < / 1000 /\ 60 < exact.
Proof.
  exists (float_of_Z 301), horizon_60_2.
  destruct (of_Z 301 ltac:(lia)) as [Ft Vt].
  destruct (value horizon_60_2 _ _ _ ltac:(vm_compute; reflexivity)) as [Fh Vh].
  assert (Eh : B2R horizon_60_2 = 4236198399495373 / 70368744177664).
  { rewrite Vh. unfold F2R. cbn [Fnum Fexp cond_Zopp bpow]. vm_compute Z.pow_pos. lra. }
  destruct (mod_exact (float_of_Z 301) horizon_60_2 4 Ft Fh ltac:(lra) ltac:(lra) ltac:(rewrite Vt, Eh; lra)) as (m & Em & Fm & Vm).
  rewrite Vt, Eh in Vm.
  assert (Ei : py_int (Bdiv mode_NE (float_of_Z 301) horizon_60_2) = Some 5%Z) by (vm_compute; reflexivity).
  assert (W : forall f : float, is_finite f = true -> 0 <= B2R f <= 61 -> within 20 f).
  { intros f Ff Bf. split; [exact Ff|]. change (bpow radix2 20) with 1048576. rewrite Rabs_pos_eq; lra. }
  destruct (within_sub 53 1024 20 horizon_60_2 m ltac:(lia) (W _ Fh ltac:(lra)) (W _ Fm ltac:(lra))) as [_ Vd].
  exists (Bminus mode_NE horizon_60_2 m), (B2R m).
  split; [exact Ft|]. split; [lra|]. split; [exact Vt|]. split.
  { unfold boomerang64. rewrite Ei, Em. reflexivity. }
  split; [split; [lra|exists 2%Z; left; lra]|]. split; [|lra].
  rewrite Vd, Eh, Vm.
  eapply Rle_lt_trans; [|assert (0 < / 2000) as Z by lra; instantiate (1 := / 2000); lra].
  match goal with |- rnd ?r <= _ => assert (Ar : Rabs r <= bpow radix2 (-11)) end.
  { change (bpow radix2 (-11)) with (/ 2048). apply Rabs_le. lra. }
  pose proof (rnd_within 53 1024 _ (-11) ltac:(lia) Ar) as L. change (bpow radix2 (-11)) with (/ 2048) in L.
  apply Rabs_le_inv in L. lra.
Qed.
Print Assumptions C97_fraction_refuted.

(** ** Elapsed time *)
Lemma hours_error (e : Z) : (0 <= e < 2 ^ 53)%Z ->
  is_finite (elapsed_hours e) = true /\ 0 <= B2R (elapsed_hours e) <= 2 ^ 22 /\
  Rabs (B2R (elapsed_hours e) - hours e) <= / 2 ^ 30.
Proof.
  intros He. destruct (of_Z e ltac:(lia)) as [Fe Ve].
  destruct (of_Z 1000000 ltac:(lia)) as [F6 V6]. destruct (of_Z 3600 ltac:(lia)) as [F36 V36].
  assert (Be : 0 <= IZR e <= 9007199254740992) by (split; apply IZR_le; lia).
  pose proof (div_computes 53 1024 _ _ Fe F6 ltac:(rewrite V6; lra)) as C1. rewrite Ve, V6 in C1.
  assert (A1 : Rabs (IZR e / 1000000) <= bpow radix2 34) by (change (bpow radix2 34) with 17179869184; rewrite Rabs_pos_eq; lra).
  destruct (computes_within 53 1024 _ _ 34 ltac:(lia) C1 A1) as [[Fs Ls] Vs].
  pose proof (rnd_error 53 1024 (IZR e / 1000000) 34 ltac:(lia) A1) as E1.
  set (s := Bdiv mode_NE (float_of_Z e) (float_of_Z 1000000)) in *. rewrite <- Vs in E1.
  assert (S0 : 0 <= B2R s).
  { rewrite Vs. pose proof (rnd_mono 53 1024 0 (IZR e / 1000000) ltac:(lra)) as M. unfold Float64Proofs.rnd at 1 in M.
    rewrite round_0 in M by exact _. exact M. }
  assert (E1' : Rabs (B2R s - IZR e / 1000000) <= / 1048576) by (eapply Rle_trans; [exact E1|]; cbn; lra).
  apply Rabs_le_inv in E1'.
  pose proof (div_computes 53 1024 s _ Fs F36 ltac:(rewrite V36; lra)) as C2. rewrite V36 in C2.
  assert (A2 : Rabs (B2R s / 3600) <= bpow radix2 22).
  { change (bpow radix2 22) with 4194304. rewrite Rabs_pos_eq; lra. }
  destruct (computes_within 53 1024 _ _ 22 ltac:(lia) C2 A2) as [[Fh Lh] Vh].
  pose proof (rnd_error 53 1024 (B2R s / 3600) 22 ltac:(lia) A2) as E2.
  change (Bdiv mode_NE s (float_of_Z 3600)) with (elapsed_hours e) in *. rewrite <- Vh in E2.
  split; [exact Fh|]. split.
  - split.
    + rewrite Vh. pose proof (rnd_mono 53 1024 0 (B2R s / 3600) ltac:(lra)) as M. unfold Float64Proofs.rnd at 1 in M.
      rewrite round_0 in M by exact _. exact M.
    + apply Rabs_le_inv in Lh. replace (2 ^ 22) with (bpow radix2 22) by (cbn; lra). lra.
  - assert (E2' : Rabs (B2R (elapsed_hours e) - B2R s / 3600) <= / 4294967296) by (eapply Rle_trans; [exact E2|]; cbn; lra).
    apply Rabs_le_inv in E2'. replace (/ 2 ^ 30) with (/ 1073741824) by (cbn; lra). unfold hours. apply Rabs_le. lra.
Qed.

(** For 285 years of elapsed time the time looked up is that of C34 up to 2^-29 hours. *)
Theorem C97_time : forall h elapsed : Z,
  (1 <= h <= 2 ^ 20)%Z -> (0 <= elapsed < 2 ^ 53)%Z ->
  exists t exact, time_position64 h elapsed = Some t /\ is_finite t = true /\ 0 <= B2R t <= IZR h /\
    reflected (IZR h) (hours elapsed) exact /\ Rabs (B2R t - exact) <= / 2 ^ 29.
Proof.
  intros h e Hh He. destruct (hours_error e He) as (Ft & Bt & Et).
  assert (Ph : 1 <= IZR h) by (apply IZR_le; lia). destruct (of_Z h ltac:(lia)) as [Fh Vh].
  assert (H0 : 0 <= hours e) by (unfold hours; assert (0 <= IZR e) by (apply IZR_le; lia); lra).
  pose proof (boomerang_reflects (hours e) (IZR h) ltac:(lra) H0) as Rx.
  set (exact := boomerang (hours e) (IZR h)) in *.
  assert (G : exists t r, time_position64 h e = Some t /\ is_finite t = true /\ 0 <= B2R t <= IZR h /\
    reflected (IZR h) (B2R (elapsed_hours e)) r /\ Rabs (B2R t - r) <= / 2 ^ 33).
  { unfold time_position64. rewrite ltb_ext by now apply finite_not_nan. rewrite !(ext_finite 53 1024) by assumption. rewrite Vh.
    destruct (Rlt_bool_spec (B2R (elapsed_hours e)) (IZR h)) as [L|L].
    - exists (elapsed_hours e), (B2R (elapsed_hours e)). split; [reflexivity|]. split; [exact Ft|]. split; [lra|]. split.
      + split; [lra|]. exists 0%Z. left. ring.
      + unfold Rminus. rewrite Rplus_opp_r, Rabs_R0. left. apply Rinv_0_lt_compat. apply pow_lt. lra.
    - apply C97_reflection; [exact Ft| |exact Hh]. split; [lra|]. eapply Rle_trans; [apply Bt|]. apply Rle_pow; [lra|lia]. }
  destruct G as (t & r & Et' & Ft' & Bt' & Rr & Er). exists t, exact.
  split; [exact Et'|]. split; [exact Ft'|]. split; [exact Bt'|]. split; [exact Rx|].
  pose proof (reflected_lipschitz (IZR h) _ _ _ _ ltac:(lra) Rx Rr) as L.
  assert (X : Rabs (r - exact) <= / 2 ^ 30).
  { eapply Rle_trans; [exact L|exact Et]. }
  replace (B2R t - exact) with ((B2R t - r) + (r - exact)) by ring. eapply Rle_trans; [apply Rabs_triang|].
  assert (/ 2 ^ 33 + / 2 ^ 30 <= / 2 ^ 29) by (cbn; lra). lra.
Qed.
Print Assumptions C97_time.

(** ** The query point *)
Lemma clip_between (v lo hi : float) : is_nan v = false -> is_finite lo = true -> is_finite hi = true -> B2R lo <= B2R hi ->
  is_nan (clip64 v lo hi) = false /\ Bleb lo (clip64 v lo hi) = true /\ Bleb (clip64 v lo hi) hi = true /\
  is_finite (clip64 v lo hi) = true /\ B2R (clip64 v lo hi) = Rmin (Rmax (ext v) (B2R lo)) (B2R hi).
Proof.
  intros Nv Fl Fh Le. pose proof (finite_not_nan _ Fl) as Nl. pose proof (finite_not_nan _ Fh) as Nh.
  unfold clip64. rewrite !ltb_ext by assumption. rewrite (ext_finite 53 1024 lo Fl), (ext_finite 53 1024 hi Fh).
  destruct (Rlt_bool_spec (ext v) (B2R lo)) as [L|L]; [|destruct (Rlt_bool_spec (B2R hi) (ext v)) as [L'|L']].
  - split; [exact Nl|]. rewrite !leb_ext, !(ext_finite 53 1024) by assumption. rewrite !Rle_bool_true by lra.
    rewrite Rmax_right, Rmin_left by lra. now repeat split.
  - split; [exact Nh|]. rewrite !leb_ext, !(ext_finite 53 1024) by assumption. rewrite !Rle_bool_true by lra.
    rewrite Rmax_left, Rmin_right by lra. now repeat split.
  - split; [exact Nv|]. rewrite !leb_ext by assumption. rewrite (ext_finite 53 1024 lo Fl), (ext_finite 53 1024 hi Fh).
    rewrite !Rle_bool_true by lra.
    assert (Fv : is_finite v = true).
    { apply (finite_of_ext 53 1024); [exact Nv|]. pose proof (finite_lt 53 1024 lo) as A. pose proof (finite_lt 53 1024 hi) as B.
      apply Rabs_def2 in A, B. apply Rabs_def1; lra. }
    rewrite (ext_finite 53 1024 v Fv) in *. rewrite Rmax_left, Rmin_left by lra. now repeat split.
Qed.

Lemma km_not_nan (v : float) : is_nan v = false -> is_nan (Bdiv mode_NE v (float_of_Z 1000)) = false.
Proof.
  intro N. destruct v as [s|s| |s m e H]; try discriminate N; try (destruct s; reflexivity).
  destruct (of_Z 1000 ltac:(lia)) as [F V].
  exact (proj1 (div_computes 53 1024 (B754_finite s m e H) _ eq_refl F ltac:(rewrite V; lra))).
Qed.

(** interpn never finds the point outside the grid, wherever the balloon is: the forecast
    does not raise. *)
Theorem C97_in_grid : forall (s : shape64) (x y : float) (pressures : list float) (elapsed : Z),
  is_finite (displacement_km s) = true -> 0 <= B2R (displacement_km s) ->
  is_finite (min_pressure s) = true -> is_finite (max_pressure s) = true ->
  B2R (min_pressure s) <= B2R (max_pressure s) -> (1 <= horizon_hours s <= 2 ^ 20)%Z ->
  is_nan x = false -> is_nan y = false -> Forall (fun p => is_nan p = false) pressures ->
  (0 <= elapsed < 2 ^ 53)%Z ->
  exists qs, prepare32 s x y pressures elapsed = Some qs /\ length qs = length pressures /\
    Forall (fun q => in_grid32 s q = true) qs.
Proof.
  intros s x y ps e Fd Pd Fl Fu Lu Hh Nx Ny Np He. destruct (C97_time (horizon_hours s) e Hh He) as (t & ex & Et & Ft & Bt & _).
  unfold prepare32. rewrite Et. eexists. split; [reflexivity|]. split; [apply map_length|].
  apply Forall_map. eapply Forall_impl; [|exact Np]. intros p N. unfold in_grid32. cbn [qx qy qp qt].
  assert (Fo : is_finite (Bopp (displacement_km s)) = true) by (rewrite is_finite_Bopp; exact Fd).
  assert (Lo : B2R (Bopp (displacement_km s)) <= B2R (displacement_km s)) by (rewrite B2R_Bopp; lra).
  destruct (clip_between _ _ _ (km_not_nan x Nx) Fo Fd Lo) as (_ & X1 & X2 & _).
  destruct (clip_between _ _ _ (km_not_nan y Ny) Fo Fd Lo) as (_ & Y1 & Y2 & _).
  destruct (clip_between p _ _ N Fl Fu Lu) as (_ & P1 & P2 & _).
  rewrite (proj1 (C96_float32 _ _) X1), (proj1 (C96_float32 _ _) X2), (proj1 (C96_float32 _ _) Y1), (proj1 (C96_float32 _ _) Y2),
    (proj1 (C96_float32 _ _) P1), (proj1 (C96_float32 _ _) P2).
  destruct (of_Z (horizon_hours s) ltac:(lia)) as [Fh Vh].
  assert (T1 : Bleb (float_of_Z 0) t = true).
  { rewrite leb_ext by (reflexivity || now apply finite_not_nan). rewrite (ext_finite 53 1024 t Ft).
    apply Rle_bool_true. change (ext (float_of_Z 0)) with 0. lra. }
  assert (T2 : Bleb t (float_of_Z (horizon_hours s)) = true).
  { rewrite leb_ext by now apply finite_not_nan. rewrite !(ext_finite 53 1024) by assumption. rewrite Vh. apply Rle_bool_true. lra. }
  rewrite (proj1 (C96_float32 _ _) T1), (proj1 (C96_float32 _ _) T2). reflexivity.
Qed.
Print Assumptions C97_in_grid.

Lemma store_error (f : float) (e : Z) : (0 <= e <= 100)%Z -> is_finite f = true -> Rabs (B2R f) <= bpow radix2 e ->
  is_finite (to_float32 f) = true /\ Rabs (B2R (to_float32 f) - B2R f) <= bpow radix2 (e - 25).
Proof.
  intros He F L. destruct (store f (finite_not_nan f F)) as [A E]. rewrite (ext_finite 53 1024 f F) in E.
  pose proof (rnd_within 24 128 (B2R f) e ltac:(lia) L) as W.
  assert (T : bpow radix2 e < bpow radix2 128) by (apply bpow_lt; lia).
  assert (N : near32 (B2R f) = rnd32 (B2R f)).
  { destruct (near_cases 24 128 (B2R f)) as [[_ N]|[[N _]|[N _]]]; [exact N| |]; exfalso; apply Rabs_le_inv in W; lra. }
  rewrite N in E. assert (G : is_finite (to_float32 f) = true).
  { apply (finite_of_ext 24 128); [exact A|]. rewrite E. lra. }
  split; [exact G|]. rewrite (ext_finite 24 128 _ G) in E. rewrite E.
  replace (e - 25)%Z with (e - 24 - 1)%Z by lia. apply (rnd_error 24 128); [lia|exact L].
Qed.

Lemma clip_nearest lo hi r : lo <= hi -> nearest lo hi r (Rmin (Rmax r lo) hi).
Proof.
  intro H. split.
  - split; [apply Rmin_glb; [apply Rmax_r|exact H]|apply Rmin_r].
  - intros d D. apply Rmin_case_strong; intro; revert H0; apply Rmax_case_strong; intros;
      unfold Rabs; repeat match goal with |- context [Rcase_abs ?u] => destruct (Rcase_abs u) end; lra.
Qed.

Lemma near_max a b : near (Rmax a b) = Rmax (near a) (near b).
Proof.
  destruct (Rle_lt_dec a b) as [L|L].
  - pose proof (near_mono 53 1024 _ _ L). rewrite !Rmax_right; (reflexivity || assumption).
  - pose proof (near_mono 53 1024 b a ltac:(lra)). rewrite !Rmax_left; (reflexivity || assumption || lra).
Qed.
Lemma near_min a b : near (Rmin a b) = Rmin (near a) (near b).
Proof.
  destruct (Rle_lt_dec a b) as [L|L].
  - pose proof (near_mono 53 1024 _ _ L). rewrite !Rmin_left; (reflexivity || assumption).
  - pose proof (near_mono 53 1024 b a ltac:(lra)). rewrite !Rmin_right; (reflexivity || assumption || lra).
Qed.

Lemma side_error (v : float) : is_finite v = true ->
  let q := to_float32 (clip64 (Bdiv mode_NE v (float_of_Z 1000)) (Bopp (float_of_Z 500)) (float_of_Z 500)) in
  exists c, nearest (-500) 500 (B2R v / 1000) c /\ is_finite q = true /\ Rabs (B2R q - c) <= / 2 ^ 15.
Proof.
  intro Fv. cbv zeta. destruct (of_Z 1000 ltac:(lia)) as [F V]. destruct (of_Z 500 ltac:(lia)) as [F5 V5].
  assert (Fo : is_finite (Bopp (float_of_Z 500)) = true) by (rewrite is_finite_Bopp; exact F5).
  assert (Vo : B2R (Bopp (float_of_Z 500)) = -500) by (rewrite B2R_Bopp, V5; lra).
  destruct (clip_between _ _ _ (km_not_nan v (finite_not_nan v Fv)) Fo F5 ltac:(rewrite Vo, V5; lra)) as (_ & _ & _ & Fc & Vc).
  rewrite Vo, V5 in Vc.
  pose proof (div_computes 53 1024 v _ Fv F ltac:(rewrite V; lra)) as [_ E]. rewrite V in E. rewrite E in Vc.
  set (c := Rmin (Rmax (B2R v / 1000) (-500)) 500).
  exists c. split; [apply clip_nearest; lra|].
  assert (Bc : -500 <= c <= 500) by (apply (clip_nearest (-500) 500 (B2R v / 1000)); lra).
  assert (N5 : near 500 = 500) by (rewrite <- V5; apply near_of).
  assert (Nm : near (-500) = -500) by (rewrite <- Vo; apply near_of).
  assert (Ac : Rabs c <= bpow radix2 9) by (change (bpow radix2 9) with 512; apply Rabs_le; lra).
  assert (Nc : near c = rnd c).
  { pose proof (rnd_within 53 1024 c 9 ltac:(lia) Ac) as W. assert (T : bpow radix2 9 < bpow radix2 1024) by (apply bpow_lt; lia).
    destruct (near_cases 53 1024 c) as [[_ N]|[[N _]|[N _]]]; [exact N| |]; exfalso; apply Rabs_le_inv in W; lra. }
  assert (Com : Rmin (Rmax (near (B2R v / 1000)) (-500)) 500 = near c).
  { unfold c. rewrite near_min, near_max, N5, Nm. reflexivity. }
  rewrite Com, Nc in Vc.
  destruct (store_error _ 9 ltac:(lia) Fc) as [Fq Eq].
  { rewrite Vc. apply (rnd_within 53 1024); [lia|exact Ac]. }
  split; [exact Fq|]. pose proof (rnd_error 53 1024 c 9 ltac:(lia) Ac) as Er. rewrite <- Vc in Er.
  match goal with |- Rabs (?a - c) <= _ => replace (a - c) with ((a - B2R (clip64 (Bdiv mode_NE v (float_of_Z 1000)) (Bopp (float_of_Z 500)) (float_of_Z 500)))
    + (B2R (clip64 (Bdiv mode_NE v (float_of_Z 1000)) (Bopp (float_of_Z 500)) (float_of_Z 500)) - c)) by ring end.
  eapply Rle_trans; [apply Rabs_triang|].
  assert (bpow radix2 (9 - 25) + bpow radix2 (9 - 53 - 1) <= / 2 ^ 15) by (cbn; lra). lra.
Qed.

(** With the default shape the point is, up to 3 cm, 1/2048 Pa and 14 ms, the one of C35: the
    nearest point of the field, at the reflected time. *)
Theorem C97_point : forall (x y p : float) (elapsed : Z),
  is_finite x = true -> is_finite y = true -> is_finite p = true -> (0 <= elapsed < 2 ^ 53)%Z ->
  exists q cx cy cp ct, prepare32 default_shape64 x y [p] elapsed = Some [q] /\
    nearest (-500) 500 (B2R x / 1000) cx /\ Rabs (B2R (qx q) - cx) <= / 2 ^ 15 /\
    nearest (-500) 500 (B2R y / 1000) cy /\ Rabs (B2R (qy q) - cy) <= / 2 ^ 15 /\
    nearest 5000 14000 (B2R p) cp /\ Rabs (B2R (qp q) - cp) <= / 2 ^ 11 /\
    reflected 48 (hours elapsed) ct /\ Rabs (B2R (qt q) - ct) <= / 2 ^ 18.
Proof.
  intros x y p e Fx Fy Fp He.
  destruct (C97_time 48 e ltac:(lia) He) as (t & ct & Et & Ft & Bt & Rt & At).
  destruct (side_error x Fx) as (cx & Nx & _ & Ax). destruct (side_error y Fy) as (cy & Ny & _ & Ay).
  destruct (of_Z 5000 ltac:(lia)) as [F5 V5]. destruct (of_Z 14000 ltac:(lia)) as [F14 V14].
  destruct (clip_between p _ _ (finite_not_nan p Fp) F5 F14 ltac:(rewrite V5, V14; lra)) as (_ & _ & _ & Fc & Vc).
  rewrite V5, V14, (ext_finite 53 1024 p Fp) in Vc.
  pose proof (clip_nearest 5000 14000 (B2R p) ltac:(lra)) as Np. rewrite <- Vc in Np.
  destruct (store_error _ 14 ltac:(lia) Fc) as [_ Ap].
  { destruct Np as [B _]. change (bpow radix2 14) with 16384. rewrite Rabs_pos_eq; lra. }
  destruct (store_error t 6 ltac:(lia) Ft) as [_ As].
  { change (bpow radix2 6) with 64. rewrite Rabs_pos_eq; lra. }
  unfold prepare32. cbn [default_shape64 horizon_hours displacement_km max_pressure min_pressure].
  rewrite Et. cbn [map]. do 5 eexists. split; [reflexivity|]. cbn [qx qy qp qt].
  split; [exact Nx|]. split; [exact Ax|]. split; [exact Ny|]. split; [exact Ay|].
  split; [exact Np|]. split; [eapply Rle_trans; [exact Ap|]; cbn; lra|]. split; [exact Rt|].
  replace (B2R (to_float32 t) - ct) with ((B2R (to_float32 t) - B2R t) + (B2R t - ct)) by ring.
  eapply Rle_trans; [apply Rabs_triang|].
  assert (bpow radix2 (6 - 25) + / 2 ^ 29 <= / 2 ^ 18) by (cbn; lra). lra.
Qed.
Print Assumptions C97_point.

(** The time at which the field is read never jumps: not at the end of the field either. *)
Theorem C97_no_jump : forall (x y p x' y' p' : float) (e e' : Z) q q',
  is_finite x = true -> is_finite y = true -> is_finite p = true -> (0 <= e < 2 ^ 53)%Z ->
  is_finite x' = true -> is_finite y' = true -> is_finite p' = true -> (0 <= e' < 2 ^ 53)%Z ->
  prepare32 default_shape64 x y [p] e = Some [q] -> prepare32 default_shape64 x' y' [p'] e' = Some [q'] ->
  Rabs (B2R (qt q') - B2R (qt q)) <= Rabs (hours e' - hours e) + / 2 ^ 17.
Proof.
  intros x y p x' y' p' e e' q q' Fx Fy Fp He Fx' Fy' Fp' He' E E'.
  destruct (C97_point x y p e Fx Fy Fp He) as (q1 & _ & _ & _ & c & E1 & _ & _ & _ & _ & _ & _ & R & A).
  destruct (C97_point x' y' p' e' Fx' Fy' Fp' He') as (q2 & _ & _ & _ & c' & E2 & _ & _ & _ & _ & _ & _ & R' & A').
  rewrite E in E1. apply some_eq in E1. rewrite E' in E2. apply some_eq in E2.
  assert (Q1 : q = q1) by (change q with (hd q [q]); rewrite E1; reflexivity).
  assert (Q2 : q' = q2) by (change q' with (hd q' [q']); rewrite E2; reflexivity).
  rewrite <- Q1 in A. rewrite <- Q2 in A'.
  pose proof (reflected_lipschitz 48 _ _ _ _ ltac:(lra) R R') as L.
  replace (B2R (qt q') - B2R (qt q)) with ((B2R (qt q') - c') + ((c' - c) + - (B2R (qt q) - c))) by ring.
  eapply Rle_trans; [apply Rabs_triang|]. pose proof (Rabs_triang (c' - c) (- (B2R (qt q) - c))) as T.
  rewrite Rabs_Ropp in T. assert (/ 2 ^ 17 = 2 * / 2 ^ 18) by (cbn; lra). lra.
Qed.
Print Assumptions C97_no_jump.

(** Witness: 600 km east, 1 km south, at 70 hours: read at the eastern edge and at hour 26. *)
Example C97_witness :
  option_map (map (fun q => [B2SF (qx q); B2SF (qy q); B2SF (qp q); B2SF (qt q)]))
    (prepare32 default_shape64 (float_of_Z 600000) (float_of_Z (-1000)) [float_of_Z 4000; float_of_Z 9000]
       (70 * 3600 * 1000000))
  = Some [[SpecFloat.S754_finite false 16384000 (-15); SpecFloat.S754_finite true 8388608 (-23);
           SpecFloat.S754_finite false 10240000 (-11); SpecFloat.S754_finite false 13631488 (-19)];
          [SpecFloat.S754_finite false 16384000 (-15); SpecFloat.S754_finite true 8388608 (-23);
           SpecFloat.S754_finite false 9216000 (-10); SpecFloat.S754_finite false 13631488 (-19)]].
Proof. vm_compute. reflexivity. Qed.
