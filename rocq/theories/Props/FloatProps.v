(** Property C95: the simulator in IEEE double precision.  The theorems are about the same
    functions as C07, C08, C12 and C14 (Model/Balloon.v), here run with binary64 numbers:
    rounded operations, infinities and NaN.  [B2R f] is the real number a finite [f] stands
    for. *)
From Coq Require Import ZArith Reals Lra Lia Bool List.
From Flocq Require Import Core BinarySingleNaN.
From RecordUpdate Require Import RecordSet.
From Verif Require Import Model.Num Model.Float64 Model.Safety Model.Acs Model.Balloon.
From Verif Require Import Spec.Flight Proofs.BalloonProofs Proofs.Float64Proofs.
Import ListNotations RecordSetNotations.
Open Scope R_scope.

Notation ext := (ext 53 1024).
Notation rnd := (rnd 53 1024).
Notation near := (near 53 1024).
Notation within := (within 53 1024).
Notation computes := (computes 53 1024).

Lemma nan_is (f : float) : is_nan f = true -> f = B754_nan.
Proof. destruct f; try discriminate. reflexivity. Qed.
Lemma finite_not_nan (f : float) : is_finite f = true -> is_nan f = false.
Proof. destruct f; try reflexivity; discriminate. Qed.
Lemma ltb_ext (f g : float) : is_nan f = false -> is_nan g = false -> Bltb f g = Rlt_bool (ext f) (ext g).
Proof. exact (lt_ext 53 1024 f g). Qed.
Lemma leb_ext (f g : float) : is_nan f = false -> is_nan g = false -> Bleb f g = Rle_bool (ext f) (ext g).
Proof. exact (le_ext 53 1024 f g). Qed.
Lemma not_nan_of_le (f g : float) : Bleb f g = true -> is_nan f = false /\ is_nan g = false.
Proof.
  intro H. split.
  - destruct (is_nan f) eqn:E; [|reflexivity]. rewrite (nan_is _ E), le_nan_l in H. discriminate.
  - destruct (is_nan g) eqn:E; [|reflexivity]. rewrite (nan_is _ E), le_nan_r in H. discriminate.
Qed.
Lemma not_nan_of_lt (f g : float) : Bltb f g = true -> is_nan f = false /\ is_nan g = false.
Proof.
  intro H. split.
  - destruct (is_nan f) eqn:E; [|reflexivity]. rewrite (nan_is _ E), lt_nan_l in H. discriminate.
  - destruct (is_nan g) eqn:E; [|reflexivity]. rewrite (nan_is _ E), lt_nan_r in H. discriminate.
Qed.

(** Integers up to 2^53 are numbers of the format. *)
Lemma of_Z (z : Z) : (Z.abs z < 2 ^ 53)%Z ->
  is_finite (float_of_Z z) = true /\ B2R (float_of_Z z) = IZR z.
Proof.
  intro L. pose proof (binary_normalize_correct 53 1024 _ _ mode_NE z 0 false) as C. cbv zeta in C.
  assert (E : F2R (Float radix2 z 0) = IZR z) by (unfold F2R; cbn; ring).
  rewrite E in C. fold (float_of_Z z) in C. cbn [round_mode] in C.
  assert (A : Rabs (IZR z) < bpow radix2 53).
  { rewrite <- abs_IZR. change (bpow radix2 53) with (IZR (2 ^ 53)). now apply IZR_lt. }
  rewrite round_generic in C.
  - rewrite Rlt_bool_true in C; [tauto|]. eapply Rlt_trans; [exact A|]. apply bpow_lt. lia.
  - exact _.
  - rewrite <- E. apply generic_format_F2R. intros NZ. unfold cexp. rewrite E.
    assert (M : (mag radix2 (IZR z) <= 53)%Z).
    { apply mag_le_bpow; [now apply IZR_neq|exact A]. }
    unfold SpecFloat.fexp, SpecFloat.emin. lia.
Qed.
Lemma of_Z_sign (z : Z) : (0 <= z)%Z -> is_nan (float_of_Z z) = false /\ Bsign (float_of_Z z) = false.
Proof.
  intro L. pose proof (binary_normalize_correct 53 1024 _ _ mode_NE z 0 false) as C. cbv zeta in C.
  assert (E : F2R (Float radix2 z 0) = IZR z) by (unfold F2R; cbn; ring).
  rewrite E in C. fold (float_of_Z z) in C. cbn [round_mode] in C. apply IZR_le in L.
  destruct (Rlt_bool _ _).
  - destruct C as (_ & F & S). split; [now apply finite_not_nan|]. rewrite S.
    destruct (Rcompare_spec (IZR z) 0); try reflexivity. lra.
  - rewrite Rlt_bool_false in C by exact L.
    destruct (float_of_Z z) as [?|?| |?]; try discriminate. injection C as ->. now split.
Qed.

Section Pow.
Context (pow : float -> float -> float).
Local Instance F : Num float := Num_float pow.

Lemma zero_is : nofZ 0 = B754_zero false. Proof. reflexivity. Qed.
Lemma zero_ext : ext (nofZ (T:=float) 0) = 0. Proof. reflexivity. Qed.

Lemma lt_is (a b : float) : nltb a b = Bltb a b. Proof. reflexivity. Qed.
Lemma le_is (a b : float) : nleb a b = Bleb a b. Proof. reflexivity. Qed.
Lemma add_is (a b : float) : nadd a b = Bplus mode_NE a b. Proof. reflexivity. Qed.
Lemma sub_is (a b : float) : nsub a b = Bminus mode_NE a b. Proof. reflexivity. Qed.
Lemma mul_is (a b : float) : nmul a b = Bmult mode_NE a b. Proof. reflexivity. Qed.
Lemma div_is (a b : float) : ndiv a b = Bdiv mode_NE a b. Proof. reflexivity. Qed.

(** ** max(v, 0) and the clip *)
Lemma pymax0 (v : float) : is_nan v = false ->
  is_nan (pymax v (nofZ 0)) = false /\ ext (pymax v (nofZ 0)) = Rmax (ext v) 0 /\
  (is_finite v = true -> is_finite (pymax v (nofZ 0)) = true).
Proof.
  intro N. unfold pymax. rewrite ?lt_is. rewrite ltb_ext by (assumption || reflexivity).
  rewrite zero_ext. destruct (Rlt_bool_spec (ext v) 0).
  - rewrite Rmax_right by lra. repeat split; reflexivity.
  - rewrite Rmax_left by lra. auto.
Qed.
Lemma clip_float (v hi : float) : is_finite hi = true -> 0 <= B2R hi ->
  (is_nan v = true /\ is_nan (clip v (nofZ 0) hi) = true) \/
  (is_nan v = false /\ is_finite (clip v (nofZ 0) hi) = true /\
   B2R (clip v (nofZ 0) hi) = Rmin (Rmax (ext v) 0) (B2R hi)).
Proof.
  intros Fh Ph. destruct (is_nan v) eqn:N.
  - left. split; [reflexivity|]. rewrite (nan_is v N). unfold clip, pymax, pymin.
    rewrite ?lt_is. rewrite lt_nan_l. rewrite lt_nan_r. reflexivity.
  - right. split; [reflexivity|]. destruct (pymax0 v N) as (A & B & C).
    unfold clip, pymin. rewrite ?lt_is.
    rewrite ltb_ext by (assumption || now apply finite_not_nan). rewrite B, (ext_finite 53 1024 hi Fh).
    destruct (Rlt_bool_spec (B2R hi) (Rmax (ext v) 0)) as [L|L].
    + rewrite Rmin_right by lra. now split.
    + rewrite Rmin_left by lra.
      assert (Fin : is_finite (pymax v (nofZ 0)) = true).
      { apply (finite_of_ext 53 1024); [exact A|]. rewrite B.
        pose proof (finite_lt 53 1024 hi) as T. apply Rabs_def2 in T.
        rewrite Rabs_pos_eq by apply Rmax_r. lra. }
      split; [exact Fin|]. rewrite <- B. symmetry. exact (ext_finite 53 1024 _ Fin).
Qed.

(** ** Battery *)
Definition charge_ok (s : bstate float) : Prop :=
  (is_nan (battery_charge s) = true /\ bstatus s <> OUT_OF_POWER) \/
  (is_finite (battery_charge s) = true /\ 0 <= B2R (battery_charge s) <= B2R (battery_capacity s) /\
   (bstatus s = OUT_OF_POWER <-> B2R (battery_charge s) = 0)).

Lemma substep_charge w wind a st (s s' : bstate float) :
  simulate_substep w wind a st s = Some s' -> bstatus s = OK ->
  is_finite (battery_capacity s) = true -> 0 <= B2R (battery_capacity s) ->
  charge_ok s' /\ battery_capacity s' = battery_capacity s.
Proof.
  intros E Hok Fc Pc. apply substep_fields in E.
  destruct E as (np & h & amb & _ & _ & Ef). cbv zeta in Ef.
  decompose [and] Ef. clear Ef. split; [|assumption].
  match goal with H : battery_charge s' = _ |- _ => rename H into EC end.
  match goal with H : bstatus s' = _ |- _ => rename H into ES end.
  match goal with H : battery_capacity s' = _ |- _ => rename H into EK end.
  unfold charge_ok. rewrite EK.
  destruct (clip_float (nadd (battery_charge s)
              (nmul (nsub (solar_charging s') (power_load s')) (timedelta_to_hours st)))
              (battery_capacity s) Fc Pc) as [[_ N]|(_ & Fin & V)]; rewrite <- EC in *.
  - left. split; [exact N|]. rewrite ES. unfold next_status. rewrite (nan_is _ N), Hok.
    rewrite ?le_is. rewrite le_nan_l.
    repeat match goal with |- context [if ?b then _ else _] => destruct b end; discriminate.
  - right. split; [exact Fin|]. split; [rewrite V; split; [apply Rmin_glb; [apply Rmax_r|exact Pc]|apply Rmin_r]|].
    assert (P : 0 <= B2R (battery_charge s')) by (rewrite V; apply Rmin_glb; [apply Rmax_r|exact Pc]).
    rewrite ES. unfold next_status. rewrite Hok. rewrite ?le_is.
    rewrite (leb_ext (battery_charge s')) by (now apply finite_not_nan || reflexivity).
    rewrite (ext_finite 53 1024 _ Fin), zero_ext.
    destruct (Rle_bool_spec (B2R (battery_charge s')) 0).
    + split; [intros _; lra|reflexivity].
    + split; [|lra].
      repeat match goal with |- context [if ?b then _ else _] => destruct b end; discriminate.
Qed.

(** After any sequence of calls the battery charge is between 0 and the capacity and the
    state of charge between 0 and 1, unless the charge is NaN; the balloon is out of power
    exactly if the charge is 0, and never with a NaN. *)
Theorem C95_battery : forall (s0 : bstate float) cs,
  is_finite (battery_capacity s0) = true ->
  Bltb (B754_zero false) (battery_charge s0) = true ->
  Bleb (battery_charge s0) (battery_capacity s0) = true -> bstatus s0 = OK ->
  let s := fly_end s0 cs in
  battery_capacity s = battery_capacity s0 /\
  ((is_nan (battery_charge s) = true /\ bstatus s <> OUT_OF_POWER) \/
   (is_finite (battery_charge s) = true /\
    0 <= B2R (battery_charge s) <= B2R (battery_capacity s) /\
    is_finite (battery_soc s) = true /\ 0 <= B2R (battery_soc s) <= 1 /\
    (bstatus s = OUT_OF_POWER <-> B2R (battery_charge s) = 0))).
Proof.
  intros s0 cs Fc P L Hok. cbv zeta.
  destruct (not_nan_of_le _ _ L) as [Nq Nc].
  assert (Fq : 0 < ext (battery_charge s0) <= B2R (battery_capacity s0)).
  { rewrite ltb_ext in P by (assumption || reflexivity). rewrite leb_ext in L by assumption.
    rewrite <- (ext_finite 53 1024 _ Fc).
    change (ext (B754_zero false)) with 0 in P.
    destruct (Rlt_bool_spec 0 (ext (battery_charge s0))); [|discriminate].
    destruct (Rle_bool_spec (ext (battery_charge s0)) (ext (battery_capacity s0))); [|discriminate]. lra. }
  assert (Ff : is_finite (battery_charge s0) = true).
  { apply (finite_of_ext 53 1024); [exact Nq|]. pose proof (finite_lt 53 1024 (battery_capacity s0)) as T.
    apply Rabs_def2 in T. rewrite Rabs_pos_eq by lra. lra. }
  rewrite (ext_finite 53 1024 _ Ff) in Fq.
  assert (H : charge_ok (fly_end s0 cs) /\ battery_capacity (fly_end s0 cs) = battery_capacity s0).
  { apply (flight_invariant (fun s => charge_ok s /\ battery_capacity s = battery_capacity s0) (fun _ => True)).
    - intros s a p e al. unfold charge_ok, relayered. cbn. auto.
    - intros w wind a st s s' _ E Hs [_ Hc].
      destruct (substep_charge w wind a st s s' E Hs) as [B1 B2]; [rewrite Hc; exact Fc|rewrite Hc; lra|].
      split; [exact B1|congruence].
    - clear. induction cs; constructor; auto.
    - split; [|reflexivity]. right. split; [exact Ff|]. split; [lra|]. rewrite Hok. split; [discriminate|lra]. }
  destruct H as [K EC]. split; [exact EC|]. destruct K as [K|(A & B & C)]; [now left|right].
  split; [exact A|]. split; [exact B|].
  assert (D : computes (battery_soc (fly_end s0 cs))
                (B2R (battery_charge (fly_end s0 cs)) / B2R (battery_capacity (fly_end s0 cs)))).
  { unfold battery_soc. rewrite div_is. apply div_computes; [exact A|rewrite EC; exact Fc|rewrite EC; lra]. }
  set (q := B2R (battery_charge (fly_end s0 cs)) / B2R (battery_capacity (fly_end s0 cs))) in *.
  assert (Q : 0 <= q <= 1).
  { unfold q. rewrite EC in B. rewrite EC. split.
    - apply Rmult_le_pos; [lra|]. left. apply Rinv_0_lt_compat. lra.
    - apply Rmult_le_reg_r with (B2R (battery_capacity s0)); [lra|].
      unfold Rdiv. rewrite Rmult_assoc, Rinv_l by lra. lra. }
  clearbody q.
  destruct (computes_within 53 1024 _ q 0 ltac:(lia) D) as [[W1 W2] E1].
  { change (bpow radix2 0) with 1. rewrite Rabs_pos_eq; lra. }
  split; [exact W1|]. split; [|exact C]. rewrite E1.
  assert (One : rnd 1 = 1).
  { pose proof (rnd_of 53 1024 (float_of_Z 1)) as O. destruct (of_Z 1 ltac:(lia)) as [_ V]. rewrite V in O. exact O. }
  assert (Z : rnd 0 = 0) by exact (rnd_of 53 1024 (B754_zero false)).
  pose proof (rnd_mono 53 1024 0 q ltac:(lra)). pose proof (rnd_mono 53 1024 q 1 ltac:(lra)). lra.
Qed.

(** ** The pressure ratio *)
Lemma one_value : is_finite (float_of_Z 1) = true /\ B2R (float_of_Z 1) = 1.
Proof. exact (of_Z 1 ltac:(lia)). Qed.
Lemma near_1 : near 1 = 1.
Proof. pose proof (near_of 53 1024 (float_of_Z 1)) as O. rewrite (proj2 one_value) in O. exact O. Qed.
Lemma positive_sign (f : float) : is_finite f = true -> 0 < B2R f -> Bsign f = false.
Proof. exact (sign_pos 53 1024 f). Qed.

(** The ratio reported to the agent and to the pump is at least 1 whatever the superpressure
    (if it is a number). *)
Theorem C95_ratio : forall s : bstate float,
  is_finite (pressure s) = true -> 0 < B2R (pressure s) -> is_nan (superpressure s) = false ->
  Bleb (float_of_Z 1) (pressure_ratio s) = true.
Proof.
  intros s Fp Pp Ns. destruct (pymax0 _ Ns) as (Nm & Em & _).
  assert (Pm : 0 <= ext (pymax (superpressure s) (nofZ 0))) by (rewrite Em; apply Rmax_r).
  destruct (add_ge 53 1024 (pressure s) _ Fp Nm Pm) as [Na La].
  unfold pressure_ratio. cbv zeta. rewrite add_is, div_is.
  set (q := Bplus mode_NE (pressure s) (pymax (superpressure s) (nofZ 0))) in *. clearbody q.
  rewrite (ext_finite 53 1024 _ Fp) in La.
  assert (G : is_nan (Bdiv mode_NE q (pressure s)) = false /\ 1 <= ext (Bdiv mode_NE q (pressure s))).
  { destruct (is_finite q) eqn:Fq.
    - destruct (div_computes 53 1024 q (pressure s) Fq Fp ltac:(lra)) as [A B]. split; [exact A|].
      rewrite B, <- near_1. apply (near_mono 53 1024). rewrite (ext_finite 53 1024 _ Fq) in La.
      apply Rmult_le_reg_r with (B2R (pressure s)); [exact Pp|].
      unfold Rdiv. rewrite Rmult_assoc, Rinv_l by lra. lra.
    - pose proof (positive_sign _ Fp Pp) as Sp.
      destruct (pressure s) as [?|?| |sp m e H]; try discriminate; [cbn in Pp; lra|].
      cbn in Sp. subst sp.
      destruct q as [?|[]| |?]; try discriminate.
      + cbn [Float64Proofs.ext] in La. pose proof (top_pos 1024). lra.
      + split; [reflexivity|]. cbn -[bpow].
        change 1 with (bpow radix2 0). apply bpow_le. lia. }
  destruct G as [A B].
  rewrite leb_ext; [|now apply finite_not_nan, one_value|exact A].
  rewrite (ext_finite 53 1024 _ (proj1 one_value)), (proj2 one_value).
  apply Rle_bool_true. exact B.
Qed.

(** ** The charge stays a number *)
Lemma within_check k (f g : float) : is_finite f = true -> is_finite g = true ->
  Bleb (Babs f) g = true -> B2R g = bpow radix2 k -> within k f.
Proof.
  intros Ff Fg L V. split; [exact Ff|]. rewrite Bleb_correct in L; [|now rewrite is_finite_Babs|exact Fg].
  rewrite B2R_Babs, V in L. destruct (Rle_bool_spec (Rabs (B2R f)) (bpow radix2 k)); [assumption|discriminate].
Qed.
Ltac small_literal k z :=
  apply (within_check k _ (float_of_Z z)); [vm_compute; reflexivity|vm_compute; reflexivity|vm_compute; reflexivity|
    rewrite (proj2 (of_Z z ltac:(lia))); reflexivity].

Lemma power_small (r : float) : within 10 r -> within 23 (get_most_efficient_power r).
Proof.
  intro W. unfold get_most_efficient_power, interp1d_extrapolate.
  set (i := Nat.min (Nat.max (searchsorted power_xs r) 1) (length power_xs - 1)).
  assert (I : i = 1%nat \/ i = 2%nat \/ i = 3%nat \/ i = 4%nat).
  { unfold i. change (length power_xs) with 5%nat. clear. generalize (searchsorted (T:=float) power_xs r). intro n. lia. }
  clearbody i. cbv zeta.
  assert (K : forall lo slope y : float, within 10 lo -> within 11 slope -> within 22 y ->
            within 23 (nadd (nmul slope (nsub r lo)) y)).
  { intros lo slope y A B C. rewrite add_is, mul_is, sub_is.
    destruct (within_sub 53 1024 10 r lo ltac:(lia) W A) as [D _].
    destruct (within_mul 53 1024 11 11 slope _ ltac:(lia) B D) as [E _].
    exact (proj1 (within_add 53 1024 22 _ _ ltac:(lia) E C)). }
  destruct I as [I|[I|[I|I]]]; rewrite I;
    (apply K; [small_literal 10%Z 1024%Z|small_literal 11%Z 2048%Z|small_literal 22%Z 4194304%Z]).
Qed.

Lemma seconds_small (st : Z) : (0 <= st < 2 ^ 53)%Z ->
  within 53 (total_seconds st) /\ within 53 (timedelta_to_hours st) /\
  Bsign (total_seconds (T:=float) st) = false.
Proof.
  intro L. unfold timedelta_to_hours, total_seconds, lit, us_per_second. rewrite !div_is.
  change (nofZ (T:=float)) with float_of_Z.
  destruct (of_Z st ltac:(lia)) as [Fs Vs]. destruct (of_Z 1000000 ltac:(lia)) as [Fm Vm].
  destruct (div_computes 53 1024 _ _ Fs Fm ltac:(rewrite Vm; lra)) as [N E].
  rewrite Vs, Vm in E.
  assert (B : 0 <= IZR st / 1000000 <= bpow radix2 53).
  { assert (0 <= IZR st) by (apply IZR_le; lia). assert (IZR st <= bpow radix2 53).
    { change (bpow radix2 53) with (IZR (2 ^ 53)). apply IZR_le. lia. }
    pose proof (bpow_gt_0 radix2 53). lra. }
  destruct (computes_within 53 1024 _ _ 53 ltac:(lia) (conj N E)) as [W V].
  { rewrite Rabs_pos_eq; lra. }
  split; [exact W|]. split.
  - set (q := Bdiv mode_NE (float_of_Z st) (float_of_Z 1000000)) in *.
    assert (H36 : is_finite (Bdiv mode_NE (float_of_Z 36000) (float_of_Z 10)) = true /\
                  B2R (Bdiv mode_NE (float_of_Z 36000) (float_of_Z 10)) = 3600).
    { destruct (of_Z 36000 ltac:(lia)) as [Fa Va]. destruct (of_Z 10 ltac:(lia)) as [Fb Vb].
      pose proof (div_computes 53 1024 _ _ Fa Fb ltac:(rewrite Vb; lra)) as C. rewrite Va, Vb in C.
      destruct (of_Z 3600 ltac:(lia)) as [Fc Vc].
      replace (36000 / 10) with (B2R (float_of_Z 3600)) in C by (rewrite Vc; lra).
      destruct (computes_within 53 1024 _ _ 12 ltac:(lia) C) as [[A _] V'].
      { rewrite Vc. change (bpow radix2 12) with 4096. rewrite Rabs_pos_eq; lra. }
      split; [exact A|]. rewrite V'. rewrite <- Vc. apply (rnd_of 53 1024). }
    destruct H36 as [F36 V36].
    pose proof (div_computes 53 1024 q _ (proj1 W) F36 ltac:(rewrite V36; lra)) as C. rewrite V36 in C.
    refine (proj1 (computes_within 53 1024 _ _ 53 ltac:(lia) C _)).
    destruct W as [_ W]. unfold Rdiv. rewrite Rabs_mult, (Rabs_pos_eq (/ 3600)) by lra.
    pose proof (Rabs_pos (B2R q)). lra.
  - rewrite (div_sign 53 1024 _ _ N). rewrite (proj2 (of_Z_sign st ltac:(lia))).
    rewrite (proj2 (of_Z_sign 1000000 ltac:(lia))). reflexivity.
Qed.

(** A sub-step leaves a charge that is a number a number, if the solar power and the loads
    are numbers of reasonable size (2^100 W) and, when the pump runs, so is the pressure ratio. *)
Theorem C95_charge_is_a_number : forall w wind a st (s s' : bstate float),
  simulate_substep w wind a st s = Some s' ->
  (0 <= st < 2 ^ 53)%Z ->
  is_finite (battery_charge s) = true ->
  is_finite (battery_capacity s) = true -> 0 <= B2R (battery_capacity s) ->
  let reasonable f := is_finite f = true /\ Rabs (B2R f) <= 2 ^ 100 in
  reasonable (solar_power_fn w (fst (sun w (x s) (y s) (date_time s))) (pressure s)) ->
  reasonable (daytime_power_load s) -> reasonable (nighttime_power_load s) ->
  (a = DOWN -> is_finite (pressure_ratio s) = true /\ Rabs (B2R (pressure_ratio s)) <= 1024) ->
  is_finite (battery_charge s') = true /\ 0 <= B2R (battery_charge s') <= B2R (battery_capacity s).
Proof.
  intros w wind a st s s' E Hst Fq Fc Pc reasonable Ws Wd Wn Hr. apply substep_fields in E.
  destruct E as (np & h & amb & _ & _ & Ef). cbv zeta in Ef. decompose [and] Ef. clear Ef.
  match goal with H : battery_charge s' = _ |- _ => rename H into EC end.
  match goal with H : solar_charging s' = _ |- _ => rename H into EL end.
  match goal with H : power_load s' = _ |- _ => rename H into EP end.
  assert (Two : (2 ^ 100 = bpow radix2 100)%R).
  { rewrite <- (IZR_Zpower radix2) by lia. change (Zpower radix2 100) with (2 ^ 100)%Z. now rewrite (pow_IZR 2 100). }
  assert (W : forall f, reasonable f -> within 100 f) by (intros f [A B]; split; [exact A|now rewrite <- Two]).
  assert (Z0 : within 100 (nofZ (T:=float) 0)).
  { split; [reflexivity|]. change (B2R (nofZ (T:=float) 0)) with 0. rewrite Rabs_R0. apply bpow_ge_0. }
  assert (Wl : within 100 (solar_charging s')) by (rewrite EL; destruct (nltb _ _); [now apply W|exact Z0]).
  assert (Wa : within 100 (fst (acs_step s a))).
  { destruct a; cbn [acs_step fst]; try exact Z0.
    apply within_weaken with 23%Z; [|lia]. apply power_small. destruct (Hr eq_refl) as [A B].
    split; [exact A|]. exact B. }
  assert (Wp : within 101 (power_load s')).
  { rewrite EP, add_is. refine (proj1 (within_add 53 1024 100 _ _ ltac:(lia) _ Wa)).
    destruct (nltb _ _); now apply W. }
  destruct (seconds_small st Hst) as (_ & Wh & _).
  rewrite EC.
  destruct (clip_float (nadd (battery_charge s)
              (nmul (nsub (solar_charging s') (power_load s')) (timedelta_to_hours st)))
              (battery_capacity s) Fc Pc) as [[N _]|(_ & Fin & V)].
  - exfalso. rewrite add_is, mul_is, sub_is in N.
    destruct (within_sub 53 1024 101 _ _ ltac:(lia) (within_weaken 53 1024 100 101 _ Wl ltac:(lia)) Wp) as [D _].
    destruct (within_mul 53 1024 102 53 _ _ ltac:(lia) D Wh) as [[G _] _].
    destruct (add_computes 53 1024 _ _ Fq G) as [N' _]. pose proof (eq_trans (eq_sym N') N). discriminate.
  - split; [exact Fin|]. rewrite V. split; [apply Rmin_glb; [apply Rmax_r|exact Pc]|apply Rmin_r].
Qed.

(** ** Ballast *)
Lemma nan_mul (f g : float) : is_nan (Bmult mode_NE f g) = false -> is_nan f = false /\ is_nan g = false.
Proof. intro H. destruct f, g; first [split; reflexivity|discriminate H]. Qed.
Lemma nan_div (f g : float) : is_nan (Bdiv mode_NE f g) = false -> is_nan f = false /\ is_nan g = false.
Proof. intro H. destruct f, g; first [split; reflexivity|discriminate H]. Qed.
Lemma zero_mul (f : float) b : is_nan (Bmult mode_NE f (B754_zero b)) = false -> ext (Bmult mode_NE f (B754_zero b)) = 0.
Proof. destruct f; cbn; try reflexivity; discriminate. Qed.
Lemma sqrt_sign (f : float) : is_nan (Bsqrt mode_NE f) = false ->
  Bsign (Bsqrt mode_NE f) = false \/ exists b, Bsqrt mode_NE f = B754_zero b.
Proof.
  intro N. pose proof (Bsqrt_correct 53 1024 _ _ mode_NE f) as (_ & _ & S). rewrite (S N).
  destruct f as [b|[]| |[] m e H]; cbn in N |- *; try discriminate; auto. right. now exists b.
Qed.
Lemma nonpositive_times (f g : float) : is_nan (Bmult mode_NE f g) = false ->
  Bsign f = true -> Bsign g = false -> ext (Bmult mode_NE f g) <= 0.
Proof.
  intros N A B. apply sign_le0; [exact N|]. rewrite (mul_sign 53 1024 _ _ N), A, B. reflexivity.
Qed.

Lemma zero_times (t : float) : is_finite t = true -> Bsign t = false ->
  Bmult mode_NE (B754_zero false) t = B754_zero false.
Proof. destruct t as [s|s| |s m e H]; try discriminate; intros _ S; cbn in S; subst s; reflexivity. Qed.

(** The air let out: never a positive flow. *)
Lemma flow_le (v z M t : float) : (is_nan v = false -> Bsign v = true) ->
  is_finite_strict M = true -> Bsign M = false -> is_finite t = true -> Bsign t = false ->
  is_nan (Bmult mode_NE (Bdiv mode_NE (Bmult mode_NE v (Bsqrt mode_NE z)) M) t) = false ->
  ext (Bmult mode_NE (Bdiv mode_NE (Bmult mode_NE v (Bsqrt mode_NE z)) M) t) <= 0.
Proof.
  intros Sv FM SM Ft St N.
  destruct (nan_mul _ _ N) as [N1 _]. destruct (nan_div _ _ N1) as [N2 _].
  destruct (nan_mul _ _ N2) as [N3 Nq]. specialize (Sv N3).
  destruct (sqrt_sign _ Nq) as [Sq|[b Eq]].
  - apply sign_le0; [exact N|].
    rewrite (mul_sign 53 1024 _ _ N), (div_sign 53 1024 _ _ N1), (mul_sign 53 1024 _ _ N2).
    rewrite Sv, Sq, SM, St. reflexivity.
  - rewrite Eq in *. clear Eq Nq.
    destruct v as [?|?| |?]; try discriminate; destruct M as [?|?| |?]; try discriminate;
      destruct t as [?|?| |?]; try discriminate; cbn; lra.
Qed.
Lemma up_flow (s : bstate float) st : (0 <= st < 2 ^ 53)%Z ->
  let q := nmul (ndiv (snd (acs_step s UP)) DRY_AIR_MOLAR_MASS) (total_seconds st) in
  is_nan q = false -> ext q <= 0.
Proof.
  intros Hst q. unfold q. cbn [acs_step snd].
  destruct (seconds_small st Hst) as ([Fs _] & _ & Ss).
  apply flow_le; [|vm_compute; reflexivity|vm_compute; reflexivity|exact Fs|exact Ss].
  intro N3. rewrite !mul_is, !div_is in *. destruct (nan_mul _ _ N3) as [N4 N5].
  rewrite (mul_sign 53 1024 _ _ N3), (mul_sign 53 1024 _ _ N4), (div_sign 53 1024 _ _ N5).
  destruct (nan_div _ _ N5) as [N6 _]. rewrite (mul_sign 53 1024 _ _ N6).
  destruct (nan_mul _ _ N6) as [_ N7]. rewrite (mul_sign 53 1024 _ _ N7).
  destruct (Bsign (acs_valve_hole_diameter s)); vm_compute; reflexivity.
Qed.

Definition lets_out (s s' : bstate float) : Prop :=
  (is_nan (mols_air s) = true -> is_nan (mols_air s') = true) /\
  (is_finite (mols_air s) = true -> 0 <= B2R (mols_air s) ->
   is_nan (mols_air s') = true \/
   (is_finite (mols_air s') = true /\ 0 <= B2R (mols_air s') <= B2R (mols_air s))).
Definition keeps (s s' : bstate float) : Prop :=
  is_finite (mols_air s) = true -> 0 <= B2R (mols_air s) ->
  is_finite (mols_air s') = true /\ B2R (mols_air s') = B2R (mols_air s).

Lemma substep_lets_out w wind st (s s' : bstate float) : (0 <= st < 2 ^ 53)%Z ->
  simulate_substep w wind UP st s = Some s' -> lets_out s s'.
Proof.
  intros Hst E. apply substep_fields in E.
  destruct E as (np & h & amb & _ & _ & Ef). cbv zeta in Ef. decompose [and] Ef. clear Ef.
  match goal with H : mols_air s' = _ |- _ => rename H into EM end.
  pose proof (up_flow s st Hst) as K. cbv zeta in K.
  set (q := nmul (ndiv (snd (acs_step s UP)) DRY_AIR_MOLAR_MASS) (total_seconds st)) in *.
  clearbody q. unfold lets_out. rewrite EM, add_is. split.
  - intro N. rewrite (nan_is _ N). reflexivity.
  - intros Fm Pm. destruct (is_nan q) eqn:Nq.
    + left. rewrite (nan_is _ Nq). destruct (mols_air s); reflexivity.
    + right. specialize (K eq_refl).
      destruct (add_le 53 1024 _ _ Fm Nq K) as [Na La].
      destruct (pymax0 _ Na) as (Np & Ep & _). rewrite (ext_finite 53 1024 _ Fm) in La.
      assert (Fin : is_finite (pymax (T:=float) (Bplus mode_NE (mols_air s) q) (nofZ 0)) = true).
      { apply (finite_of_ext 53 1024); [exact Np|]. rewrite Ep.
        pose proof (finite_lt 53 1024 (mols_air s)) as T. apply Rabs_def2 in T.
        rewrite Rabs_pos_eq by apply Rmax_r. apply Rmax_lub_lt; lra. }
      split; [exact Fin|]. rewrite <- (ext_finite 53 1024 _ Fin), Ep.
      split; [apply Rmax_r|apply Rmax_lub; lra].
Qed.

Lemma substep_keeps w wind st (s s' : bstate float) : (0 <= st < 2 ^ 53)%Z ->
  simulate_substep w wind STAY st s = Some s' -> keeps s s'.
Proof.
  intros Hst E. apply substep_fields in E.
  destruct E as (np & h & amb & _ & _ & Ef). cbv zeta in Ef. decompose [and] Ef. clear Ef.
  match goal with H : mols_air s' = _ |- _ => rename H into EM end.
  intros Fm Pm. cbn [acs_step snd] in EM.
  destruct (seconds_small st Hst) as ([Fs _] & _ & Ss).
  assert (Q : nmul (ndiv (nofZ 0) DRY_AIR_MOLAR_MASS) (total_seconds st) = (B754_zero false : float)).
  { replace (ndiv (nofZ 0) (DRY_AIR_MOLAR_MASS (T:=float))) with (B754_zero false : float).
    - exact (zero_times _ Fs Ss).
    - rewrite div_is. vm_compute. reflexivity. }
  rewrite Q, add_is in EM. rewrite EM.
  destruct (add_computes 53 1024 _ (B754_zero false) Fm eq_refl) as [Na Ea].
  change (B2R (B754_zero false)) with 0 in Ea. rewrite Rplus_0_r, near_of in Ea.
  destruct (pymax0 _ Na) as (Np & Ep & _).
  assert (Fin : is_finite (pymax (T:=float) (Bplus mode_NE (mols_air s) (B754_zero false)) (nofZ 0)) = true).
  { apply (finite_of_ext 53 1024); [exact Np|]. rewrite Ep, Ea, Rmax_left by lra. apply (finite_lt 53 1024). }
  split; [exact Fin|]. rewrite <- (ext_finite 53 1024 _ Fin), Ep, Ea. apply Rmax_left. lra.
Qed.

(** A call that executes UP never increases the ballast and never makes it negative, one that
    executes STAY leaves exactly the same amount. *)
Theorem C95_ballast : forall (s : bstate float) c eff,
  (0 <= c_stride c < 2 ^ 53)%Z ->
  is_finite (mols_air s) = true -> 0 <= B2R (mols_air s) ->
  snd (do_call s c) = Executed eff ->
  let before := mols_air s in
  let after := mols_air (fst (do_call s c)) in
  (eff = UP -> is_nan after = true \/ (is_finite after = true /\ 0 <= B2R after <= B2R before)) /\
  (eff = STAY -> is_finite after = true /\ B2R after = B2R before).
Proof.
  intros s c eff Hst Fm Pm Heff. cbv zeta. unfold do_call in *.
  destruct (simulate_step _ _ _ _ _ s) as [s' o] eqn:E. cbn [fst snd] in *. subst o.
  destruct (call_ran _ _ _ _ _ _ _ _ E) as (p & e & al & k & eff' & Hr & _ & _ & _ & _ & Hx & _).
  destruct (Hx eff eq_refl) as (-> & _). clear Hx E.
  fold (relayered s (c_action c) p e al) in Hr.
  change (mols_air s) with (mols_air (relayered s (c_action c) p e al)) in *.
  set (s1 := relayered s (c_action c) p e al) in *. clearbody s1. clear s. split; intro; subst eff'.
  - assert (L : lets_out s1 s').
    { revert Hr. apply ran_relation.
      - intro t. split; [auto|]. intros A B. right. split; [exact A|lra].
      - intros a b d [A1 A2] [B1 B2]. split; [auto|]. intros C D.
        destruct (A2 C D) as [G|(G1 & G2)]; [left; auto|].
        destruct (B2 G1 ltac:(lra)) as [G|(G3 & G4)]; [now left|right]. split; [exact G3|lra].
      - intros a b. now apply substep_lets_out. }
    destruct L as [_ L]. auto.
  - assert (L : keeps s1 s').
    { revert Hr. apply ran_relation.
      - intro t. split; auto.
      - intros a b d A B C D. destruct (A C D) as [G H]. destruct (B G ltac:(lra)) as [G' H'].
        split; [exact G'|lra].
      - intros a b. now apply substep_keeps. }
    auto.
Qed.

(** ** Rising and sinking *)
Lemma plus_nan (f : float) : Bplus mode_NE f B754_nan = B754_nan.
Proof. destruct f; reflexivity. Qed.
Lemma some_eq (T : Type) (a b : T) : Some a = Some b -> a = b.
Proof. intro H. now injection H. Qed.
Lemma minus_sign_neg (f g : float) : is_finite f = true -> is_finite g = true -> B2R f < B2R g ->
  Bsign (Bminus mode_NE f g) = true.
Proof.
  intros Ff Fg L. pose proof (Bminus_correct 53 1024 _ _ mode_NE f g Ff Fg) as C.
  destruct (Rlt_bool _ _).
  - destruct C as (_ & _ & ->). rewrite Rcompare_Lt by lra. reflexivity.
  - destruct C as [C S].
    destruct (Bsign f) eqn:Sf.
    + destruct (Bminus mode_NE f g) as [?|?| |?]; try discriminate. injection C as ->. reflexivity.
    + exfalso. assert (Bsign g = true) by (destruct (Bsign g); [reflexivity|discriminate]).
      pose proof (sign_le0 53 1024 g (finite_not_nan g Fg) H) as G.
      pose proof (sign_ge0 53 1024 f (finite_not_nan f Ff) Sf) as K.
      rewrite (ext_finite 53 1024 _ Fg) in G. rewrite (ext_finite 53 1024 _ Ff) in K. lra.
Qed.
Lemma minus_sign_pos (f g : float) : is_finite f = true -> is_finite g = true -> B2R g < B2R f ->
  Bsign (Bminus mode_NE f g) = false.
Proof.
  intros Ff Fg L. pose proof (Bminus_correct 53 1024 _ _ mode_NE f g Ff Fg) as C.
  destruct (Rlt_bool _ _).
  - destruct C as (_ & _ & ->). rewrite Rcompare_Gt by lra. reflexivity.
  - destruct C as [C S].
    destruct (Bsign f) eqn:Sf.
    + exfalso. assert (Bsign g = false) by (destruct (Bsign g); [discriminate|reflexivity]).
      pose proof (sign_ge0 53 1024 g (finite_not_nan g Fg) H) as G.
      pose proof (sign_le0 53 1024 f (finite_not_nan f Ff) Sf) as K.
      rewrite (ext_finite 53 1024 _ Fg) in G. rewrite (ext_finite 53 1024 _ Ff) in K. lra.
    + destruct (Bminus mode_NE f g) as [?|?| |?]; try discriminate. injection C as ->. reflexivity.
Qed.
Lemma root_sign (y : float) : is_nan (nsqrt (nabs y)) = false -> Bsign (nsqrt (nabs y)) = false.
Proof.
  intro N. change (nsqrt (nabs y)) with (Bsqrt mode_NE (Babs y)) in *.
  pose proof (Bsqrt_correct 53 1024 _ _ mode_NE (Babs y)) as (_ & _ & S). rewrite (S N).
  destruct y; reflexivity.
Qed.

(** If the air the code computes the envelope to displace weighs at least as much as the code
    computes the balloon to weigh, the pressure does not increase in a sub-step, otherwise it
    does not decrease (or it is NaN), whatever is rounded in between; the atmosphere is only
    asked to report smaller heights for the larger one of two pressures a pascal apart. *)
Theorem C95_buoyancy : forall w wind a st (s s' : bstate float),
  simulate_substep w wind a st s = Some s' -> (0 <= st < 2 ^ 53)%Z ->
  is_finite (pressure s) = true ->
  (forall h t h' t', at_pressure w (pressure s) = Some (h, t) ->
     (at_pressure w (pressure s + nofZ 1)%num = Some (h', t') -> is_finite h = true /\ is_finite h' = true /\ B2R h' < B2R h) /\
     (at_pressure w (pressure s + - nofZ 1)%num = Some (h', t') -> is_finite h = true /\ is_finite h' = true /\ B2R h < B2R h')) ->
  let displaced := (pressure s * lit 28964922481160 1000000000000000
    / (lit 83144621 10000000 * ambient_temperature s) * envelope_volume s)%num in
  let mass := (lit 4002602 1000000000 * mols_lift_gas s + lit 28964922481160 1000000000000000 * mols_air s
    + envelope_mass s + payload_mass s)%num in
  is_nan (pressure s') = true \/
  (if Bleb mass displaced then Bleb (pressure s') (pressure s) = true
   else Bleb (pressure s) (pressure s') = true).
Proof.
  intros w wind a st s s' E Hst Fp Hw displaced mass. apply substep_fields in E.
  destruct E as (np & h & amb & Hnp & Hat & Ef). cbv zeta in Ef. decompose [and] Ef. clear Ef.
  match goal with H : pressure s' = np |- _ => rewrite H end.
  unfold next_pressure in Hnp. rewrite Hat in Hnp. cbv zeta in Hnp.
  revert Hnp.
  generalize (eq_refl (at_pressure w (pressure s + direction s * nofZ 1)%num)).
  generalize (at_pressure w (pressure s + direction s * nofZ 1)%num) at 2 3.
  intros [[h1 t1]|] E1 Hnp; [|discriminate].
  apply some_eq in Hnp.
  destruct (seconds_small st Hst) as ([Fs _] & _ & Ss).
  assert (Dir : direction s = (if Bleb mass displaced then nofZ 1 else (- nofZ 1)%num)) by reflexivity.
  specialize (Hw h amb h1 t1 Hat). clearbody displaced mass.
  unfold dh_dt in Hnp.
  set (y := (nofZ 2 * (rho_air s * envelope_volume s - flight_system_mass s) * GRAVITY
             / (rho_air s * (envelope_cod s * npow (envelope_volume s) (nofZ 2 / nofZ 3))))%num) in *.
  destruct (is_nan np) eqn:Nn; [now left|right].
  rewrite !add_is, !mul_is, !div_is, sub_is in Hnp.
  match type of Hnp with Bplus mode_NE _ ?d = _ => set (change := d) in * end.
  assert (Nc : is_nan change = false).
  { destruct (is_nan change) eqn:Nc; [|reflexivity]. rewrite (nan_is _ Nc) in Hnp.
    rewrite plus_nan in Hnp. rewrite <- Hnp in Nn. discriminate Nn. }
  assert (Sc : Bsign change = xorb (Bsign (Bminus mode_NE h1 h)) false).
  { unfold change in *. rewrite (mul_sign 53 1024 _ _ Nc). destruct (nan_mul _ _ Nc) as [N1 _].
    rewrite (mul_sign 53 1024 _ _ N1). destruct (nan_mul _ _ N1) as [N2 N3].
    rewrite (div_sign 53 1024 _ _ N2), (mul_sign 53 1024 _ _ N3).
    destruct (nan_div _ _ N2) as [N4 _]. rewrite (mul_sign 53 1024 _ _ N4).
    destruct (nan_mul _ _ N3) as [_ N5]. rewrite (root_sign _ N5), Ss.
    change (Bsign (nofZ (T:=float) 1)) with false.
    destruct (Bsign (direction s)), (Bsign (Bminus mode_NE h1 h)); reflexivity. }
  clearbody change. rewrite <- Hnp in *.
  destruct (Bleb mass displaced).
  - rewrite Dir in E1. replace (nmul (nofZ 1) (nofZ 1)) with (nofZ (T:=float) 1) in E1 by (apply B2SF_inj; vm_compute; reflexivity).
    destruct (proj1 Hw E1) as (Fh & Fh1 & L).
    rewrite (minus_sign_neg _ _ Fh1 Fh L) in Sc.
    destruct (add_le 53 1024 (pressure s) change Fp Nc) as [_ Le]; [now apply sign_le0|].
    rewrite leb_ext by (assumption || now apply finite_not_nan). now apply Rle_bool_true.
  - rewrite Dir in E1. replace (nmul (- nofZ 1)%num (nofZ 1)) with (- nofZ (T:=float) 1)%num in E1 by (apply B2SF_inj; vm_compute; reflexivity).
    destruct (proj2 Hw E1) as (Fh & Fh1 & L).
    rewrite (minus_sign_pos _ _ Fh1 Fh L) in Sc.
    destruct (add_ge 53 1024 (pressure s) change Fp Nc) as [_ Le]; [now apply sign_ge0|].
    rewrite leb_ext by (assumption || now apply finite_not_nan). now apply Rle_bool_true.
Qed.

(** ** Dead reckoning *)
Lemma whole_seconds (k : Z) : (0 <= k < 2 ^ 30)%Z ->
  is_finite (total_seconds (T:=float) (k * 1000000)) = true /\
  B2R (total_seconds (T:=float) (k * 1000000)) = IZR k.
Proof.
  intro K. unfold total_seconds, lit, us_per_second. rewrite div_is. change (nofZ (T:=float)) with float_of_Z.
  destruct (of_Z (k * 1000000) ltac:(lia)) as [Fs Vs]. destruct (of_Z 1000000 ltac:(lia)) as [Fm Vm].
  destruct (of_Z k ltac:(lia)) as [Fk Vk].
  pose proof (div_computes 53 1024 _ _ Fs Fm ltac:(rewrite Vm; lra)) as C. rewrite Vs, Vm in C.
  replace (IZR (k * 1000000) / 1000000) with (B2R (float_of_Z k)) in C.
  2: { rewrite Vk, mult_IZR. field. }
  destruct (computes_within 53 1024 _ _ 30 ltac:(lia) C) as [[A _] V].
  { rewrite Vk, Rabs_pos_eq by (apply IZR_le; lia). change (bpow radix2 30) with (IZR (2 ^ 30)). apply IZR_le. lia. }
  split; [exact A|]. rewrite V, <- Vk. apply (rnd_of 53 1024).
Qed.

(** One coordinate, one sub-step. *)
Lemma drift (p u t : float) k : (1 <= k <= 16)%Z -> within 23 p -> within 10 u ->
  is_finite t = true -> B2R t = IZR k ->
  let p' := Bplus mode_NE p (Bmult mode_NE u t) in
  is_finite p' = true /\ Rabs (B2R p' - (B2R p + B2R u * IZR k)) <= bpow radix2 (-29).
Proof.
  intros K Wp Wu Fs Vs p'.
  assert (Ws : within 4 t).
  { split; [exact Fs|]. rewrite Vs, Rabs_pos_eq by (apply IZR_le; lia).
    change (bpow radix2 4) with (IZR 16). apply IZR_le. lia. }
  destruct (within_mul 53 1024 10 4 u t ltac:(lia) Wu Ws) as [Wm Vm]. rewrite Vs in Vm. change (10 + 4)%Z with 14%Z in Wm.
  destruct (within_add 53 1024 23 p _ ltac:(lia) Wp (within_weaken 53 1024 14 23 _ Wm ltac:(lia))) as [[Fa _] Va].
  fold p' in Fa, Va. split; [exact Fa|]. clearbody p'.
  generalize dependent (Bmult mode_NE u t). intros m Wm Vm Va.
  assert (E1 : Rabs (B2R m - B2R u * IZR k) <= bpow radix2 (-40)).
  { rewrite Vm. apply (rnd_error 53 1024 _ 14); [lia|].
    destruct Wu as [_ Wu]. destruct Ws as [_ Ws]. rewrite Vs in Ws.
    change 14%Z with (10 + 4)%Z. rewrite bpow_plus, Rabs_mult. apply Rmult_le_compat; try assumption; apply Rabs_pos. }
  assert (E2 : Rabs (B2R p' - (B2R p + B2R m)) <= bpow radix2 (-30)).
  { rewrite Va. apply (rnd_error 53 1024 _ 24); [lia|].
    destruct Wp as [_ Wp]. destruct Wm as [_ Wm]. eapply Rle_trans; [apply Rabs_triang|].
    assert (bpow radix2 14 <= bpow radix2 23) by (apply bpow_le; lia).
    replace (bpow radix2 24) with (2 * bpow radix2 23) by (change 24%Z with (1 + 23)%Z; rewrite bpow_plus; reflexivity).
    lra. }
  assert (bpow radix2 (-40) <= bpow radix2 (-30)) by (apply bpow_le; lia).
  replace (bpow radix2 (-29)) with (2 * bpow radix2 (-30)) by (change (-29)%Z with (1 + -30)%Z; rewrite bpow_plus; reflexivity).
  replace (B2R p' - (B2R p + B2R u * IZR k)) with ((B2R p' - (B2R p + B2R m)) + (B2R m - B2R u * IZR k)) by ring.
  eapply Rle_trans; [apply Rabs_triang|]. lra.
Qed.

Lemma ran_drift (pos : bstate float -> float) (u : float) z w wind a st k (s s' : bstate float) :
  (forall s s', simulate_substep w wind a st s = Some s' ->
     pos s' = Bplus mode_NE (pos s) (Bmult mode_NE u (total_seconds st)) /\
     time_elapsed s' = (time_elapsed s + st)%Z) ->
  st = (z * 1000000)%Z -> (1 <= z <= 16)%Z -> within 10 u ->
  ran w wind a st k s s' -> (k <= 64)%nat ->
  is_finite (pos s) = true -> Rabs (B2R (pos s)) <= 4194304 + (64 - INR k) * 32768 ->
  is_finite (pos s') = true /\
  time_elapsed s' = (time_elapsed s + Z.of_nat k * st)%Z /\
  Rabs (B2R (pos s') - (B2R (pos s) + B2R u * (INR k * IZR z))) <= INR k * bpow radix2 (-29).
Proof.
  intros Hs -> Hz Wu.
  assert (One : forall s s', simulate_substep w wind a (z * 1000000) s = Some s' ->
    is_finite (pos s) = true -> Rabs (B2R (pos s)) <= 4194304 + 64 * 32768 ->
    is_finite (pos s') = true /\ Rabs (B2R (pos s') - (B2R (pos s) + B2R u * IZR z)) <= bpow radix2 (-29)).
  { clear s s' k. intros s s' H F L. destruct (Hs _ _ H) as [-> _].
    destruct (whole_seconds z ltac:(lia)) as [Fs Vs]. apply drift; try assumption.
    split; [exact F|]. change (bpow radix2 23) with 8388608. lra. }
  assert (Hu : Rabs (B2R u * IZR z) <= 16384).
  { destruct Wu as [_ Wu]. change (bpow radix2 10) with 1024 in Wu. rewrite Rabs_mult.
    assert (Rabs (IZR z) <= 16) by (rewrite <- abs_IZR; apply IZR_le; lia).
    replace 16384 with (1024 * 16) by ring. apply Rmult_le_compat; try assumption; apply Rabs_pos. }
  intro Hr. induction Hr as [s|s s' H B|k s s1 s' H B Hr IH]; intros K F L.
  - split; [exact F|]. split; [lia|]. cbn [INR].
    replace (B2R (pos s) - _) with 0 by ring. rewrite Rabs_R0. lra.
  - cbn [INR] in *. destruct (One _ _ H F ltac:(lra)) as [F' E]. split; [exact F'|].
    split; [destruct (Hs _ _ H) as [_ ->]; lia|]. rewrite !Rmult_1_l. exact E.
  - rewrite S_INR in L. pose proof (pos_INR k) as Pk.
    destruct (One _ _ H F ltac:(lra)) as [F' E].
    assert (bpow radix2 (-29) <= 1) by (change 1 with (bpow radix2 0); apply bpow_le; lia).
    destruct (IH ltac:(lia) F') as (F2 & T2 & E2).
    { replace (B2R (pos s1)) with ((B2R (pos s1) - (B2R (pos s) + B2R u * IZR z)) + B2R (pos s) + B2R u * IZR z) by ring.
      eapply Rle_trans; [apply Rabs_triang|].
      eapply Rle_trans; [apply Rplus_le_compat_r, Rabs_triang|]. lra. }
    split; [exact F2|]. split; [destruct (Hs _ _ H) as [_ T1]; rewrite T2, T1; lia|].
    rewrite S_INR.
    replace (B2R (pos s') - (B2R (pos s) + B2R u * ((INR k + 1) * IZR z)))
      with ((B2R (pos s') - (B2R (pos s1) + B2R u * (INR k * IZR z))) + (B2R (pos s1) - (B2R (pos s) + B2R u * IZR z))) by ring.
    eapply Rle_trans; [apply Rabs_triang|]. lra.
Qed.

(** Seconds of flight in one call, from the clock. *)
Definition flown (s : bstate float) (c : call float) : R :=
  IZR (time_elapsed (fst (do_call s c)) - time_elapsed s) / 1000000.

(** Where the winds carry the balloon, in exact arithmetic: wind speed times time, summed
    over the calls ([dir] picks the component of the wind). *)
Fixpoint carried (dir : float * float -> float) (s : bstate float) (cs : list (call float)) : R :=
  match cs with
  | [] => 0
  | c :: cs' => B2R (dir (c_wind c)) * flown s c + carried dir (fst (do_call s c)) cs'
  end.

(** The calls of the theorem: winds up to 1024 m/s, strides of 1 to 16 whole seconds, at most
    64 strides per call, and the balloon within 4194304 m of its station when the call is
    made. *)
Definition ordinary (l : leg float) : Prop :=
  let '(s, c, _) := l in
  (is_finite (x s) = true /\ Rabs (B2R (x s)) <= 4194304) /\
  (is_finite (y s) = true /\ Rabs (B2R (y s)) <= 4194304) /\
  (is_finite (fst (c_wind c)) = true /\ Rabs (B2R (fst (c_wind c))) <= 1024) /\
  (is_finite (snd (c_wind c)) = true /\ Rabs (B2R (snd (c_wind c))) <= 1024) /\
  exists z, (1 <= z <= 16)%Z /\ c_stride c = (z * 1000000)%Z /\ (0 <= c_delta c <= 64 * c_stride c)%Z.

Lemma substep_position w wind a st (s s' : bstate float) :
  simulate_substep w wind a st s = Some s' ->
  x s' = Bplus mode_NE (x s) (Bmult mode_NE (fst wind) (total_seconds st)) /\
  y s' = Bplus mode_NE (y s) (Bmult mode_NE (snd wind) (total_seconds st)) /\
  time_elapsed s' = (time_elapsed s + st)%Z.
Proof.
  intro H. destruct (substep_fields _ _ _ _ _ _ H) as (np & h & amb & _ & _ & G). cbv zeta in G.
  destruct G as (_ & A & _ & _ & _ & _ & _ & _ & _ & _ & _ & _ & B & C & _).
  split; [exact B|]. split; [exact C|exact A].
Qed.

Lemma call_drift (s : bstate float) c o :
  ordinary (s, c, o) ->
  let s' := fst (do_call s c) in
  let dt := flown s c in
  0 <= dt /\
  (is_finite (x s') = true /\ Rabs (B2R (x s') - (B2R (x s) + B2R (fst (c_wind c)) * dt)) <= dt * bpow radix2 (-29)) /\
  (is_finite (y s') = true /\ Rabs (B2R (y s') - (B2R (y s) + B2R (snd (c_wind c)) * dt)) <= dt * bpow radix2 (-29)).
Proof.
  intros ((Fx & Lx) & (Fy & Ly) & Wu & Wv & z & Hz & Hst & Hd). cbv zeta. unfold flown, do_call.
  destruct (simulate_step _ _ _ _ _ s) as [s' o'] eqn:E. cbn [fst].
  destruct (call_ran _ _ _ _ _ _ _ _ E) as (p & e & al & k & eff & Hr & _ & _ & Hk & _).
  fold (relayered s (c_action c) p e al) in Hr.
  assert (K : (k <= 64)%nat).
  { destruct (Nat.eq_dec k 0) as [->|N0]; [lia|]. specialize (Hk N0).
    unfold int_seconds, us_per_second in Hk. rewrite Hst in Hk, Hd.
    rewrite Z.quot_mul in Hk by lia. rewrite Z.quot_div_nonneg in Hk by lia.
    assert (c_delta c / 1000000 <= 64 * z)%Z by (apply Z.div_le_upper_bound; lia).
    assert (c_delta c / 1000000 / z <= 64)%Z by (apply Z.div_le_upper_bound; lia). lia. }
  assert (IK : INR k <= 64) by (apply le_INR in K; cbn [INR] in K; lra).
  assert (P0 := pos_INR k).
  assert (Pb := bpow_ge_0 radix2 (-29)).
  destruct (ran_drift x (fst (c_wind c)) z _ _ _ _ _ _ _
    (fun a b H => ltac:(destruct (substep_position _ _ _ _ _ _ H) as (A & B & C); exact (conj A C))) Hst Hz Wu Hr K Fx
       ltac:(change (x (relayered s (c_action c) p e al)) with (x s); lra)) as (Fx' & Tx & Ex).
  destruct (ran_drift y (snd (c_wind c)) z _ _ _ _ _ _ _
    (fun a b H => ltac:(destruct (substep_position _ _ _ _ _ _ H) as (A & B & C); exact (conj B C))) Hst Hz Wv Hr K Fy
       ltac:(change (y (relayered s (c_action c) p e al)) with (y s); lra)) as (Fy' & Ty & Ey).
  change (x (relayered s (c_action c) p e al)) with (x s) in *.
  change (y (relayered s (c_action c) p e al)) with (y s) in *.
  change (time_elapsed (relayered s (c_action c) p e al)) with (time_elapsed s) in *.
  assert (Dt : IZR (time_elapsed s' - time_elapsed s) / 1000000 = INR k * IZR z).
  { rewrite Tx, Hst. replace (time_elapsed s + Z.of_nat k * (z * 1000000) - time_elapsed s)%Z
      with (Z.of_nat k * z * 1000000)%Z by ring. rewrite !mult_IZR, <- INR_IZR_INZ. field. }
  rewrite Dt. assert (Z1 : 1 <= IZR z) by (apply IZR_le; lia).
  assert (G : INR k * bpow radix2 (-29) <= INR k * IZR z * bpow radix2 (-29)).
  { apply Rmult_le_compat_r; [exact Pb|]. rewrite <- (Rmult_1_r (INR k)) at 1. now apply Rmult_le_compat_l. }
  split; [apply Rmult_le_pos; lra|]. split; split; try assumption; eapply Rle_trans; eassumption.
Qed.

(** Dead reckoning: after any flight of such calls the balloon's computed position is the
    starting position plus wind times time, up to 2^-29 m per second flown (less than
    0.17 mm per day). *)
Theorem C95_position : forall (s0 : bstate float) cs,
  Forall ordinary (fly s0 cs) ->
  let s := fly_end s0 cs in
  let seconds := IZR (time_elapsed s - time_elapsed s0) / 1000000 in
  (cs <> [] -> is_finite (x s) = true /\ is_finite (y s) = true) /\
  Rabs (B2R (x s) - (B2R (x s0) + carried fst s0 cs)) <= seconds / 536870912 /\
  Rabs (B2R (y s) - (B2R (y s0) + carried snd s0 cs)) <= seconds / 536870912.
Proof.
  intros s0 cs. cbv zeta. revert s0. induction cs as [|c cs IH]; intros s0 H.
  - split; [congruence|]. cbn [fly_end carried]. unfold Rdiv. rewrite Z.sub_diag, !Rmult_0_l.
    rewrite !Rplus_0_r, !Rminus_diag_eq, Rabs_R0 by reflexivity. lra.
  - cbn [fly] in H. pose proof (Forall_inv H) as H1. apply Forall_inv_tail in H.
    destruct (call_drift _ _ _ H1) as (P & (Fx & Ex) & (Fy & Ey)).
    destruct (IH _ H) as (F & Jx & Jy). cbn [fly_end carried].
    set (s1 := fst (do_call s0 c)) in *. set (s2 := fly_end s1 cs) in *.
    replace (bpow radix2 (-29)) with (/ 536870912) in * by reflexivity.
    assert (D : IZR (time_elapsed s2 - time_elapsed s0) / 1000000
      = IZR (time_elapsed s2 - time_elapsed s1) / 1000000 + flown s0 c).
    { unfold flown. fold s1. rewrite !minus_IZR. field. }
    rewrite D. unfold Rdiv at 1 2. split.
    { intros _. destruct cs as [|c' cs']; [split; assumption|]. apply F. discriminate. }
    split.
    + replace (B2R (x s2) - _) with ((B2R (x s2) - (B2R (x s1) + carried fst s1 cs))
        + (B2R (x s1) - (B2R (x s0) + B2R (fst (c_wind c)) * flown s0 c))) by ring.
      eapply Rle_trans; [apply Rabs_triang|]. lra.
    + replace (B2R (y s2) - _) with ((B2R (y s2) - (B2R (y s1) + carried snd s1 cs))
        + (B2R (y s1) - (B2R (y s0) + B2R (snd (c_wind c)) * flown s0 c))) by ring.
      eapply Rle_trans; [apply Rabs_triang|]. lra.
Qed.
End Pow.

(** ** Witness: half a minute of flight *)
(** A power function for the witness (it is not the C library's; none of the theorems above
    assumes anything about it). *)
Definition demo_pow (a _ : float) : float := a.
Definition DF : Num float := Num_float demo_pow.

(** An atmosphere whose height falls with pressure by 1 m per 0.8 Pa, a sun at noon. *)
Definition demo_world : world float := {|
  at_pressure := fun p => Some (@nsub _ DF (float_of_Z 25000) (@ndiv _ DF p (@lit _ DF 8 10)), float_of_Z 206);
  sun := fun _ _ _ => (float_of_Z 40, float_of_Z 1366);
  d_temperature := fun _ _ _ _ _ _ _ _ => Some (@lit _ DF 1 100);
  solar_power_fn := fun _ _ => float_of_Z 500 |}.
Definition demo_start : bstate float :=
  @default_state _ DF 1600000000000000 (1599950000000000, 1600050000000000)%Z
    <| x := @lit _ DF 1 10 |> <| y := float_of_Z 50000 |> <| mols_air := float_of_Z 100 |> <| superpressure := float_of_Z 900 |>.
Definition demo_leg (a : command) (secs : Z) : call float :=
  {| c_world := demo_world; c_wind := (@lit _ DF 73 10, @lit _ DF (-41) 10); c_action := a;
     c_delta := secs * 1000000; c_stride := 10000000 |}.

(** The value of a float, for reading results off. *)
Lemma value (f : float) b m e : B2SF f = SpecFloat.S754_finite b m e ->
  is_finite f = true /\ B2R f = F2R (Float radix2 (cond_Zopp b (Zpos m)) e).
Proof. intro H. destruct f; try discriminate H. injection H as -> -> ->. split; reflexivity. Qed.

Example C95_witness :
  let out := @fly_end _ DF demo_start [demo_leg UP 10] in
  (* C95_battery, C95_ratio *)
  is_finite (battery_capacity demo_start) = true /\
  Bltb (B754_zero false) (battery_charge demo_start) = true /\
  Bleb (battery_charge demo_start) (battery_capacity demo_start) = true /\
  bstatus demo_start = OK /\
  is_finite (pressure demo_start) = true /\ 0 < B2R (pressure demo_start) /\
  is_nan (superpressure demo_start) = false /\
  (* C95_ballast: the call returned, the valve was open *)
  map snd (@fly _ DF demo_start [demo_leg UP 10]) = [Executed UP] /\
  is_finite (mols_air out) = true /\ B2R (mols_air out) < B2R (mols_air demo_start) /\
  is_finite (battery_charge out) = true /\ B2R (battery_charge demo_start) < B2R (battery_charge out) /\
  (* C95_position *)
  Forall ordinary (@fly _ DF demo_start [demo_leg UP 10]) /\
  time_elapsed out = 10000000%Z /\
  Rabs (B2R (x out) - 73.1) < 1 / 1000000 /\ B2R (x out) <> 73.1.
Proof.
  cbv zeta.
  split; [reflexivity|]. split; [vm_compute; reflexivity|]. split; [vm_compute; reflexivity|].
  split; [reflexivity|]. split; [reflexivity|].
  split; [destruct (of_Z 6000 ltac:(lia)) as [_ V]; change (pressure demo_start) with (float_of_Z 6000); rewrite V; lra|].
  split; [reflexivity|]. split; [vm_compute; reflexivity|].
  destruct (value (mols_air (@fly_end _ DF demo_start [demo_leg UP 10])) _ _ _ ltac:(vm_compute; reflexivity)) as [F1 V1].
  destruct (value (battery_charge (@fly_end _ DF demo_start [demo_leg UP 10])) _ _ _ ltac:(vm_compute; reflexivity)) as [F2 V2].
  destruct (value (x (@fly_end _ DF demo_start [demo_leg UP 10])) _ _ _ ltac:(vm_compute; reflexivity)) as [F3 V3].
  destruct (value (battery_charge demo_start) _ _ _ ltac:(vm_compute; reflexivity)) as [F4 V4].
  destruct (value (mols_air demo_start) _ _ _ ltac:(vm_compute; reflexivity)) as [F5 V5].
  rewrite V1, V2, V3, V4, V5. unfold F2R. cbn [Fnum Fexp cond_Zopp bpow Z.opp].
  split; [exact F1|]. split; [vm_compute Z.pow_pos; lra|]. split; [exact F2|].
  split; [vm_compute Z.pow_pos; lra|]. split.
  { constructor; [|constructor].
    destruct (value (x demo_start) _ _ _ ltac:(vm_compute; reflexivity)) as [F6 V6].
    destruct (value (y demo_start) _ _ _ ltac:(vm_compute; reflexivity)) as [F7 V7].
    destruct (value (fst (c_wind (demo_leg UP 10))) _ _ _ ltac:(vm_compute; reflexivity)) as [F8 V8].
    destruct (value (snd (c_wind (demo_leg UP 10))) _ _ _ ltac:(vm_compute; reflexivity)) as [F9 V9].
    unfold ordinary. rewrite V6, V7, V8, V9. unfold F2R. cbn [Fnum Fexp cond_Zopp bpow Z.opp].
    repeat split; try assumption; try (apply Rabs_le; vm_compute Z.pow_pos; lra).
    exists 10%Z. split; [lia|]. split; [reflexivity|]. cbn. lia. }
  split; [vm_compute; reflexivity|].
  split; [apply Rabs_def1; vm_compute Z.pow_pos; lra|]. vm_compute Z.pow_pos. lra.
Qed.

(** C95_buoyancy and C95_charge_is_a_number: a sub-step that returns, heights that fall with
    pressure around 6000 Pa, ordinary powers and pressure ratio. *)
Example C95_witness_substep :
  (exists s', @simulate_substep _ DF demo_world (float_of_Z 3, float_of_Z 4) DOWN 10000000 demo_start = Some s') /\
  (forall h t h' t', at_pressure demo_world (pressure demo_start) = Some (h, t) ->
     (at_pressure demo_world (@nadd _ DF (pressure demo_start) (float_of_Z 1)) = Some (h', t') ->
        is_finite h = true /\ is_finite h' = true /\ B2R h' < B2R h) /\
     (at_pressure demo_world (@nadd _ DF (pressure demo_start) (@nopp _ DF (float_of_Z 1))) = Some (h', t') ->
        is_finite h = true /\ is_finite h' = true /\ B2R h < B2R h')) /\
  is_finite (@pressure_ratio _ DF demo_start) = true /\ 1 < B2R (@pressure_ratio _ DF demo_start) <= 1024.
Proof.
  split.
  { destruct (@simulate_substep _ DF demo_world (float_of_Z 3, float_of_Z 4) DOWN 10000000 demo_start) as [s'|] eqn:E;
      [now exists s'|].
    exfalso. assert (H : match @simulate_substep _ DF demo_world (float_of_Z 3, float_of_Z 4) DOWN 10000000 demo_start with
      Some _ => true | None => false end = true) by (vm_compute; reflexivity). rewrite E in H. discriminate H. }
  split.
  { intros h t h' t' H.
    assert (Hh : B2SF h = SpecFloat.S754_finite false 4810363371520000 (-38)).
    { apply some_eq in H. apply (f_equal fst) in H. cbn [fst] in H. rewrite <- H. vm_compute. reflexivity. }
    destruct (value _ _ _ _ Hh) as [F V].
    split; intro G.
    { assert (Hh' : B2SF h' = SpecFloat.S754_finite false 4810019774136320 (-38)).
      { apply some_eq in G. apply (f_equal fst) in G. cbn [fst] in G. rewrite <- G. vm_compute. reflexivity. }
      destruct (value _ _ _ _ Hh') as [F' V']. clear G H Hh Hh'. split; [exact F|]. split; [exact F'|]. rewrite V, V'.
      unfold F2R. cbn [Fnum Fexp cond_Zopp bpow Z.opp]. vm_compute Z.pow_pos. lra. }
    { assert (Hh' : B2SF h' = SpecFloat.S754_finite false 4810706968903680 (-38)).
      { apply some_eq in G. apply (f_equal fst) in G. cbn [fst] in G. rewrite <- G. vm_compute. reflexivity. }
      destruct (value _ _ _ _ Hh') as [F' V']. clear G H Hh Hh'. split; [exact F|]. split; [exact F'|]. rewrite V, V'.
      unfold F2R. cbn [Fnum Fexp cond_Zopp bpow Z.opp]. vm_compute Z.pow_pos. lra. } }
  destruct (value (@pressure_ratio _ DF demo_start) _ _ _ ltac:(vm_compute; reflexivity)) as [F V].
  split; [exact F|]. rewrite V. unfold F2R. cbn [Fnum Fexp cond_Zopp bpow Z.opp]. vm_compute Z.pow_pos. lra.
Qed.
Print Assumptions C95_battery.
Print Assumptions C95_ratio.
Print Assumptions C95_charge_is_a_number.
Print Assumptions C95_ballast.
Print Assumptions C95_buoyancy.
Print Assumptions C95_position.
