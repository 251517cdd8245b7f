(** Floating-point numbers as extended reals: [ext] orders them (an infinity counts as
    plus or minus 2^emax, beyond every finite number), and an operation on finite numbers is
    [near] of the exact result: rounding, then cutting off at the infinities. *)
From Coq Require Import ZArith Reals Lra Lia Bool List.
From Flocq Require Import Core BinarySingleNaN Relative.
From Verif Require Import Model.Num Model.Float64.
Open Scope R_scope.

Section Binary.
Context (prec emax : Z) {Hp : Prec_gt_0 prec} {He : Prec_lt_emax prec emax}.
Notation bin := (binary_float prec emax).
Notation fexp := (SpecFloat.fexp prec emax).
Notation top := (bpow radix2 emax).
Definition rnd (r : R) : R := round radix2 fexp ZnearestE r.
Definition cut (r : R) : R := Rmax (- top) (Rmin top r).
Definition near (r : R) : R := cut (rnd r).
Definition ext (f : bin) : R :=
  match f with B754_infinity s => if s then - top else top | _ => B2R f end.

Local Instance valid : Valid_exp fexp := fexp_correct prec emax Hp.
Local Instance mono : Monotone_exp fexp.
Proof. intros a b H. unfold SpecFloat.fexp. lia. Qed.
Local Instance not_ftz : Exp_not_FTZ fexp.
Proof. apply monotone_exp_not_FTZ; exact _. Qed.
Local Instance valid_rnd : Valid_rnd ZnearestE := valid_rnd_N _.

Lemma top_pos : 0 < top. Proof. apply bpow_gt_0. Qed.

Lemma ext_finite (f : bin) : is_finite f = true -> ext f = B2R f.
Proof. destruct f; try reflexivity; discriminate. Qed.

Lemma finite_lt (f : bin) : Rabs (B2R f) < top.
Proof.
  destruct f; cbn -[bpow]; rewrite ?Rabs_R0; try apply top_pos.
  exact (abs_B2R_lt_emax prec emax (B754_finite s m e e0)).
Qed.

Lemma ext_le (f : bin) : - top <= ext f <= top.
Proof.
  pose proof top_pos. pose proof (finite_lt f) as L. apply Rabs_def2 in L.
  destruct f as [s|s| |s m e H0]; try (cbn [ext]; lra).
  destruct s; cbn; lra.
Qed.

Lemma finite_of_ext (f : bin) : is_nan f = false -> Rabs (ext f) < top -> is_finite f = true.
Proof.
  destruct f as [s|s| |s m e H0]; try reflexivity; try discriminate.
  intros _. destruct s; cbn -[bpow]; rewrite ?Rabs_Ropp, Rabs_pos_eq; pose proof top_pos; lra.
Qed.

(** Comparisons are those of [ext]; with a NaN they are false. *)
Lemma lt_ext (f g : bin) : is_nan f = false -> is_nan g = false ->
  Bltb f g = Rlt_bool (ext f) (ext g).
Proof.
  intros Nf Ng.
  destruct (is_finite f) eqn:Ff; destruct (is_finite g) eqn:Fg.
  - rewrite !ext_finite by assumption. now apply Bltb_correct.
  - rewrite (ext_finite f) by assumption. pose proof (finite_lt f) as L. apply Rabs_def2 in L.
    destruct g as [?|[]| |?]; try discriminate; cbn [ext]; unfold Bltb, SpecFloat.SFltb;
      destruct f as [?|?| |[]]; try discriminate; cbn -[bpow B2R];
      try (rewrite Rlt_bool_true by (cbn -[bpow B2R] in *; lra); reflexivity);
      rewrite Rlt_bool_false by (cbn -[bpow B2R] in *; lra); reflexivity.
  - rewrite (ext_finite g) by assumption. pose proof (finite_lt g) as L. apply Rabs_def2 in L.
    destruct f as [?|[]| |?]; try discriminate; cbn [ext]; unfold Bltb, SpecFloat.SFltb;
      destruct g as [?|?| |[]]; try discriminate; cbn -[bpow B2R];
      try (rewrite Rlt_bool_true by (cbn -[bpow B2R] in *; lra); reflexivity);
      rewrite Rlt_bool_false by (cbn -[bpow B2R] in *; lra); reflexivity.
  - pose proof top_pos.
    destruct f as [?|[]| |?]; try discriminate; destruct g as [?|[]| |?]; try discriminate;
      unfold Bltb; cbn -[bpow];
      try (rewrite Rlt_bool_true by lra; reflexivity); rewrite Rlt_bool_false by lra; reflexivity.
Qed.
Lemma le_ext (f g : bin) : is_nan f = false -> is_nan g = false ->
  Bleb f g = Rle_bool (ext f) (ext g).
Proof.
  intros Nf Ng.
  destruct (is_finite f) eqn:Ff; destruct (is_finite g) eqn:Fg.
  - rewrite !ext_finite by assumption. now apply Bleb_correct.
  - rewrite (ext_finite f) by assumption. pose proof (finite_lt f) as L. apply Rabs_def2 in L.
    destruct g as [?|[]| |?]; try discriminate; cbn [ext]; unfold Bleb, SpecFloat.SFleb;
      destruct f as [?|?| |[]]; try discriminate; cbn -[bpow B2R];
      try (rewrite Rle_bool_true by (cbn -[bpow B2R] in *; lra); reflexivity);
      rewrite Rle_bool_false by (cbn -[bpow B2R] in *; lra); reflexivity.
  - rewrite (ext_finite g) by assumption. pose proof (finite_lt g) as L. apply Rabs_def2 in L.
    destruct f as [?|[]| |?]; try discriminate; cbn [ext]; unfold Bleb, SpecFloat.SFleb;
      destruct g as [?|?| |[]]; try discriminate; cbn -[bpow B2R];
      try (rewrite Rle_bool_true by (cbn -[bpow B2R] in *; lra); reflexivity);
      rewrite Rle_bool_false by (cbn -[bpow B2R] in *; lra); reflexivity.
  - pose proof top_pos.
    destruct f as [?|[]| |?]; try discriminate; destruct g as [?|[]| |?]; try discriminate;
      unfold Bleb; cbn -[bpow];
      try (rewrite Rle_bool_true by lra; reflexivity); rewrite Rle_bool_false by lra; reflexivity.
Qed.
Lemma lt_nan_l (g : bin) : Bltb B754_nan g = false.
Proof. destruct g; reflexivity. Qed.
Lemma lt_nan_r (f : bin) : Bltb f B754_nan = false.
Proof. destruct f as [?|[]| |[]]; reflexivity. Qed.
Lemma le_nan_l (g : bin) : Bleb B754_nan g = false.
Proof. destruct g; reflexivity. Qed.
Lemma le_nan_r (f : bin) : Bleb f B754_nan = false.
Proof. destruct f as [?|[]| |[]]; reflexivity. Qed.

(** ** Rounding *)
Lemma cut_mono r r' : r <= r' -> cut r <= cut r'.
Proof. intro H. unfold cut. apply Rle_max_compat_l, Rle_min_compat_l, H. Qed.
Lemma rnd_mono r r' : r <= r' -> rnd r <= rnd r'.
Proof. apply round_le; exact _. Qed.
Lemma near_mono r r' : r <= r' -> near r <= near r'.
Proof. intro H. apply cut_mono, rnd_mono, H. Qed.
Lemma cut_id r : - top <= r <= top -> cut r = r.
Proof. intro H. unfold cut. rewrite Rmin_right, Rmax_right; lra. Qed.
Lemma rnd_of (f : bin) : rnd (B2R f) = B2R f.
Proof. apply round_generic; [exact _|]. apply generic_format_B2R. Qed.
Lemma near_of (f : bin) : near (B2R f) = B2R f.
Proof.
  unfold near. rewrite rnd_of. apply cut_id.
  pose proof (finite_lt f) as L. apply Rabs_def2 in L. lra.
Qed.
Lemma near_0 : near 0 = 0.
Proof. exact (near_of (B754_zero false)). Qed.

Lemma near_cases r : (Rabs (rnd r) < top /\ near r = rnd r) \/
  (top <= rnd r /\ near r = top) \/ (rnd r <= - top /\ near r = - top).
Proof.
  unfold near, cut. pose proof top_pos.
  destruct (Rlt_le_dec (Rabs (rnd r)) top) as [L|L].
  - left. split; [exact L|]. apply Rabs_def2 in L. rewrite Rmin_right, Rmax_right; lra.
  - right. destruct (Rcase_abs (rnd r)) as [N|P].
    + rewrite Rabs_left in L by lra. right. split; [lra|].
      rewrite Rmin_right, Rmax_left; lra.
    + rewrite Rabs_right in L by lra. left. split; [lra|].
      rewrite Rmin_left, Rmax_right; lra.
Qed.

(** What an operation with exact result r gives. *)
Definition computes (f : bin) (r : R) : Prop := is_nan f = false /\ ext f = near r.

Lemma rnd_sign_pos r : 0 < rnd r -> 0 < r.
Proof. intro H. destruct (Rle_lt_dec r 0) as [L|L]; [|exact L].
  apply rnd_mono in L. unfold rnd at 2 in L. rewrite round_0 in L by exact _. lra. Qed.
Lemma rnd_sign_neg r : rnd r < 0 -> r < 0.
Proof. intro H. destruct (Rle_lt_dec 0 r) as [L|L]; [|exact L].
  apply rnd_mono in L. unfold rnd at 1 in L. rewrite round_0 in L by exact _. lra. Qed.

Lemma computes_of f r s : (Rabs (rnd r) < top -> B2R f = rnd r /\ is_finite f = true) ->
  (top <= Rabs (rnd r) -> B2SF f = SpecFloat.S754_infinity s /\
     (0 < r -> s = false) /\ (r < 0 -> s = true)) -> computes f r.
Proof.
  intros A B. unfold computes.
  destruct (near_cases r) as [[L N]|[[L N]|[L N]]]; rewrite N.
  - destruct (A L) as [C D]. split; [now destruct f|]. now rewrite ext_finite.
  - pose proof top_pos. destruct B as (C & P & _); [rewrite Rabs_pos_eq; lra|].
    rewrite P in C by (apply rnd_sign_pos; lra).
    destruct f as [?|?| |?]; try discriminate. injection C as ->. now split.
  - pose proof top_pos. destruct B as (C & _ & P); [rewrite Rabs_left1; lra|].
    rewrite P in C by (apply rnd_sign_neg; lra).
    destruct f as [?|?| |?]; try discriminate. injection C as ->. now split.
Qed.

Lemma sign_pos (f : bin) : is_finite f = true -> 0 < B2R f -> Bsign f = false.
Proof.
  destruct f as [[]|?| |[] m e H]; cbn -[B2R]; try reflexivity; try discriminate; intros _ P.
  - cbn in P. lra.
  - exfalso. cbn -[F2R] in P. assert (F2R (Float radix2 (Z.neg m) e) < 0) by now apply F2R_lt_0.
    cbn -[F2R] in *. lra.
Qed.
Lemma sign_neg (f : bin) : is_finite f = true -> B2R f < 0 -> Bsign f = true.
Proof.
  destruct f as [[]|?| |[] m e H]; cbn -[B2R]; try reflexivity; try discriminate; intros _ P.
  - cbn in P. lra.
  - exfalso. assert (0 < F2R (Float radix2 (Z.pos m) e)) by now apply F2R_gt_0.
    cbn -[F2R] in *. lra.
Qed.

Lemma add_computes (f g : bin) : is_finite f = true -> is_finite g = true ->
  computes (Bplus mode_NE f g) (B2R f + B2R g).
Proof.
  intros Ff Fg. pose proof (Bplus_correct prec emax _ _ mode_NE f g Ff Fg) as C.
  cbn [round_mode] in C. fold (rnd (B2R f + B2R g)) in C.
  apply computes_of with (s := Bsign f); intro L.
  - rewrite Rlt_bool_true in C by exact L. tauto.
  - rewrite Rlt_bool_false in C by exact L. destruct C as [C S]. split; [exact C|].
    split; intro P.
    + destruct (Bsign f) eqn:SF; [|reflexivity]. exfalso. symmetry in S.
      destruct (Rle_lt_dec (B2R f) 0) as [A|A];
        [|apply sign_pos in A; [congruence|assumption]].
      destruct (Rle_lt_dec (B2R g) 0) as [B|B];
        [|apply sign_pos in B; [congruence|assumption]]. lra.
    + destruct (Bsign f) eqn:SF; [reflexivity|]. exfalso. symmetry in S.
      destruct (Rle_lt_dec 0 (B2R f)) as [A|A];
        [|apply sign_neg in A; [congruence|assumption]].
      destruct (Rle_lt_dec 0 (B2R g)) as [B|B];
        [|apply sign_neg in B; [congruence|assumption]]. lra.
Qed.
Lemma minus_is (f g : bin) : Bminus mode_NE f g = Bplus mode_NE f (Bopp g).
Proof. destruct f as [?|?| |?], g as [?|?| |?]; cbn; try reflexivity;
  repeat match goal with |- context [if ?b then _ else _] => destruct b; try reflexivity end. Qed.
Lemma sub_computes (f g : bin) : is_finite f = true -> is_finite g = true ->
  computes (Bminus mode_NE f g) (B2R f - B2R g).
Proof.
  intros Ff Fg. rewrite minus_is. unfold Rminus. rewrite <- B2R_Bopp.
  apply add_computes; [assumption|now rewrite is_finite_Bopp].
Qed.

Lemma mul_computes (f g : bin) : is_finite f = true -> is_finite g = true ->
  computes (Bmult mode_NE f g) (B2R f * B2R g).
Proof.
  intros Ff Fg. pose proof (Bmult_correct prec emax _ _ mode_NE f g) as C.
  cbn [round_mode] in C. fold (rnd (B2R f * B2R g)) in C.
  apply computes_of with (s := xorb (Bsign f) (Bsign g)); intro L.
  - rewrite Rlt_bool_true in C by exact L. rewrite Ff, Fg in C. tauto.
  - rewrite Rlt_bool_false in C by exact L. split; [exact C|].
    pose proof (sign_pos f Ff). pose proof (sign_neg f Ff).
    pose proof (sign_pos g Fg). pose proof (sign_neg g Fg).
    destruct (Rtotal_order (B2R f) 0) as [A|[A|A]]; destruct (Rtotal_order (B2R g) 0) as [B|[B|B]];
      split; intro P; try (exfalso; nra);
      unfold Rgt in *;
      repeat match goal with H : ?a < ?b -> _, K : ?a < ?b |- _ => specialize (H K) end;
      repeat match goal with H : Bsign _ = _ |- _ => rewrite H end; reflexivity.
Qed.

Lemma div_computes (f g : bin) : is_finite f = true -> is_finite g = true -> B2R g <> 0 ->
  computes (Bdiv mode_NE f g) (B2R f / B2R g).
Proof.
  intros Ff Fg Z. pose proof (Bdiv_correct prec emax _ _ mode_NE f g Z) as C.
  cbn [round_mode] in C. fold (rnd (B2R f / B2R g)) in C.
  apply computes_of with (s := xorb (Bsign f) (Bsign g)); intro L.
  - rewrite Rlt_bool_true in C by exact L. rewrite Ff in C. tauto.
  - rewrite Rlt_bool_false in C by exact L. split; [exact C|].
    pose proof (sign_pos f Ff). pose proof (sign_neg f Ff).
    pose proof (sign_pos g Fg). pose proof (sign_neg g Fg).
    assert (E : B2R f = B2R f / B2R g * B2R g) by (field; exact Z).
    destruct (Rtotal_order (B2R f) 0) as [A|[A|A]]; destruct (Rtotal_order (B2R g) 0) as [B|[B|B]];
      split; intro P; try (exfalso; rewrite E in A; nra); try contradiction;
      unfold Rgt in *;
      repeat match goal with H : ?a < ?b -> _, K : ?a < ?b |- _ => specialize (H K) end;
      repeat match goal with H : Bsign _ = _ |- _ => rewrite H end; reflexivity.
Qed.

(** Rounding to nearest: the error. *)
Lemma rnd_error r e : (3 - emax - prec <= e - prec)%Z -> Rabs r <= bpow radix2 e ->
  Rabs (rnd r - r) <= bpow radix2 (e - prec - 1).
Proof.
  intros He' L. pose proof Hp as Hp'. unfold Prec_gt_0 in Hp'.
  destruct (Rle_lt_or_eq_dec _ _ L) as [L'|L'].
  2: { replace (rnd r - r) with 0; [rewrite Rabs_R0; apply bpow_ge_0|].
       unfold rnd. rewrite round_generic; [ring|exact _|].
       apply generic_format_abs_inv. rewrite L'.
       apply generic_format_bpow. unfold SpecFloat.fexp, SpecFloat.emin.
       apply Z.max_lub; lia. }
  apply Rle_trans with (/ 2 * ulp radix2 fexp r); [apply error_le_half_ulp; exact _|].
  replace (bpow radix2 (e - prec - 1)) with (/ 2 * bpow radix2 (e - prec)).
  2: { replace (e - prec - 1)%Z with (-1 + (e - prec))%Z by lia. now rewrite bpow_plus. }
  apply Rmult_le_compat_l; [lra|].
  apply Rle_trans with (ulp radix2 fexp (bpow radix2 (e - 1))).
  - destruct (Req_dec r 0) as [->|NZ].
    + apply ulp_ge_ulp_0; [exact valid|exact not_ftz].
    + rewrite !ulp_neq_0; [|pose proof (bpow_gt_0 radix2 (e - 1)); lra|exact NZ].
      apply bpow_le. unfold cexp. rewrite mag_bpow. apply mono.
      replace (e - 1 + 1)%Z with e by lia. now apply mag_le_bpow.
  - rewrite ulp_bpow. apply bpow_le. unfold SpecFloat.fexp, SpecFloat.emin.
    replace (e - 1 + 1)%Z with e by lia. apply Z.max_lub; lia.
Qed.

(** ** Signs *)
Lemma mul_sign (f g : bin) : is_nan (Bmult mode_NE f g) = false ->
  Bsign (Bmult mode_NE f g) = xorb (Bsign f) (Bsign g).
Proof.
  intro N. pose proof (Bmult_correct prec emax _ _ mode_NE f g) as C.
  destruct (Rlt_bool _ _); [now apply C|].
  destruct (Bmult mode_NE f g) as [?|?| |?]; try discriminate. injection C as ->. reflexivity.
Qed.
Lemma div_sign (f g : bin) : is_nan (Bdiv mode_NE f g) = false ->
  Bsign (Bdiv mode_NE f g) = xorb (Bsign f) (Bsign g).
Proof.
  intro N. destruct g as [sg|sg| |sg m e H].
  1-3: destruct f; try reflexivity; discriminate.
  pose proof (Bdiv_correct prec emax _ _ mode_NE f (B754_finite sg m e H)) as C.
  assert (Z : B2R (B754_finite sg m e H) <> 0).
  { intro Z. apply F2R_eq_0_reg in Z || (cbn -[F2R] in Z; apply eq_0_F2R in Z; destruct sg; discriminate). }
  specialize (C Z). destruct (Rlt_bool _ _); [now apply C|].
  destruct (Bdiv mode_NE f _) as [?|?| |?]; try discriminate. injection C as ->. reflexivity.
Qed.
Lemma sign_le0 (f : bin) : is_nan f = false -> Bsign f = true -> ext f <= 0.
Proof.
  intros N S. destruct (is_finite f) eqn:F.
  - rewrite ext_finite by exact F. destruct (Rle_lt_dec (B2R f) 0) as [L|L]; [exact L|].
    apply sign_pos in L; [congruence|exact F].
  - destruct f as [?|?| |?]; try discriminate. cbn in S |- *. rewrite S. pose proof top_pos. lra.
Qed.
Lemma sign_ge0 (f : bin) : is_nan f = false -> Bsign f = false -> 0 <= ext f.
Proof.
  intros N S. destruct (is_finite f) eqn:F.
  - rewrite ext_finite by exact F. destruct (Rle_lt_dec 0 (B2R f)) as [L|L]; [exact L|].
    apply sign_neg in L; [congruence|exact F].
  - destruct f as [?|?| |?]; try discriminate. cbn in S |- *. rewrite S. pose proof top_pos. lra.
Qed.
Lemma add_le (f g : bin) : is_finite f = true -> is_nan g = false -> ext g <= 0 ->
  is_nan (Bplus mode_NE f g) = false /\ ext (Bplus mode_NE f g) <= ext f.
Proof.
  intros F N L. destruct (is_finite g) eqn:G.
  - destruct (add_computes f g F G) as [A B]. split; [exact A|]. rewrite B, ext_finite by exact F.
    rewrite ext_finite in L by exact G. rewrite <- (near_of f) at 2. apply near_mono. lra.
  - destruct g as [?|[]| |?]; try discriminate.
    + pose proof (ext_le f). destruct f as [?|?| |?]; try discriminate; (split; [reflexivity|]); cbn [Bplus];
        cbn [ext] in *; lra.
    + cbn in L. pose proof top_pos. lra.
Qed.
Lemma add_ge (f g : bin) : is_finite f = true -> is_nan g = false -> 0 <= ext g ->
  is_nan (Bplus mode_NE f g) = false /\ ext f <= ext (Bplus mode_NE f g).
Proof.
  intros F N L. destruct (is_finite g) eqn:G.
  - destruct (add_computes f g F G) as [A B]. split; [exact A|]. rewrite B, ext_finite by exact F.
    rewrite ext_finite in L by exact G. rewrite <- (near_of f) at 1. apply near_mono. lra.
  - destruct g as [?|[]| |?]; try discriminate.
    + cbn in L. pose proof top_pos. lra.
    + pose proof (ext_le f). destruct f as [?|?| |?]; try discriminate; (split; [reflexivity|]); cbn [Bplus];
        cbn [ext] in *; lra.
Qed.

(** ** Numbers of at most 2^k *)
Definition within (k : Z) (f : bin) : Prop := is_finite f = true /\ Rabs (B2R f) <= bpow radix2 k.

Lemma within_weaken k l f : within k f -> (k <= l)%Z -> within l f.
Proof. intros [F L] K. split; [exact F|]. eapply Rle_trans; [exact L|]. now apply bpow_le. Qed.
Lemma rnd_within r k : (3 - emax - prec <= k - prec)%Z -> Rabs r <= bpow radix2 k -> Rabs (rnd r) <= bpow radix2 k.
Proof.
  intros K L. pose proof Hp as Hp'. unfold Prec_gt_0 in Hp'.
  assert (G : generic_format radix2 fexp (bpow radix2 k)).
  { apply generic_format_bpow. unfold SpecFloat.fexp, SpecFloat.emin. apply Z.max_lub; lia. }
  unfold rnd. apply abs_round_le_generic; [exact valid|exact valid_rnd|exact G|exact L].
Qed.
Lemma computes_within f r k : (3 - emax <= k < emax)%Z -> computes f r -> Rabs r <= bpow radix2 k ->
  within k f /\ B2R f = rnd r.
Proof.
  intros K [N E] L. pose proof (rnd_within r k ltac:(lia) L) as W.
  assert (T : bpow radix2 k < top) by (apply bpow_lt; lia).
  assert (Lt : Rabs (rnd r) < top) by lra.
  destruct (near_cases r) as [[_ C]|[[A _]|[A _]]].
  - rewrite C in E. assert (F : is_finite f = true) by (apply finite_of_ext; [exact N|rewrite E; exact Lt]).
    rewrite ext_finite in E by exact F. split; [split; [exact F|now rewrite E]|exact E].
  - exfalso. apply Rabs_def2 in Lt. lra.
  - exfalso. apply Rabs_def2 in Lt. lra.
Qed.
Lemma within_add k f g : (3 - emax <= k + 1 < emax)%Z -> within k f -> within k g ->
  within (k + 1) (Bplus mode_NE f g) /\ B2R (Bplus mode_NE f g) = rnd (B2R f + B2R g).
Proof.
  intros K [F A] [G B]. apply computes_within; [exact K|now apply add_computes|].
  rewrite bpow_plus. eapply Rle_trans; [apply Rabs_triang|]. cbn -[bpow]. change (bpow radix2 1) with 2. lra.
Qed.
Lemma within_sub k f g : (3 - emax <= k + 1 < emax)%Z -> within k f -> within k g ->
  within (k + 1) (Bminus mode_NE f g) /\ B2R (Bminus mode_NE f g) = rnd (B2R f - B2R g).
Proof.
  intros K [F A] [G B]. apply computes_within; [exact K|now apply sub_computes|].
  rewrite bpow_plus. unfold Rminus. eapply Rle_trans; [apply Rabs_triang|]. rewrite Rabs_Ropp.
  change (bpow radix2 1) with 2. lra.
Qed.
Lemma within_mul k l f g : (3 - emax <= k + l < emax)%Z -> within k f -> within l g ->
  within (k + l) (Bmult mode_NE f g) /\ B2R (Bmult mode_NE f g) = rnd (B2R f * B2R g).
Proof.
  intros K [F A] [G B]. apply computes_within; [exact K|now apply mul_computes|].
  rewrite bpow_plus, Rabs_mult. apply Rmult_le_compat; try assumption; apply Rabs_pos.
Qed.
End Binary.
Arguments rnd prec emax r : assert.
