(** The sharding arithmetic: int(n / d) in binary64. *)
From Coq Require Import ZArith Reals List Bool Lia Lra.
From Flocq Require Import Core Relative.
From Verif Require Import Model.Eval.
Import ListNotations.
Open Scope R_scope.

Notation fexp := (FLT_exp (-1074) 53).
Notation rnd := (round radix2 fexp ZnearestE).

Lemma format_int n : (Z.abs n < 2 ^ 53)%Z -> generic_format radix2 fexp (IZR n).
Proof.
  intro H. apply generic_format_FLT. apply (FLT_spec radix2 (-1074) 53 (IZR n) (Float radix2 n 0)).
  - unfold F2R. cbn. ring.
  - exact H.
  - cbn. lia.
Qed.
Lemma round_int n : (Z.abs n < 2 ^ 53)%Z -> rnd (IZR n) = IZR n.
Proof. intro H. apply round_generic; [apply valid_rnd_N|now apply format_int]. Qed.

Lemma rnd_le x y : x <= y -> rnd x <= rnd y.
Proof. apply round_le; [apply FLT_exp_valid; reflexivity|apply valid_rnd_N]. Qed.

Lemma true_divide_le n m d : (0 < d)%Z -> (n <= m)%Z -> true_divide n d <= true_divide m d.
Proof.
  intros Hd H. apply rnd_le. apply Rmult_le_compat_r; [|now apply IZR_le].
  left. apply Rinv_0_lt_compat. now apply IZR_lt.
Qed.
Lemma true_divide_exact n d : (0 < d)%Z -> (Z.abs n < 2 ^ 53)%Z -> true_divide (n * d) d = IZR n.
Proof.
  intros Hd Hn. unfold true_divide. rewrite mult_IZR.
  replace (IZR n * IZR d / IZR d) with (IZR n); [now apply round_int|].
  field. apply not_0_IZR. lia.
Qed.

Lemma int_true_divide n d : (0 <= n < 2 ^ 53)%Z -> (0 < d)%Z -> Ztrunc (true_divide n d) = (n / d)%Z.
Proof.
  intros Hn Hd.
  assert (D : 0 < IZR d) by now apply IZR_lt.
  set (q := (n / d)%Z). set (X := IZR n / IZR d).
  assert (Hq : (0 <= q)%Z) by (apply Z.div_pos; lia).
  assert (Hqn : (q <= n)%Z) by (apply Z.div_le_upper_bound; nia).
  assert (Hdm : (n = d * q + n mod d)%Z) by (apply Z.div_mod; lia).
  pose proof (Z.mod_pos_bound n d Hd) as Hr.
  assert (HX : IZR n = X * IZR d) by (unfold X; field; lra).
  assert (L1 : IZR q <= X).
  { apply Rmult_le_reg_r with (IZR d); [assumption|]. rewrite <- HX, <- mult_IZR. apply IZR_le. lia. }
  assert (L2 : X * IZR d <= (IZR q + 1) * IZR d - 1).
  { rewrite <- HX, <- plus_IZR, <- mult_IZR, <- minus_IZR. apply IZR_le. lia. }
  assert (R1 : IZR q <= rnd X).
  { rewrite <- (round_int q) by lia. now apply rnd_le. }
  assert (R2 : rnd X < IZR q + 1).
  { destruct (Rle_or_lt X (1 / 2)) as [Hs|Hs].
    - assert (Hh : rnd (1 / 2) = 1 / 2).
      { apply round_generic; [apply valid_rnd_N|]. replace (1 / 2) with (bpow radix2 (-1)) by (cbn; lra).
        apply generic_format_bpow. cbn. lia. }
      pose proof (rnd_le _ _ Hs). pose proof (IZR_le _ _ Hq). lra.
    - destruct (Rlt_or_le (rnd X) (IZR q + 1)) as [|C]; [assumption|exfalso].
      assert (E : Rabs (rnd X - X) <= / 2 * bpow radix2 (-53 + 1) * Rabs X).
      { apply relative_error_N_FLT; [lia|]. rewrite Rabs_pos_eq by lra.
        apply Rle_trans with (bpow radix2 (-1)); [apply bpow_le; lia|]. cbn. lra. }
      replace (bpow radix2 (-53 + 1)) with (/ 4503599627370496) in E by reflexivity.
      rewrite (Rabs_pos_eq X) in E by lra.
      pose proof (Rle_abs (rnd X - X)) as Ea.
      assert (Hn' : IZR n <= 9007199254740991) by (apply IZR_le; lia).
      assert (K1 : (rnd X - X) * IZR d <= / 2 * / 4503599627370496 * X * IZR d).
      { apply Rmult_le_compat_r; lra. }
      assert (K2 : (IZR q + 1) * IZR d <= rnd X * IZR d) by (apply Rmult_le_compat_r; lra).
      assert (K3 : / 2 * / 4503599627370496 * X * IZR d = IZR n / 9007199254740992).
      { rewrite HX. field. }
      lra. }
  unfold true_divide. fold X. rewrite Ztrunc_floor.
  2:{ apply Rle_trans with (IZR q); [now apply IZR_le|assumption]. }
  apply Zfloor_imp. rewrite plus_IZR. lra.
Qed.

Lemma shard_bound_le len i j num : (0 <= len)%Z -> (0 < num)%Z -> (i <= j)%Z ->
  (shard_bound len i num <= shard_bound len j num)%Z.
Proof. intros Hl Hn H. apply Ztrunc_le. apply true_divide_le; nia. Qed.
Lemma shard_bound_0 len num : (0 < num)%Z -> shard_bound len 0 num = 0%Z.
Proof.
  intro Hn. unfold shard_bound. replace (len * 0)%Z with (0 * num)%Z by ring.
  rewrite true_divide_exact by lia. apply Ztrunc_IZR.
Qed.
Lemma shard_bound_all len num : (0 <= len < 2 ^ 53)%Z -> (0 < num)%Z -> shard_bound len num num = len.
Proof. intros Hl Hn. unfold shard_bound. rewrite true_divide_exact by lia. apply Ztrunc_IZR. Qed.
Lemma shard_bound_div len i num : (0 <= len)%Z -> (0 < num)%Z -> (0 <= i <= num)%Z -> (len * num < 2 ^ 53)%Z ->
  shard_bound len i num = (len * i / num)%Z.
Proof. intros. apply int_true_divide; nia. Qed.

(** Consecutive slices of a list. *)
Lemma skipn_add {B} p q (l : list B) : skipn (p + q) l = skipn p (skipn q l).
Proof.
  revert l. induction q as [|q IH]; intro l; [now rewrite Nat.add_0_r|].
  destruct l as [|b l]; [now rewrite !skipn_nil|]. rewrite Nat.add_succ_r. cbn. apply IH.
Qed.
Lemma slice_split {B} (a b c : Z) (l : list B) : (0 <= a <= b)%Z -> (b <= c)%Z ->
  slice a b l ++ slice b c l = slice a c l.
Proof.
  intros H1 H2. unfold slice.
  replace (Z.to_nat (c - a)) with (Z.to_nat (b - a) + Z.to_nat (c - b))%nat by lia.
  replace (Z.to_nat b) with (Z.to_nat (b - a) + Z.to_nat a)%nat by lia.
  rewrite skipn_add. generalize (skipn (Z.to_nat a) l), (Z.to_nat (b - a)), (Z.to_nat (c - b)).
  clear. intros m p q. revert m. induction p as [|p IH]; intro m; [reflexivity|].
  destruct m as [|x m]; cbn; [now rewrite firstn_nil|]. now rewrite IH.
Qed.
Lemma slice_nil {B} (a : Z) (l : list B) : slice a a l = [].
Proof. unfold slice. now rewrite Z.sub_diag. Qed.
Lemma slice_full {B} (l : list B) : slice 0 (Z.of_nat (length l)) l = l.
Proof. unfold slice. rewrite Z.sub_0_r, Nat2Z.id. cbn. apply firstn_all. Qed.
Lemma slice_length {B} a b (l : list B) : (0 <= a <= b)%Z -> (b <= Z.of_nat (length l))%Z ->
  Z.of_nat (length (slice a b l)) = (b - a)%Z.
Proof. intros H1 H2. unfold slice. rewrite firstn_length, skipn_length. lia. Qed.

Lemma slices {B} (bound : Z -> Z) (l : list B) k :
  bound 0%Z = 0%Z -> (forall i j, (i <= j)%Z -> (bound i <= bound j)%Z) ->
  concat (map (fun i => slice (bound i) (bound (i + 1)%Z) l) (map Z.of_nat (seq 0 k)))
  = slice 0 (bound (Z.of_nat k)) l.
Proof.
  intros H0 Hm. induction k as [|k IH].
  - cbn. rewrite H0. now rewrite slice_nil.
  - rewrite seq_S, !map_app, concat_app, IH. cbn [map concat Nat.add]. rewrite app_nil_r.
    replace (Z.of_nat (S k)) with (Z.of_nat k + 1)%Z by lia.
    apply slice_split; [split; [lia|rewrite <- H0; apply Hm; lia]|apply Hm; lia].
Qed.
