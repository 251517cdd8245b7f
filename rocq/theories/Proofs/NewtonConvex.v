(** The search of a cold start ([newton], Model/StableInit.v) on a rate that
    decreases with the temperature and is concave above some temperature. *)
From Coq Require Import Reals Lra Lia Psatz.
From Verif Require Import Model.Num Model.StableInit Proofs.NumR.
Open Scope R_scope.

(** Chords get steeper. *)
Definition convex_on (a b : R) (f : R -> R) : Prop :=
  forall x y z, a <= x < y -> y < z <= b -> (f y - f x) * (z - y) <= (f z - f y) * (y - x).
Lemma convex_plus a b f g : convex_on a b f -> convex_on a b g -> convex_on a b (fun x => f x + g x).
Proof. intros F G x y z H1 H2. pose proof (F x y z H1 H2). pose proof (G x y z H1 H2). lra. Qed.
Lemma convex_scale a b c f : 0 <= c -> convex_on a b f -> convex_on a b (fun x => c * f x).
Proof.
  intros Hc F x y z H1 H2. pose proof (F x y z H1 H2).
  replace ((c * f y - c * f x) * (z - y)) with (c * ((f y - f x) * (z - y))) by ring.
  replace ((c * f z - c * f y) * (y - x)) with (c * ((f z - f y) * (y - x))) by ring.
  apply Rmult_le_compat_l; assumption.
Qed.
Lemma convex_minus_const a b c f : convex_on a b f -> convex_on a b (fun x => f x - c).
Proof. intros F x y z H1 H2. pose proof (F x y z H1 H2). lra. Qed.
Lemma convex_tangent a b f (m : R -> R) :
  (forall x y, a <= x <= b -> a <= y <= b -> f y + m y * (x - y) <= f x) -> convex_on a b f.
Proof.
  intros T x y z H1 H2. pose proof (T x y ltac:(lra) ltac:(lra)) as Tx. pose proof (T z y ltac:(lra) ltac:(lra)) as Tz.
  assert (f y - f x <= m y * (y - x)) by lra. assert (m y * (z - y) <= f z - f y) by lra. nra.
Qed.
Lemma convex_sub a b a' b' f : a <= a' -> b' <= b -> convex_on a b f -> convex_on a' b' f.
Proof. intros H1 H2 F x y z H3 H4. apply F; lra. Qed.
Lemma convex_ext a b f g : (forall x, a <= x <= b -> f x = g x) -> convex_on a b f -> convex_on a b g.
Proof. intros E F x y z H1 H2. rewrite <- !E by lra. apply F; assumption. Qed.

Section Newton.
Context (rate : R -> option R) (c : R) (g : R -> R) (lo hi : R).
Hypothesis Hc : 0 < c.
Hypothesis Hrate : forall t, lo <= t <= hi -> rate t = Some (c * (- g t)).
Hypothesis Inc : forall t t', lo <= t -> t < t' -> t' <= hi -> g t < g t'.

(** The next temperature is where the chord over 0.01 K meets zero. *)
Lemma step_value t : lo <= t - 0.005 -> t + 0.005 <= hi ->
  exists t' m, newton_step rate t = Some (t', m) /\
    (t' - (t - 0.005)) * (g (t + 0.005) - g (t - 0.005)) = - g (t - 0.005) * 0.01 /\
    m = - c * ((g (t - 0.005) + g (t + 0.005)) / 2).
Proof.
  intros H1 H2. unfold newton_step, delta_temp. replace (0.01 / 2) with 0.005 by lra.
  rewrite (Hrate (t - 0.005)), (Hrate (t + 0.005)) by lra.
  pose proof (Inc (t - 0.005) (t + 0.005) ltac:(lra) ltac:(lra) ltac:(lra)) as I.
  set (g1 := g (t - 0.005)) in *. set (g2 := g (t + 0.005)) in *.
  assert (Hs : (c * - g2 - c * - g1) / 0.01 < 0).
  { assert (0 < c * (g2 - g1)) by (apply Rmult_lt_0_compat; lra). lra. }
  rewrite Rltb_true by (apply Rabs_pos_lt; lra).
  eexists. eexists. split; [reflexivity|]. split; [|lra].
  replace (t - (c * - g1 + c * - g2) / 2 / ((c * - g2 - c * - g1) / 0.01))
    with (t - (g1 + g2) / 2 * 0.01 / (g2 - g1)).
  2:{ replace ((c * - g2 - c * - g1) / 0.01) with (- c * ((g2 - g1) / 0.01)) by lra.
      replace ((c * - g1 + c * - g2) / 2) with (- c * ((g1 + g2) / 2)) by lra.
      replace 0.01 with (/ 100) by lra. field. lra. }
  replace ((t - (g1 + g2) / 2 * 0.01 / (g2 - g1) - (t - 0.005)) * (g2 - g1))
    with (0.005 * (g2 - g1) - (g1 + g2) / 2 * 0.01).
  2:{ replace 0.005 with (/ 200) by lra. replace 0.01 with (/ 100) by lra. field. lra. }
  lra.
Qed.

(** ** Where the rate is concave *)
Context (a r : R).
Hypothesis Ha : lo <= a.
Hypothesis Cvx : convex_on a hi g.
Hypothesis Hr : a < r < hi.
Hypothesis Below : forall t, a <= t < r -> g t < 0.
Hypothesis Above : forall t, r < t <= hi -> 0 < g t.

(** No step ends below the equilibrium (but for the width of the chord). *)
Lemma never_below t t' : a <= t - 0.005 -> t + 0.005 <= hi ->
  (t' - (t - 0.005)) * (g (t + 0.005) - g (t - 0.005)) = - g (t - 0.005) * 0.01 -> r - 0.01 <= t'.
Proof.
  intros H1 H2 E. set (t1 := t - 0.005) in *. set (t2 := t + 0.005) in *.
  assert (Et : t2 - t1 = 0.01) by (unfold t1, t2; lra).
  pose proof (Inc t1 t2 ltac:(lra) ltac:(lra) ltac:(lra)) as I.
  apply Rnot_lt_le. intro L.
  (* a point strictly between t' and the equilibrium *)
  destruct (Rle_dec r t1) as [L1|L1].
  - set (x := Rmax a (Rmax ((t' + r) / 2) (r - 0.005))).
    assert (Hx : a <= x < r /\ t' < x).
    { unfold x, Rmax. repeat destruct Rle_dec; lra. }
    pose proof (Below x ltac:(lra)) as Bx. pose proof (Cvx x t1 t2 ltac:(lra) ltac:(lra)) as C.
    rewrite Et in C. assert ((t1 - x) * (g t2 - g t1) < (t1 - t') * (g t2 - g t1)) by (apply Rmult_lt_compat_r; lra). lra.
  - destruct (Rle_dec r t2) as [L2|L2].
    + (* the chord is over the equilibrium *)
      pose proof (Below t1 ltac:(lra)) as B1.
      assert (0 < (t' - t1) * (g t2 - g t1)) by lra.
      assert (t1 < t') by nra. lra.
    + set (x := Rmax ((t2 + r) / 2) (r - 0.005)).
      assert (Hx : t2 < x < r /\ t' < x) by (unfold x, Rmax; destruct Rle_dec; lra).
      pose proof (Below x ltac:(lra)) as Bx. pose proof (Cvx t1 t2 x ltac:(lra) ltac:(lra)) as C.
      rewrite Et in C.
      assert ((t' - t1) * (g t2 - g t1) < (x - t1) * (g t2 - g t1)) by (apply Rmult_lt_compat_r; lra).
      assert ((t2 - t1) * (g t2 - g t1) = 0.01 * (g t2 - g t1)) by (rewrite Et; reflexivity). lra.
Qed.

(** From above the equilibrium, a step covers the share [theta] of the distance, if
    the chord from the equilibrium is not much flatter than the one used. *)
Lemma comes_closer theta t t' : 0 <= theta <= 1 -> r < t - 0.005 -> t + 0.005 <= hi ->
  (forall x, r < x < t - 0.005 -> theta * (g (t + 0.005) - g (t - 0.005)) * (t - 0.005 - x) <= (g (t - 0.005) - g x) * 0.01) ->
  (t' - (t - 0.005)) * (g (t + 0.005) - g (t - 0.005)) = - g (t - 0.005) * 0.01 ->
  t' - r <= (1 - theta) * (t - r).
Proof.
  intros Ht H1 H2 Sl E. set (t1 := t - 0.005) in *. set (t2 := t + 0.005) in *.
  pose proof (Inc t1 t2 ltac:(lra) ltac:(unfold t1, t2; lra) ltac:(lra)) as I.
  assert (L12 : t1 < t2) by (unfold t1, t2; lra).
  apply Rnot_lt_le. intro L.
  assert (L' : (1 - theta) * (t1 - r) < t' - r).
  { assert (0 <= (1 - theta) * (t - t1)) by (apply Rmult_le_pos; unfold t1; lra). lra. }
  set (eps := t' - r - (1 - theta) * (t1 - r)). assert (He : 0 < eps) by (unfold eps; lra).
  set (x := r + Rmin (eps / 2) ((t1 - r) / 2)).
  assert (Hx : r < x < t1 /\ x - r <= eps / 2).
  { unfold x, Rmin. destruct Rle_dec; lra. }
  pose proof (Above x ltac:(lra)) as Ax. pose proof (Sl x ltac:(lra)) as S.
  assert (Q : (t1 - t') * (g t2 - g t1) = g t1 * 0.01) by lra.
  assert (theta * (g t2 - g t1) * (t1 - x) < (t1 - t') * (g t2 - g t1)) by lra.
  assert (theta * (t1 - x) < t1 - t').
  { apply Rmult_lt_reg_r with (g t2 - g t1); [lra|]. lra. }
  assert (theta * (x - r) <= x - r) by nra.
  assert (t1 - t' = theta * (t1 - r) - eps) by (unfold eps; lra). lra.
Qed.

(** Near the equilibrium it stays near. *)
Lemma stays_near M t t' : 1 <= M -> r + 0.02 <= hi -> a <= t - 0.005 -> r - 0.01 <= t <= r + 0.005 ->
  (forall z, t + 0.005 < z <= r + 0.02 ->
     (g z - g (t + 0.005)) * 0.01 <= M * ((g (t + 0.005) - g (t - 0.005)) * (z - (t + 0.005)))) ->
  (t' - (t - 0.005)) * (g (t + 0.005) - g (t - 0.005)) = - g (t - 0.005) * 0.01 ->
  t' - r <= 0.02 * M.
Proof.
  intros HM Hh H1 H2 Sl E. set (t1 := t - 0.005) in *. set (t2 := t + 0.005) in *.
  assert (Et : t2 - t1 = 0.01) by (unfold t1, t2; lra).
  pose proof (Inc t1 t2 ltac:(lra) ltac:(lra) ltac:(unfold t2; lra)) as I.
  destruct (Rle_dec r t2) as [L|L].
  - (* the value at t2 is not negative, up to arbitrarily little *)
    destruct (Rle_dec t' (r + 0.02)) as [Q|Q]; [lra|].
    set (z := r + 0.015). pose proof (Above z ltac:(unfold z; lra)) as Az.
    assert (Hz : t2 < z) by (unfold z, t2; lra).
    assert (Hz2 : z <= r + 0.02) by (unfold z; lra).
    pose proof (Sl z (conj Hz Hz2)) as S.
    assert (g z - g t2 <= M * ((g t2 - g t1) * (z - t2)) / 0.01) by lra.
    apply Rnot_lt_le. intro Big.
    assert ((t1 + 0.01 + M * (z - t2) - t1) * (g t2 - g t1) < (t' - t1) * (g t2 - g t1)).
    { apply Rmult_lt_compat_r; [lra|]. assert (0 <= (M - 1) * (t2 - r)) by (apply Rmult_le_pos; lra).
      unfold z. lra. }
    lra.
  - set (z := r + 0.005). pose proof (Above z ltac:(unfold z; lra)) as Az.
    assert (Hz : t2 < z) by (unfold z; lra).
    assert (Hz2 : z <= r + 0.02) by (unfold z; lra).
    pose proof (Sl z (conj Hz Hz2)) as S.
    apply Rnot_lt_le. intro Big.
    assert ((t1 + 0.01 + M * (z - t2) - t1) * (g t2 - g t1) < (t' - t1) * (g t2 - g t1)).
    { apply Rmult_lt_compat_r; [lra|].
      assert (M * (r - t2) <= M * 0.015) by (apply Rmult_le_compat_l; unfold t2; lra). unfold z. lra. }
    lra.
Qed.

(** So the search converges, if chords do not get steeper too fast. *)
Context (a' flat : R).
Hypothesis Ha' : a <= a' <= r - 0.02.
Hypothesis Hhi : r + 0.06 <= hi.
Hypothesis Slope : forall x y z, a' <= x < y -> y < z <= hi -> z - y <= 0.04 ->
  0.42 * ((g z - g y) * (y - x)) <= (g y - g x) * (z - y).
Hypothesis Flat : forall x y, a' <= x < y -> y <= hi -> flat * (y - x) <= g y - g x.
Hypothesis Hflat : 0.0005 <= c * flat.

Lemma converges n : forall t D, 0 <= D -> r - 0.01 <= t <= r + 0.05 + D -> t + 0.005 <= hi ->
  exists T, newton n rate t = Some T /\ r - 0.01 <= T <= r + 0.06 + 0.58 ^ n * D.
Proof.
  induction n as [|n IH]; intros t D HD Ht Hh.
  { exists t. split; [reflexivity|]. cbn [pow]. lra. }
  cbn [newton].
  destruct (step_value t ltac:(lra) Hh) as (t' & m & Es & E & Em). rewrite Es.
  pose proof (never_below t t' ltac:(lra) Hh E) as Lo.
  destruct (Rle_dec (t - 0.005) r) as [N|N].
  - assert (Up : t' - r <= 0.02 * (50 / 21)).
    { apply (stays_near (50 / 21) t t'); try lra. intros z Hz.
      pose proof (Slope (t - 0.005) (t + 0.005) z ltac:(lra) ltac:(lra) ltac:(lra)) as S. lra. }
    destruct (Rltb (Rabs m) 1e-5).
    + exists t'. split; [reflexivity|]. pose proof (pow_le 0.58 (S n) ltac:(lra)).
      assert (0 <= 0.58 ^ S n * D) by (apply Rmult_le_pos; lra). lra.
    + destruct (IH t' (0.58 * D) ltac:(lra) ltac:(lra) ltac:(lra)) as (T & ET & HT).
      exists T. split; [exact ET|]. cbn [pow]. lra.
  - assert (Up : t' - r <= (1 - 0.42) * (t - r)).
    { apply (comes_closer 0.42 t t'); try lra. intros x Hx.
      pose proof (Slope x (t - 0.005) (t + 0.005) ltac:(lra) ltac:(lra) ltac:(lra)) as S. lra. }
    destruct (Rltb_spec (Rabs m) 1e-5) as [W|W].
    + exists t'. split; [reflexivity|]. pose proof (pow_le 0.58 (S n) ltac:(lra)).
      assert (0 <= 0.58 ^ S n * D) by (apply Rmult_le_pos; lra).
      enough (t - r <= 0.1) by lra.
      apply Rnot_lt_le. intro Far. set (x := r + 0.01).
      pose proof (Above x ltac:(unfold x; lra)) as Ax.
      pose proof (Flat x (t - 0.005) ltac:(unfold x; lra) ltac:(lra)) as F.
      pose proof (Inc (t - 0.005) (t + 0.005) ltac:(lra) ltac:(lra) Hh) as I.
      set (g1 := g (t - 0.005)) in *. set (g2 := g (t + 0.005)) in *.
      assert (B : c * (flat * 0.08) <= c * ((g1 + g2) / 2)).
      { apply Rmult_le_compat_l; [lra|].
        assert (0 < flat) by (apply Rmult_lt_reg_l with c; lra).
        assert (flat * 0.08 <= flat * (t - 0.005 - x)) by (apply Rmult_le_compat_l; unfold x; lra). lra. }
      rewrite Em in W. rewrite Rabs_left in W by lra. lra.
    + assert (Hn : t' + 0.005 <= hi) by lra.
      destruct (IH t' (0.58 * D) ltac:(lra) ltac:(lra) Hn) as (T & ET & HT).
      exists T. split; [exact ET|]. cbn [pow]. lra.
Qed.
End Newton.
