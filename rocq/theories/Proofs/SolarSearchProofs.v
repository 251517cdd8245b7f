(** The bisection of solar.py: it terminates, stays inside its bracket, and
    finds the minimum of an objective that is symmetric around it. *)
From Coq Require Import ZArith Lia Bool Reals Lra.
From Verif Require Import Model.Num Model.SolarSearch Spec.SunSpec Proofs.NumR.
Local Open Scope Z_scope.
Ltac Zify.zify_post_hook ::= Z.to_euclidean_division_equations.

Section Any.
Context {T : Type} {N : Num T}.

Lemma search_loop_total (obj : Z -> T) fuel : forall low high,
  low < high -> high - low <= Z.of_nat fuel ->
  exists l, search_loop fuel obj low high = Some (l, l + 1) /\ low <= l /\ l + 1 <= high.
Proof.
  induction fuel as [|f IH]; intros low high Hlt Hf; [lia|].
  cbn [search_loop]. destruct (Z.gtb_spec high (low + 1)) as [G|G].
  - destruct (nltb (obj low) (obj high)).
    + destruct (IH low (- (- (low + high) / 2))) as (l & E & A & B); [lia|lia|].
      exists l. split; [exact E|lia].
    + destruct (IH ((low + high) / 2) high) as (l & E & A & B); [lia|lia|].
      exists l. split; [exact E|lia].
  - exists low. replace (low + 1) with high by lia. split; [reflexivity|lia].
Qed.

(** What the search returns, without fuel: an index inside the bracket. *)
Lemma binary_search_facts el a b tr d :
  (* exactly when it answers *)
  (binary_search (T:=T) el a b tr d <> None <-> a <= b /\ d <> 0 /\ 0 < Z.quot (b - a) d) /\
  (* and then a grid point of the interval, with its elevation *)
  (forall time e, binary_search el a b tr d = Some (time, e) ->
     e = el time /\ exists i, 0 <= i <= Z.quot (b - a) d /\ time = a + d * i /\ a <= time <= b).
Proof.
  unfold binary_search.
  destruct (Z.ltb_spec b a) as [L|L].
  { split; [split; [congruence|lia]|discriminate]. }
  destruct (Z.eqb_spec d 0) as [Ed|Ed].
  { split; [split; [congruence|tauto]|discriminate]. }
  set (n := Z.quot (b - a) d).
  destruct (Z.leb_spec n 0) as [Hn|Hn].
  { split; [split; [congruence|lia]|discriminate]. }
  set (obj := fun idx => tr (el (a + d * idx))).
  destruct (search_loop_total obj (Z.to_nat n) 0 n) as (l & E & A & B); [lia|lia|].
  rewrite E. split.
  { split; [lia|discriminate]. }
  intros time e Q. injection Q as <- <-. split; [reflexivity|].
  assert (Hd : 0 < d).
  { destruct (Z.lt_trichotomy 0 d) as [|[|Hd]]; [assumption|congruence|exfalso].
    pose proof (Z.quot_opp_r (b - a) d Ed) as Q1.
    assert (Q2 : 0 <= Z.quot (b - a) (- d)) by (apply Z.quot_pos; clear -L Hd; lia).
    fold n in Q1. rewrite Q1 in Q2. clear -Q2 Hn. lia. }
  assert (Hnd : d * n <= b - a).
  { unfold n. apply Z.mul_quot_le; clear -L Hd; lia. }
  clearbody n.
  set (i := if nltb (obj l) (obj (l + 1)) then l else l + 1).
  assert (Hi : 0 <= i <= n) by (unfold i; destruct (nltb _ _); lia).
  exists i. split; [exact Hi|]. split; [reflexivity|].
  assert (0 <= d * i) by (apply Z.mul_nonneg_nonneg; lia).
  assert (d * i <= d * n) by (apply Z.mul_le_mono_nonneg_l; lia).
  change (a <= a + d * i <= b). clearbody i. lia.
Qed.

(** [obj] is ordered as the distance to some real [c]: the answer is a nearest
    index of the bracket. *)
Lemma search_loop_symmetric (obj : Z -> T) (c : R) fuel : forall low high n,
  0 <= low -> high <= n -> low < high -> high - low <= Z.of_nat fuel ->
  (forall i j, 0 <= i <= n -> 0 <= j <= n ->
     (nltb (obj i) (obj j) = true <-> (Rabs (IZR i - c) < Rabs (IZR j - c))%R)) ->
  ((IZR low <= c)%R \/ low = 0) -> ((c <= IZR high)%R \/ high = n) ->
  exists l, search_loop fuel obj low high = Some (l, l + 1) /\ 0 <= l /\ l + 1 <= n /\
    ((IZR l <= c)%R \/ l = 0) /\ ((c <= IZR (l + 1))%R \/ l + 1 = n).
Proof.
  induction fuel as [|f IH]; intros low high n H0 Hn Hlt Hf Ho HL HH; [lia|].
  cbn [search_loop]. destruct (Z.gtb_spec high (low + 1)) as [G|G].
  - pose proof (Ho low high ltac:(lia) ltac:(lia)) as Hlh.
    assert (Hlo : (IZR low + 2 <= IZR high)%R) by (rewrite <- plus_IZR; apply IZR_le; lia).
    destruct (nltb (obj low) (obj high)) eqn:E.
    + apply IH; auto; try lia. left.
      assert (Hc : (2 * c < IZR low + IZR high)%R).
      { pose proof (proj1 Hlh eq_refl) as X. unfold Rabs in X.
        destruct (Rcase_abs (IZR low - c)), (Rcase_abs (IZR high - c)); lra. }
      assert (Hz : low + high <= 2 * (- (- (low + high) / 2))) by lia.
      apply IZR_le in Hz. rewrite plus_IZR, mult_IZR in Hz. lra.
    + apply IH; auto; try lia. left.
      assert (Hc : (IZR low + IZR high <= 2 * c)%R).
      { assert (X : ~ (Rabs (IZR low - c) < Rabs (IZR high - c))%R).
        { intro X. apply Hlh in X. discriminate. }
        unfold Rabs in X.
        destruct (Rcase_abs (IZR low - c)), (Rcase_abs (IZR high - c)); lra. }
      assert (Hz : 2 * ((low + high) / 2) <= low + high) by lia.
      apply IZR_le in Hz. rewrite plus_IZR, mult_IZR in Hz. lra.
  - exists low. assert (high = low + 1) by lia. subst high. split; [reflexivity|].
    split; [lia|]. split; [lia|]. auto.
Qed.

Lemma binary_search_symmetric el a b tr d (c : R) :
  a <= b -> 0 < d -> d <= b - a ->
  (forall t t', a <= t <= b -> a <= t' <= b ->
     (nltb (tr (el t)) (tr (el t')) = true <-> (Rabs (IZR t - c) < Rabs (IZR t' - c))%R)) ->
  exists time, binary_search (T:=T) el a b tr d = Some (time, el time) /\
    exists i, time = a + d * i /\ 0 <= i <= Z.quot (b - a) d /\
    forall j, 0 <= j <= Z.quot (b - a) d ->
      (Rabs (IZR time - c) <= Rabs (IZR (a + d * j) - c))%R.
Proof.
  intros Hab Hd Hle Ho. unfold binary_search.
  destruct (Z.ltb_spec b a); [lia|]. destruct (Z.eqb_spec d 0) as [?|Hd0]; [lia|].
  set (n := Z.quot (b - a) d).
  assert (Hnd : d * n <= b - a) by (unfold n; apply Z.mul_quot_le; lia).
  assert (Hn : 1 <= n).
  { unfold n. rewrite Z.quot_div_nonneg by lia.
    apply Z.div_le_lower_bound; lia. }
  destruct (Z.leb_spec n 0); [lia|].
  set (obj := fun idx => tr (el (a + d * idx))).
  set (c' := ((c - IZR a) / IZR d)%R).
  assert (HdR : (0 < IZR d)%R) by (apply (IZR_lt 0); lia).
  assert (Hscale : forall i, (IZR (a + d * i) - c = IZR d * (IZR i - c'))%R).
  { intro i. unfold c'. rewrite plus_IZR, mult_IZR. field. lra. }
  assert (Hin : forall i, 0 <= i <= n -> a <= a + d * i <= b).
  { intros i Hi. assert (0 <= d * i) by (apply Z.mul_nonneg_nonneg; lia).
    assert (d * i <= d * n) by (apply Z.mul_le_mono_nonneg_l; lia). clearbody n. lia. }
  destruct (search_loop_symmetric obj c' (Z.to_nat n) 0 n n) as (l & E & A & B & C & D);
    try lia; auto.
  { intros i j Hi Hj. unfold obj. rewrite (Ho _ _ (Hin i Hi) (Hin j Hj)).
    rewrite !Hscale, !Rabs_mult, (Rabs_right (IZR d)) by lra.
    split; intro X; [apply (Rmult_lt_reg_l (IZR d)) in X; auto|now apply Rmult_lt_compat_l]. }
  rewrite E.
  set (i := if nltb (obj l) (obj (l + 1)) then l else l + 1).
  assert (Hi : 0 <= i <= n) by (unfold i; destruct (nltb _ _); lia).
  eexists. split; [reflexivity|]. exists i. split; [reflexivity|]. split; [exact Hi|].
  intros j Hj. rewrite !Hscale, !Rabs_mult.
  apply Rmult_le_compat_l; [apply Rabs_pos|].
  assert (Ho' : nltb (obj l) (obj (l + 1)) = true <-> (Rabs (IZR l - c') < Rabs (IZR (l + 1) - c'))%R).
  { unfold obj. rewrite (Ho _ _ (Hin l ltac:(lia)) (Hin (l + 1) ltac:(lia))).
    rewrite !Hscale, !Rabs_mult, (Rabs_right (IZR d)) by lra.
    split; intro X; [apply (Rmult_lt_reg_l (IZR d)) in X; auto|now apply Rmult_lt_compat_l]. }
  assert (M : (Rabs (IZR i - c') <= Rabs (IZR l - c'))%R /\
              (Rabs (IZR i - c') <= Rabs (IZR (l + 1) - c'))%R).
  { unfold i. destruct (nltb (obj l) (obj (l + 1))).
    - pose proof (proj1 Ho' eq_refl). lra.
    - assert (~ (Rabs (IZR l - c') < Rabs (IZR (l + 1) - c'))%R)
        by (intro X; apply Ho' in X; discriminate). lra. }
  clear -M C D Hj A B. destruct M as [M1 M2].
  destruct (Z.le_gt_cases j l) as [L|L].
  - eapply Rle_trans; [exact M1|].
    destruct C as [C|C].
    + assert (IZR j <= IZR l)%R by (apply IZR_le; lia).
      rewrite !Rabs_left1 by lra. lra.
    + assert (j = l) by lia. subst j. lra.
  - eapply Rle_trans; [exact M2|].
    destruct D as [D|D].
    + assert (IZR (l + 1) <= IZR j)%R by (apply IZR_le; lia).
      rewrite !Rabs_right by lra. lra.
    + assert (j = l + 1) by lia. subst j. lra.
Qed.

(** ** Noon, midnight, sunrise and sunset windows, for any elevation oracle *)
Definition steps12 (d : Z) : Prop := 0 < d <= hours12.

Lemma find_window el a b tg d : 0 < d -> d <= b - a ->
  exists t e, find_solar_elevation (T:=T) el a b tg d = Some (t, e) /\ e = el t /\ a <= t <= b.
Proof.
  intros H1 H2. unfold find_solar_elevation.
  set (tr := match tg with Minimum => _ | _ => _ end). clearbody tr.
  destruct (binary_search_facts el a b tr d) as [[_ S] F].
  destruct (binary_search el a b tr d) as [[t e]|] eqn:E.
  - destruct (F t e eq_refl) as (E1 & i & _ & _ & B). exists t, e. auto.
  - exfalso. apply S; [|reflexivity]. split; [lia|]. split; [lia|].
    rewrite Z.quot_div_nonneg by lia.
    assert (1 <= (b - a) / d) by (apply Z.div_le_lower_bound; lia). lia.
Qed.

Lemma find_in_window el a b tg d t e :
  find_solar_elevation (T:=T) el a b tg d = Some (t, e) -> e = el t /\ a <= t <= b.
Proof.
  unfold find_solar_elevation. set (tr := match tg with Minimum => _ | _ => _ end). clearbody tr.
  intro E. destruct (binary_search_facts el a b tr d) as [_ F].
  destruct (F t e E) as (E1 & i & _ & _ & B). auto.
Qed.

Lemma next_noon_midnight el time d : steps12 d ->
  exists n m en em,
    get_next_solar_noon (T:=T) el time d = Some (n, en) /\ en = el n /\
    get_next_solar_midnight (T:=T) el time d = Some (m, em) /\ em = el m /\
    (is_solar_afternoon el time = true ->
       time <= m <= time + half_day /\ time + half_day <= n <= time + one_day) /\
    (is_solar_afternoon el time = false ->
       time <= n <= time + half_day /\ time + half_day <= m <= time + one_day).
Proof.
  intros Hd. unfold steps12, hours12 in Hd.
  unfold get_next_solar_noon, get_next_solar_midnight, hours12, hours24, half_day, one_day.
  destruct (is_solar_afternoon el time).
  - destruct (find_window el (time + 12 * 3600 * 1000000) (time + 24 * 3600 * 1000000) Maximum d)
      as (n & en & E1 & E2 & B); [lia|lia|].
    destruct (find_window el time (time + 12 * 3600 * 1000000) Minimum d)
      as (m & em & E3 & E4 & B'); [lia|lia|].
    exists n, m, en, em. split; [exact E1|]. split; [exact E2|]. split; [exact E3|].
    split; [exact E4|]. split; [intros _; lia|discriminate].
  - destruct (find_window el time (time + 12 * 3600 * 1000000) Maximum d)
      as (n & en & E1 & E2 & B); [lia|lia|].
    destruct (find_window el (time + 12 * 3600 * 1000000) (time + 24 * 3600 * 1000000) Minimum d)
      as (m & em & E3 & E4 & B'); [lia|lia|].
    exists n, m, en, em. split; [exact E1|]. split; [exact E2|]. split; [exact E3|].
    split; [exact E4|]. split; [discriminate|intros _; lia].
Qed.

Lemma sunrise_sunset_window lat_ok horizon el time d r s :
  get_next_sunrise_sunset (T:=T) lat_ok horizon el time d = Some (r, s) ->
  lat_ok = true /\ time <= r <= time + one_day /\ time <= s <= time + one_day.
Proof.
  unfold get_next_sunrise_sunset. destruct lat_ok; [|discriminate]. cbn [negb].
  destruct (get_next_solar_noon el time d) as [[n en]|] eqn:En; [|discriminate].
  destruct (get_next_solar_midnight el time d) as [[m em]|] eqn:Em; [|discriminate].
  unfold get_next_solar_noon in En. unfold get_next_solar_midnight in Em.
  unfold hours12, hours24, one_day in *.
  destruct (is_solar_afternoon el time).
  - apply find_in_window in En. apply find_in_window in Em.
    destruct (find_solar_elevation el m n _ d) as [[r0 ?]|] eqn:Er; [|discriminate].
    destruct (find_solar_elevation el (n - _) m _ d) as [[s0 ?]|] eqn:Es; [|discriminate].
    apply find_in_window in Er. apply find_in_window in Es.
    intro Q; injection Q as <- <-.
    split; [reflexivity|].
    destruct (Z.ltb_spec r0 time), (Z.ltb_spec s0 time); lia.
  - apply find_in_window in En. apply find_in_window in Em.
    destruct (find_solar_elevation el (m - _) n _ d) as [[r0 ?]|] eqn:Er; [|discriminate].
    destruct (find_solar_elevation el n m _ d) as [[s0 ?]|] eqn:Es; [|discriminate].
    apply find_in_window in Er. apply find_in_window in Es.
    intro Q; injection Q as <- <-.
    split; [reflexivity|].
    destruct (Z.ltb_spec r0 time), (Z.ltb_spec s0 time); lia.
Qed.

(** The search for the sunrise needs the found noon and midnight to be at least
    one search step apart; then it answers. *)
Lemma sunrise_sunset_answers horizon el time d n en m em :
  steps12 d ->
  get_next_solar_noon (T:=T) el time d = Some (n, en) ->
  get_next_solar_midnight el time d = Some (m, em) ->
  d <= Z.abs (n - m) <= one_day - d ->
  exists r s, get_next_sunrise_sunset true horizon el time d = Some (r, s).
Proof.
  intros Hd En Em Hab. unfold get_next_sunrise_sunset. rewrite En, Em. cbn [negb].
  unfold steps12 in Hd.
  unfold get_next_solar_noon in En. unfold get_next_solar_midnight in Em.
  unfold hours12, hours24, one_day in *.
  destruct (is_solar_afternoon el time).
  - apply find_in_window in En. apply find_in_window in Em.
    destruct (find_window el m n (Elevation horizon) d) as (r & e & Er & _); [lia|lia|].
    destruct (find_window el (n - 24 * 3600 * 1000000) m (Elevation horizon) d)
      as (s & e' & Es & _); [lia|lia|].
    rewrite Er, Es. eauto.
  - apply find_in_window in En. apply find_in_window in Em.
    destruct (find_window el (m - 24 * 3600 * 1000000) n (Elevation horizon) d)
      as (r & e & Er & _); [lia|lia|].
    destruct (find_window el n m (Elevation horizon) d) as (s & e' & Es & _); [lia|lia|].
    rewrite Er, Es. eauto.
Qed.

Lemma steps_to_sunrise lat_ok horizon el time d k : 0 < d ->
  calculate_steps_to_sunrise (T:=T) lat_ok horizon el time d = Some k ->
  (nleb horizon (el time) = true /\ k = 0) \/
  (nleb horizon (el time) = false /\
   exists r s, get_next_sunrise_sunset lat_ok horizon el time d = Some (r, s) /\
     0 <= k /\ (k - 1) * d < r - time <= k * d).
Proof.
  intros Hd. unfold calculate_steps_to_sunrise.
  destruct (nleb horizon (el time)).
  - intro Q; injection Q as <-. auto.
  - destruct (get_next_sunrise_sunset lat_ok horizon el time d) as [[r s]|] eqn:E; [|discriminate].
    intro Q; injection Q as <-. right. split; [reflexivity|]. exists r, s. split; [reflexivity|].
    apply sunrise_sunset_window in E. destruct E as (_ & Hr & _).
    pose proof (Z.div_mod (- (r - time)) d ltac:(lia)).
    pose proof (Z.mod_pos_bound (- (r - time)) d Hd).
    set (q := - (r - time) / d) in *. clearbody q. set (u := - (r - time) mod d) in *. clearbody u.
    assert (q <= 0) by nia. split; [lia|]. nia.
Qed.
End Any.

(** ** The ideal sun *)
Lemma increasing_iff h top a b : increasing_to h top -> 0 <= a <= top -> 0 <= b <= top ->
  ((h a < h b)%R <-> a < b).
Proof.
  intros Hi Ha Hb. split; intro H.
  - destruct (Z.lt_trichotomy a b) as [L|[L|L]]; [exact L|subst; lra|].
    pose proof (Hi b a ltac:(lia) ltac:(lia)). lra.
  - apply Hi; lia.
Qed.

Lemma IZR_abs_lt t t' m :
  (Rabs (IZR t - IZR m) < Rabs (IZR t' - IZR m))%R <-> Z.abs (t - m) < Z.abs (t' - m).
Proof.
  rewrite <- !minus_IZR, <- !abs_IZR. split; [apply lt_IZR|apply IZR_lt].
Qed.

Lemma ideal_midnight_search el M k a b d : ideal_sun el M ->
  a <= M + k * one_day <= b -> b - a = half_day -> 0 < d -> half_day mod d = 0 ->
  exists t, find_solar_elevation (T:=R) el a b Minimum d = Some (t, el t) /\
    2 * Z.abs (t - (M + k * one_day)) <= d.
Proof.
  intros (h & Hi & Hel) Hm Hw Hd Hdiv. set (mm := M + k * one_day) in *.
  assert (Hq : exists q, half_day = q * d /\ 0 < q).
  { exists (half_day / d). pose proof (Z.div_mod half_day d ltac:(lia)).
    assert (0 < half_day) by reflexivity. split; [lia|]. nia. }
  destruct Hq as (q & Hq & Hq0).
  unfold find_solar_elevation.
  destruct (binary_search_symmetric el a b (fun v : R => v) d (IZR mm)) as (t & E & i & Et & Hi2 & Hmin);
    [nia|lia|nia| |].
  { intros t t' Ht Ht'. cbn. rewrite Rltb_iff.
    rewrite (Hel t k), (Hel t' k) by (fold mm; lia). fold mm.
    rewrite (increasing_iff h half_day) by (try exact Hi; lia).
    now rewrite IZR_abs_lt. }
  exists t. split; [exact E|].
  rewrite Hw in *. assert (Hquot : Z.quot half_day d = q).
  { rewrite Hq. rewrite Z.quot_mul by lia. reflexivity. }
  rewrite Hquot in *.
  (* the nearest grid point to mm *)
  set (j := (mm - a) / d).
  pose proof (Z.div_mod (mm - a) d ltac:(lia)) as Ej. fold j in Ej.
  pose proof (Z.mod_pos_bound (mm - a) d Hd) as Hr. set (r := (mm - a) mod d) in *.
  assert (Hj : 0 <= j <= q) by (clearbody j r; nia).
  assert (Q1 : Z.abs (t - mm) <= Z.abs (a + d * j - mm)).
  { specialize (Hmin j Hj). rewrite <- !minus_IZR, <- !abs_IZR in Hmin. now apply le_IZR. }
  destruct (Z.le_gt_cases (2 * r) d) as [C|C]; [clearbody j r; lia|].
  assert (Hj' : 0 <= j + 1 <= q) by (clearbody j r; nia).
  assert (Q2 : Z.abs (t - mm) <= Z.abs (a + d * (j + 1) - mm)).
  { specialize (Hmin (j + 1) Hj'). rewrite <- !minus_IZR, <- !abs_IZR in Hmin. now apply le_IZR. }
  clearbody j r. lia.
Qed.

Lemma ideal_noon_search el M k a b d : ideal_sun el M ->
  a <= M + half_day + k * one_day <= b -> b - a = half_day -> 0 < d -> half_day mod d = 0 ->
  exists t, find_solar_elevation (T:=R) el a b Maximum d = Some (t, el t) /\
    2 * Z.abs (t - (M + half_day + k * one_day)) <= d.
Proof.
  intros (h & Hi & Hel) Hm Hw Hd Hdiv. set (mm := M + half_day + k * one_day) in *.
  (* on a half-day window around noon, the elevation decreases with the distance
     to noon *)
  assert (Hnoon : forall t, Z.abs (t - mm) <= half_day -> el t = h (half_day - Z.abs (t - mm))).
  { intros t Ht. unfold mm in *. destruct (Z.le_gt_cases (M + half_day + k * one_day) t) as [L|L].
    - assert (E1 : Z.abs (t - (M + (k + 1) * one_day))
        = half_day - Z.abs (t - (M + half_day + k * one_day))) by (unfold one_day, half_day in *; lia).
      rewrite (Hel t (k + 1)); rewrite E1; [reflexivity|].
      unfold one_day, half_day in *; lia.
    - assert (E1 : Z.abs (t - (M + k * one_day))
        = half_day - Z.abs (t - (M + half_day + k * one_day))) by (unfold one_day, half_day in *; lia).
      rewrite (Hel t k); rewrite E1; [reflexivity|].
      unfold one_day, half_day in *; lia. }
  assert (Hq : exists q, half_day = q * d /\ 0 < q).
  { exists (half_day / d). pose proof (Z.div_mod half_day d ltac:(lia)).
    assert (0 < half_day) by reflexivity. split; [lia|]. nia. }
  destruct Hq as (q & Hq & Hq0).
  unfold find_solar_elevation.
  destruct (binary_search_symmetric el a b (fun v : R => nopp v) d (IZR mm)) as (t & E & i & Et & Hi2 & Hmin);
    [nia|lia|nia| |].
  { intros t t' Ht Ht'. cbn. rewrite Rltb_iff.
    rewrite (Hnoon t), (Hnoon t') by lia.
    pose proof (increasing_iff h half_day (half_day - Z.abs (t' - mm)) (half_day - Z.abs (t - mm)) Hi
      ltac:(lia) ltac:(lia)) as X.
    rewrite IZR_abs_lt.
    set (u := h (half_day - Z.abs (t - mm))) in *. set (u' := h (half_day - Z.abs (t' - mm))) in *.
    assert (Y : (- u < - u')%R <-> (u' < u)%R) by (split; intro; lra).
    rewrite Y, X. lia. }
  exists t. split; [exact E|].
  rewrite Hw in *. assert (Hquot : Z.quot half_day d = q).
  { rewrite Hq. rewrite Z.quot_mul by lia. reflexivity. }
  rewrite Hquot in *.
  set (j := (mm - a) / d).
  pose proof (Z.div_mod (mm - a) d ltac:(lia)) as Ej. fold j in Ej.
  pose proof (Z.mod_pos_bound (mm - a) d Hd) as Hr. set (r := (mm - a) mod d) in *.
  assert (Hj : 0 <= j <= q) by (clearbody j r; nia).
  assert (Q1 : Z.abs (t - mm) <= Z.abs (a + d * j - mm)).
  { specialize (Hmin j Hj). rewrite <- !minus_IZR, <- !abs_IZR in Hmin. now apply le_IZR. }
  destruct (Z.le_gt_cases (2 * r) d) as [C|C]; [clearbody j r; lia|].
  assert (Hj' : 0 <= j + 1 <= q) by (clearbody j r; nia).
  assert (Q2 : Z.abs (t - mm) <= Z.abs (a + d * (j + 1) - mm)).
  { specialize (Hmin (j + 1) Hj'). rewrite <- !minus_IZR, <- !abs_IZR in Hmin. now apply le_IZR. }
  clearbody j r. lia.
Qed.

Lemma ideal_next el M time d k : ideal_sun el M -> 0 < d -> half_day mod d = 0 ->
  (* morning *)
  (M + k * one_day <= time -> time + 1000000 <= M + half_day + k * one_day ->
     exists n m, get_next_solar_noon (T:=R) el time d = Some (n, el n) /\
       get_next_solar_midnight (T:=R) el time d = Some (m, el m) /\
       2 * Z.abs (n - (M + half_day + k * one_day)) <= d /\
       2 * Z.abs (m - (M + (k + 1) * one_day)) <= d) /\
  (* afternoon *)
  (M + half_day + k * one_day <= time -> time + 1000000 <= M + (k + 1) * one_day ->
     exists n m, get_next_solar_noon (T:=R) el time d = Some (n, el n) /\
       get_next_solar_midnight (T:=R) el time d = Some (m, el m) /\
       2 * Z.abs (m - (M + (k + 1) * one_day)) <= d /\
       2 * Z.abs (n - (M + half_day + (k + 1) * one_day)) <= d).
Proof.
  intros Hs Hd Hdiv. pose proof Hs as (h & Hi & Hel).
  unfold get_next_solar_noon, get_next_solar_midnight, is_solar_afternoon.
  change hours12 with half_day. change hours24 with one_day. unfold second1.
  assert (Hod : one_day = 2 * half_day) by reflexivity.
  split; intros H1 H2.
  - assert (Ea : nltb (el (time + 1000000)) (el time) = false).
    { cbn. apply Rltb_false. rewrite (Hel time k), (Hel (time + 1000000) k) by lia.
      pose proof (Hi (Z.abs (time - (M + k * one_day))) (Z.abs (time + 1000000 - (M + k * one_day)))
        ltac:(lia) ltac:(lia)). lra. }
    rewrite Ea.
    destruct (ideal_noon_search el M k time (time + half_day) d) as (n & E1 & B1); auto; try lia.
    destruct (ideal_midnight_search el M (k + 1) (time + half_day) (time + one_day) d)
      as (m & E2 & B2); auto; try lia.
    exists n, m. auto.
  - assert (Ea : nltb (el (time + 1000000)) (el time) = true).
    { cbn. apply Rltb_true. rewrite (Hel time (k + 1)), (Hel (time + 1000000) (k + 1)) by lia.
      apply Hi; lia. }
    rewrite Ea.
    destruct (ideal_midnight_search el M (k + 1) time (time + half_day) d) as (m & E1 & B1);
      auto; try lia.
    destruct (ideal_noon_search el M (k + 1) (time + half_day) (time + one_day) d)
      as (n & E2 & B2); auto; try lia.
    exists n, m. auto.
Qed.
