(** The date arithmetic of the model is the Gregorian calendar. *)
From Coq Require Import ZArith Lia Bool Reals Lra.
From Verif Require Import Model.Num Model.Solar Spec.Calendar.
Open Scope Z_scope.
Ltac Zify.zify_post_hook ::= Z.to_euclidean_division_equations.


Lemma leap_1902_2099 y : 1902 <= y <= 2099 -> leap y = (y mod 4 =? 0).
Proof.
  intro H. unfold leap.
  destruct (Z.eqb_spec (y mod 4) 0), (Z.eqb_spec (y mod 100) 0), (Z.eqb_spec (y mod 400) 0);
    cbn [andb orb negb]; auto; exfalso;
    first [ lia | assert (y = 2000) by lia; subst y;
                  match goal with H : 2000 mod 400 <> 0 |- _ => apply H; reflexivity end ].
Qed.

Lemma century_term y m : 1902 <= y <= 2100 -> 1 <= m <= 12 -> (y = 2100 -> m <= 2) ->
  (3 * ((7 * y + m - 9) / 700 + 1)) / 4 = 15.
Proof. intros. assert (19 <= (7 * y + m - 9) / 700 <= 20) by lia. lia. Qed.

Lemma julian_step d : valid d -> 1902 <= year d <= 2099 ->
  julian_day_floor (next_day d) = julian_day_floor d + 1.
Proof.
  destruct d as [y m dd]. unfold valid, next_day. cbn [year month day]. intros [Hm Hd] Hy.
  assert (Hc : m = 1 \/ m = 2 \/ m = 3 \/ m = 4 \/ m = 5 \/ m = 6 \/ m = 7 \/ m = 8 \/
               m = 9 \/ m = 10 \/ m = 11 \/ m = 12) by lia.
  destruct (Z.ltb_spec dd (days_in_month y m)) as [L|L].
  { unfold julian_day_floor. cbn [year month day]. lia. }
  destruct (Z.ltb_spec m 12) as [L2|L2]; unfold julian_day_floor; cbn [year month day].
  - rewrite (century_term y m), (century_term y (m + 1)) by lia.
    destruct Hc as [->|[->|[->|[->|[->|[->|[->|[->|[->|[->|[->| ->]]]]]]]]]]]; try lia;
      cbn [days_in_month] in *; rewrite ?leap_1902_2099 in * by lia; try lia.
    destruct (Z.eqb_spec (y mod 4) 0); lia.
  - assert (m = 12) by lia. subst m. cbn [days_in_month] in *.
    rewrite (century_term y 12), (century_term (y + 1) 1) by lia. lia.
Qed.

(** ** [date_of_days] is the calendar *)
(** A year counted from 1 March: day [doy] is in month and day [md doy]. *)
Definition mp_of (doy : Z) : Z := (5 * doy + 2) / 153.
Definition m_of (doy : Z) : Z := if mp_of doy <? 10 then mp_of doy + 3 else mp_of doy - 9.
Definition d_of (doy : Z) : Z := doy - (153 * mp_of doy + 2) / 5 + 1.
Definition f_of (doe : Z) : Z := doe - doe / 1460 + doe / 36524 - doe / 146096.
Definition st (y : Z) : Z := 365 * y + y / 4 - y / 100.
Definition en (y : Z) : Z := if y =? 399 then 146097 else st (y + 1).

Lemma date_of_days_unfold z y doy : 0 <= z + 719468 < 146097 -> f_of (z + 719468) / 365 = y ->
  z + 719468 - st y = doy ->
  date_of_days z = mkDate (if m_of doy <=? 2 then y + 1 else y) (m_of doy) (d_of doy).
Proof.
  intros Hz Hy Hd. unfold date_of_days. cbv zeta.
  rewrite (Z.mod_small (z + 719468) 146097), (Z.div_small (z + 719468) 146097) by assumption.
  fold (f_of (z + 719468)). rewrite Hy. fold (st y). rewrite Hd.
  fold (mp_of doy). fold (m_of doy). fold (d_of doy). rewrite Z.mul_0_l, Z.add_0_r. reflexivity.
Qed.

Lemma f_of_step x : 0 <= x < 146096 -> f_of x <= f_of (x + 1).
Proof. unfold f_of. lia. Qed.
Lemma f_of_mono x y : 0 <= x <= y -> y <= 146096 -> f_of x <= f_of y.
Proof.
  intros Hx Hy. replace y with (x + Z.of_nat (Z.to_nat (y - x))) by lia.
  assert (Hn : x + Z.of_nat (Z.to_nat (y - x)) <= 146096) by lia.
  induction (Z.to_nat (y - x)) as [|n IH]; [rewrite Z.add_0_r; lia|].
  rewrite Nat2Z.inj_succ in *. pose proof (f_of_step (x + Z.of_nat n) ltac:(lia)).
  replace (x + Z.succ (Z.of_nat n)) with (x + Z.of_nat n + 1) by lia.
  specialize (IH ltac:(lia)). lia.
Qed.

Fixpoint all_from (f : Z -> bool) (n : nat) (z : Z) : bool :=
  match n with O => true | S k => f z && all_from f k (z + 1) end.
Lemma all_from_spec f n : forall z, all_from f n z = true ->
  forall i, z <= i < z + Z.of_nat n -> f i = true.
Proof.
  induction n as [|n IH]; intros z H i Hi; [lia|].
  cbn [all_from] in H. apply andb_true_iff in H. destruct H as [H1 H2].
  destruct (Z.eq_dec i z) as [->|Hn]; [exact H1|]. apply (IH (z + 1)); [exact H2|lia].
Qed.

(** The 400 years of an era. *)
Definition year_ok (y : Z) : bool :=
  (365 * y <=? f_of (st y)) && (f_of (en y - 1) <? 365 * (y + 1))
  && (en y - st y =? if leap (y + 1) then 366 else 365).
Lemma years_ok : all_from year_ok (Z.to_nat 400) 0 = true.
Proof. vm_compute. reflexivity. Qed.

(** The days of a year ending with a February of 28 or 29 days. *)
Definition feb (b : bool) : Z := if b then 29 else 28.
Definition dim (b : bool) (m : Z) : Z := if m =? 2 then feb b else days_in_month 1 m.
Definition len (b : bool) : Z := if b then 366 else 365.
Definition doy_ok (b : bool) (doy : Z) : bool :=
  (1 <=? m_of doy) && (m_of doy <=? 12) && (1 <=? d_of doy) && (d_of doy <=? dim b (m_of doy)) &&
  if doy + 1 <? len b then
    if d_of doy <? dim b (m_of doy)
    then (m_of (doy + 1) =? m_of doy) && (d_of (doy + 1) =? d_of doy + 1)
    else if m_of doy <? 12
    then (m_of (doy + 1) =? m_of doy + 1) && (d_of (doy + 1) =? 1) && negb (m_of doy =? 2)
    else (m_of (doy + 1) =? 1) && (d_of (doy + 1) =? 1)
  else (m_of doy =? 2) && (d_of doy =? feb b).
Lemma doys_ok b : all_from (doy_ok b) (Z.to_nat (len b)) 0 = true.
Proof. destruct b; vm_compute; reflexivity. Qed.

Lemma dim_eq b y y' m : 1 <= m <= 12 -> b = leap (y + 1) -> y' = (if m <=? 2 then y + 1 else y) ->
  days_in_month y' m = dim b m.
Proof.
  intros Hm -> ->. unfold dim, feb.
  assert (Hc : m = 1 \/ m = 2 \/ m = 3 \/ m = 4 \/ m = 5 \/ m = 6 \/ m = 7 \/ m = 8 \/
               m = 9 \/ m = 10 \/ m = 11 \/ m = 12) by lia.
  destruct Hc as [->|[->|[->|[->|[->|[->|[->|[->|[->|[->|[->| ->]]]]]]]]]]]; reflexivity.
Qed.

(** The year of a day of the era. *)
Lemma year_of_doe doe : 0 <= doe < 146097 ->
  exists y, 0 <= y < 400 /\ f_of doe / 365 = y /\ st y <= doe < en y /\ en y - st y = len (leap (y + 1)).
Proof.
  intro H.
  assert (Hex : exists y, 0 <= y < 400 /\ st y <= doe < en y).
  { assert (G : forall n, (n <= 400)%nat -> doe < (if Z.of_nat n =? 400 then 146097 else st (Z.of_nat n)) ->
        exists y, 0 <= y < 400 /\ st y <= doe < en y).
    { induction n as [|n IH]; intros Hn Hd.
      - cbn in Hd. lia.
      - destruct (Z_lt_dec doe (st (Z.of_nat n))) as [L|L].
        + apply IH; [lia|]. destruct (Z.eqb_spec (Z.of_nat n) 400); lia.
        + exists (Z.of_nat n). split; [lia|]. split; [lia|].
          unfold en. destruct (Z.eqb_spec (Z.of_nat (S n)) 400), (Z.eqb_spec (Z.of_nat n) 399); try lia.
          replace (Z.of_nat n + 1) with (Z.of_nat (S n)) by lia. exact Hd. }
    apply (G 400%nat); [lia|]. cbn -[Z.mul]. lia. }
  destruct Hex as (y & Hy & Hd). exists y. split; [exact Hy|].
  pose proof (all_from_spec _ _ _ years_ok y) as Q. rewrite Z2Nat.id in Q by lia.
  specialize (Q ltac:(lia)). unfold year_ok in Q. rewrite !andb_true_iff in Q.
  destruct Q as [[Q1 Q2] Q3]. apply Z.leb_le in Q1. apply Z.ltb_lt in Q2. apply Z.eqb_eq in Q3.
  split; [|split; [exact Hd|exact Q3]].
  assert (0 <= st y) by (unfold st; lia).
  assert (f_of (st y) <= f_of doe) by (apply f_of_mono; lia).
  assert (f_of doe <= f_of (en y - 1)).
  { apply f_of_mono; [lia|]. unfold en. destruct (Z.eqb_spec y 399); [lia|]. unfold st. lia. }
  clear Q3 Hd. symmetry. apply (Z.div_unique _ _ _ (f_of doe - 365 * y)); lia.
Qed.

Lemma era_day z : 0 <= z + 719468 < 146097 ->
  valid (date_of_days z) /\ date_of_days (z + 1) = next_day (date_of_days z).
Proof.
  intro Hz. destruct (year_of_doe _ Hz) as (y & Hy & Ey & Hd & Hlen).
  set (doy := z + 719468 - st y).
  rewrite (date_of_days_unfold z y doy Hz Ey eq_refl).
  set (b := leap (y + 1)) in *.
  pose proof (all_from_spec _ _ _ (doys_ok b) doy) as Q.
  rewrite Z2Nat.id in Q by (destruct b; cbn; lia). specialize (Q ltac:(unfold doy; lia)).
  unfold doy_ok in Q. rewrite !andb_true_iff, !Z.leb_le in Q.
  destruct Q as [[[[Q1 Q2] Q3] Q4] Q5].
  set (y' := if m_of doy <=? 2 then y + 1 else y).
  assert (Edim : days_in_month y' (m_of doy) = dim b (m_of doy))
    by (apply (dim_eq b y); [lia|reflexivity|reflexivity]).
  split; [unfold valid; cbn [year month day]; rewrite Edim; lia|].
  unfold next_day. cbn [year month day]. rewrite Edim.
  destruct (Z.ltb_spec (doy + 1) (len b)) as [L|L].
  - (* same year *)
    assert (Hz1 : 0 <= z + 1 + 719468 < 146097).
    { assert (en y <= 146097) by (unfold en; destruct (Z.eqb_spec y 399); [lia|unfold st; lia]).
      unfold doy in L. lia. }
    assert (Ey1 : f_of (z + 1 + 719468) / 365 = y).
    { destruct (year_of_doe _ Hz1) as (y1 & Hy1 & Ey1 & Hd1 & _). rewrite Ey1.
      unfold doy in L. assert (Hin : st y <= z + 1 + 719468 < en y) by lia.
      clear - Hy Hy1 Hd1 Hin.
      destruct (Z.lt_trichotomy y y1) as [G|[G|G]]; [|lia|].
      - assert (en y <= st y1) by (unfold en, st in *; destruct (Z.eqb_spec y 399); lia). lia.
      - assert (en y1 <= st y) by (unfold en, st in *; destruct (Z.eqb_spec y1 399); lia). lia. }
    rewrite (date_of_days_unfold (z + 1) y (doy + 1) Hz1 Ey1) by (unfold doy; lia).
    destruct (Z.ltb_spec (d_of doy) (dim b (m_of doy))) as [L1|L1].
    + apply andb_true_iff in Q5. destruct Q5 as [A1 A2].
      apply Z.eqb_eq in A1. apply Z.eqb_eq in A2. rewrite A1, A2. reflexivity.
    + destruct (Z.ltb_spec (m_of doy) 12) as [L2|L2].
      * rewrite !andb_true_iff, negb_true_iff in Q5. destruct Q5 as [[A1 A2] A3].
        apply Z.eqb_eq in A1. apply Z.eqb_eq in A2. apply Z.eqb_neq in A3. rewrite A1, A2.
        f_equal. unfold y'.
        destruct (Z.leb_spec (m_of doy) 2), (Z.leb_spec (m_of doy + 1) 2); lia.
      * apply andb_true_iff in Q5. destruct Q5 as [A1 A2].
        apply Z.eqb_eq in A1. apply Z.eqb_eq in A2. rewrite A1, A2.
        f_equal. unfold y'. destruct (Z.leb_spec (m_of doy) 2); [lia|]. reflexivity.
  - (* last day of the year *)
    assert (Hlast : z + 719468 = en y - 1) by (unfold doy in L; lia).
    apply andb_true_iff in Q5. destruct Q5 as [A1 A2]. apply Z.eqb_eq in A1. apply Z.eqb_eq in A2.
    assert (Ey' : y' = y + 1) by (unfold y'; rewrite A1; reflexivity).
    rewrite Ey', A1, A2. unfold dim. cbn [Z.eqb Pos.eqb]. rewrite Z.ltb_irrefl. cbn [Z.ltb Z.compare Pos.compare Pos.compare_cont].
    change (2 + 1) with 3.
    destruct (Z.eq_dec y 399) as [->|Hn].
    + assert (z = -573372) by (unfold en in Hlast; cbn in Hlast; lia). subst z. reflexivity.
    + assert (Een : en y = st (y + 1)) by (unfold en; destruct (Z.eqb_spec y 399); [lia|reflexivity]).
      assert (Hz1 : 0 <= z + 1 + 719468 < 146097) by (unfold st in *; lia).
      assert (Ey1 : f_of (z + 1 + 719468) / 365 = y + 1).
      { destruct (year_of_doe _ Hz1) as (y1 & Hy1 & Ey1 & Hd1 & _). rewrite Ey1.
        assert (Hin : z + 1 + 719468 = st (y + 1)) by lia.
        clear - Hy Hy1 Hd1 Hin Hn.
        destruct (Z.lt_trichotomy (y + 1) y1) as [G|[G|G]]; [|lia|].
        - assert (st (y + 1) < st y1) by (unfold st; lia). lia.
        - assert (en y1 <= st (y + 1)) by (unfold en, st in *; destruct (Z.eqb_spec y1 399); lia). lia. }
      rewrite (date_of_days_unfold (z + 1) (y + 1) 0 Hz1 Ey1) by lia. reflexivity.
Qed.

Definition shift_years (k : Z) (d : date) : date := mkDate (year d + 400 * k) (month d) (day d).
Lemma date_of_days_era z k : date_of_days (z + 146097 * k) = shift_years k (date_of_days z).
Proof.
  unfold date_of_days.
  replace ((z + 146097 * k + 719468) mod 146097) with ((z + 719468) mod 146097)
    by (replace (z + 146097 * k + 719468) with (z + 719468 + k * 146097) by ring;
        now rewrite Z.mod_add by lia).
  replace ((z + 146097 * k + 719468) / 146097) with ((z + 719468) / 146097 + k)
    by (replace (z + 146097 * k + 719468) with (z + 719468 + k * 146097) by ring;
        now rewrite Z.div_add by lia).
  cbv zeta. set (e := (z + 719468) / 146097). set (doe := (z + 719468) mod 146097).
  clearbody e doe. unfold shift_years. cbn [year month day]. f_equal.
  match goal with |- context [if ?c <=? 2 then _ else _] => destruct (c <=? 2) end; ring.
Qed.
Lemma leap_shift y k : leap (y + 400 * k) = leap y.
Proof.
  unfold leap.
  replace ((y + 400 * k) mod 400) with (y mod 400)
    by (replace (y + 400 * k) with (y + k * 400) by ring; now rewrite Z.mod_add by lia).
  replace ((y + 400 * k) mod 100) with (y mod 100)
    by (replace (y + 400 * k) with (y + (4 * k) * 100) by ring; now rewrite Z.mod_add by lia).
  replace ((y + 400 * k) mod 4) with (y mod 4)
    by (replace (y + 400 * k) with (y + (100 * k) * 4) by ring; now rewrite Z.mod_add by lia).
  reflexivity.
Qed.
Lemma dim_shift y k m : days_in_month (y + 400 * k) m = days_in_month y m.
Proof.
  unfold days_in_month. rewrite leap_shift. reflexivity.
Qed.
Lemma next_day_shift d k : next_day (shift_years k d) = shift_years k (next_day d).
Proof.
  destruct d as [y m dd]. unfold next_day, shift_years. cbn [year month day].
  rewrite dim_shift.
  destruct (dd <? days_in_month y m); [reflexivity|]. destruct (m <? 12); [reflexivity|].
  cbn [year month day]. f_equal. ring.
Qed.
Lemma valid_shift d k : valid (shift_years k d) <-> valid d.
Proof. destruct d as [y m dd]. unfold valid, shift_years. cbn [year month day]. rewrite dim_shift. tauto. Qed.

Lemma date_of_days_calendar z :
  valid (date_of_days z) /\ date_of_days (z + 1) = next_day (date_of_days z).
Proof.
  set (k := (z + 719468) / 146097). set (z0 := z - 146097 * k).
  assert (Hz : z = z0 + 146097 * k) by (unfold z0; ring).
  assert (Hr : 0 <= z0 + 719468 < 146097).
  { unfold z0, k.
    pose proof (Z.div_mod (z + 719468) 146097 ltac:(lia)).
    pose proof (Z.mod_pos_bound (z + 719468) 146097 ltac:(lia)). lia. }
  destruct (era_day z0 Hr) as [H1 H2].
  rewrite Hz. replace (z0 + 146097 * k + 1) with (z0 + 1 + 146097 * k) by ring.
  rewrite !date_of_days_era, H2, next_day_shift. split; [|reflexivity].
  now apply valid_shift.
Qed.


(** ** Julian day of a day count: 1970-01-01 to 2100-02-28 *)
Lemma next_day_year d : year d <= year (next_day d).
Proof.
  unfold next_day. destruct (day d <? _); cbn [year]; [lia|].
  destruct (month d <? 12); cbn [year]; lia.
Qed.
Lemma year_mono z n : year (date_of_days z) <= year (date_of_days (z + Z.of_nat n)).
Proof.
  induction n as [|n IH]; [rewrite Z.add_0_r; lia|].
  replace (z + Z.of_nat (S n)) with (z + Z.of_nat n + 1) by lia.
  rewrite (proj2 (date_of_days_calendar (z + Z.of_nat n))).
  pose proof (next_day_year (date_of_days (z + Z.of_nat n))). lia.
Qed.
Lemma year_mono_le a b : a <= b -> year (date_of_days a) <= year (date_of_days b).
Proof. intro H. pose proof (year_mono a (Z.to_nat (b - a))). rewrite Z2Nat.id in * by lia.
  now replace (a + (b - a)) with b in * by ring. Qed.

Lemma julian_tail :
  all_from (fun z => julian_day_floor (date_of_days z) =? z + 2440587) 59 47482 = true.
Proof. vm_compute. reflexivity. Qed.

Lemma julian_of_days z : 0 <= z <= 47540 ->
  julian_day_floor (date_of_days z) = z + 2440587.
Proof.
  intro H. destruct (Z_le_dec 47482 z) as [L|L].
  { apply Z.eqb_eq. apply (all_from_spec _ _ _ julian_tail z). lia. }
  assert (G : forall n, Z.of_nat n < 47482 ->
    julian_day_floor (date_of_days (Z.of_nat n)) = Z.of_nat n + 2440587).
  { induction n as [|n IH]; intro Hn; [reflexivity|].
    replace (Z.of_nat (S n)) with (Z.of_nat n + 1) by lia.
    destruct (date_of_days_calendar (Z.of_nat n)) as [V ->].
    rewrite julian_step; [rewrite IH by lia; lia|exact V|].
    pose proof (year_mono_le 0 (Z.of_nat n) ltac:(lia)) as Y0.
    pose proof (year_mono_le (Z.of_nat n) 47481 ltac:(lia)) as Y1.
    change (year (date_of_days 0)) with 1970 in Y0.
    change (year (date_of_days 47481)) with 2099 in Y1. lia. }
  specialize (G (Z.to_nat z)). rewrite Z2Nat.id in G by lia. apply G. lia.
Qed.


(** ** Julian time is linear in time *)
Lemma julian_time_linear t : 0 <= t < 47541 * us_per_day ->
  julian_time t = (2440587.5 + IZR (t / 1000000) / 86400)%R.
Proof.
  intros Ht. unfold julian_time, date_of, fraction_of_day, second_of_day, us_per_day in *.
  rewrite julian_of_days.
  2:{ split; [|apply Z.lt_succ_r, Z.div_lt_upper_bound; lia].
      apply Z.le_trans with 0; [lia|apply Z.div_pos; lia]. }
  rewrite Z.quot_div_nonneg by lia.
  replace (t / 86400000000) with (t / 1000000 / 86400) by (rewrite Z.div_div by lia; reflexivity).
  set (s := t / 1000000).
  pose proof (Z.div_mod s 86400 ltac:(lia)) as E.
  assert (ER : IZR s = (86400 * IZR (s / 86400) + IZR (s mod 86400))%R)
    by (rewrite E at 1; rewrite plus_IZR, mult_IZR; reflexivity).
  rewrite plus_IZR. rewrite ER. lra.
Qed.
