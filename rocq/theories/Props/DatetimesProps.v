(** Property C104: instants of time: units.datetime and units.datetime_from_timestamp. *)
From Coq Require Import ZArith Lia List Bool.
From Verif Require Import Model.Datetimes.
From Verif Require Model.Solar Model.Sampling Spec.Calendar Proofs.CalendarProofs.
Import ListNotations.
Open Scope Z_scope.

(** ** The calendar *)
(** Every day of a year and its month: checked for the 365 or 366 days of a year. *)
Definition day_ok (leap : bool) (n : Z) : bool :=
  let '(m, d) := month_and_day leap n in
  (1 <=? m) && (m <=? 12) && (1 <=? d) &&
  (d <=? nth (Z.to_nat m) days_in_month_table 0 + one_if ((m =? 2) && leap)) &&
  (days_before_month leap m + d =? n + 1).
Lemma days_ok leap : forallb (fun k => day_ok leap (Z.of_nat k)) (seq 0 (if leap then 366 else 365)) = true.
Proof. destruct leap; vm_compute; reflexivity. Qed.
Lemma day_is_ok leap n : 0 <= n < 365 + one_if leap -> day_ok leap n = true.
Proof.
  intro L. pose proof (days_ok leap) as H. rewrite forallb_forall in H.
  rewrite <- (Z2Nat.id n) by lia. apply H, in_seq. destruct leap; cbn [one_if] in L; lia.
Qed.
(** Conversely every day of a month. *)
Definition month_ok (leap : bool) (m : Z) : bool :=
  forallb (fun d => let '(m', d') := month_and_day leap (days_before_month leap m + Z.of_nat d - 1) in
                    (m' =? m) && (d' =? Z.of_nat d) &&
                    (0 <=? days_before_month leap m + Z.of_nat d - 1) &&
                    (days_before_month leap m + Z.of_nat d - 1 <? 365 + one_if leap))
    (seq 1 (Z.to_nat (nth (Z.to_nat m) days_in_month_table 0 + one_if ((m =? 2) && leap)))).
Lemma months_ok leap : forallb (fun k => month_ok leap (Z.of_nat k)) (seq 1 12) = true.
Proof. destruct leap; vm_compute; reflexivity. Qed.
Lemma month_is_ok y m d : 1 <= m <= 12 -> 1 <= d <= days_in_month y m ->
  let n := days_before_month (is_leap y) m + d - 1 in
  month_and_day (is_leap y) n = (m, d) /\ 0 <= n < 365 + one_if (is_leap y).
Proof.
  intros Hm Hd n. pose proof (months_ok (is_leap y)) as H. rewrite forallb_forall in H.
  specialize (H (Z.to_nat m) ltac:(apply in_seq; lia)). rewrite Z2Nat.id in H by lia.
  unfold month_ok in H. rewrite forallb_forall in H. unfold days_in_month in Hd.
  specialize (H (Z.to_nat d) ltac:(apply in_seq; lia)). rewrite Z2Nat.id in H by lia.
  fold n in H. destruct (month_and_day (is_leap y) n) as [m' d'].
  rewrite !andb_true_iff, !Z.eqb_eq, Z.leb_le, Z.ltb_lt in H. destruct H as [[[-> ->] ?] ?]. split; [reflexivity|lia].
Qed.

Lemma leap_next y : days_before_year (y + 1) = days_before_year y + 365 + one_if (is_leap y).
Proof.
  unfold days_before_year, is_leap. replace (y + 1 - 1) with y by lia.
  destruct (Z.eqb_spec (y mod 4) 0), (Z.eqb_spec (y mod 100) 0), (Z.eqb_spec (y mod 400) 0); cbn [negb andb orb one_if];
    Z.div_mod_to_equations; lia.
Qed.
Lemma years_grow y y' : y <= y' -> days_before_year y + 365 * (y' - y) <= days_before_year y'.
Proof.
  intro L. replace y' with (y + Z.of_nat (Z.to_nat (y' - y))) by lia.
  generalize (Z.to_nat (y' - y)). clear. intro k. induction k as [|k IH]; [rewrite Z.add_0_r; lia|].
  replace (y + Z.of_nat (S k)) with (y + Z.of_nat k + 1) by lia. rewrite leap_next.
  unfold one_if. destruct (is_leap _); lia.
Qed.

(** The day with a given number is the only one. *)
Lemma ord2ymd_ok ord : 1 <= ord -> let '(y, m, d) := ord2ymd ord in
  1 <= y /\ 1 <= m <= 12 /\ 1 <= d <= days_in_month y m /\ ymd2ord y m d = ord.
Proof.
  intro L. unfold ord2ymd. cbv zeta.
  set (n := ord - 1). assert (Hn : 0 <= n) by lia. assert (Eo : ord = n + 1) by lia. clearbody n. subst ord.
  set (a := n / 146097). set (n1 := n mod 146097).
  assert (Ea : n = 146097 * a + n1 /\ 0 <= n1 < 146097) by (unfold a, n1; Z.div_mod_to_equations; lia).
  assert (Ha : 0 <= a) by (unfold a; apply Z.div_pos; lia). clearbody a n1.
  set (b := n1 / 36524). set (n2 := n1 mod 36524).
  assert (Eb : n1 = 36524 * b + n2 /\ 0 <= n2 < 36524) by (unfold b, n2; Z.div_mod_to_equations; lia). clearbody b n2.
  set (c := n2 / 1461). set (n3 := n2 mod 1461).
  assert (Ec : n2 = 1461 * c + n3 /\ 0 <= n3 < 1461) by (unfold c, n3; Z.div_mod_to_equations; lia). clearbody c n3.
  set (d := n3 / 365). set (e := n3 mod 365).
  assert (Ed : n3 = 365 * d + e /\ 0 <= e < 365) by (unfold d, e; Z.div_mod_to_equations; lia). clearbody d e.
  assert (B : 0 <= b <= 4) by lia. assert (C : 0 <= c <= 24) by lia. assert (D : 0 <= d <= 4) by lia.
  assert (Y : b <= 3 -> d <= 3 -> days_before_year (a * 400 + 1 + b * 100 + c * 4 + d) = n - e).
  { intros Hb Hd. unfold days_before_year.
    replace (a * 400 + 1 + b * 100 + c * 4 + d - 1) with (400 * a + 100 * b + 4 * c + d) by lia.
    replace ((400 * a + 100 * b + 4 * c + d) / 4) with (100 * a + 25 * b + c) by (apply Z.div_unique with d; lia).
    replace ((400 * a + 100 * b + 4 * c + d) / 100) with (4 * a + b) by (apply Z.div_unique with (4 * c + d); lia).
    replace ((400 * a + 100 * b + 4 * c + d) / 400) with a by (apply Z.div_unique with (100 * b + 4 * c + d); lia).
    lia. }
  assert (Lp : b <= 3 -> d <= 3 -> is_leap (a * 400 + 1 + b * 100 + c * 4 + d) = ((d =? 3) && (negb (c =? 24) || (b =? 3)))).
  { intros Hb Hd. unfold is_leap.
    destruct (Z.eqb_spec ((a * 400 + 1 + b * 100 + c * 4 + d) mod 4) 0) as [A1|A1],
      (Z.eqb_spec ((a * 400 + 1 + b * 100 + c * 4 + d) mod 100) 0) as [A2|A2],
      (Z.eqb_spec ((a * 400 + 1 + b * 100 + c * 4 + d) mod 400) 0) as [A3|A3],
      (Z.eqb_spec d 3), (Z.eqb_spec c 24), (Z.eqb_spec b 3); cbn [negb andb orb]; try reflexivity;
      exfalso; Z.div_mod_to_equations; lia. }
  assert (Dec : forall y, 1 <= y -> days_before_year (y + 1) = n + 1 ->
     1 <= y /\ 1 <= 12 <= 12 /\ 1 <= 31 <= days_in_month y 12 /\ ymd2ord y 12 31 = n + 1).
  { intros y Hy E. split; [exact Hy|]. split; [lia|]. rewrite leap_next in E.
    unfold ymd2ord, days_in_month, days_before_month.
    change (nth (Z.to_nat 12) days_before_month_table 0) with 334. change (nth (Z.to_nat 12) days_in_month_table 0) with 31.
    change (2 <? 12) with true. change (12 =? 2) with false. cbn [andb one_if] in *. lia. }
  destruct (Z.eqb_spec d 4) as [D4|D4]; [|destruct (Z.eqb_spec b 4) as [B4|B4]]; cbn [orb].
  - assert (b <= 3) by lia. apply Dec; [lia|].
    unfold days_before_year. subst d. assert (c <= 23) by lia.
    replace (a * 400 + 1 + b * 100 + c * 4 + 4 - 1 + 1 - 1) with (400 * a + 100 * b + 4 * c + 4) by lia.
    replace ((400 * a + 100 * b + 4 * c + 4) / 4) with (100 * a + 25 * b + c + 1) by (apply Z.div_unique with 0; lia).
    replace ((400 * a + 100 * b + 4 * c + 4) / 100) with (4 * a + b) by (apply Z.div_unique with (4 * c + 4); lia).
    replace ((400 * a + 100 * b + 4 * c + 4) / 400) with a by (apply Z.div_unique with (100 * b + 4 * c + 4); lia).
    lia.
  - apply Dec; [lia|]. unfold days_before_year. assert (c = 0) by lia. assert (d = 0) by lia. subst b c d.
    replace (a * 400 + 1 + 4 * 100 + 0 * 4 + 0 - 1 + 1 - 1) with (400 * (a + 1)) by lia.
    replace (400 * (a + 1) / 4) with (100 * (a + 1)) by (apply Z.div_unique with 0; lia).
    replace (400 * (a + 1) / 100) with (4 * (a + 1)) by (apply Z.div_unique with 0; lia).
    replace (400 * (a + 1) / 400) with (a + 1) by (apply Z.div_unique with 0; lia).
    lia.
  - specialize (Y ltac:(lia) ltac:(lia)). specialize (Lp ltac:(lia) ltac:(lia)). rewrite <- Lp.
    set (y := a * 400 + 1 + b * 100 + c * 4 + d) in *.
    pose proof (day_is_ok (is_leap y) e ltac:(unfold one_if; destruct (is_leap y); lia)) as O.
    unfold day_ok in O. destruct (month_and_day (is_leap y) e) as [m dd].
    rewrite !andb_true_iff, !Z.leb_le, Z.eqb_eq in O. destruct O as [[[[O1 O2] O3] O4] O5].
    split; [lia|]. split; [lia|]. split; [unfold days_in_month; lia|]. unfold ymd2ord. lia.
Qed.

Lemma ord2ymd_early ord : ord <= 0 -> fst (fst (ord2ymd ord)) <= 0.
Proof.
  intro L. unfold ord2ymd. cbv zeta.
  set (n := ord - 1). assert (Hn : n < 0) by lia. clearbody n.
  set (a := n / 146097). set (n1 := n mod 146097).
  assert (Ea : n = 146097 * a + n1 /\ 0 <= n1 < 146097) by (unfold a, n1; Z.div_mod_to_equations; lia). clearbody a n1.
  set (b := n1 / 36524). set (n2 := n1 mod 36524).
  assert (Eb : n1 = 36524 * b + n2 /\ 0 <= n2 < 36524) by (unfold b, n2; Z.div_mod_to_equations; lia). clearbody b n2.
  set (c := n2 / 1461). set (n3 := n2 mod 1461).
  assert (Ec : n2 = 1461 * c + n3 /\ 0 <= n3 < 1461) by (unfold c, n3; Z.div_mod_to_equations; lia). clearbody c n3.
  set (d := n3 / 365). set (e := n3 mod 365).
  assert (Ed : n3 = 365 * d + e /\ 0 <= e < 365) by (unfold d, e; Z.div_mod_to_equations; lia). clearbody d e.
  destruct (Z.eqb_spec d 4), (Z.eqb_spec b 4); cbn [orb fst]; try lia.
  destruct (month_and_day _ e). cbn [fst]. lia.
Qed.
Lemma ymd2ord_bounds y m d : 1 <= m <= 12 -> 1 <= d <= days_in_month y m ->
  days_before_year y < ymd2ord y m d <= days_before_year (y + 1).
Proof.
  intros Hm Hd. destruct (month_is_ok y m d Hm Hd) as [_ B]. rewrite leap_next. unfold ymd2ord. lia.
Qed.
Lemma ymd2ord_injective y m d y' m' d' : 1 <= m <= 12 -> 1 <= d <= days_in_month y m ->
  1 <= m' <= 12 -> 1 <= d' <= days_in_month y' m' -> ymd2ord y m d = ymd2ord y' m' d' -> (y, m, d) = (y', m', d').
Proof.
  intros Hm Hd Hm' Hd' E.
  pose proof (ymd2ord_bounds y m d Hm Hd). pose proof (ymd2ord_bounds y' m' d' Hm' Hd').
  assert (y = y').
  { destruct (Z.lt_trichotomy y y') as [L|[L|L]]; [|exact L|].
    - pose proof (years_grow (y + 1) y' ltac:(lia)). lia.
    - pose proof (years_grow (y' + 1) y ltac:(lia)). lia. }
  subst y'. destruct (month_is_ok y m d Hm Hd) as [A _]. destruct (month_is_ok y m' d' Hm' Hd') as [A' _].
  unfold ymd2ord in E.
  replace (days_before_month (is_leap y) m' + d' - 1) with (days_before_month (is_leap y) m + d - 1) in A' by lia.
  rewrite A in A'. injection A' as <- <-. reflexivity.
Qed.
Lemma ord2ymd_ymd2ord y m d : 1 <= y -> 1 <= m <= 12 -> 1 <= d <= days_in_month y m ->
  ord2ymd (ymd2ord y m d) = (y, m, d).
Proof.
  intros Hy Hm Hd. pose proof (ymd2ord_bounds y m d Hm Hd) as B.
  pose proof (years_grow 1 y Hy) as G. change (days_before_year 1) with 0 in G.
  pose proof (ord2ymd_ok (ymd2ord y m d) ltac:(lia)) as O.
  destruct (ord2ymd (ymd2ord y m d)) as [[y' m'] d']. destruct O as (O1 & O2 & O3 & O4).
  now apply ymd2ord_injective.
Qed.


(** The days of the months are those of the calendar. *)
Lemma month_days y m : 1 <= m <= 12 -> days_in_month y m = Calendar.days_in_month y m.
Proof.
  intro Hm. unfold days_in_month, Calendar.days_in_month.
  replace (Calendar.leap y) with (is_leap y).
  - assert (Hc : m = 1 \/ m = 2 \/ m = 3 \/ m = 4 \/ m = 5 \/ m = 6 \/ m = 7 \/ m = 8 \/
               m = 9 \/ m = 10 \/ m = 11 \/ m = 12) by lia.
    destruct Hc as [->|[->|[->|[->|[->|[->|[->|[->|[->|[->|[->| ->]]]]]]]]]]]; try reflexivity.
    cbn. destruct (is_leap y); reflexivity.
  - unfold is_leap, Calendar.leap.
    destruct (Z.eqb_spec (y mod 4) 0), (Z.eqb_spec (y mod 100) 0), (Z.eqb_spec (y mod 400) 0); cbn; try reflexivity;
      exfalso; Z.div_mod_to_equations; lia.
Qed.

Lemma month_step leap m : 1 <= m < 12 ->
  days_before_month leap (m + 1) =
  days_before_month leap m + (nth (Z.to_nat m) days_in_month_table 0 + one_if ((m =? 2) && leap)).
Proof.
  intro H. assert (Hc : m = 1 \/ m = 2 \/ m = 3 \/ m = 4 \/ m = 5 \/ m = 6 \/ m = 7 \/ m = 8 \/
               m = 9 \/ m = 10 \/ m = 11) by lia.
  destruct leap, Hc as [->|[->|[->|[->|[->|[->|[->|[->|[->|[->| ->]]]]]]]]]]; vm_compute; reflexivity.
Qed.
(** A day later is one more. *)
Lemma next_day_ord d : Calendar.valid d ->
  ymd2ord (Solar.year (Calendar.next_day d)) (Solar.month (Calendar.next_day d)) (Solar.day (Calendar.next_day d)) =
  ymd2ord (Solar.year d) (Solar.month d) (Solar.day d) + 1.
Proof.
  destruct d as [y m d]. unfold Calendar.valid, Calendar.next_day. cbn [Solar.year Solar.month Solar.day]. intros [Hm Hd].
  rewrite <- month_days in * by exact Hm.
  destruct (Z.ltb_spec d (days_in_month y m)) as [L|L]; cbn [Solar.year Solar.month Solar.day]; [unfold ymd2ord; lia|].
  assert (d = days_in_month y m) by lia. subst d.
  destruct (Z.ltb_spec m 12) as [L2|L2]; cbn [Solar.year Solar.month Solar.day].
  - unfold ymd2ord, days_in_month. rewrite month_step by lia. lia.
  - assert (m = 12) by lia. subst m. unfold ymd2ord. rewrite leap_next.
    replace (days_before_month (is_leap y) 12) with (334 + one_if (is_leap y)) by (destruct (is_leap y); reflexivity).
    replace (days_before_month (is_leap (y + 1)) 1) with 0 by (destruct (is_leap (y + 1)); reflexivity).
    change (days_in_month y 12) with 31. lia.
Qed.
Lemma ord_of_days z : let d := Solar.date_of_days z in
  ymd2ord (Solar.year d) (Solar.month d) (Solar.day d) = z + 719163.
Proof.
  cbv zeta. set (f := fun z => let d := Solar.date_of_days z in ymd2ord (Solar.year d) (Solar.month d) (Solar.day d)).
  change (f z = z + 719163).
  assert (S : forall z, f (z + 1) = f z + 1).
  { intro u. unfold f. cbv zeta. destruct (CalendarProofs.date_of_days_calendar u) as [V ->]. now apply next_day_ord. }
  assert (O : f 0 = 719163) by (vm_compute; reflexivity).
  assert (P : forall k, f (Z.of_nat k) = Z.of_nat k + 719163).
  { induction k as [|k IH]; [exact O|]. rewrite Nat2Z.inj_succ, <- Z.add_1_r, S. lia. }
  assert (Q : forall k, f (- Z.of_nat k) = - Z.of_nat k + 719163).
  { induction k as [|k IH]; [exact O|]. specialize (S (- Z.of_nat (Datatypes.S k))).
    replace (- Z.of_nat (Datatypes.S k) + 1) with (- Z.of_nat k) in S by lia. lia. }
  destruct (Z.le_ge_cases 0 z).
  - rewrite <- (Z2Nat.id z) by lia. apply P.
  - replace z with (- Z.of_nat (Z.to_nat (- z))) by lia. apply Q.
Qed.

Ltac bools H := rewrite !andb_true_iff, !Z.leb_le in H.

(** ** The theorems *)
(** units.datetime accepts the dates of the calendar of the years 1 to 9999 and the times of
    the day; without a zone it is in UTC. *)
Theorem C104_accepts : forall y m d h mi s us tz,
  units_datetime y m d h mi s us tz =
    Some (mkDatetime y m d h mi s us (match tz with None => Some 0 | Some z => z end)) /\
  1 <= y <= 9999 /\ Calendar.valid (Solar.mkDate y m d) /\
  0 <= h < 24 /\ 0 <= mi < 60 /\ 0 <= s < 60 /\ 0 <= us < 1000000 \/
  units_datetime y m d h mi s us tz = None /\
  ~ (1 <= y <= 9999 /\ Calendar.valid (Solar.mkDate y m d) /\
     0 <= h < 24 /\ 0 <= mi < 60 /\ 0 <= s < 60 /\ 0 <= us < 1000000).
Proof.
  intros. unfold units_datetime, Calendar.valid. cbn [Solar.year Solar.month Solar.day].
  destruct (valid y m d h mi s us) eqn:V; unfold valid in V; [left|right].
  - bools V. rewrite <- month_days by lia. split; [reflexivity|]. lia.
  - split; [reflexivity|]. intros (Hy & [Hm Hd] & Hh & Hmi & Hs & Hu). rewrite <- month_days in Hd by lia.
    apply not_true_iff_false in V. apply V. bools V. rewrite !andb_true_iff, !Z.leb_le. lia.
Qed.

(** The instant of a datetime in UTC: the simulator's calendar shows its date at that instant, it
    is its time of the day, and the time zone of the computer does not matter. *)
Theorem C104_instant : forall y m d h mi s us t local,
  units_datetime y m d h mi s us None = Some t ->
  Solar.date_of (timestamp local t) = Solar.mkDate y m d /\
  timestamp local t mod Solar.us_per_day = ((h * 60 + mi) * 60 + s) * 1000000 + us /\
  (forall local', timestamp local' t = timestamp local t).
Proof.
  intros y m d h mi s us t local H. unfold units_datetime in H.
  destruct (valid y m d h mi s us) eqn:V; [|discriminate H]. injection H as <-. unfold valid in V. bools V.
  assert (W : Calendar.valid (Solar.mkDate y m d)).
  { unfold Calendar.valid. cbn [Solar.year Solar.month Solar.day]. rewrite <- month_days by lia. lia. }
  unfold timestamp. cbn [year month day hour minute second microsecond tzinfo].
  set (n := ymd2ord y m d - 719163). set (r := ((h * 60 + mi) * 60 + s) * 1000000 + us).
  replace ((n * 86400 + h * 3600 + mi * 60 + s) * 1000000 + us - 0) with (n * 86400000000 + r) by (unfold r; lia).
  assert (R : 0 <= r < 86400000000) by (unfold r; lia).
  assert (D : (n * 86400000000 + r) / 86400000000 = n) by (symmetry; apply Z.div_unique with r; lia).
  split; [|split; [|reflexivity]].
  - unfold Solar.date_of, Solar.us_per_day. rewrite D.
    pose proof (ord_of_days n) as O. cbv zeta in O. destruct (CalendarProofs.date_of_days_calendar n) as [V' _].
    destruct (Solar.date_of_days n) as [y' m' d']. cbn [Solar.year Solar.month Solar.day] in O.
    destruct V' as [Vm Vd]. cbn [Solar.year Solar.month Solar.day] in Vm, Vd. rewrite <- month_days in Vd by exact Vm.
    assert (E : (y, m, d) = (y', m', d')) by (apply ymd2ord_injective; [lia|lia|exact Vm|exact Vd|unfold n in O; lia]).
    now injection E as -> -> ->.
  - unfold Solar.us_per_day. symmetry. apply Z.mod_unique with n; lia.
Qed.

(** Documented: if None is passed for the zone it defaults to UTC.  It does not: the instant
    is then that of the clock on the wall wherever the program runs, and differs from the one
    in UTC unless that clock shows UTC. *)
Theorem C104_no_zone_refuted : forall y m d h mi s us t t' local,
  units_datetime y m d h mi s us None = Some t -> units_datetime y m d h mi s us (Some None) = Some t' ->
  timestamp local t' = timestamp local t - local.
Proof.
  intros y m d h mi s us t t' local H H'. unfold units_datetime in *.
  destruct (valid y m d h mi s us); [|discriminate H]. injection H as <-. injection H' as <-.
  unfold timestamp. cbn [year month day hour minute second microsecond tzinfo]. lia.
Qed.

(** datetime_from_timestamp is the inverse: every whole second of the years 1 to 9999 gives
    a datetime in UTC which is that instant, and every such datetime is obtained from its
    own instant; other seconds are rejected. *)
Theorem C104_round_trip :
  (forall seconds local, -62135596800 <= seconds < 253402300800 ->
     exists t, datetime_from_timestamp seconds = Some t /\ timestamp local t = seconds * 1000000 /\
       units_datetime (year t) (month t) (day t) (hour t) (minute t) (second t) (microsecond t) None = Some t) /\
  (forall seconds, seconds < -62135596800 \/ 253402300800 <= seconds -> datetime_from_timestamp seconds = None) /\
  (forall y m d h mi s t local, units_datetime y m d h mi s 0 None = Some t ->
     exists seconds, timestamp local t = seconds * 1000000 /\ datetime_from_timestamp seconds = Some t).
Proof.
  assert (Y9 : forall y m d, 1 <= m <= 12 -> 1 <= d <= days_in_month y m -> ymd2ord y m d <= 3652059 <-> y <= 9999).
  { intros y m d Hm Hd. pose proof (ymd2ord_bounds y m d Hm Hd) as B.
    assert (E : days_before_year 10000 = 3652059) by reflexivity. split; intro L.
    - destruct (Z.le_gt_cases y 9999) as [K|K]; [exact K|]. pose proof (years_grow 10000 y ltac:(lia)). lia.
    - pose proof (years_grow (y + 1) 10000 ltac:(lia)). lia. }
  split; [|split].
  - intros seconds local L. unfold datetime_from_timestamp.
    set (n := seconds / 86400). set (r := seconds mod 86400).
    assert (E : seconds = n * 86400 + r /\ 0 <= r < 86400) by (unfold n, r; Z.div_mod_to_equations; lia). clearbody n r.
    pose proof (ord2ymd_ok (n + 719163) ltac:(lia)) as O. destruct (ord2ymd (n + 719163)) as [[y m] d].
    destruct O as (O1 & O2 & O3 & O4). pose proof (proj1 (Y9 y m d O2 O3) ltac:(lia)) as O5.
    replace ((1 <=? y) && (y <=? 9999)) with true by (symmetry; rewrite andb_true_iff, !Z.leb_le; lia).
    eexists. split; [reflexivity|]. split.
    + unfold timestamp. cbn [year month day hour minute second microsecond tzinfo]. rewrite O4.
      Z.div_mod_to_equations; lia.
    + unfold units_datetime. cbn [year month day hour minute second microsecond].
      replace (valid y m d (r / 3600) (r mod 3600 / 60) (r mod 60) 0) with true; [reflexivity|].
      symmetry. unfold valid. rewrite !andb_true_iff, !Z.leb_le. Z.div_mod_to_equations; lia.
  - intros seconds [L|L]; unfold datetime_from_timestamp.
    { assert (seconds / 86400 < -719162) as D by (apply Z.div_lt_upper_bound; lia).
      pose proof (ord2ymd_early (seconds / 86400 + 719163) ltac:(lia)) as O.
      destruct (ord2ymd (seconds / 86400 + 719163)) as [[y m] d]. cbn [fst] in O.
      replace (1 <=? y) with false by (symmetry; apply Z.leb_gt; lia). reflexivity. }
    assert (253402300800 / 86400 <= seconds / 86400) as D by (apply Z.div_le_mono; lia).
    change (253402300800 / 86400) with 2932897 in D.
    pose proof (ord2ymd_ok (seconds / 86400 + 719163) ltac:(lia)) as O.
    destruct (ord2ymd (seconds / 86400 + 719163)) as [[y m] d]. destruct O as (O1 & O2 & O3 & O4).
    destruct ((1 <=? y) && (y <=? 9999)) eqn:B; [|reflexivity]. bools B.
    pose proof (proj2 (Y9 y m d O2 O3) ltac:(lia)). lia.
  - intros y m d h mi s t local H. unfold units_datetime in H.
    destruct (valid y m d h mi s 0) eqn:V; [|discriminate H]. injection H as <-. unfold valid in V. bools V.
    exists ((ymd2ord y m d - 719163) * 86400 + h * 3600 + mi * 60 + s).
    unfold timestamp. cbn [year month day hour minute second microsecond tzinfo]. split; [lia|].
    unfold datetime_from_timestamp. set (n := ymd2ord y m d - 719163).
    replace ((n * 86400 + h * 3600 + mi * 60 + s) / 86400) with n by (apply Z.div_unique with (h * 3600 + mi * 60 + s); lia).
    replace ((n * 86400 + h * 3600 + mi * 60 + s) mod 86400) with (h * 3600 + mi * 60 + s) by (apply Z.mod_unique with n; lia).
    replace (n + 719163) with (ymd2ord y m d) by (unfold n; lia). rewrite ord2ymd_ymd2ord by lia.
    replace ((1 <=? y) && (y <=? 9999)) with true by (symmetry; rewrite andb_true_iff, !Z.leb_le; lia).
    f_equal. f_equal; Z.div_mod_to_equations; lia.
Qed.

Print Assumptions C104_accepts.
Print Assumptions C104_instant.
Print Assumptions C104_no_zone_refuted.
Print Assumptions C104_round_trip.

(** The default range of sampled times (C52); 29 February; a computer an hour ahead of UTC. *)
Example C104_witness :
  option_map (timestamp 0) (units_datetime 2011 1 1 0 0 0 0 None) = Some Sampling.BEGIN_RANGE /\
  option_map (timestamp 0) (units_datetime 2014 12 31 0 0 0 0 None) = Some Sampling.END_RANGE /\
  units_datetime 2013 2 29 0 0 0 0 None = None /\
  datetime_from_timestamp 951782400 = units_datetime 2000 2 29 0 0 0 0 None /\
  option_map (timestamp 3600000000) (units_datetime 1970 1 1 0 0 0 0 (Some None)) = Some (-3600000000) /\
  option_map (timestamp 3600000000) (units_datetime 1970 1 1 0 0 0 0 None) = Some 0.
Proof. repeat split; vm_compute; reflexivity. Qed.
