(** Properties C31 (sunrise search), C32 (Julian date), C33 (solar power), C62. *)
From Coq Require Import ZArith Reals Lra Lia Bool.
From Verif Require Import Model.Num Model.Solar Model.SolarSearch
  Spec.Calendar Spec.SunSpec
  Proofs.NumR Proofs.CalendarProofs Proofs.SolarSearchProofs Proofs.SolarProofs.
Local Open Scope Z_scope.
Ltac Zify.zify_post_hook ::= Z.to_euclidean_division_equations.

(** ** C31: the searches *)

(** For every number type, elevation oracle, target, bracket and step: the
    search answers exactly when the bracket holds at least one whole step, and
    then with a sample of the bracket and that sample's elevation. *)
Theorem C31_search_answers {T} {N : Num T} (el : Z -> T) (a b d : Z) (tg : target T) :
  (find_solar_elevation el a b tg d <> None <-> a <= b /\ d <> 0 /\ 0 < Z.quot (b - a) d) /\
  (forall time e, find_solar_elevation el a b tg d = Some (time, e) ->
     e = el time /\
     exists i, 0 <= i <= Z.quot (b - a) d /\ time = a + d * i /\ a <= time <= b).
Proof. exact (binary_search_facts el a b _ d). Qed.
Print Assumptions C31_search_answers.

(** Where the quantity searched for ranks times by their distance to one
    instant [c] (the elevation around midnight, the opposite elevation around
    noon), no sample is nearer to [c] than the answer. *)
Theorem C31_symmetric_search_is_optimal {T} {N : Num T} (el : Z -> T) (a b d : Z) (tg : target T)
    (c : R) (closeness : T -> T) :
  closeness = match tg with
              | Minimum => fun v => v | Maximum => nopp
              | Elevation x => fun v => nabs (nsub v x) end ->
  0 < d -> d <= b - a ->
  (forall t t', a <= t <= b -> a <= t' <= b ->
     (nltb (closeness (el t)) (closeness (el t')) = true <->
      (Rabs (IZR t - c) < Rabs (IZR t' - c))%R)) ->
  exists time, find_solar_elevation el a b tg d = Some (time, el time) /\
    forall j, 0 <= j <= Z.quot (b - a) d ->
      (Rabs (IZR time - c) <= Rabs (IZR (a + d * j) - c))%R.
Proof.
  intros -> Hd Hb Hs.
  destruct (binary_search_symmetric el a b
    (match tg with
              | Minimum => fun v => v | Maximum => nopp
              | Elevation x => fun v => nabs (nsub v x) end) d c) as (t & E & i & _ & _ & H);
    [lia|exact Hd|exact Hb|exact Hs|].
  exists t. split; [|exact H]. unfold find_solar_elevation. destruct tg; exact E.
Qed.
Print Assumptions C31_symmetric_search_is_optimal.

(** In particular: when the elevation is linear on the bracket, the answer for a
    target elevation is the sample whose elevation is nearest to the target. *)
Theorem C31_linear_crossing (el : Z -> R) (a b d : Z) (e0 rate target_el : R) :
  0 < d -> d <= b - a -> rate <> 0%R ->
  (forall t, a <= t <= b -> el t = (e0 + rate * IZR t)%R) ->
  exists time, find_solar_elevation el a b (Elevation target_el) d = Some (time, el time) /\
    forall j, 0 <= j <= Z.quot (b - a) d ->
      (Rabs (el time - target_el) <= Rabs (el (a + d * j)%Z - target_el))%R.
Proof.
  intros Hd Hb Hr Hl. set (c := ((target_el - e0) / rate)%R).
  assert (Hc : forall t, a <= t <= b ->
    Rabs (el t - target_el) = (Rabs rate * Rabs (IZR t - c))%R).
  { intros t Ht. rewrite (Hl t Ht), <- Rabs_mult. f_equal. unfold c. field. exact Hr. }
  assert (Hp : (0 < Rabs rate)%R) by (apply Rabs_pos_lt; exact Hr).
  destruct (C31_symmetric_search_is_optimal el a b d (Elevation target_el) c
              (fun v => nabs (nsub v target_el)) eq_refl Hd Hb) as (t & E & Hm).
  { intros t t' Ht Ht'. cbn [nltb nabs nsub Num_R].
    rewrite (Hc t Ht), (Hc t' Ht'), Rltb_iff. split; intro; nra. }
  exists t. split; [exact E|]. intros j Hj.
  destruct (C31_search_answers el a b d (Elevation target_el)) as [_ F].
  destruct (F t _ E) as (_ & i & _ & _ & Bt).
  assert (Bj : a <= a + d * j <= b).
  { assert (d * Z.quot (b - a) d <= b - a) by (apply Z.mul_quot_le; lia). nia. }
  rewrite (Hc t Bt), (Hc _ Bj). specialize (Hm j Hj). nra.
Qed.
Print Assumptions C31_linear_crossing.

(** Noon, midnight, sunrise and sunset: for every oracle, the answers are at
    most a day ahead and never in the past; noon and midnight always exist for
    steps of at most 12 hours. *)
Theorem C31_noon_and_midnight_ahead {T} {N : Num T} (el : Z -> T) (time d : Z) :
  0 < d <= half_day ->
  exists noon midnight,
    get_next_solar_noon el time d = Some (noon, el noon) /\
    get_next_solar_midnight el time d = Some (midnight, el midnight) /\
    time <= noon <= time + one_day /\ time <= midnight <= time + one_day.
Proof.
  intro Hd. destruct (next_noon_midnight el time d Hd) as (n & m & en & em & A & -> & B & -> & P & Q).
  exists n, m. split; [exact A|]. split; [exact B|]. unfold half_day, one_day in *.
  destruct (is_solar_afternoon el time); [specialize (P eq_refl)|specialize (Q eq_refl)]; lia.
Qed.
Print Assumptions C31_noon_and_midnight_ahead.

Theorem C31_sunrise_sunset_ahead {T} {N : Num T} lat_ok (horizon : T) (el : Z -> T) (time d : Z) :
  (forall r s, get_next_sunrise_sunset lat_ok horizon el time d = Some (r, s) ->
     lat_ok = true /\ time <= r <= time + one_day /\ time <= s <= time + one_day) /\
  (* it answers whenever the noon and midnight found are a step or more apart *)
  (forall noon e midnight e', 0 < d <= half_day ->
     get_next_solar_noon el time d = Some (noon, e) ->
     get_next_solar_midnight el time d = Some (midnight, e') ->
     d <= Z.abs (noon - midnight) <= one_day - d ->
     exists r s, get_next_sunrise_sunset true horizon el time d = Some (r, s)).
Proof.
  split; [intros; eapply sunrise_sunset_window; eassumption|].
  intros n en m em Hd A B. exact (sunrise_sunset_answers horizon el time d n en m em Hd A B).
Qed.
Print Assumptions C31_sunrise_sunset_ahead.

(** The number of agent steps to sunrise is the sunrise time rounded up. *)
Theorem C31_steps_to_sunrise {T} {N : Num T} lat_ok (horizon : T) (el : Z -> T) (time d k : Z) :
  0 < d -> calculate_steps_to_sunrise lat_ok horizon el time d = Some k ->
  (nleb horizon (el time) = true /\ k = 0) \/
  (nleb horizon (el time) = false /\
   exists r s, get_next_sunrise_sunset lat_ok horizon el time d = Some (r, s) /\
     0 <= k /\ (k - 1) * d < r - time <= k * d).
Proof. exact (steps_to_sunrise lat_ok horizon el time d k). Qed.
Print Assumptions C31_steps_to_sunrise.

(** With an ideal sun, the noon and the midnight found are the right ones, to
    half a step. *)
Theorem C31_ideal_sun (el : Z -> R) (M time d k : Z) :
  ideal_sun el M -> 0 < d -> half_day mod d = 0 ->
  (M + k * one_day <= time -> time + 1000000 <= M + half_day + k * one_day ->
     exists n m, get_next_solar_noon el time d = Some (n, el n) /\
       get_next_solar_midnight el time d = Some (m, el m) /\
       2 * Z.abs (n - (M + half_day + k * one_day)) <= d /\
       2 * Z.abs (m - (M + (k + 1) * one_day)) <= d) /\
  (M + half_day + k * one_day <= time -> time + 1000000 <= M + (k + 1) * one_day ->
     exists n m, get_next_solar_noon el time d = Some (n, el n) /\
       get_next_solar_midnight el time d = Some (m, el m) /\
       2 * Z.abs (m - (M + (k + 1) * one_day)) <= d /\
       2 * Z.abs (n - (M + half_day + (k + 1) * one_day)) <= d).
Proof. exact (ideal_next el M time d k). Qed.
Print Assumptions C31_ideal_sun.

(** C62 (the crossing of every monotone elevation is found) is false: the search
    compares the distances to the target at the two ends instead of looking on
    which side of the target the middle lies.  In every bracket of [n] steps some
    increasing elevation crosses the target between the last two samples, with a
    convex objective as the docstring asks for, and the answer is the middle of
    the bracket. *)
Theorem C62_monotone_crossing_refuted : forall a d n : Z, 0 < d -> 2 <= n ->
  exists el : Z -> R,
    (forall t t', t < t' -> (el t < el t')%R) /\
    (forall i, 0 < i < n -> (2 * Rabs (el (a + d * i)%Z) <=
       Rabs (el (a + d * (i - 1))%Z) + Rabs (el (a + d * (i + 1))%Z))%R) /\
    (el (a + d * (n - 1))%Z < 0 < el (a + d * n)%Z)%R /\
    find_solar_elevation el a (a + d * n) (Elevation 0%R) d
      = Some (a + d * ((n + 1) / 2), el (a + d * ((n + 1) / 2))).
Proof.
  intros a d n Hd Hn.
  set (el := fun t : Z => if t <? a + d * n then IZR (t - (a + d * n))
                          else IZR (t - (a + d * n) + 2 * d * n)).
  assert (L : forall i, i < n -> el (a + d * i)%Z = IZR (d * (i - n))).
  { intros i Hi. unfold el. destruct (Z.ltb_spec (a + d * i) (a + d * n)); [|nia].
    f_equal. ring. }
  assert (E : el (a + d * n)%Z = IZR (2 * d * n)).
  { unfold el. rewrite Z.ltb_irrefl. f_equal. ring. }
  assert (AL : forall i, i < n -> Rabs (el (a + d * i)%Z) = IZR (d * (n - i))).
  { intros i Hi. rewrite (L i Hi), Rabs_left by (apply IZR_lt; nia).
    rewrite <- opp_IZR. f_equal. ring. }
  assert (AE : Rabs (el (a + d * n)%Z) = IZR (2 * d * n)).
  { rewrite E, Rabs_right; [reflexivity|]. apply IZR_ge. nia. }
  exists el. split; [|split; [|split]].
  - intros t t' H. unfold el.
    destruct (Z.ltb_spec t (a + d * n)), (Z.ltb_spec t' (a + d * n)); apply IZR_lt; nia.
  - intros i Hi. rewrite (AL i), (AL (i - 1)) by lia.
    destruct (Z.eq_dec (i + 1) n) as [En|Hne].
    + rewrite En, AE, <- mult_IZR, <- plus_IZR. apply IZR_le. nia.
    + rewrite (AL (i + 1)), <- mult_IZR, <- plus_IZR by lia. apply IZR_le. nia.
  - rewrite (L (n - 1)), E by lia. split; apply IZR_lt; nia.
  - unfold find_solar_elevation, binary_search.
    destruct (Z.ltb_spec (a + d * n) a); [nia|]. destruct (Z.eqb_spec d 0); [lia|].
    replace (Z.quot (a + d * n - a) d) with n
      by (replace (a + d * n - a) with (n * d) by ring; symmetry; apply Z.quot_mul; lia).
    destruct (Z.leb_spec n 0); [lia|]. cbv zeta.
    set (obj := fun idx : Z => nabs (nsub (el (a + d * idx)%Z) 0%R)).
    assert (OL : forall i, i < n -> obj i = IZR (d * (n - i))).
    { intros i Hi. unfold obj. cbn [nabs nsub Num_R]. rewrite Rminus_0_r. exact (AL i Hi). }
    assert (OE : obj n = IZR (2 * d * n)).
    { unfold obj. cbn [nabs nsub Num_R]. rewrite Rminus_0_r. exact AE. }
    assert (OB : forall i, nabs (nsub (el (a + d * i)%Z) 0%R) = obj i) by reflexivity.
    clearbody obj.
    assert (Down : forall f lo hi, lo < hi < n -> (Z.to_nat (hi - lo) <= S f)%nat ->
      search_loop f obj lo hi = Some (hi - 1, hi)).
    { induction f as [|f IH]; intros lo hi H1 H2; cbn [search_loop].
      - destruct (Z.gtb_spec hi (lo + 1)); [lia|]. do 2 f_equal. lia.
      - destruct (Z.gtb_spec hi (lo + 1)); [|do 2 f_equal; lia].
        rewrite !OL by lia. cbn [nltb Num_R]. rewrite Rltb_false by (apply Rle_not_lt, IZR_le; nia).
        assert (lo + 1 <= (lo + hi) / 2) by (apply Z.div_le_lower_bound; lia).
        assert ((lo + hi) / 2 < hi) by (apply Z.div_lt_upper_bound; lia).
        apply IH; lia. }
    assert (M : - (- (0 + n) / 2) = (n + 1) / 2).
    { pose proof (Z.div_mod (-(0 + n)) 2). pose proof (Z.mod_pos_bound (-(0 + n)) 2).
      pose proof (Z.div_mod (n + 1) 2). pose proof (Z.mod_pos_bound (n + 1) 2). lia. }
    assert (0 < (n + 1) / 2) by (apply Z.div_str_pos; lia).
    assert ((n + 1) / 2 < n) by (apply Z.div_lt_upper_bound; lia).
    assert (S : search_loop (Z.to_nat n) obj 0 n = Some ((n + 1) / 2 - 1, (n + 1) / 2)).
    { destruct (Z.to_nat n) as [|f] eqn:Ef; [lia|]. cbn [search_loop].
      destruct (Z.gtb_spec n (0 + 1)); [|lia].
      rewrite OL, OE by lia. cbn [nltb Num_R]. rewrite Rltb_true by (apply IZR_lt; nia).
      rewrite M. apply Down; lia. }
    rewrite S, !OB, !OL by lia. cbn [nltb Num_R].
    rewrite Rltb_false by (apply Rle_not_lt, IZR_le; nia). reflexivity.
Qed.
Print Assumptions C62_monotone_crossing_refuted.

(** For linear elevations the answer is the sample nearest to the crossing. *)
Theorem C62_linear_crossing (el : Z -> R) (a b d : Z) (e0 rate target_el : R) :
  0 < d -> d <= b - a -> rate <> 0%R ->
  (forall t, a <= t <= b -> el t = (e0 + rate * IZR t)%R) ->
  exists time, find_solar_elevation el a b (Elevation target_el) d = Some (time, el time) /\
    forall j, 0 <= j <= Z.quot (b - a) d ->
      (Rabs (el time - target_el) <= Rabs (el (a + d * j)%Z - target_el))%R.
Proof. exact (C31_linear_crossing el a b d e0 rate target_el). Qed.
Print Assumptions C62_linear_crossing.

(** An ideal sun: elevation = distance to the nearest midnight, in microseconds. *)
Definition triangle_sun (t : Z) : R := IZR (Z.abs ((t + half_day) mod one_day - half_day)).
Example C31_witness :
  ideal_sun triangle_sun 0 /\ 0 < 180000000 /\ half_day mod 180000000 = 0 /\
  exists r s, get_next_sunrise_sunset true 1000000%R triangle_sun (3 * 3600 * 1000000) 180000000
                = Some (r, s).
Proof.
  assert (I : ideal_sun triangle_sun 0).
  { exists IZR. split; [intros x y H _; apply IZR_lt; lia|].
    intros t k H. unfold triangle_sun. apply f_equal. unfold half_day, one_day in *. lia. }
  split; [exact I|]. split; [lia|]. split; [reflexivity|].
  destruct (C31_ideal_sun triangle_sun 0 (3 * 3600 * 1000000) 180000000 0 I) as [H _];
    [lia|reflexivity|].
  destruct H as (n & m & A & B & Hn & Hm); [unfold one_day; lia|unfold one_day, half_day; lia|].
  destruct (C31_sunrise_sunset_ahead true 1000000%R triangle_sun (3 * 3600 * 1000000) 180000000) as [_ F].
  apply (F n (triangle_sun n) m (triangle_sun m)); [unfold half_day; lia|exact A|exact B|].
  unfold half_day, one_day in *. lia.
Qed.

(** ** C32: the Julian date *)

(** Within the years 1902-2099, the day number of the day after is one more. *)
Theorem C32_consecutive_days (d : date) : valid d -> 1902 <= year d <= 2099 ->
  julian_day_floor (next_day d) = julian_day_floor d + 1.
Proof. exact (julian_step d). Qed.
Print Assumptions C32_consecutive_days.

(** Time stamps: every day has a valid date, the date of the next day is the
    next date, and from 1970 to 2100-02-28 the Julian time is the exact number
    of days, to the second, since noon of -4712-01-01. *)
Theorem C32_julian_time :
  date_of 0 = mkDate 1970 1 1 /\
  (forall t, valid (date_of t) /\ date_of (t + us_per_day) = next_day (date_of t)) /\
  (forall t, 0 <= t < 47541 * us_per_day ->
     julian_time t = (2440587.5 + IZR (t / 1000000) / 86400)%R).
Proof.
  split; [reflexivity|]. split; [|exact julian_time_linear].
  intro t. unfold date_of.
  replace ((t + us_per_day) / us_per_day) with (t / us_per_day + 1).
  - apply date_of_days_calendar.
  - symmetry. replace (t + us_per_day) with (t + 1 * us_per_day) by ring.
    apply Z.div_add. discriminate.
Qed.
Print Assumptions C32_julian_time.

(** Outside: the day numbers skip a day at the end of February 2100 and repeat
    one at the end of August 2100. *)
Theorem C32_every_date_refuted :
  valid (mkDate 2100 2 28) /\ valid (mkDate 2100 8 31) /\
  julian_day_floor (next_day (mkDate 2100 2 28)) = julian_day_floor (mkDate 2100 2 28) + 2 /\
  julian_day_floor (next_day (mkDate 2100 8 31)) = julian_day_floor (mkDate 2100 8 31).
Proof. unfold valid. cbn [month day year days_in_month]. repeat split; try lia; reflexivity. Qed.
Print Assumptions C32_every_date_refuted.

(** J2000 (2000-01-01T12:00Z) is 2451545. *)
Example C32_witness : valid (mkDate 2000 2 29) /\ julian_time 946728000000000 = 2451545%R.
Proof.
  split; [unfold valid; cbn; lia|].
  destruct C32_julian_time as (_ & _ & L). rewrite L by (unfold us_per_day; lia).
  change (946728000000000 / 1000000) with 946728000. lra.
Qed.

(** ** C33: solar power *)
Local Open Scope R_scope.

(** Elevations and pressures outside the physical range raise; inside, the power
    is within [0, 1260] W (six panels of 210 W) and zero exactly at night. *)
Theorem C33_power_range (el p : R) :
  (solar_power el p = None <-> ~ (-90 <= el <= 90 /\ 0 <= p <= 101325)) /\
  (forall w, solar_power el p = Some w -> 0 <= w <= 6 * 210 /\ (w = 0 <-> el < -4.242)).
Proof.
  split.
  - rewrite <- attenuation_rejects. unfold solar_power.
    destruct (solar_atmospheric_attenuation el p); split; (reflexivity || discriminate).
  - intros w E. assert (D : -90 <= el <= 90 /\ 0 <= p <= 101325).
    { destruct (attenuation_rejects el p) as [_ R0]. unfold solar_power in E.
      destruct (Rle_dec (-90) el), (Rle_dec el 90), (Rle_dec 0 p), (Rle_dec p 101325);
        try (rewrite R0 in E by lra; discriminate E); lra. }
    destruct D as [D1 D2]. destruct (solar_power_range el p D1 D2) as (w' & E' & R1 & R2).
    rewrite E in E'. injection E' as <-. split; [lra|exact R2].
Qed.
Print Assumptions C33_power_range.

(** Attenuation: in [0, 1], zero exactly at night, and monotone: more light when
    the sun is higher or the air above thinner. *)
Theorem C33_attenuation (el p a : R) :
  solar_atmospheric_attenuation el p = Some a ->
  0 <= a <= 1 /\ (a = 0 <-> el < -4.242) /\
  forall el' p' a', solar_atmospheric_attenuation el' p' = Some a' ->
    el <= el' -> p' <= p -> a <= a'.
Proof.
  intro E.
  assert (D : forall e q b, solar_atmospheric_attenuation e q = Some b ->
                -90 <= e <= 90 /\ 0 <= q <= 101325).
  { intros e q b Eb. destruct (attenuation_rejects e q) as [_ R0].
    destruct (Rle_dec (-90) e), (Rle_dec e 90), (Rle_dec 0 q), (Rle_dec q 101325);
      try (rewrite R0 in Eb by lra; discriminate Eb); lra. }
  destruct (D _ _ _ E) as [D1 D2].
  destruct (attenuation_range el p D1 D2) as (b & E' & R1 & R2).
  rewrite E in E'. injection E' as <-. split; [exact R1|]. split; [exact R2|].
  intros el' p' a' E2 H1 H2. destruct (D _ _ _ E2) as [D3 D4].
  apply (attenuation_monotone el el' p p' a a'); try assumption; lra.
Qed.
Print Assumptions C33_attenuation.

(** The documented formula: four panels at 35 degrees hanging 3.3 m below the
    envelope and two at 65 degrees hanging 2.7 m below, 210 W each. *)
Theorem C33_formula (el p a : R) : solar_atmospheric_attenuation el p = Some a ->
  solar_power el p = Some (210 * a *
    (4 * cos ((el - 35) * PI / 180) * balloon_shadow el 3.3
     + 2 * cos ((el - 65) * PI / 180) * balloon_shadow el 2.7)).
Proof. exact (solar_power_value el p a). Qed.
Print Assumptions C33_formula.

(** The shadow: one of two values, decided by the tangent of the elevation
    against the geometry of the envelope, and never lifted as the sun climbs. *)
Theorem C33_shadow (el h : R) :
  (balloon_shadow el h = 0.4392 \/ balloon_shadow el h = 1) /\
  (forall el', el <= el' -> balloon_shadow el' h <= balloon_shadow el h) /\
  (-90 < el < 90 ->
     (sqrt (h * (10.41603 + h)) / 8.69275 <= tan (el * PI / 180) -> balloon_shadow el h = 0.4392) /\
     (tan (el * PI / 180) < sqrt (h * (10.41603 + h)) / 8.69275 -> balloon_shadow el h = 1)).
Proof.
  split; [apply shadow_values|]. split; [intro; apply shadow_monotone|exact (shadow_iff el h)].
Qed.
Print Assumptions C33_shadow.

(** The sun's position is always a legal argument: at every position and instant
    the elevation is in [-90, 90] and the azimuth in [0, 360], so solar power
    never raises on it; within a century of 2000 the flux is 1366 W/m2 +- 5%. *)
Theorem C33_sun_position (lat lng : R) (t : Z) :
  let '(el, az, flux) := solar_calculator lat lng t in
  -90 <= el <= 90 /\ 0 <= az <= 360 /\
  (forall p, 0 <= p <= 101325 -> exists w, solar_power el p = Some w) /\
  (-1 <= julian_century t <= 1 -> 1300 <= flux <= 1432).
Proof.
  pose proof (solar_calculator_ranges lat lng t) as H. pose proof (flux_range lat lng t) as F.
  destruct (solar_calculator lat lng t) as [[el az] fl]. destruct H as [H1 H2].
  split; [exact H1|]. split; [exact H2|]. split; [|exact F].
  intros p Hp. destruct (solar_power_range el p H1 Hp) as (w & E & _). now exists w.
Qed.
Print Assumptions C33_sun_position.

(** A flight at 2000-01-01T12:00Z is within the century; half the sky is night. *)
Example C33_witness :
  julian_century 946728000000000 = 0 /\
  solar_power (-10) 9000 = Some 0 /\
  exists w, solar_power 30 9000 = Some w /\ 0 < w.
Proof.
  split.
  { unfold julian_century. rewrite (proj2 C32_witness). lra. }
  split.
  - destruct (solar_power_range (-10) 9000 ltac:(lra) ltac:(lra)) as (w & E & _ & Z0).
    rewrite E. f_equal. apply Z0. lra.
  - destruct (solar_power_range 30 9000 ltac:(lra) ltac:(lra)) as (w & E & R1 & Z0).
    exists w. split; [exact E|]. destruct (Req_dec w 0) as [->|]; [|lra].
    exfalso. assert (30 < -4.242) by (apply Z0; reflexivity). lra.
Qed.
