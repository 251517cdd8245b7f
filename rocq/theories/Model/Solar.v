(** Model of env/balloon/solar.py (paths relative to
    /repo/balloon_learning_environment/), over the reals; times are integer
    microseconds since 1970-01-01T00:00Z.  [None]: an exception. *)
From Coq Require Import ZArith Reals Bool List.
From Verif Require Import Model.Num.
Import ListNotations.

(** ** The calendar (Library behaviour: datetime of a UTC timestamp) *)
Record date := mkDate { year : Z; month : Z; day : Z }.

(** The microseconds of a day, for the day fraction: solar.py:68-79. *)
Definition us_per_day : Z := 86400000000.

(** The proleptic Gregorian date [z] days after 1970-01-01, by eras of 400
    years starting on 1 March. *)
Definition date_of_days (z : Z) : date :=
  (let z := z + 719468 in
   let era := z / 146097 in
   let doe := z mod 146097 in
   let yoe := (doe - doe / 1460 + doe / 36524 - doe / 146096) / 365 in
   let doy := doe - (365 * yoe + yoe / 4 - yoe / 100) in
   let mp := (5 * doy + 2) / 153 in
   let d := doy - (153 * mp + 2) / 5 + 1 in
   let m := if mp <? 10 then mp + 3 else mp - 9 in
   let y := yoe + era * 400 in
   mkDate (if m <=? 2 then y + 1 else y) m d)%Z.

(** time.year, time.month, time.day of a UTC datetime. *)
Definition date_of (t : Z) : date := date_of_days (t / us_per_day).

(** int(time.timestamp()) % NUM_SECONDS_PER_DAY: solar.py:66-68. *)
Definition second_of_day (t : Z) : Z := (Z.quot t 1000000 mod 86400)%Z.

(** julian_day_number: solar.py:71-75.  The Python value is this integer plus
    one half; floor(a/b) of integers is Z's [/], and
    (year + (month - 9)/7)/100 is (7 year + month - 9)/700. *)
Definition julian_day_floor (d : date) : Z :=
  (367 * year d - (7 * (year d + (month d + 9) / 12)) / 4
   - (3 * ((7 * year d + month d - 9) / 700 + 1)) / 4
   + (275 * month d) / 9 + day d + 1721028)%Z.

Open Scope R_scope.

(** fraction_of_day, julian_time, julian_century: solar.py:66-68, 78-79. *)
Definition fraction_of_day (t : Z) : R := IZR (second_of_day t) / 86400.
(** julian_time: solar.py:78. *)
Definition julian_time (t : Z) : R :=
  (IZR (julian_day_floor (date_of t)) + 1 / 2) + fraction_of_day t.
(** julian_century: solar.py:79. *)
Definition julian_century (t : Z) : R := (julian_time t - 2451545) / 36525.

(** ** solar_calculator: solar.py:43-174 *)
(** math.radians, math.degrees. *)
Definition radians (d : R) : R := d * PI / 180.
(** Library behaviour: math.degrees (solar.py:115, 141, 165-167). *)
Definition degrees (r : R) : R := r * 180 / PI.

(** math.fmod(a, b): truncated remainder, sign of [a]. *)
Definition Rtrunc (a : R) : R :=
  if Rleb 0 a then IZR (Int_part a) else - IZR (Int_part (- a)).
(** Library behaviour: math.fmod (solar.py:114). *)
Definition fmod (a b : R) : R := a - Rtrunc (a / b) * b.

(** solar.py:82-83, 88-89. *)
Definition geometric_mean_long_sun (jc : R) : R :=
  radians (280.46646 + jc * (36000.76983 + jc * 0.0003032)).
(** geometric_mean_anomaly_sun: solar.py:88-89. *)
Definition geometric_mean_anomaly_sun (jc : R) : R :=
  radians (357.52911 + jc * (35999.05029 - 0.0001537 * jc)).
(** solar.py:94-100. *)
Definition mean_obliquity_of_ecliptic (jc : R) : R :=
  radians (23 + (26 + (21.448 - jc * (46.815 + jc * (0.00059 - jc * 0.001813))) / 60) / 60).
(** obliquity_correction: solar.py:99-100. *)
Definition obliquity_correction (jc : R) : R :=
  mean_obliquity_of_ecliptic jc
  + radians (0.00256 * cos (radians (125.04 - 1934.136 * jc))).
(** solar.py:104-105. *)
Definition eccentricity_earth (jc : R) : R :=
  0.016708634 - jc * (0.000042037 + 0.0000001267 * jc).
(** solar.py:102, 107-111. *)
Definition equation_of_time (jc : R) : R :=
  let l0 := geometric_mean_long_sun jc in
  let m0 := geometric_mean_anomaly_sun jc in
  let vy := tan (obliquity_correction jc / 2) ^ 2 in
  let e := eccentricity_earth jc in
  4 * (vy * sin (2 * l0) - 2 * e * sin m0
       + 4 * e * vy * sin m0 * cos (2 * l0)
       - 0.5 * vy * vy * sin (4 * l0)
       - 1.25 * e * e * sin (2 * m0)).
(** solar.py:113-120. *)
Definition hour_angle (jc fraction lng_deg : R) : R :=
  let h :=
    radians (fmod (1440 * fraction + degrees (equation_of_time jc) + 4 * lng_deg) 1440) / 4 in
  if Rltb h 0 then h + PI else h - PI.
(** solar.py:122-133. *)
Definition declination_sun (jc : R) : R :=
  let l0 := geometric_mean_long_sun jc in
  let m0 := geometric_mean_anomaly_sun jc in
  let center :=
    radians (sin m0 * (1.914602 - jc * (0.004817 + 0.000014 * jc))
             + sin (2 * m0) * (0.019993 - 0.000101 * jc)
             + sin (3 * m0) * 0.000289) in
  let true_long := l0 + center in
  let apparent :=
    true_long - radians (0.00569 - 0.00478 * sin (radians (125.04 - 1934.136 * jc))) in
  asin (sin (obliquity_correction jc) * sin apparent).
(** solar.py:135-138. *)
Definition zenith_angle (lat decl ha : R) : R :=
  acos (sin lat * sin decl + cos lat * cos decl * cos ha).
(** Refraction in arc seconds: solar.py:143-155. *)
Definition atmospheric_refraction (el : R) : R :=
  if Rltb 85 el then 0
  else if Rltb 5 el then
    let t := tan (radians el) in 58.1 / t - 0.07 / t ^ 3 + 0.000086 / t ^ 5
  else if Rltb (-0.575) el then
    1735 + el * (-518.2 + el * (103.4 + el * (-12.79 + el * 0.711)))
  else -20.772 / tan (radians el).

(** The whole function: (elevation, azimuth, flux), for a latitude and longitude
    in radians.  The test [latlng.is_valid] (solar.py:60) names a bound method,
    which is always true, so no position is rejected; datetimes are aware, so
    solar.py:62 does not raise either. *)
Definition solar_calculator (lat lng : R) (t : Z) : R * R * R :=
  let jc := julian_century t in
  let ha := hour_angle jc (fraction_of_day t) (degrees lng) in
  let decl := declination_sun jc in
  let zenith := zenith_angle lat decl ha in
  let el0 := 90 - degrees zenith in
  let el := el0 + atmospheric_refraction el0 / 3600 in
  let cos_az := (sin lat * cos zenith - sin decl) / (cos lat * sin zenith) in
  let az0 := acos (Rmin (Rmax cos_az (-1)) 1) in
  let az := if Rltb 0 ha then degrees az0 + 180 else 180 - degrees az0 in
  let e := eccentricity_earth jc in
  let flux :=
    1366 * (1 + 0.5 * (((1 + e) / (1 - e)) ^ 2 - 1) * cos (geometric_mean_anomaly_sun jc)) in
  (el, az, flux).

(** ** Power *)
Definition MIN_SOLAR_EL_DEG : R := -4.242.            (* solar.py:38 *)

(** solar_atmospheric_attenuation: solar.py:177-209. *)
Definition solar_atmospheric_attenuation (el p : R) : option R :=
  if Rltb 90 el || Rltb el (-90) then None
  else if Rltb 101325 p || Rltb p 0 then None
  else if Rltb el MIN_SOLAR_EL_DEG then Some 0
  else
    let ts := 614 * sin (radians el) in
    let airmass := 0.34764 * (p / 101325) * (sqrt (1229 + ts * ts) - ts) in
    Some (0.5 * (exp (-0.65 * airmass) + exp (-0.95 * airmass))).

(** balloon_shadow: solar.py:212-236; arctan2(y, x) with x > 0 is atan(y/x). *)
Definition balloon_shadow (el panel_height : R) : R :=
  let radius := 8.69275 in
  let height := 10.41603 in
  let shadow_el := degrees (atan (sqrt (panel_height * (height + panel_height)) / radius)) in
  if Rleb shadow_el el then 0.4392 else 1.

(** solar_power: solar.py:515-536, in watts. *)
Definition solar_power (el p : R) : option R :=
  match solar_atmospheric_attenuation el p with
  | None => None
  | Some att =>
      Some (210 * att *
            (4 * cos (radians (el - 35)) * balloon_shadow el 3.3
             + 2 * cos (radians (el - 65)) * balloon_shadow el 2.7))
  end.
