(** Model of the instants of time of utils/units.py: datetime and datetime_from_timestamp.
    Paths are relative to /repo/balloon_learning_environment/.  The calendar is that of
    Python's datetime module.  Elsewhere in this model an instant is the number of
    microseconds since 1970 (the timestamp below). *)
From Coq Require Import ZArith List Bool.
Import ListNotations.
Open Scope Z_scope.

(** Library behaviour: datetime._is_leap. *)
Definition is_leap (year : Z) : bool :=
  (year mod 4 =? 0) && (negb (year mod 100 =? 0) || (year mod 400 =? 0)).
(** Library behaviour: datetime._DAYS_BEFORE_MONTH. *)
Definition days_before_month_table : list Z := [-1; 0; 31; 59; 90; 120; 151; 181; 212; 243; 273; 304; 334].
(** Library behaviour: datetime._DAYS_IN_MONTH. *)
Definition days_in_month_table : list Z := [-1; 31; 28; 31; 30; 31; 30; 31; 31; 30; 31; 30; 31].
(** Library behaviour: 1 if the condition holds, 0 otherwise (a bool in a sum). *)
Definition one_if (b : bool) : Z := if b then 1 else 0.
(** Library behaviour: datetime._days_in_month. *)
Definition days_in_month (year month : Z) : Z :=
  nth (Z.to_nat month) days_in_month_table 0 + one_if ((month =? 2) && is_leap year).
(** Library behaviour: datetime._days_before_year. *)
Definition days_before_year (year : Z) : Z :=
  let y := year - 1 in y * 365 + y / 4 - y / 100 + y / 400.
(** Library behaviour: datetime._days_before_month, for a leap year or not. *)
Definition days_before_month (leap : bool) (month : Z) : Z :=
  nth (Z.to_nat month) days_before_month_table 0 + one_if ((2 <? month) && leap).
(** Library behaviour: datetime._ymd2ord. *)
Definition ymd2ord (year month day : Z) : Z :=
  days_before_year year + days_before_month (is_leap year) month + day.

(** Library behaviour: the end of datetime._ord2ymd, from the number of days since the
    beginning of a year. *)
Definition month_and_day (leap : bool) (n : Z) : Z * Z :=
  let month := Z.shiftr (n + 50) 5 in
  let preceding := days_before_month leap month in
  if n <? preceding then
    let month' := month - 1 in
    (month', n - (preceding - (nth (Z.to_nat month') days_in_month_table 0 + one_if ((month' =? 2) && leap))) + 1)
  else (month, n - preceding + 1).

(** Library behaviour: datetime._ord2ymd. *)
Definition ord2ymd (ord : Z) : Z * Z * Z :=
  let n := ord - 1 in
  let n400 := n / 146097 in let n := n mod 146097 in
  let n100 := n / 36524 in let n := n mod 36524 in
  let n4 := n / 1461 in let n := n mod 1461 in
  let n1 := n / 365 in let n := n mod 365 in
  let year := n400 * 400 + 1 + n100 * 100 + n4 * 4 + n1 in
  if (n1 =? 4) || (n100 =? 4) then (year - 1, 12, 31)
  else
    let leap := (n1 =? 3) && (negb (n4 =? 24) || (n100 =? 3)) in
    let '(month, day) := month_and_day leap n in
    (year, month, day).

(** A dt.datetime: the date and the time of day, and the difference of its zone to UTC in
    microseconds; None for a datetime without zone (naive).  [fold] matters only for zones
    whose clocks are changed and is left out. *)
Record datetime := mkDatetime {
  year : Z; month : Z; day : Z; hour : Z; minute : Z; second : Z; microsecond : Z;
  tzinfo : option Z
}.

(** Library behaviour: the arguments dt.datetime accepts. *)
Definition valid (y m d h mi s us : Z) : bool :=
  (1 <=? y) && (y <=? 9999) && (1 <=? m) && (m <=? 12) && (1 <=? d) && (d <=? days_in_month y m) &&
  (0 <=? h) && (h <=? 23) && (0 <=? mi) && (mi <=? 59) && (0 <=? s) && (s <=? 59) && (0 <=? us) && (us <=? 999999).

(** units.datetime: utils/units.py:320-358.  [tz] is what is passed for tzinfo: nothing (the
    default is UTC) or a value.  [None]: ValueError. *)
Definition units_datetime (y m d h mi s us : Z) (tz : option (option Z)) : option datetime :=
  if valid y m d h mi s us
  then Some (mkDatetime y m d h mi s us (match tz with None => Some 0 | Some z => z end))
  else None.

(** Library behaviour: dt.datetime.timestamp(), in microseconds; a datetime without zone is
    taken to be in the time zone of the computer, [local] microseconds ahead of UTC. *)
Definition timestamp (local : Z) (t : datetime) : Z :=
  (((ymd2ord (year t) (month t) (day t) - 719163) * 86400 + hour t * 3600 + minute t * 60 + second t) * 1000000
   + microsecond t) - match tzinfo t with Some z => z | None => local end.

(** units.datetime_from_timestamp: utils/units.py:361-373, for a whole number of seconds.
    [None]: the year would not be between 1 and 9999 (ValueError). *)
Definition datetime_from_timestamp (seconds : Z) : option datetime :=
  let '(y, m, d) := ord2ymd (seconds / 86400 + 719163) in
  let r := seconds mod 86400 in
  if (1 <=? y) && (y <=? 9999)
  then Some (mkDatetime y m d (r / 3600) (r mod 3600 / 60) (r mod 60) 0 (Some 0))
  else None.
