(** Whole numbers the program gets by rounding a double precision quotient: the pressure level
    nearest to a pressure, and counts of time steps.  Paths are relative to
    /repo/balloon_learning_environment/.  [None]: an exception. *)
From Coq Require Import ZArith Bool.
From Flocq Require Import Core BinarySingleNaN.
From Verif Require Import Model.Float64 Model.FloatWind.

(** Library behaviour: int(round(f)): the nearest integer, the even one of two; infinities and
    NaN raise. *)
Definition py_round64 (f : float) : option Z :=
  if is_finite f then Some (Btrunc (Bnearbyint mode_NE f)) else None.
(** Library behaviour: math.ceil; infinities and NaN raise. *)
Definition py_ceil64 (f : float) : option Z :=
  if is_finite f then Some (Btrunc (Bnearbyint mode_UP f)) else None.

(** PERCIATELLI_PRESSURE_RANGE_MIN and _MAX: utils/constants.py:37-38. *)
Definition RANGE_MIN64 : float := float_of_Z 5000.
(** utils/constants.py:37-38. *)
Definition RANGE_MAX64 : float := float_of_Z 14000.

(** pressure_levels: env/features.py:283-289; np.linspace computes step = (stop - start) / 180
    and then i * step + start, and puts stop itself in the last place. *)
Definition pressure_level64 (i : Z) : float :=
  if (i =? 180)%Z then RANGE_MAX64
  else
    let step := Bdiv mode_NE (Bminus mode_NE RANGE_MAX64 RANGE_MIN64) (float_of_Z 180) in
    Bplus mode_NE (Bmult mode_NE (float_of_Z i) step) RANGE_MIN64.

(** _nearest_pressure_level: env/features.py:357-380; min and max keep their first argument
    unless the second is smaller or larger. *)
Definition nearest_level64 (p : float) : option Z :=
  let c :=
    if Bltb p RANGE_MIN64 || Bltb RANGE_MAX64 p
    then let m := if Bltb p RANGE_MIN64 then RANGE_MIN64 else p in
         if Bltb RANGE_MAX64 m then RANGE_MAX64 else m
    else p in
  let delta := Bminus mode_NE (pressure_level64 1) (pressure_level64 0) in
  match py_round64 (Bdiv mode_NE (Bminus mode_NE c RANGE_MIN64) delta) with
  | None => None
  | Some level => if (0 <=? level)%Z && (level <? 181)%Z then Some level else None
  end.

(** Library behaviour: a timedelta divided by a timedelta divides their microseconds, two ints;
    as do (high - low) / 2 and timedelta.total_seconds.  Python's division of two ints is this
    one while both are below 2^53. *)
Definition ratio64 (a b : Z) : float := Bdiv mode_NE (float_of_Z a) (float_of_Z b).

(** max_steps = int((max_time - min_time) / time_delta): env/balloon/solar.py:321. *)
Definition whole_steps64 (elapsed time_delta : Z) : option Z := py_int (ratio64 elapsed time_delta).

(** math.ceil(elapsed_time / time_delta): env/balloon/solar.py:509-512. *)
Definition started_steps64 (elapsed time_delta : Z) : option Z := py_ceil64 (ratio64 elapsed time_delta).

(** int(time_delta.total_seconds()): env/balloon/balloon.py:315-316, utils/sampling.py:81. *)
Definition whole_seconds64 (elapsed : Z) : option Z := py_int (ratio64 elapsed 1000000).

(** The midpoint of the binary search: env/balloon/solar.py:359. *)
Definition midpoint64 (low high : Z) : float :=
  Bplus mode_NE (float_of_Z low) (ratio64 (high - low) 2).
(** math.ceil(midpoint): env/balloon/solar.py:362. *)
Definition midpoint_up64 (low high : Z) : option Z := py_ceil64 (midpoint64 low high).
(** math.floor(midpoint): env/balloon/solar.py:364; infinities and NaN raise. *)
Definition midpoint_down64 (low high : Z) : option Z :=
  let f := midpoint64 low high in
  if is_finite f then Some (Btrunc (Bnearbyint mode_DN f)) else None.
