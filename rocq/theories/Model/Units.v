(** Model of utils/units.py (paths relative to /repo/balloon_learning_environment/).
    Magnitudes are real numbers (Python floats without rounding); a
    datetime.timedelta is an integer number of microseconds.  What Python's
    operator dispatch does with the methods of the four classes is modelled
    too, because it decides what a user of the operators sees. *)
From Coq Require Import ZArith Reals Bool.
From Verif Require Import Model.Num.
Open Scope R_scope.

(** _METERS_PER_FOOT: units.py:23. *)
Definition METERS_PER_FOOT : R := 0.3048.

(** The objects the operators can meet: a Distance (in metres), a Velocity
    (m/s), an Energy (Wh), a Power (W), a timedelta (microseconds), an int or
    float, anything else. *)
Inductive value :=
| Distance (m : R) | Velocity (mps : R) | Energy (wh : R) | Power (w : R)
| Timedelta (us : Z) | Number (x : R) | Other.

(** The exceptions that the operators raise: units.py:64-296. *)
Inductive exn := NotImplementedError | ValueError | AttributeError | TypeError
               | ZeroDivisionError.

(** What evaluating an operator gives: a value, a truth value, a raised
    exception, an exception object returned as an ordinary value, or an
    operation between two built-in values, which units.py does not define. *)
Inductive result :=
| Val (v : value) | Truth (b : bool) | Raises (e : exn) | ReturnsExn (e : exn)
| BuiltIn.

(** Distance.__init__: units.py:29-38. *)
Definition new_distance (m meters km kilometers feet : R) : value :=
  Distance (m + meters + (km + kilometers) * 1000 + feet * METERS_PER_FOOT).
(** Velocity.__init__: units.py:130-138. *)
Definition new_velocity (mps meters_per_second kmph kilometers_per_hour : R) : value :=
  Velocity (mps + meters_per_second + (kmph + kilometers_per_hour) * 1000 / 3600).
(** Energy.__init__: units.py:202-203.  Power.__init__: units.py:258-259. *)
Definition new_energy (watt_hours : R) : value := Energy watt_hours.
(** Power.__init__: units.py:258-259. *)
Definition new_power (watts : R) : value := Power watts.

(** Properties; [None]: the object has no such attribute.
    Distance.m, meters, km, kilometers, feet: units.py:40-62. *)
Definition prop_m (v : value) : option R :=
  match v with Distance d => Some d | _ => None end.
(** meters: units.py:45-48. *)
Definition prop_meters (v : value) : option R := prop_m v.
(** km: units.py:50-53. *)
Definition prop_km (v : value) : option R :=
  match v with Distance d => Some (d / 1000) | _ => None end.
(** kilometers: units.py:55-58. *)
Definition prop_kilometers (v : value) : option R := prop_km v.
(** feet: units.py:60-62. *)
Definition prop_feet (v : value) : option R :=
  match v with Distance d => Some (d / METERS_PER_FOOT) | _ => None end.
(** Velocity.mps, meters_per_second, kmph, kilometers_per_hour: units.py:140-158. *)
Definition prop_mps (v : value) : option R :=
  match v with Velocity x => Some x | _ => None end.
(** meters_per_second: units.py:145-148. *)
Definition prop_meters_per_second (v : value) : option R := prop_mps v.
(** kmph: units.py:150-153. *)
Definition prop_kmph (v : value) : option R :=
  match v with Velocity x => Some (x * 3600 / 1000) | _ => None end.
(** kilometers_per_hour: units.py:155-158. *)
Definition prop_kilometers_per_hour (v : value) : option R := prop_kmph v.
(** Energy.watt_hours: units.py:205-207.  Power.watts: units.py:261-263. *)
Definition prop_watt_hours (v : value) : option R :=
  match v with Energy x => Some x | _ => None end.
(** watts: units.py:261-263. *)
Definition prop_watts (v : value) : option R :=
  match v with Power x => Some x | _ => None end.

(** timedelta.total_seconds of the Python library. *)
Definition total_seconds (us : Z) : R := IZR us / 1000000.
(** seconds_to_hours, timedelta_to_hours: units.py:312-317. *)
Definition seconds_to_hours (s : R) : R := s / 3600.
(** timedelta_to_hours: units.py:316-317. *)
Definition timedelta_to_hours (us : Z) : R := seconds_to_hours (total_seconds us).

(** float / float: Python raises on a zero divisor. *)
Definition pydiv (x y : R) (k : R -> value) : result :=
  if Reqb y 0 then Raises ZeroDivisionError else Val (k (x / y)).

(** Instances of the four classes: units.py:26, 127, 199, 255. *)
Definition is_quantity (v : value) : bool :=
  match v with Distance _ | Velocity _ | Energy _ | Power _ => true | _ => false end.

(** [a + b].  __add__: units.py:64-68, 160-164, 209-213, 265-269.  None of the
    classes has __radd__, so a built-in left operand gives TypeError. *)
Definition add (a b : value) : result :=
  match a, b with
  | Distance x, Distance y => Val (new_distance (x + y) 0 0 0 0)
  | Velocity x, Velocity y => Val (new_velocity (x + y) 0 0 0)
  | Energy x, Energy y => Val (new_energy (x + y))
  | Power x, Power y => Val (new_power (x + y))
  | (Distance _ | Velocity _ | Energy _ | Power _), _ => Raises NotImplementedError
  | _, _ => if is_quantity b then Raises TypeError else BuiltIn
  end.

(** [a - b].  __sub__: units.py:70-74, 166-170, 215-219, 271-275. *)
Definition sub (a b : value) : result :=
  match a, b with
  | Distance x, Distance y => Val (new_distance (x - y) 0 0 0 0)
  | Velocity x, Velocity y => Val (new_velocity (x - y) 0 0 0)
  | Energy x, Energy y => Val (new_energy (x - y))
  | Power x, Power y => Val (new_power (x - y))
  | (Distance _ | Velocity _ | Energy _ | Power _), _ => Raises NotImplementedError
  | _, _ => if is_quantity b then Raises TypeError else BuiltIn
  end.

(** __mul__: units.py:99-103, 172-177, 227-231, 277-281. *)
Definition mul_method (a b : value) : result :=
  match a, b with
  | Distance x, Number y => Val (new_distance (x * y) 0 0 0 0)
  | Velocity x, Timedelta y => Val (new_distance (x * total_seconds y) 0 0 0 0)
  | Energy x, Number y => Val (new_energy (x * y))
  | Power x, Timedelta y => Val (new_energy (x * timedelta_to_hours y))
  | _, _ => Raises NotImplementedError
  end.
(** [a * b]; __rmul__ (units.py:105-106, 179-180, 233-234, 283-284) is reached
    when the left operand is built in. *)
Definition mul (a b : value) : result :=
  if is_quantity a then mul_method a b
  else if is_quantity b then mul_method b a
  else BuiltIn.

(** [a / b].  __truediv__: units.py:89-97, 192-196, 221-225; Power has none. *)
Definition truediv (a b : value) : result :=
  match a, b with
  | Distance x, Number y => pydiv x y (fun q => new_distance q 0 0 0 0)
  | Distance x, Timedelta y => pydiv x (total_seconds y) (fun q => new_velocity q 0 0 0)
  | Distance x, Distance y => pydiv x y Number
  | Distance _, _ => Raises NotImplementedError
  | Velocity x, Number y => pydiv x y (fun q => new_velocity q 0 0 0)
  | Velocity _, _ => Raises NotImplementedError
  | Energy x, Energy y => pydiv x y Number
  | Energy _, _ => Raises NotImplementedError
  | Power _, _ => Raises TypeError
  | _, _ => if is_quantity b then Raises TypeError else BuiltIn
  end.

(** __eq__: units.py:108-109, 182-187, 242-246, 292-296. *)
Definition eq_method (a b : value) : result :=
  match a, b with
  | Distance x, Distance y => Truth (Rltb (Rabs (x - y)) 1e-9)
  | Distance _, _ => Raises AttributeError
  | Velocity x, Velocity y => Truth (Rltb (Rabs (x - y)) 1e-9)
  | Velocity _, _ => Raises ValueError
  | Energy x, Energy y => Truth (Reqb x y)
  | Energy _, _ => Raises ValueError
  | Power x, Power y => Truth (Reqb x y)
  | Power _, _ => Raises ValueError
  | _, _ => BuiltIn
  end.
(** [a == b]: the right operand's __eq__ is tried when the left is built in. *)
Definition eq (a b : value) : result :=
  if is_quantity a then eq_method a b
  else if is_quantity b then eq_method b a else BuiltIn.
(** [a != b]: no class defines __ne__ (units.py:111 defines "__neq__"), so
    Python inverts __eq__. *)
Definition ne (a b : value) : result :=
  match eq a b with Truth t => Truth (negb t) | r => r end.

(** __gt__: units.py:120-121, 236-240, 286-290.  [None]: no such method. *)
Definition gt_method (a b : value) : option result :=
  match a, b with
  | Distance x, Distance y => Some (Truth (Rltb y x))
  | Distance _, _ => Some (Raises AttributeError)
  | Energy x, Energy y => Some (Truth (Rltb y x))
  | Energy _, _ => Some (Raises ValueError)
  | Power x, Power y => Some (Truth (Rltb y x))
  | Power _, _ => Some (Raises ValueError)
  | _, _ => None
  end.
(** __lt__: units.py:114-115. *)
Definition lt_method (a b : value) : option result :=
  match a, b with
  | Distance x, Distance y => Some (Truth (Rltb x y))
  | Distance _, _ => Some (Raises AttributeError)
  | _, _ => None
  end.
(** __ge__: units.py:123-124, 248-252.  Energy.__ge__ *returns* a ValueError. *)
Definition ge_method (a b : value) : option result :=
  match a, b with
  | Distance x, Distance y => Some (Truth (Rleb y x))
  | Distance _, _ => Some (Raises AttributeError)
  | Energy x, Energy y => Some (Truth (Rleb y x))
  | Energy _, _ => Some (ReturnsExn ValueError)
  | _, _ => None
  end.
(** __le__: units.py:117-118. *)
Definition le_method (a b : value) : option result :=
  match a, b with
  | Distance x, Distance y => Some (Truth (Rleb x y))
  | Distance _, _ => Some (Raises AttributeError)
  | _, _ => None
  end.

(** Python's rich comparison: the left method, else the reflected method of the
    right operand, else TypeError. *)
Definition dispatch (m r : value -> value -> option result) (a b : value) : result :=
  if is_quantity a || is_quantity b then
    match m a b with
    | Some x => x
    | None => match r b a with Some x => x | None => Raises TypeError end
    end
  else BuiltIn.
(** a > b (Python tries b < a next): units.py:120-121, 236-240, 286-290. *)
Definition gt := dispatch gt_method lt_method.
(** a < b: units.py:114-115. *)
Definition lt := dispatch lt_method gt_method.
(** a >= b: units.py:123-124, 248-252. *)
Definition ge := dispatch ge_method le_method.
(** a <= b: units.py:117-118. *)
Definition le := dispatch le_method ge_method.

(** distance_to_degrees: units.py:299-304 (for a Distance of [m] metres). *)
Definition distance_to_degrees (m : R) : R := m / 1000 / 111.
(** relative_distance: units.py:307-309 (metres). *)
Definition relative_distance (x y : R) : R := sqrt (x * x + y * y).
