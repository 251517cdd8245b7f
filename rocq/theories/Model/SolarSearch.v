(** Model of the sunrise/sunset search: env/balloon/solar.py:239-512 (paths
    relative to /repo/balloon_learning_environment/).  The solar elevation is an
    oracle [el : Z -> T] over times in microseconds and [T] any numeric type;
    [None] is an exception (ValueError or AssertionError). *)
From Coq Require Import ZArith Bool.
From Verif Require Import Model.Num.
Local Open Scope Z_scope.

Section Search.
Context {T : Type} {N : Num T}.

(** dt.timedelta(hours=12), dt.timedelta(hours=24), dt.timedelta(seconds=1). *)
Definition hours12 : Z := 12 * 3600 * 1000000.
(** dt.timedelta(hours=24), dt.timedelta(days=1): solar.py:402, 426, 465, 471, 479-481. *)
Definition hours24 : Z := 24 * 3600 * 1000000.
(** dt.timedelta(seconds=1): solar.py:253. *)
Definition second1 : Z := 1000000.

(** is_solar_afternoon: solar.py:239-255. *)
Definition is_solar_afternoon (el : Z -> T) (time : Z) : bool :=
  nltb (el (time + second1)) (el time).

(** The loop of solar.py:357-364; midpoint = low + (high - low)/2 is a true
    division, so ceil and floor are those of (low + high)/2.  The lazy cached
    sequence (solar.py:336-352) is the function itself.  [None]: out of fuel
    (never happens with the fuel below). *)
Fixpoint search_loop (fuel : nat) (obj : Z -> T) (low high : Z) : option (Z * Z) :=
  if high >? low + 1 then
    match fuel with
    | O => None
    | S f =>
        if nltb (obj low) (obj high)
        then search_loop f obj low (- ((- (low + high)) / 2))
        else search_loop f obj ((low + high) / 2) high
    end
  else Some (low, high).

(** _find_solar_elevation_binary_search: solar.py:296-375.  int(a / b) of two
    timedeltas is truncation. *)
Definition binary_search (el : Z -> T) (min_time max_time : Z)
    (transfer : T -> T) (time_delta : Z) : option (Z * T) :=
  if max_time <? min_time then None
  else if time_delta =? 0 then None
  else
    let max_steps := Z.quot (max_time - min_time) time_delta in
    if max_steps <=? 0 then None
    else
      let obj idx := transfer (el (min_time + time_delta * idx)) in
      match search_loop (Z.to_nat max_steps) obj 0 max_steps with
      | None => None
      | Some (low, high) =>
          let min_index := if nltb (obj low) (obj high) then low else high in
          let time := min_time + time_delta * min_index in
          Some (time, el time)
      end.

(** _find_solar_elevation: solar.py:258-293. *)
Inductive target := Minimum | Maximum | Elevation (v : T).
(** _find_solar_elevation: solar.py:258-293. *)
Definition find_solar_elevation (el : Z -> T) (min_time max_time : Z) (tg : target)
    (time_delta : Z) : option (Z * T) :=
  binary_search el min_time max_time
    (match tg with
     | Minimum => fun v => v
     | Maximum => fun v => nopp v
     | Elevation x => fun v => nabs (nsub v x)
     end) time_delta.

(** get_next_solar_midnight: solar.py:378-402. *)
Definition get_next_solar_midnight (el : Z -> T) (time time_delta : Z) : option (Z * T) :=
  if is_solar_afternoon el time
  then find_solar_elevation el time (time + hours12) Minimum time_delta
  else find_solar_elevation el (time + hours12) (time + hours24) Minimum time_delta.

(** get_next_solar_noon: solar.py:405-429. *)
Definition get_next_solar_noon (el : Z -> T) (time time_delta : Z) : option (Z * T) :=
  if is_solar_afternoon el time
  then find_solar_elevation el (time + hours12) (time + hours24) Maximum time_delta
  else find_solar_elevation el time (time + hours12) Maximum time_delta.

(** get_next_sunrise_sunset: solar.py:432-483; [lat_ok]: the latitude assertion
    of solar.py:449; [horizon] is MIN_SOLAR_EL_DEG. *)
Definition get_next_sunrise_sunset (lat_ok : bool) (horizon : T) (el : Z -> T)
    (time time_delta : Z) : option (Z * Z) :=
  if negb lat_ok then None
  else
    match get_next_solar_noon el time time_delta,
          get_next_solar_midnight el time time_delta with
    | Some (next_noon, _), Some (next_midnight, _) =>
        let '(r0, r1, s0, s1) :=
          if is_solar_afternoon el time
          then (next_midnight, next_noon, next_noon - hours24, next_midnight)
          else (next_midnight - hours24, next_noon, next_noon, next_midnight) in
        match find_solar_elevation el r0 r1 (Elevation horizon) time_delta,
              find_solar_elevation el s0 s1 (Elevation horizon) time_delta with
        | Some (sunrise, _), Some (sunset, _) =>
            Some (if sunrise <? time then sunrise + hours24 else sunrise,
                  if sunset <? time then sunset + hours24 else sunset)
        | _, _ => None
        end
    | _, _ => None
    end.

(** calculate_steps_to_sunrise: solar.py:486-512; ceil of an exact quotient. *)
Definition calculate_steps_to_sunrise (lat_ok : bool) (horizon : T) (el : Z -> T)
    (time time_delta : Z) : option Z :=
  if nleb horizon (el time) then Some 0
  else
    match get_next_sunrise_sunset lat_ok horizon el time time_delta with
    | Some (sunrise, _) => Some (- ((- (sunrise - time)) / time_delta))
    | None => None
    end.
End Search.
Arguments target T : clear implicits.
