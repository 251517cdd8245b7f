(** Where a generated wind field is read, in the numbers the program computes with:
    _prepare_get_forecast_inputs and _boomerang of env/grid_based_wind_field.py, in double
    precision, with the query point in single precision.  Paths are relative to
    /repo/balloon_learning_environment/.  [None]: an exception. *)
From Coq Require Import ZArith Bool List.
From Flocq Require Import Core BinarySingleNaN.
From Verif Require Import Model.Float64.
Import ListNotations.

(** Library behaviour: Python's int() of a float truncates; infinities and NaN raise. *)
Definition py_int (f : float) : option Z := if is_finite f then Some (Btrunc f) else None.

(** Library behaviour: Python's % on floats: C's fmod, which is exact, moved by one divisor if
    its sign is not that of the divisor. *)
Definition py_mod (a b : float) : option float :=
  match b with
  | B754_zero _ => None
  | B754_nan => Some B754_nan
  | B754_infinity sb =>
      match a with
      | B754_nan | B754_infinity _ => Some B754_nan
      | B754_zero _ => Some (B754_zero sb)
      | B754_finite sa _ _ _ => Some (if xorb sa sb then Bplus mode_NE a b else a)
      end
  | B754_finite sb mb eb _ =>
      match a with
      | B754_nan | B754_infinity _ => Some B754_nan
      | B754_zero _ => Some (B754_zero sb)
      | B754_finite sa ma ea _ =>
          let e := Z.min ea eb in
          let r := ((Zpos ma * 2 ^ (ea - e)) mod (Zpos mb * 2 ^ (eb - e)))%Z in
          if (r =? 0)%Z then Some (B754_zero sb)
          else
            let f := binary_normalize 53 1024 _ _ mode_NE (if sa then - r else r)%Z e sb in
            Some (if xorb sa sb then Bplus mode_NE f b else f)
      end
  end.

(** _boomerang: env/grid_based_wind_field.py:134-143 (and env/generative_wind_field.py:177-186). *)
Definition boomerang64 (t max_val : float) : option float :=
  match py_int (Bdiv mode_NE t max_val), py_mod t max_val with
  | Some q, Some remainder =>
      if ((q mod 2) mod 2 =? 0)%Z then Some remainder else Some (Bminus mode_NE max_val remainder)
  | _, _ => None
  end.

(** timedelta_to_hours, seconds_to_hours: utils/units.py:312-317; [elapsed] in microseconds.
    timedelta.total_seconds divides two ints, which is this division while the number of
    microseconds is below 2^53 (285 years). *)
Definition elapsed_hours (elapsed : Z) : float :=
  Bdiv mode_NE (Bdiv mode_NE (float_of_Z elapsed) (float_of_Z 1000000)) (float_of_Z 3600).

(** The time looked up: env/grid_based_wind_field.py:172-178. *)
Definition time_position64 (horizon elapsed : Z) : option float :=
  let t := elapsed_hours elapsed in
  if Bltb t (float_of_Z horizon) then Some t else boomerang64 t (float_of_Z horizon).

(** Library behaviour: np.clip; NaN stays NaN. *)
Definition clip64 (v lo hi : float) : float :=
  if Bltb v lo then lo else if Bltb hi v then hi else v.

(** The numbers of vae.FieldShape that matter here: generative/vae.py:35-38. *)
Record shape64 := mkShape64 {
  displacement_km : float;
  max_pressure : float;
  min_pressure : float;
  horizon_hours : Z
}.
(** The defaults: generative/vae.py:35-38. *)
Definition default_shape64 : shape64 :=
  mkShape64 (float_of_Z 500) (float_of_Z 14000) (float_of_Z 5000) 48.

(** A row of the float32 array: env/grid_based_wind_field.py:180-185. *)
Record point32 := mkPoint32 { qx : float32; qy : float32; qp : float32; qt : float32 }.

(** _prepare_get_forecast_inputs: env/grid_based_wind_field.py:145-187; [x] and [y] in metres,
    .kilometers: utils/units.py:56-58. *)
Definition prepare32 (s : shape64) (x y : float) (pressures : list float) (elapsed : Z)
  : option (list point32) :=
  let side v := clip64 (Bdiv mode_NE v (float_of_Z 1000)) (Bopp (displacement_km s)) (displacement_km s) in
  match time_position64 (horizon_hours s) elapsed with
  | None => None
  | Some t =>
      Some (map (fun p => mkPoint32 (to_float32 (side x)) (to_float32 (side y))
                            (to_float32 (clip64 p (min_pressure s) (max_pressure s))) (to_float32 t))
                pressures)
  end.

(** Library behaviour: interpn raises unless every coordinate lies between the first and the
    last grid point of its axis: generative/vae.py:76-93.  The grid of the times holds ints,
    which are exact as float32s up to 2^24. *)
Definition in_grid32 (s : shape64) (q : point32) : bool :=
  let inside lo hi f := Bleb lo f && Bleb f hi in
  inside (to_float32 (Bopp (displacement_km s))) (to_float32 (displacement_km s)) (qx q) &&
  inside (to_float32 (Bopp (displacement_km s))) (to_float32 (displacement_km s)) (qy q) &&
  inside (to_float32 (min_pressure s)) (to_float32 (max_pressure s)) (qp q) &&
  inside (to_float32 (float_of_Z 0)) (to_float32 (float_of_Z (horizon_hours s))) (qt q).
