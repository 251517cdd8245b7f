(** The numbers the Python code really computes with: IEEE 754 binary64 (Python's float,
    numpy's float64) and binary32 (numpy's float32), rounding to nearest, ties to even,
    with infinities, signed zeros and NaN.  Flocq's formalisation of the standard; all
    NaNs are one.  Python raises ZeroDivisionError where numpy divides by zero to an
    infinity or NaN: the latter is modelled. *)
From Coq Require Import ZArith Bool List.
From Flocq Require Import Core BinarySingleNaN.
From Verif Require Import Model.Num.

#[export] Instance prec_64 : Prec_gt_0 53 := eq_refl.
#[export] Instance emax_64 : Prec_lt_emax 53 1024 := eq_refl.
#[export] Instance prec_32 : Prec_gt_0 24 := eq_refl.
#[export] Instance emax_32 : Prec_lt_emax 24 128 := eq_refl.

(** Library behaviour: Python's float and numpy's float64. *)
Definition float : Type := binary_float 53 1024.
(** Library behaviour: numpy's float32. *)
Definition float32 : Type := binary_float 24 128.

(** Library behaviour: int to float (exact up to 2^53; an overflow gives an infinity here,
    OverflowError in Python). *)
Definition float_of_Z (z : Z) : float := binary_normalize 53 1024 _ _ mode_NE z 0 false.

(** math.pi: 7074237752028440 / 2^51. *)
Definition float_pi : float := binary_normalize 53 1024 _ _ mode_NE 7074237752028440 (-51) false.

(** Library behaviour: the arithmetic of Python's and numpy's floats.  The power function is
    that of the C library, which the standard does not fix: a parameter. *)
Definition Num_float (pow : float -> float -> float) : Num float := {|
  nofZ := float_of_Z;
  nadd := Bplus mode_NE; nsub := Bminus mode_NE; nmul := Bmult mode_NE; ndiv := Bdiv mode_NE;
  nopp := fun a => Bopp a; nabs := fun a => Babs a; nsqrt := Bsqrt mode_NE; npow := pow; npi := float_pi;
  nltb := fun a b => Bltb a b; nleb := fun a b => Bleb a b; neqb := fun a b => Beqb a b
|}.

(** Library behaviour: storing a float64 in an array of dtype float32. *)
Definition to_float32 (f : float) : float32 :=
  match f with
  | B754_zero s => B754_zero s
  | B754_infinity s => B754_infinity s
  | B754_nan => B754_nan
  | B754_finite s m e _ =>
      binary_normalize 24 128 _ _ mode_NE (if s then Zneg m else Zpos m) e s
  end.
