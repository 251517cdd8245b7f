(** Numeric interface of the model.

    The Python code computes with binary64 floats.  Everything that only
    *decides* (safety layers, status, bookkeeping) is modelled over an arbitrary
    numeric type [T] with uninterpreted operations and comparisons, so the
    theorems about it hold for IEEE floats (including NaN and infinities) as
    well as for the real numbers.  Theorems that need arithmetic are about the
    instance [Num_R] below: Coq's reals, i.e. rounding is not modelled there;
    Model/Float64.v has the instance with IEEE rounding. *)
From Coq Require Import ZArith Reals Bool.

(** Python's float arithmetic and comparisons, used throughout (no lines of /repo of its own).
    *)
Class Num (T : Type) := {
  nofZ : Z -> T;                     (* int -> float *)
  nadd : T -> T -> T;
  nsub : T -> T -> T;
  nmul : T -> T -> T;
  ndiv : T -> T -> T;
  nopp : T -> T;
  nabs : T -> T;
  nsqrt : T -> T;                    (* np.sqrt *)
  npow : T -> T -> T;                (* x ** y *)
  npi : T;                           (* np.pi *)
  nltb : T -> T -> bool;             (* a < b  (b > a) *)
  nleb : T -> T -> bool;             (* a <= b (b >= a) *)
  neqb : T -> T -> bool              (* a == b *)
}.

Declare Scope num_scope.
Delimit Scope num_scope with num.
Notation "x + y" := (nadd x y) : num_scope.
Notation "x - y" := (nsub x y) : num_scope.
Notation "x * y" := (nmul x y) : num_scope.
Notation "x / y" := (ndiv x y) : num_scope.
Notation "- x" := (nopp x) : num_scope.
Notation "x <? y" := (nltb x y) : num_scope.
Notation "x <=? y" := (nleb x y) : num_scope.
Notation "x =? y" := (neqb x y) : num_scope.

(** Decimal literal n/d.  For d = 10^k and |n|, d < 2^53 binary64 division is
    correctly rounded, so this is the literal's float value as well. *)
Definition lit {T} {N : Num T} (n d : Z) : T := ndiv (nofZ n) (nofZ d).

(** CPython's builtin max(a, b) / min(a, b) on two positional arguments:
    the first argument is kept unless the second compares strictly better. *)
Definition pymax {T} {N : Num T} (a b : T) : T := if nltb a b then b else a.
(** Library behaviour: min(a, b). *)
Definition pymin {T} {N : Num T} (a b : T) : T := if nltb b a then b else a.

(** Real-number instance. *)
Definition Rltb (x y : R) : bool := if Rlt_dec x y then true else false.
(** The comparison <= over the reals. *)
Definition Rleb (x y : R) : bool := if Rle_dec x y then true else false.
(** The comparison == over the reals. *)
Definition Reqb (x y : R) : bool := if Req_EM_T x y then true else false.

#[export] Instance Num_R : Num R := {|
  nofZ := IZR;
  nadd := Rplus; nsub := Rminus; nmul := Rmult; ndiv := Rdiv;
  nopp := Ropp; nabs := Rabs; nsqrt := sqrt; npow := Rpower; npi := PI;
  nltb := Rltb; nleb := Rleb; neqb := Reqb
|}.
