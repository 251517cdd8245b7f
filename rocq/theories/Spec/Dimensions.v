(** Dimensional analysis: every quantity is an SI magnitude with exponents of
    length, time and energy.  Independent of the operators of the model, except
    for the type of values. *)
From Coq Require Import ZArith Reals.
From Verif Require Import Model.Units.
Open Scope R_scope.

(** (length, time, energy) exponents. *)
Definition dim : Type := Z * Z * Z.
Definition dim_mul (a b : dim) : dim :=
  let '(l, t, e) := a in let '(l', t', e') := b in (l + l', t + t', e + e')%Z.
Definition dim_div (a b : dim) : dim :=
  let '(l, t, e) := a in let '(l', t', e') := b in (l - l', t - t', e - e')%Z.

(** Metres, metres per second, joules (3600 per watt hour), watts, seconds. *)
Definition si (v : value) : option (R * dim) :=
  match v with
  | Distance m => Some (m, (1, 0, 0)%Z)
  | Velocity x => Some (x, (1, -1, 0)%Z)
  | Energy wh => Some (wh * 3600, (0, 0, 1)%Z)
  | Power w => Some (w, (0, -1, 1)%Z)
  | Timedelta us => Some (IZR us / 1000000, (0, 1, 0)%Z)
  | Number x => Some (x, (0, 0, 0)%Z)
  | Other => None
  end.

(** The four kinds of quantity. *)
Definition quantity (v : value) : bool :=
  match v with Distance _ | Velocity _ | Energy _ | Power _ => true | _ => false end.

(** Two quantities of one kind. *)
Definition same_kind (a b : value) : bool :=
  match a, b with
  | Distance _, Distance _ | Velocity _, Velocity _
  | Energy _, Energy _ | Power _, Power _ => true
  | _, _ => false
  end.

(** The pairs of operands with a product: a distance or an energy and a number, a
    velocity or a power and a duration, in either order. *)
Definition scaled (a b : value) : bool :=
  match a, b with
  | (Distance _ | Energy _), Number _ | (Velocity _ | Power _), Timedelta _ => true
  | _, _ => false
  end.
(** The pairs with a quotient (when the divisor is not zero). *)
Definition divisible (a b : value) : bool :=
  match a, b with
  | Distance _, (Number _ | Timedelta _ | Distance _) => true
  | Velocity _, Number _ => true
  | Energy _, Energy _ => true
  | _, _ => false
  end.
