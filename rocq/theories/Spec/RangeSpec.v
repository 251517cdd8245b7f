(** The accessible pressure range (pressure_range_builder.py), from its docstrings.
    Only used to *state* properties. *)
From Coq Require Import Reals List.
Import ListNotations.
Open Scope R_scope.

Section Range.
(** The superpressure with which the balloon floats at a pressure ([None]: it cannot
    be computed), and the safe interval of superpressures. *)
Context (superpressure_at : R -> option R) (lowest highest : R).

Definition safe (p : R) : Prop :=
  exists sp, superpressure_at p = Some sp /\ lowest <= sp <= highest.
Definition unsafe (p : R) : Prop :=
  exists sp, superpressure_at p = Some sp /\ ~ (lowest <= sp <= highest).

(** The value at [p] of the straight line through (p1, y1) and (p2, y2). *)
Definition on_line (p1 y1 p2 y2 p : R) : R := y1 + (p - p1) / (p2 - p1) * (y2 - y1).

(** Between an unsafe pressure [p] and a safe one [q], [r] is where the superpressure,
    interpolated linearly, meets the threshold violated at [p]. *)
Definition threshold (p q r : R) : Prop :=
  exists sp sq, superpressure_at p = Some sp /\ superpressure_at q = Some sq /\
    (p < r <= q \/ q <= r < p) /\
    (sp < lowest /\ on_line p sp q sq r = lowest \/ highest < sp /\ on_line p sp q sq r = highest).

(** The end of the range on the side of [start], when [levels] are the sampled
    pressures from there on: [start] itself if it is safe; otherwise the threshold
    between the first safe level and the unsafe one before it. *)
Definition range_end (start : R) (levels : list R) (r : R) : Prop :=
  safe start /\ r = start \/
  unsafe start /\ exists before q after,
    levels = before ++ q :: after /\ Forall unsafe before /\ safe q /\
    threshold (last before start) q r.

(** No end can be given. *)
Definition no_range_end (start : R) (levels : list R) : Prop :=
  superpressure_at start = None \/
  unsafe start /\
    (Forall unsafe levels \/
     exists before q after, levels = before ++ q :: after /\ Forall unsafe before /\
       superpressure_at q = None).
End Range.

(** Piecewise linear interpolation in a table of [n] points with increasing xs,
    continued beyond its ends along the first and last pieces. *)
Definition interpolates (n : nat) (xs ys : nat -> R) (x y : R) : Prop :=
  exists i, (S i < n)%nat /\ (i = O \/ xs i < x) /\ ((S (S i) = n)%nat \/ x <= xs (S i)) /\
    y = on_line (xs i) (ys i) (xs (S i)) (ys (S i)) x.
