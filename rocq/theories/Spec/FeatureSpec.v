(** What an observation vector must say, independently of how it is built. *)
From Coq Require Import ZArith Reals List.
Open Scope R_scope.

(** The wind column's pressure levels: 0 .. 180, 50 Pa apart. *)
Definition is_level (k : Z) : Prop := (0 <= k <= 180)%Z.
Definition level_pressure (k : Z) : R := 5000 + 50 * IZR k.

(** [k] is the level nearest to pressure [p], the even one of two equally near. *)
Definition nearest_level (p : R) (k : Z) : Prop :=
  is_level k /\
  (forall j, is_level j -> Rabs (level_pressure k - p) <= Rabs (level_pressure j - p)) /\
  (forall j, is_level j -> j <> k -> Rabs (level_pressure j - p) = Rabs (level_pressure k - p) ->
     Z.even k = true).

(** Component [i] of a vector; entry [k] of its wind column: (uncertainty, bearing,
    magnitude), after the sixteen ambient components. *)
Definition component (v : list R) (i : nat) : R := nth i v 0.
Definition wind_entry (v : list R) (k : Z) : R * R * R :=
  let i := Z.to_nat (16 + 3 * k) in (component v i, component v (i + 1), component v (i + 2)).

(** The entry of a level that cannot be reached. *)
Definition unreachable : R * R * R := (0, 1, 1).

(** The encoding of a belief (mean wind (mu, mv) with uncertainty dev) seen from
    (x, y), the station being at (0, 0).  [b] times pi is the angle between the
    wind and the way to the station, but for a tolerance of 1e-5 in the lengths. *)
Definition encodes (x y mu mv dev : R) (e : R * R * R) : Prop :=
  let '(un, b, mag) := e in
  let d := sqrt (x ^ 2 + y ^ 2) in
  let m := sqrt (mu ^ 2 + mv ^ 2) in
  un = dev /\ mag = m / (m + 30) /\ 0 <= b <= 1 /\
  (d < 1e-5 -> b = 0) /\
  (1e-5 <= d -> m < 1e-5 -> b = 1) /\
  (1e-5 <= d -> 1e-5 <= m ->
     cos (b * PI) * ((m + 1e-5) * (d + 1e-5)) = mu * (0 - x) + mv * (0 - y)).
