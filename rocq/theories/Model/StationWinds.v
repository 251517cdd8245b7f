(** Model of utils/wind.py:24-41 (paths relative to /repo/balloon_learning_environment/)
    over the reals.  A wind vector is the pair of its components.  [None]: an exception.
    scipy.spatial is a library: [qhull] stands for its two constructors, whose contract is
    Spec/HullSpec.v; its numerical tolerances are not modelled. *)
From Coq Require Import ZArith Reals List Bool.
From Verif Require Import Model.Num.
Import ListNotations.
Open Scope R_scope.

(** A wind vector as a row of the array of points: wind.py:24-41. *)
Definition vector := (R * R)%type.

(** ConvexHull(points).vertices and Delaunay(points).simplices: indices into the points.
    Both raise QhullError ([None]). *)
Record qhull := mkQhull {
  convex_hull : list vector -> option (list nat);
  delaunay : list vector -> option (list (nat * nat * nat))
}.

(** Library behaviour: whether a simplex contains a point.  For a triangle that is not
    degenerate: the point is not on different sides of two of its edges. *)
Definition side (a b q : vector) : R :=
  (fst b - fst a) * (snd q - snd a) - (snd b - snd a) * (fst q - fst a).
(** Library behaviour: a triangle contains a point, for Delaunay.find_simplex (wind.py:24-41).
    *)
Definition contains (a b c q : vector) : bool :=
  (Rleb 0 (side a b q) && Rleb 0 (side b c q) && Rleb 0 (side c a q)) ||
  (Rleb (side a b q) 0 && Rleb (side b c q) 0 && Rleb (side c a q) 0).
(** Library behaviour: Delaunay.find_simplex, the index of a simplex containing the point,
    -1 if there is none. *)
Fixpoint find_simplex (points : list vector) (simplices : list (nat * nat * nat)) (q : vector)
    (index : Z) : Z :=
  match simplices with
  | [] => (-1)%Z
  | (i, j, k) :: rest =>
      if contains (nth i points (0, 0)) (nth j points (0, 0)) (nth k points (0, 0)) q then index
      else find_simplex points rest q (index + 1)
  end.

(** is_station_keeping_winds: wind.py:24-41. *)
Definition is_station_keeping_winds (Q : qhull) (wind_column : list vector) : option bool :=
  match convex_hull Q wind_column with
  | None => None
  | Some vertices =>
      let support := map (fun i => nth i wind_column (0, 0)) vertices in
      match delaunay Q support with
      | None => None
      | Some simplices => Some (0 <=? find_simplex support simplices (0, 0)%R 0)%Z
      end
  end.
