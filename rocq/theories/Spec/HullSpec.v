(** Planar geometry for property C85, and what scipy.spatial documents about its convex hulls
    and triangulations. *)
From Coq Require Import Reals List.
From Verif Require Import Model.StationWinds.
Import ListNotations.
Open Scope R_scope.

(** Twice the signed area of a triangle. *)
Definition area2 (a b c : R * R) : R :=
  (fst b - fst a) * (snd c - snd a) - (snd b - snd a) * (fst c - fst a).
(** All points on one line. *)
Definition flat (l : list (R * R)) : Prop :=
  forall a b c, In a l -> In b l -> In c l -> area2 a b c = 0.

(** Weighted sums of points, and the convex hull of a list of points. *)
Fixpoint total (ws : list R) : R := match ws with [] => 0 | w :: r => w + total r end.
Fixpoint mix (ws : list R) (l : list (R * R)) : R * R :=
  match ws, l with
  | w :: r, p :: l' => (w * fst p + fst (mix r l'), w * snd p + snd (mix r l'))
  | _, _ => (0, 0)
  end.
Definition in_hull (l : list (R * R)) (q : R * R) : Prop :=
  exists ws, length ws = length l /\ Forall (fun w => 0 <= w) ws /\ total ws = 1 /\ mix ws l = q.

(** Whatever direction one wants to be blown to, some wind is not against it. *)
Definition always_a_way (l : list (R * R)) : Prop :=
  forall dx dy, exists p, In p l /\ 0 <= fst p * dx + snd p * dy.

(** The library's contract: an error exactly for points on one line (or none); the vertices
    of the hull are points of the list with every point in their hull; the simplices of the
    triangulation are genuine triangles of the given points which cover the hull. *)
Record correct_qhull (Q : qhull) : Prop := {
  hull_fails : forall l, convex_hull Q l = None <-> flat l;
  hull_vertices : forall l vs, convex_hull Q l = Some vs ->
    (forall i, In i vs -> (i < length l)%nat) /\
    (forall p, In p l -> in_hull (map (fun i => nth i l (0, 0)) vs) p);
  delaunay_fails : forall l, delaunay Q l = None <-> flat l;
  delaunay_triangles : forall l ts, delaunay Q l = Some ts ->
    forall i j k, In (i, j, k) ts ->
      (i < length l)%nat /\ (j < length l)%nat /\ (k < length l)%nat /\
      area2 (nth i l (0, 0)) (nth j l (0, 0)) (nth k l (0, 0)) <> 0;
  delaunay_covers : forall l ts, delaunay Q l = Some ts ->
    forall q, in_hull l q -> exists i j k, In (i, j, k) ts /\
      in_hull [nth i l (0, 0); nth j l (0, 0); nth k l (0, 0)] q
}.
