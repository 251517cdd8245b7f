(** Points and directions on the unit sphere, and travelling along it. *)
From Coq Require Import Reals.
Open Scope R_scope.

Record vec := V { vx : R; vy : R; vz : R }.
Definition plus (a b : vec) : vec := V (vx a + vx b) (vy a + vy b) (vz a + vz b).
Definition scale (k : R) (a : vec) : vec := V (k * vx a) (k * vy a) (k * vz a).
Definition dot (a b : vec) : R := vx a * vx b + vy a * vy b + vz a * vz b.

(** The point with the given latitude and longitude (radians). *)
Definition point (p : R * R) : vec :=
  let '(lat, lng) := p in V (cos lat * cos lng) (cos lat * sin lng) (sin lat).
(** The unit tangent vectors to the east and to the north there. *)
Definition east (p : R * R) : vec := let '(lat, lng) := p in V (- sin lng) (cos lng) 0.
Definition north (p : R * R) : vec :=
  let '(lat, lng) := p in V (- (sin lat * cos lng)) (- (sin lat * sin lng)) (cos lat).

(** Where one gets, going straight from [p] for the angle [a] in the direction
    (u east + v north), u^2 + v^2 = 1: along the great circle. *)
Definition travel (p : R * R) (u v a : R) : vec :=
  plus (scale (cos a) (point p)) (scale (sin a) (plus (scale u (east p)) (scale v (north p)))).

Definition valid (p : R * R) : Prop :=
  - (PI / 2) <= fst p <= PI / 2 /\ - PI <= snd p <= PI.
