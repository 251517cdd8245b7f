(** Model of utils/spherical_geometry.py over the reals (paths relative to
    /repo/balloon_learning_environment/).  A s2.LatLng is a pair of radians. *)
From Coq Require Import Reals ZArith Bool.
From Verif Require Import Model.Num.
Open Scope R_scope.

(** math.atan2(y, x) (CPython); the sign of a zero is not represented. *)
Definition atan2 (y x : R) : R :=
  if Rltb 0 x then atan (y / x)
  else if Rltb x 0 then (if Rltb y 0 then atan (y / x) - PI else atan (y / x) + PI)
  else if Rltb 0 y then PI / 2 else if Rltb y 0 then - (PI / 2) else 0.

(** decimal's remainder_near, used by s2sphere's normalized: nearest multiple,
    ties to the even one. *)
Definition nearest (q : R) : Z :=
  let k := Int_part q in
  if Rltb (q - IZR k) (1 / 2) then k
  else if Rltb (1 / 2) (q - IZR k) then (k + 1)%Z
  else if Z.even k then k else (k + 1)%Z.
(** Library behaviour: remainder_near, used by s2sphere's LatLng.normalized
    (spherical_geometry.py:73-76). *)
Definition remainder_near (x y : R) : R := x - IZR (nearest (x / y)) * y.

(** s2.LatLng.normalized. *)
Definition normalized (p : R * R) : R * R :=
  (Rmax (- (PI / 2)) (Rmin (PI / 2) (fst p)), remainder_near (snd p) (2 * PI)).

(** _EARTH_RADIUS, in metres: spherical_geometry.py:29. *)
Definition EARTH_RADIUS : R := 6371 * 1000.

(** calculate_latlng_from_offset: spherical_geometry.py:44-76; x, y in metres. *)
Definition calculate_latlng_from_offset (center : R * R) (x y : R) : R * R :=
  let heading := atan2 (x / 1000) (y / 1000) in
  let angle := sqrt (x * x + y * y) / EARTH_RADIUS in
  let cos_angle := cos angle in
  let sin_angle := sin angle in
  let sin_from_lat := sin (fst center) in
  let cos_from_lat := cos (fst center) in
  let sin_lat := cos_angle * sin_from_lat + sin_angle * cos_from_lat * cos heading in
  let d_lng :=
    atan2 (sin_angle * cos_from_lat * sin heading) (cos_angle - sin_from_lat * sin_lat) in
  let new_lat := asin sin_lat in
  let new_lat := Rmin (Rmax new_lat (- PI / 2)) (PI / 2) in
  let new_lng := snd center + d_lng in
  normalized (new_lat, new_lng).
