(** Tables of the vehicle, written down independently of the model: the ACS
    power curve, the fan-efficiency grid, and the power table. *)
From Coq Require Import ZArith Reals List.
Import ListNotations.
Open Scope R_scope.

(** Most efficient power (W): 100 up to 1.05, then linear to 300 at 1.2, then
    linear to 400 at 1.25, then 400. *)
Definition efficient_power (r : R) : R :=
  if Rle_dec r 1.05 then 100
  else if Rle_dec r 1.2 then 100 + (r - 1.05) / 0.15 * 200
  else if Rle_dec r 1.25 then 300 + (r - 1.2) / 0.05 * 100
  else 400.

(** Efficiency in percent at ratio 1.05 + 0.025 i (column) and power
    100 (1 + j) W (row). *)
Definition efficiency_grid : list (list Z) :=
  [ [40; 40; 30; 20; 20; 0; 0; 0; 0; 0; 0; 0; 0];
    [40; 30; 30; 30; 25; 23; 20; 15; 12; 10; 0; 0; 0];
    [0; 30; 25; 25; 25; 20; 20; 20; 20; 15; 13; 12; 11];
    [0; 23; 23; 23; 23; 23; 20; 20; 20; 18; 16; 15; 13] ]%Z.
Definition efficiency_at (i j : nat) : R :=
  IZR (nth i (nth j efficiency_grid []) 0%Z) / 100.

(** Power table: rows (from ratio, up to ratio, [(charge needed, power)]). *)
Definition power_rows : list (R * R * list (R * R)) :=
  [ (0.99, 1.08, [(0.3, 150); (0.4, 175); (0.5, 200)]);
    (1.08, 1.11, [(0.3, 200); (0.4, 200); (0.7, 225)]);
    (1.11, 1.14, [(0.3, 225); (0.4, 225); (0.6, 250)]);
    (1.14, 1.17, [(0.3, 200); (0.4, 225); (0.5, 250)]);
    (1.17, 1.2, [(0.3, 225); (0.4, 250); (0.5, 275)]);
    (1.2, 1.23, [(0.4, 275); (0.5, 300)]);
    (1.23, 1.26, [(0.5, 300); (0.6, 325)]);
    (1.26, 6, [(0.5, 325); (0.6, 350)]) ].

(** The power of the last entry whose charge is available; 0 if none is. *)
Fixpoint affordable (entries : list (R * R)) (soc best : R) : R :=
  match entries with
  | [] => best
  | (need, power) :: rest => affordable rest soc (if Rle_dec need soc then power else best)
  end.
