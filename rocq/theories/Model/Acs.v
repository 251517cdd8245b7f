(** Model of the altitude control system curves: env/balloon/acs.py.
    Paths are relative to /repo/balloon_learning_environment/. *)
From Coq Require Import ZArith List Bool.
From Verif Require Import Model.Num.
Import ListNotations.
Open Scope num_scope.

Section Acs.
Context {T : Type} {N : Num T}.

(** np.searchsorted(xs, x) (side='left') on a sorted list: the number of
    leading entries strictly below x. *)
Fixpoint searchsorted (xs : list T) (x : T) : nat :=
  match xs with
  | [] => 0
  | y :: ys => if y <? x then S (searchsorted ys x) else 0
  end.

(** scipy interp1d(kind='linear', fill_value='extrapolate'): the segment index
    is searchsorted clipped to [1, len-1]; the line through its end points is
    used, also outside the table.  (Library behaviour.) *)
Definition interp1d_extrapolate (xs ys : list T) (x : T) : T :=
  let hi := Nat.min (Nat.max (searchsorted xs x) 1) (length xs - 1) in
  let lo := (hi - 1)%nat in
  let z := nofZ 0 in
  let slope := (nth hi ys z - nth lo ys z) / (nth hi xs z - nth lo xs z) in
  slope * (x - nth lo xs z) + nth lo ys z.

(** _PRESSURE_RATIO_TO_POWER: acs.py:24-28. *)
Definition power_xs : list T :=
  [lit 10 10; lit 105 100; lit 12 10; lit 125 100; lit 135 100].
(** acs.py:27, the powers of the table. *)
Definition power_ys : list T :=
  [nofZ 100; nofZ 100; nofZ 300; nofZ 400; nofZ 400].

(** get_most_efficient_power(pressure_ratio).watts: acs.py:44-58. *)
Definition get_most_efficient_power (pressure_ratio : T) : T :=
  interp1d_extrapolate power_xs power_ys pressure_ratio.

(** _PRESSURE_RATIO_POWER_TO_EFFICIENCY table, one row per power level
    100, 200, 300, 400 W: acs.py:31-41.  Entries in hundredths. *)
Definition eff_rows : list (list T) :=
  map (map (fun z => lit z 100))
  [ [40; 40; 30; 20; 20;  0;  0;  0;  0;  0;  0;  0;  0];
    [40; 30; 30; 30; 25; 23; 20; 15; 12; 10;  0;  0;  0];
    [ 0; 30; 25; 25; 25; 20; 20; 20; 20; 15; 13; 12; 11];
    [ 0; 23; 23; 23; 23; 23; 20; 20; 20; 18; 16; 15; 13] ]%Z.

(** np.linspace(1.05, 1.35, 13) and np.linspace(100.0, 400.0, 4):
    acs.py:33-34 (exact arithmetic; the step is 0.025 resp. 100). *)
Definition eff_xs : list T :=
  map (fun k => lit (1050 + 25 * k) 1000)
      [0; 1; 2; 3; 4; 5; 6; 7; 8; 9; 10; 11; 12]%Z.
(** acs.py:34, the powers of the table. *)
Definition eff_ps : list T := [nofZ 100; nofZ 200; nofZ 300; nofZ 400].

(** Piecewise linear interpolation with clamping to the end points: what
    interp2d(kind='linear', fill_value=None) does along each axis of a regular
    grid (nearest-neighbour outside the domain).  (Library behaviour.) *)
Definition clamp (lo hi x : T) : T :=
  if x <? lo then lo else if hi <? x then hi else x.

(** Library behaviour: interp2d along one axis (acs.py:31-41, 61-64). *)
Definition interp1d_clamped (xs ys : list T) (x : T) : T :=
  let z := nofZ 0 in
  interp1d_extrapolate xs ys (clamp (nth 0 xs z) (nth (length xs - 1) xs z) x).

(** get_fan_efficiency: acs.py:61-64. *)
Definition get_fan_efficiency (pressure_ratio power : T) : T :=
  interp1d_clamped eff_ps
    (map (fun row => interp1d_clamped eff_xs row pressure_ratio) eff_rows)
    power.

(** get_mass_flow: acs.py:67-68, NUM_SECONDS_PER_HOUR = 3600
    (utils/constants.py:24). *)
Definition get_mass_flow (power efficiency : T) : T :=
  efficiency * power / nofZ 3600.

End Acs.
