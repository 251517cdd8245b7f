(** Model of env/balloon/power_table.py over the reals (paths relative to
    /repo/balloon_learning_environment/). *)
From Coq Require Import Reals List Bool.
From Verif Require Import Model.Num.
Import ListNotations.
Open Scope R_scope.

(** bisect.bisect (bisect_right) of the Python library on a sorted list: the
    index of the first entry greater than x. *)
Fixpoint bisect (a : list R) (x : R) : nat :=
  match a with
  | [] => O
  | y :: a' => if Rltb x y then O else S (bisect a' x)
  end.

(** power_table.py:25. *)
Definition pressure_ratio_intervals : list R := [1.08; 1.11; 1.14; 1.17; 1.2; 1.23; 1.26].

(** power_table.py:26-35. *)
Definition soc_mappings : list (list R * list R) :=
  [ ([0.3; 0.4; 0.5], [0; 150; 175; 200]);
    ([0.3; 0.4; 0.7], [0; 200; 200; 225]);
    ([0.3; 0.4; 0.6], [0; 225; 225; 250]);
    ([0.3; 0.4; 0.5], [0; 200; 225; 250]);
    ([0.3; 0.4; 0.5], [0; 225; 250; 275]);
    ([0.4; 0.5], [0; 275; 300]);
    ([0.5; 0.6], [0; 300; 325]);
    ([0.5; 0.6], [0; 325; 350]) ].

(** lookup: power_table.py:21-38.  [None]: the assertion fails or an index is
    out of range. *)
Definition lookup (pressure_ratio state_of_charge : R) : option R :=
  if Rleb 0.99 pressure_ratio && Rleb pressure_ratio 5 then
    let pr_id := bisect pressure_ratio_intervals pressure_ratio in
    match nth_error soc_mappings pr_id with
    | Some (socs, powers) => nth_error powers (bisect socs state_of_charge)
    | None => None
    end
  else None.
