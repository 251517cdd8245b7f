(** Model of env/balloon/power_table.py with the numbers Python computes with (paths relative
    to /repo/balloon_learning_environment/).  Over real numbers it is Model/PowerTable.v
    (C102_same_code).  The ACS curve of env/balloon/acs.py is in Model/Acs.v. *)
From Coq Require Import ZArith List Bool.
From Verif Require Import Model.Num.
Import ListNotations.
Open Scope num_scope.

Section Tables.
Context {T : Type} {N : Num T}.

(** bisect.bisect (bisect_right) of the Python library on a sorted list: the index of the
    first entry greater than x; the length of the list when x is NaN. *)
Fixpoint bisect (a : list T) (x : T) : nat :=
  match a with
  | [] => O
  | y :: a' => if x <? y then O else S (bisect a' x)
  end.

(** power_table.py:25. *)
Definition pressure_ratio_intervals : list T :=
  [lit 108 100; lit 111 100; lit 114 100; lit 117 100; lit 12 10; lit 123 100; lit 126 100].

(** power_table.py:26-35. *)
Definition soc_mappings : list (list T * list Z) :=
  [ ([lit 3 10; lit 4 10; lit 5 10], [0; 150; 175; 200]%Z);
    ([lit 3 10; lit 4 10; lit 7 10], [0; 200; 200; 225]%Z);
    ([lit 3 10; lit 4 10; lit 6 10], [0; 225; 225; 250]%Z);
    ([lit 3 10; lit 4 10; lit 5 10], [0; 200; 225; 250]%Z);
    ([lit 3 10; lit 4 10; lit 5 10], [0; 225; 250; 275]%Z);
    ([lit 4 10; lit 5 10], [0; 275; 300]%Z);
    ([lit 5 10; lit 6 10], [0; 300; 325]%Z);
    ([lit 5 10; lit 6 10], [0; 325; 350]%Z) ].

(** lookup: power_table.py:21-38.  [None]: the assertion fails. *)
Definition lookup (pressure_ratio state_of_charge : T) : option Z :=
  if (lit 99 100 <=? pressure_ratio) && (pressure_ratio <=? lit 50 10) then
    let pr_id := bisect pressure_ratio_intervals pressure_ratio in
    match nth_error soc_mappings pr_id with
    | Some (socs, powers) => nth_error powers (bisect socs state_of_charge)
    | None => None
    end
  else None.
End Tables.
