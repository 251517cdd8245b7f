(** The numbers of an evaluation's result, generically in the numbers they are computed with:
    eval/eval_lib.py:154-196.  Paths are relative to /repo/balloon_learning_environment/. *)
From Coq Require Import ZArith List.
From Verif Require Import Model.Num.
Open Scope num_scope.

Section Result.
Context {T : Type} {N : Num T}.
(** total_reward, from the rewards of the steps in their order: eval_lib.py:154, 171, 194. *)
Definition total_reward (rewards : list T) : T := fold_left (fun total r => total + r) rewards (nofZ 0).

(** twr: eval_lib.py:190; a quotient of whole numbers (numpy's and Python's agree below
    2^53).  [step_count] is positive. *)
Definition time_within_radius (steps_within_radius step_count : Z) : T := nofZ steps_within_radius / nofZ step_count.
End Result.
