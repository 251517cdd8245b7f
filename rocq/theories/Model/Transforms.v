(** Model of utils/transforms.py over the reals (paths relative to
    /repo/balloon_learning_environment/).  [None]: ValueError is raised.  The
    functions that also take numpy arrays have an elementwise list version. *)
From Coq Require Import Reals List Bool.
From Verif Require Import Model.Num.
Open Scope R_scope.

(** linear_rescale_with_extrapolation: transforms.py:45-52. *)
Definition linear_rescale_with_extrapolation (x vmin vmax : R) : option R :=
  if Rleb vmax vmin then None else Some ((x - vmin) / (vmax - vmin)).
(** linear_rescale_with_extrapolation of an array: transforms.py:45-52. *)
Definition linear_rescale_with_extrapolation_array (x : list R) (vmin vmax : R)
  : option (list R) :=
  if Rleb vmax vmin then None else Some (map (fun v => (v - vmin) / (vmax - vmin)) x).

(** undo_linear_rescale_with_extrapolation: transforms.py:55-60. *)
Definition undo_linear_rescale_with_extrapolation (x vmin vmax : R) : option R :=
  if Rleb vmax vmin then None else Some (vmin + x * (vmax - vmin)).

(** linear_rescale_with_saturation: transforms.py:63-66; np.clip is
    minimum(maximum(y, 0), 1). *)
Definition np_clip (y lo hi : R) : R := Rmin (Rmax y lo) hi.
(** linear_rescale_with_saturation: transforms.py:63-66. *)
Definition linear_rescale_with_saturation (x vmin vmax : R) : option R :=
  option_map (fun y => np_clip y 0 1) (linear_rescale_with_extrapolation x vmin vmax).

(** squash_to_unit_interval: transforms.py:79-85. *)
Definition squash_to_unit_interval (x constant : R) : option R :=
  if Rleb constant 0 then None
  else if Rltb x 0 then None
  else Some (x / (x + constant)).
(** squash_to_unit_interval of an array: transforms.py:79-85. *)
Definition squash_to_unit_interval_array (x : list R) (constant : R) : option (list R) :=
  if Rleb constant 0 then None
  else if existsb (fun v => Rltb v 0) x then None
  else Some (map (fun v => v / (v + constant)) x).

(** undo_squash_to_unit_interval: transforms.py:88-94; [0 > x >= 1] is Python's
    chained comparison.  x = 1 divides by zero: an exception for a Python float,
    an infinity, which is not a real number, for a numpy one. *)
Definition undo_squash_to_unit_interval (x constant : R) : option R :=
  if Rleb constant 0 then None
  else if Rltb x 0 && Rleb 1 x then None
  else if Reqb (1 - x) 0 then None
  else Some ((x * constant) / (1 - x)).
