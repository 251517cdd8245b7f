(** What a wind belief is told, independently of how it is stored. *)
From Coq Require Import ZArith Reals List.
Import ListNotations.
Open Scope R_scope.

(** A measurement: where (m, m, Pa), when (microseconds), and the wind (m/s). *)
Record measurement := mkMeas {
  m_x : R; m_y : R; m_p : R; m_time : Z; m_u : R; m_v : R
}.
Inductive event := Observed (m : measurement) | Reset.

(** The measurements told since the last reset, oldest first. *)
Fixpoint since_reset (h : list event) (acc : list measurement) : list measurement :=
  match h with
  | [] => acc
  | Reset :: h' => since_reset h' []
  | Observed m :: h' => since_reset h' (acc ++ [m])
  end.

(** Taken less than six hours before or after [t] (microseconds). *)
Definition recent (t : Z) (m : measurement) : Prop := (Z.abs (m_time m - t) < 6 * 3600 * 1000000)%Z.
