(** Incompressible winds and the training of their generator: definitions used only to
    *state* properties. *)
From Coq Require Import Reals List.
Open Scope R_scope.

(** The divergence of a wind (u, v), by central differences of its values at the
    points at distance [h] to the east and west (u, the eastward component), and to
    the north and south (v, the northward component). *)
Definition divergence (h u_east u_west v_north v_south : R) : R :=
  (u_east - u_west) / (2 * h) + (v_north - v_south) / (2 * h).

(** The Kullback-Leibler divergence of the normal distribution with mean [mu] and
    variance [var] from the standard one. *)
Definition normal_kl (mu var : R) : R := (mu ^ 2 + var - 1 - ln var) / 2.

Definition total (l : list R) : R := fold_right Rplus 0 l.

(** A perceptron with rectified hidden layers of 1000 units: unit [j] of hidden layer
    [k + 1] is max(0, b + sum of the weighted units of the layer before). *)
Definition layer_width (inputs : nat) (layer : nat) : nat :=
  match layer with O => inputs | S _ => 1000%nat end.
Definition weighted (n : nat) (weight value : nat -> R) : R :=
  total (map (fun i => weight i * value i) (seq 0 n)).
Fixpoint unit_value (weight : nat -> nat -> nat -> R) (offset : nat -> nat -> R) (inputs : nat)
    (x : nat -> R) (layer : nat) (j : nat) : R :=
  match layer with
  | O => x j
  | S k => Rmax 0 (offset k j
             + weighted (layer_width inputs k) (fun i => weight k i j) (unit_value weight offset inputs x k))
  end.
