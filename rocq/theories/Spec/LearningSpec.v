(** Perceptrons, gradients and updates: definitions used only to *state* properties. *)
From Coq Require Import Reals List.
From Verif Require Import Spec.VaeSpec.
Import ListNotations.
Open Scope R_scope.

(** Weights [w layer from to] and offsets [b layer to] of a perceptron with [hidden]
    rectified hidden layers of [width] units each. *)
Definition weights := nat -> nat -> nat -> R.
Definition offsets := nat -> nat -> R.

(** The number of units that feed layer [k]. *)
Definition fan_in (inputs width k : nat) : nat := match k with O => inputs | S _ => width end.
(** Units: [unit 0] is the input; unit [j] of hidden layer [k + 1] is max(0, sum), where
    [sum_of k j] is the offset plus the weighted units of the layer before. *)
Fixpoint unit_of (w : weights) (b : offsets) (inputs width : nat) (x : nat -> R) (layer : nat) (j : nat) : R :=
  match layer with
  | O => x j
  | S k => Rmax 0 (b k j + weighted (fan_in inputs width k) (fun i => w k i j) (unit_of w b inputs width x k))
  end.
Definition sum_of (w : weights) (b : offsets) (inputs width : nat) (x : nat -> R) (k j : nat) : R :=
  b k j + weighted (fan_in inputs width k) (fun i => w k i j) (unit_of w b inputs width x k).
(** The value of action [a]: a weighted sum without rectification. *)
Definition value_of (w : weights) (b : offsets) (hidden inputs width : nat) (x : nat -> R) (a : nat) : R :=
  sum_of w b inputs width x hidden a.

(** No hidden unit's sum is exactly 0 (where max(0, .) has no derivative). *)
Definition off_the_kinks (w : weights) (b : offsets) (hidden inputs width : nat) (x : nat -> R) : Prop :=
  forall k j, (k < hidden)%nat -> (j < width)%nat -> sum_of w b inputs width x k j <> 0.

Definition sum_below (n : nat) (f : nat -> R) : R := total (map f (seq 0 n)).

(** The number of units of layer [k], and the scalar product of two sets of parameters. *)
Definition fan_out (hidden width actions k : nat) : nat := if Nat.eqb k hidden then actions else width.
Definition scalar_product (hidden inputs width actions : nat) (w : weights) (b : offsets)
    (w' : weights) (b' : offsets) : R :=
  sum_below (S hidden) (fun k =>
    sum_below (fan_in inputs width k) (fun i =>
      sum_below (fan_out hidden width actions k) (fun j => w k i j * w' k i j))
    + sum_below (fan_out hidden width actions k) (fun j => b k j * b' k j)).

(** [gw], [gb] is the gradient of [loss] at the parameters [w], [b]: in every direction
    the derivative is the scalar product with the direction. *)
Definition is_gradient (hidden inputs width actions : nat) (loss : weights -> offsets -> R)
    (w : weights) (b : offsets) (gw : weights) (gb : offsets) : Prop :=
  forall dw db,
    derivable_pt_lim
      (fun t => loss (fun k i j => w k i j + t * dw k i j) (fun k j => b k j + t * db k j)) 0
      (scalar_product hidden inputs width actions gw gb dw db).

(** The squared error of a value against the reward plus the discounted next value. *)
Definition squared_error (value reward discount next_value : R) : R :=
  (value - (reward + discount * next_value)) ^ 2.

(** [a] is the first of the best of [n] actions. *)
Definition first_best (n : nat) (value : nat -> R) (a : nat) : Prop :=
  (a < n)%nat /\ (forall c, (c < n)%nat -> value c <= value a) /\ (forall c, (c < a)%nat -> value c < value a).
