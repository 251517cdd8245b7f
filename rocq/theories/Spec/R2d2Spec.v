(** What the recurrent network computes.  Only used to *state* properties. *)
From Coq Require Import ZArith Reals List Bool.
From Verif Require Import Model.Vae Model.Mlp Model.R2d2.
Import ListNotations.
Open Scope R_scope.

(** The sum of f 0, ..., f (n - 1). *)
Definition sum_of (n : nat) (f : nat -> R) : R := fold_right Rplus 0 (map f (seq 0 n)).
(** Unit [j] of a linear layer that sees x 0, ..., x (n - 1). *)
Definition affine (d : dense) (n : nat) (x : nat -> R) (j : nat) : R :=
  bias d j + sum_of n (fun i => kernel d i j * x i).
Definition logistic (x : R) : R := / (1 + exp (- x)).
Definition hyperbolic (x : R) : R := (exp x - exp (- x)) / (exp x + exp (- x)).
Definition rectified (x : R) : R := Rmax 0 x.

(** [layers 0], ..., [layers (k - 1)], each followed by max(0, .), of 600 units: *)
Fixpoint tower (layers : nat -> dense) (n k : nat) (x : nat -> R) : nat -> R :=
  match k with
  | O => x
  | S k' => fun j => rectified (affine (layers k') (match k' with O => n | _ => 600 end)%nat (tower layers n k' x) j)
  end.

Section Equations.
Context (inputs num_actions : nat) (ps : r2d2_params).
(** The 600 features of an observation: seven rectified layers and a linear one. *)
Definition seen (x : nat -> R) (j : nat) : R :=
  affine (torso_linear ps 7) 600 (tower (torso_linear ps) inputs 7 x) j.
(** What one gate adds up: the features, the weight of the last action, tanh of the last
    reward, and the hidden state before. *)
Definition gate (o : oar) (h : nat -> R) (j : nat) : R :=
  bias (lstm_gates ps) j
  + sum_of 600 (fun i => kernel (lstm_gates ps) i j * seen (o_observation o) i)
  + sum_of num_actions (fun a => if (Z.of_nat a =? o_action o)%Z then kernel (lstm_gates ps) (600 + a) j else 0)
  + kernel (lstm_gates ps) (600 + num_actions) j * hyperbolic (o_reward o)
  + sum_of 512 (fun i => kernel (lstm_gates ps) (600 + num_actions + 1 + i) j * h i).
(** The state after a step. *)
Definition lstm_step (o : oar) (s s' : lstm_state) : Prop := forall k, (k < 512)%nat ->
  lstm_cell s' k = logistic (gate o (lstm_hidden s) (1024 + k) + 1) * lstm_cell s k
                   + logistic (gate o (lstm_hidden s) k) * hyperbolic (gate o (lstm_hidden s) (512 + k)) /\
  lstm_hidden s' k = logistic (gate o (lstm_hidden s) (1536 + k)) * hyperbolic (lstm_cell s' k).
(** The value and the advantages that the head sees in a hidden state. *)
Definition perceptron (h out : dense) (x : nat -> R) (a : nat) : R :=
  affine out 512 (fun j => rectified (affine h 512 x j)) a.
Definition value (h : nat -> R) : R := perceptron (value_hidden ps) (value_out ps) h 0.
Definition advantage (h : nat -> R) (a : nat) : R := perceptron (advantage_hidden ps) (advantage_out ps) h a.

(** How large they can get if no entry of the hidden state exceeds 1: *)
Definition reach (d : dense) (n : nat) (most : nat -> R) (j : nat) : R :=
  Rabs (bias d j) + sum_of n (fun i => Rabs (kernel d i j) * most i).
Definition perceptron_reach (h out : dense) (a : nat) : R := reach out 512 (reach h 512 (fun _ => 1)) a.
Definition q_reach (a : nat) : R :=
  perceptron_reach (value_hidden ps) (value_out ps) 0
  + perceptron_reach (advantage_hidden ps) (advantage_out ps) a
  + sum_of num_actions (perceptron_reach (advantage_hidden ps) (advantage_out ps)) / INR num_actions.

(** Calling the network for one step after the other. *)
Fixpoint step_by_step (steps : list (list oar)) (state : list lstm_state)
  : option (list (list features) * list lstm_state) :=
  match steps with
  | [] => Some ([], state)
  | batch :: steps =>
      match call inputs num_actions ps batch state with
      | None => None
      | Some (q, state) =>
          match step_by_step steps state with None => None | Some (qs, state) => Some (q :: qs, state) end
      end
  end.
End Equations.

(** The rows with the given numbers. *)
Definition rows {X} (default : X) (numbers : list nat) (l : list X) : list X :=
  map (fun i => nth i l default) numbers.
