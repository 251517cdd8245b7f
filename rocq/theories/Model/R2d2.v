(** Model of the recurrent network of acme_utils.py:100-157 (paths relative to
    /repo/balloon_learning_environment/), over the reals: rounding to float32 is not
    modelled.  hk.Linear, hk.LSTM, hk.static_unroll, hk.BatchApply, OAREmbedding and
    DuellingMLP are modelled by their documentation.  A row is the function from the
    indices of the last axis to its entries.  [None]: the call raises. *)
From Coq Require Import ZArith Reals List Bool.
From Verif Require Import Model.Num Model.Vae Model.Mlp.
Import ListNotations.
Open Scope R_scope.

(** The parameters: the linear layers of BLETorso (acme_utils.py:105-110), the gates of
    hk.LSTM(512) (130), and the two perceptrons of DuellingMLP (131). *)
Record r2d2_params := mkR2d2 {
  torso_linear : nat -> dense;
  lstm_gates : dense;
  value_hidden : dense; value_out : dense;
  advantage_hidden : dense; advantage_out : dense
}.

(** What a step sees: the observation, the last action and the last reward (OAR):
    acme_utils.py:136. *)
Record oar := mkOar { o_observation : features; o_action : Z; o_reward : R }.
(** hk.LSTMState: acme_utils.py:137. *)
Record lstm_state := mkLstm { lstm_hidden : features; lstm_cell : features }.
(** Arrays by their rank (jnp.ndim): acme_utils.py:114. *)
Inductive tensor :=
| Rank0 (x : R) | Rank1 (x : features) | Rank2 (xs : list features) | Rank3 (xss : list (list features)).

(** Library behaviour: jax.nn.sigmoid (hk.LSTM, acme_utils.py:130). *)
Definition sigmoid (x : R) : R := 1 / (1 + exp (- x)).
(** Library behaviour: jax.nn.one_hot (OAREmbedding, acme_utils.py:129). *)
Definition one_hot (action : Z) (i : nat) : R := if (Z.of_nat i =? action)%Z then 1 else 0.
(** Library behaviour: two rows one after the other (jnp.concatenate on the last axis), the
    first of length [n]. *)
Definition join (n : nat) (x y : features) : features := fun i => if (i <? n)%nat then x i else y (i - n)%nat.

Section Network.
(** The length of an observation, the number of actions and the parameters. *)
Context (inputs num_actions : nat) (ps : r2d2_params).

(** ** BLETorso: acme_utils.py:100-122 *)
(** self._network on a row: 105-110. *)
Definition torso_row (x : features) : features :=
  forward (map (torso_linear ps) (seq 0 7)) (torso_linear ps 7) inputs 600 x.
(** __call__: 112-122. *)
Definition torso (t : tensor) : option tensor :=
  match t with
  | Rank1 x => Some (Rank1 (torso_row x))
  | Rank2 xs => Some (Rank2 (map torso_row xs))
  | Rank0 _ | Rank3 _ => None
  end.

(** ** R2D2Network: acme_utils.py:125-157 *)
(** The length of an embedding: 140. *)
Definition embedding_size : nat := (600 + num_actions + 1)%nat.
(** Library behaviour: OAREmbedding.__call__ (129, 140): the features, the action as a one-hot
    vector and tanh of the reward. *)
Definition embed (batch : list oar) : option (list features) :=
  match torso (Rank2 (map o_observation batch)) with
  | Some (Rank2 fs) =>
      Some (map (fun fo => join (600 + num_actions) (join 600 (fst fo) (one_hot (o_action (snd fo))))
                             (fun _ => tanh (o_reward (snd fo))))
             (combine fs batch))
  | _ => None
  end.
(** Library behaviour: hk.LSTM(512) on a row (130): one linear layer of the input and the
    hidden state, split in four. *)
Definition lstm_row (x : features) (s : lstm_state) : lstm_state :=
  let gated := apply_dense (lstm_gates ps) (embedding_size + 512) (join embedding_size x (lstm_hidden s)) in
  let i k := gated k in
  let g k := gated (512 + k)%nat in
  let f k := sigmoid (gated (1024 + k)%nat + 1) in
  let o k := gated (1536 + k)%nat in
  let c k := f k * lstm_cell s k + sigmoid (i k) * tanh (g k) in
  mkLstm (fun k => sigmoid (o k) * tanh (c k)) c.
(** Library behaviour: hk.LSTM.__call__ on a batch (141); the sizes of input and state must
    agree. *)
Definition core (xs : list features) (state : list lstm_state) : option (list features * list lstm_state) :=
  if Nat.eqb (length xs) (length state) then
    let new := map (fun xs => lstm_row (fst xs) (snd xs)) (combine xs state) in
    Some (map lstm_hidden new, new)
  else None.
(** Library behaviour: a perceptron with one hidden layer of 512 (131). *)
Definition head_mlp (h out : dense) (x : features) : features :=
  apply_dense out 512 (fun j => relu (apply_dense h 512 x j)).
(** Library behaviour: DuellingMLP.__call__ on a row (131, 142). *)
Definition head_row (x : features) : features :=
  let value := head_mlp (value_hidden ps) (value_out ps) x O in
  let advantages := head_mlp (advantage_hidden ps) (advantage_out ps) x in
  let mean := sumn num_actions advantages / INR num_actions in
  fun a => value + (advantages a - mean).
(** Library behaviour: DuellingMLP.__call__ on a batch (142). *)
Definition duelling_head (xs : list features) : option (list features) := Some (map head_row xs).

(** __call__: 134-143. *)
Definition call (batch : list oar) (state : list lstm_state) : option (list features * list lstm_state) :=
  match embed batch with
  | None => None
  | Some embeddings =>
      match core embeddings state with
      | None => None
      | Some (core_outputs, new_state) =>
          match duelling_head core_outputs with
          | None => None
          | Some q_values => Some (q_values, new_state)
          end
      end
  end.
(** initial_state: 145-147 (library behaviour: zeros). *)
Definition initial_state (batch_size : nat) : list lstm_state :=
  repeat (mkLstm (fun _ => 0) (fun _ => 0)) batch_size.

(** Library behaviour: the first axis in [t] parts of length [b] (reshape in hk.BatchApply, 155). *)
Fixpoint split_leading {X} (t b : nat) (l : list X) : list (list X) :=
  match t with O => [] | S t => firstn b l :: split_leading t b (skipn b l) end.
(** Library behaviour: hk.BatchApply (155, 157): the two leading axes are merged, the
    function is applied, and they are split again. *)
Definition batch_apply {X Y} (f : list X -> option (list Y)) (xss : list (list X)) : option (list (list Y)) :=
  match f (concat xss) with
  | None => None
  | Some ys => Some (split_leading (length xss) (length (hd [] xss)) ys)
  end.
(** The loop of hk.static_unroll (library behaviour): 156. *)
Fixpoint unroll_loop (xss : list (list features)) (state : list lstm_state)
  : option (list (list features) * list lstm_state) :=
  match xss with
  | [] => Some ([], state)
  | xs :: xss =>
      match core xs state with
      | None => None
      | Some (y, state) =>
          match unroll_loop xss state with None => None | Some (ys, state) => Some (y :: ys, state) end
      end
  end.
(** Library behaviour: hk.static_unroll (156); outputs of no steps cannot be stacked. *)
Definition static_unroll (xss : list (list features)) (state : list lstm_state)
  : option (list (list features) * list lstm_state) :=
  match xss with [] => None | _ => unroll_loop xss state end.
(** unroll: 149-157. *)
Definition unroll (steps : list (list oar)) (state : list lstm_state)
  : option (list (list features) * list lstm_state) :=
  match batch_apply embed steps with
  | None => None
  | Some embeddings =>
      match static_unroll embeddings state with
      | None => None
      | Some (core_outputs, new_states) =>
          match batch_apply duelling_head core_outputs with
          | None => None
          | Some q_values => Some (q_values, new_states)
          end
      end
  end.
End Network.
