(** Model of agents/networks.py and of agents/mlp_agent.py (paths relative to
    /repo/balloon_learning_environment/), over the reals: rounding (also to float32,
    networks.py:43, 83) is not modelled.  An observation is the function from the indices
    of the flattened array (networks.py:44, 84) to its entries.  nn.Dense, nn.relu,
    jnp.argmax and nn.softmax are modelled by their documentation; automatic
    differentiation by the reverse-mode rules of JAX for these functions; optax.sgd
    without momentum by its definition.  [None]: the call raises. *)
From Coq Require Import ZArith Reals List Bool.
From Verif Require Import Model.Num Model.Vae Model.Loading Model.Agents.
Import ListNotations.
Open Scope R_scope.

(** An observation, flattened: networks.py:44, 82. *)
Definition features := nat -> R.

(** ** MLPNetwork: networks.py:26-59 *)
(** The parameters: Dense_0, Dense_1, ... of the hidden layers, and the final layer. *)
Record network_params := mkNetwork { hidden_params : list dense; final_params : dense }.
(** The number of hidden layers, range(self.num_layers - 1): 48-51. *)
Definition hidden_count (num_layers : Z) : nat := Z.to_nat (num_layers - 1).
(** __call__: 34-59, with is_dopamine False. *)
Fixpoint forward (hs : list dense) (out : dense) (inputs width : nat) (x : features) : features :=
  match hs with
  | [] => apply_dense out inputs x
  | d :: hs' => forward hs' out width width (fun j => relu (apply_dense d inputs x j))
  end.
(** network_def.apply for MLPNetwork: networks.py:35-59, mlp_agent.py:58. *)
Definition apply_network (ps : network_params) (inputs width : nat) (x : features) : features :=
  forward (hidden_params ps) (final_params ps) inputs width x.

(** ** QuantileNetwork: networks.py:62-98 *)
(** logits.reshape((num_actions, num_atoms)): 93-95; q_values: 97. *)
Definition quantile_logits (ps : network_params) (inputs width atoms : nat) (x : features) (a i : nat) : R :=
  apply_network ps inputs width x (a * atoms + i)%nat.
(** nn.softmax over the last axis: 96. *)
Definition quantile_probabilities (ps : network_params) (inputs width atoms : nat) (x : features) (a i : nat) : R :=
  exp (quantile_logits ps inputs width atoms x a i)
  / sumn atoms (fun k => exp (quantile_logits ps inputs width atoms x a k)).
(** q_values of QuantileNetwork: networks.py:94-98. *)
Definition quantile_q_values (ps : network_params) (inputs width atoms : nat) (x : features) (a : nat) : R :=
  sumn atoms (quantile_logits ps inputs width atoms x a) / INR atoms.

(** ** Reverse-mode differentiation of the network (jax.value_and_grad) *)
(** The cotangents of all parameters and of the input, for a cotangent [ct] of the
    output: for nn.Dense the products with the input, the cotangent itself and the
    products with the kernel; for nn.relu the cotangent where the input is positive,
    otherwise 0. *)
Fixpoint backward (hs : list dense) (out : dense) (inputs width outputs : nat) (x ct : features)
  : list dense * dense * features :=
  match hs with
  | [] => ([], mkDense (fun i j => x i * ct j) ct, fun i => sumn outputs (fun j => ct j * kernel out i j))
  | d :: hs' =>
      let pre := apply_dense d inputs x in
      let '(gs, go, dh) := backward hs' out width width outputs (fun j => relu (pre j)) ct in
      let dpre j := if Rltb 0 (pre j) then dh j else 0 in
      (mkDense (fun i j => x i * dpre j) dpre :: gs, go, fun i => sumn width (fun j => dpre j * kernel d i j))
  end.
(** Library behaviour: the gradient with respect to the parameters (jax.value_and_grad,
    mlp_agent.py:82-83). *)
Definition gradient (ps : network_params) (inputs width outputs : nat) (x ct : features) : network_params :=
  let '(gs, go, _) := backward (hidden_params ps) (final_params ps) inputs width outputs x ct in
  mkNetwork gs go.
(** The cotangent of [output][action]: the scalar at that index, 0 elsewhere. *)
Definition at_index (action : nat) (c : R) : features := fun j => if Nat.eqb j action then c else 0.
(** Sums of cotangents, and p + c * g, entry by entry. *)
Definition dense_add (d e : dense) (c : R) : dense :=
  mkDense (fun i j => kernel d i j + c * kernel e i j) (fun j => bias d j + c * bias e j).
(** Helper, for mlp_agent.py:84-86 (optax.apply_updates): layer by layer. *)
Fixpoint layers_add (ds es : list dense) (c : R) : list dense :=
  match ds, es with d :: ds', e :: es' => dense_add d e c :: layers_add ds' es' c | _, _ => [] end.
(** Helper, for mlp_agent.py:84-86 (optax.apply_updates). *)
Definition params_add (p q : network_params) (c : R) : network_params :=
  mkNetwork (layers_add (hidden_params p) (hidden_params q) c) (dense_add (final_params p) (final_params q) c).

(** ** MLPAgent: mlp_agent.py *)
(** select_action: 53-58; jnp.argmax of an empty array raises. *)
Definition select_action (num_actions inputs width : nat) (ps : network_params) (x : features) : option nat :=
  match num_actions with
  | O => None
  | S _ => Some (argmax (map (apply_network ps inputs width x) (seq 0 num_actions)))
  end.

(** loss_fn: 76-80. *)
Definition loss_fn (inputs width : nat) (state : features) (action : nat) (reward : R)
    (next_state : features) (next_action : nat) (gamma : R) (ps : network_params) : R :=
  let q_val := apply_network ps inputs width state action in
  let next_action_val := apply_network ps inputs width next_state next_action in
  let target := reward + gamma * next_action_val in
  (q_val - target) ^ 2.
(** grad_fn: 82-83: the cotangent of the difference is twice the difference; it is
    passed on to q_val, and negated and multiplied by gamma to next_action_val. *)
Definition loss_gradient (num_actions inputs width : nat) (state : features) (action : nat) (reward : R)
    (next_state : features) (next_action : nat) (gamma : R) (ps : network_params) : network_params :=
  let q_val := apply_network ps inputs width state action in
  let next_action_val := apply_network ps inputs width next_state next_action in
  let ct := 2 * (q_val - (reward + gamma * next_action_val)) in
  params_add (gradient ps inputs width num_actions state (at_index action ct))
    (gradient ps inputs width num_actions next_state (at_index next_action (- ct * gamma))) 1.
(** train: 61-88; the updates of optax.sgd (50) are -learning_rate * grad. *)
Definition train (num_actions inputs width : nat) (learning_rate : R) (state : features) (action : nat) (reward : R)
    (next_state : features) (next_action : nat) (gamma : R) (ps : network_params) : network_params :=
  params_add ps
    (loss_gradient num_actions inputs width state action reward next_state next_action gamma ps)
    (- learning_rate).

(** The attributes of MLPAgent: mlp_agent.py:95-113. *)
Record mlp_agent := mkMlpAgent {
  ma_num_actions : nat;
  ma_inputs : nat;                     (* entries of an observation *)
  ma_width : nat;                      (* MLPNetwork.hidden_units *)
  ma_gamma : R;
  ma_learning_rate : R;
  ma_params : network_params;
  ma_last : option (features * nat);   (* last_state and last_action, once set *)
  ma_mode : agent_mode
}.
(** __init__: 95-113; [initial k] is what network_def.init draws for the layer Dense_k. *)
Definition new_mlp_agent (num_actions inputs : nat) (num_layers : Z) (hidden_units : nat)
    (gamma learning_rate : R) (initial : nat -> dense) : mlp_agent :=
  let ps := mkNetwork (map initial (seq 0 (hidden_count num_layers))) (initial (hidden_count num_layers)) in
  mkMlpAgent num_actions inputs hidden_units gamma learning_rate ps None TRAIN.

(** begin_episode: 115-119. *)
Definition mlp_begin_episode (m : mlp_agent) (observation : features) : option (mlp_agent * Z) :=
  match select_action (ma_num_actions m) (ma_inputs m) (ma_width m) (ma_params m) observation with
  | None => None
  | Some action =>
      Some (mkMlpAgent (ma_num_actions m) (ma_inputs m) (ma_width m) (ma_gamma m) (ma_learning_rate m)
              (ma_params m) (Some (observation, action)) (ma_mode m), Z.of_nat action)
  end.

(** step: 121-141; reading last_state before it is set raises. *)
Definition mlp_step (m : mlp_agent) (reward : R) (observation : features) : option (mlp_agent * Z) :=
  match select_action (ma_num_actions m) (ma_inputs m) (ma_width m) (ma_params m) observation with
  | None => None
  | Some action =>
      match
        match ma_mode m with
        | EVAL => Some (ma_params m)
        | TRAIN =>
            match ma_last m with
            | None => None
            | Some (last_state, last_action) =>
                Some (train (ma_num_actions m) (ma_inputs m) (ma_width m) (ma_learning_rate m)
                        last_state last_action reward observation action (ma_gamma m) (ma_params m))
            end
        end
      with
      | None => None
      | Some ps =>
          Some (mkMlpAgent (ma_num_actions m) (ma_inputs m) (ma_width m) (ma_gamma m) (ma_learning_rate m)
                  ps (Some (observation, action)) (ma_mode m), Z.of_nat action)
      end
  end.

(** end_episode: 143-144; set_mode: 146-147. *)
Definition mlp_end_episode (m : mlp_agent) (reward : R) (terminal : bool) : option mlp_agent := Some m.
(** set_mode: mlp_agent.py:146-147. *)
Definition mlp_set_mode (m : mlp_agent) (mode : agent_mode) : mlp_agent :=
  mkMlpAgent (ma_num_actions m) (ma_inputs m) (ma_width m) (ma_gamma m) (ma_learning_rate m)
    (ma_params m) (ma_last m) mode.

(** The agent, as agent.Agent: 91-147. *)
Definition mlp_class : agent_class features :=
  mkAgent features mlp_agent mlp_set_mode mlp_begin_episode mlp_step mlp_end_episode.
