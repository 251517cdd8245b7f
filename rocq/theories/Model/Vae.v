(** Model of the wind VAE: generative/vae.py, and of the losses, schedules and the
    resumption in generative/learn_wind_field_generator.py (paths relative to
    /repo/balloon_learning_environment/), over the reals.  Vectors and arrays are
    functions of their indices; rounding is not modelled.  The optimiser and automatic
    differentiation (jax, flax) are not modelled. *)
From Coq Require Import ZArith Reals List Bool Lia.
From Verif Require Import Model.Num Model.WindField.
Import ListNotations.
Open Scope R_scope.

(** jnp.sum of the first [n] entries. *)
Fixpoint sumn (n : nat) (f : nat -> R) : R :=
  match n with O => 0 | S k => sumn k f + f k end.

(** ** FieldShape: vae.py:26-93 (the grids are in Model/WindField.v) *)
(** flow_field_width: 31. *)
Definition FLOW_FIELD_WIDTH : nat := 7.
(** num_grid_points, output_length, num_flow_fields, num_flow_field_units: 53-75. *)
Definition num_grid_points (s : field_shape) : nat :=
  latlng_slices s * latlng_slices s * pressure_slices s * time_slices s.
(** output_length: vae.py:59-64. *)
Definition output_length (s : field_shape) : nat := 2 * num_grid_points s.
(** num_flow_fields: vae.py:66-69. *)
Definition num_flow_fields (s : field_shape) : nat := pressure_slices s * time_slices s.
(** num_flow_field_units: vae.py:71-75. *)
Definition num_flow_field_units (s : field_shape) : nat :=
  FLOW_FIELD_WIDTH * FLOW_FIELD_WIDTH * num_flow_fields s.

(** _squash: 107-113. *)
Definition sign (x : R) : R := if Rltb 0 x then 1 else if Rltb x 0 then -1 else 0.
(** _squash: vae.py:107-113. *)
Definition squash (x cap : R) : R := sign x * Rabs x / (cap + Rabs x).

(** nn.Dense and nn.relu (flax). *)
Record dense := mkDense { kernel : nat -> nat -> R; bias : nat -> R }.
(** Library behaviour: nn.Dense (vae.py:126, 143). *)
Definition apply_dense (d : dense) (inputs : nat) (x : nat -> R) (j : nat) : R :=
  sumn inputs (fun i => x i * kernel d i j) + bias d j.
(** Library behaviour: nn.relu (vae.py:127, 144). *)
Definition relu (x : R) : R := Rmax x 0.

(** ** Decoder: 134-186 *)
(** The multi-layer perceptron, 141-144: [hidden] are the hidden layers' parameters,
    each of width [hidden_layer_network_width] (1000, 137). *)
Record decoder_params := mkParams { hidden : list dense; output_layer : dense }.
(** The hidden layers: vae.py:142-144, 125-127. *)
Fixpoint hidden_layers (ds : list dense) (inputs width : nat) (z : nat -> R) : nat * (nat -> R) :=
  match ds with
  | [] => (inputs, z)
  | d :: ds' => hidden_layers ds' width width (fun j => relu (apply_dense d inputs z j))
  end.
(** vae.py:142-145. *)
Definition decoder_mlp (ps : decoder_params) (latents : nat) (z : nat -> R) : nat -> R :=
  let (n, h) := hidden_layers (hidden ps) latents 1000 z in apply_dense (output_layer ps) n h.

(** The reshape into flow fields, 148-150 (row-major). *)
Definition flow_fields (s : field_shape) (z : nat -> R) (a b k : nat) : R :=
  z ((a * FLOW_FIELD_WIDTH + b) * num_flow_fields s + k)%nat.

(** Library behaviour: jax.image.resize(method='linear') along one axis, from [n] to
    [m] entries: entry i is the average of the inputs weighted by a triangle kernel,
    widened when shrinking, around (i + 1/2) n / m - 1/2. *)
Definition triangle (x : R) : R := Rmax 0 (1 - Rabs x).
(** Library behaviour: jax.image.resize (vae.py:160-164), the weight of input j in output i. *)
Definition resize_weight (n m i j : nat) : R :=
  let inv_scale := INR n / INR m in
  let sample := (INR i + / 2) * inv_scale - / 2 in
  triangle ((sample - INR j) / Rmax inv_scale 1).
(** Library behaviour: jax.image.resize along one axis (vae.py:160-164). *)
Definition resize1 (n m : nat) (f : nat -> R) (i : nat) : R :=
  let total := sumn n (resize_weight n m i) in
  sumn n (fun j => resize_weight n m i j / total * f j).
(** Along the first two axes (160-164); the third keeps its size. *)
Definition resized (s : field_shape) (f : nat -> nat -> nat -> R) (i j k : nat) : R :=
  let m := (latlng_slices s + 2)%nat in
  resize1 FLOW_FIELD_WIDTH m
    (fun a => resize1 FLOW_FIELD_WIDTH m (fun b => f a b k) j) i.

(** jnp.roll by -1 and by 1 along an axis of [n] entries. *)
Definition roll_back (n : nat) (f : nat -> R) (i : nat) : R := f ((i + 1) mod n)%nat.
(** Library behaviour: jnp.roll with shift 1 (vae.py:172, 175). *)
Definition roll_on (n : nat) (f : nat -> R) (i : nat) : R := f ((i + (n - 1)) mod n)%nat.
(** dflow_dy, dflow_dx: 171-176; then [1:-1, 1:-1]. *)
Definition dflow_dy (m : nat) (f : nat -> nat -> nat -> R) (i j k : nat) : R :=
  (roll_back m (fun a => f a j k) i - roll_on m (fun a => f a j k) i) / 2.
(** dflow_dx: vae.py:174-175. *)
Definition dflow_dx (m : nat) (f : nat -> nat -> nat -> R) (i j k : nat) : R :=
  (roll_back m (fun b => f i b k) j - roll_on m (fun b => f i b k) j) / 2.

(** u_fields, v_fields: 182-186; the reshape of the last axis is row-major. *)
Definition wind_of_flow (s : field_shape) (f : nat -> nat -> nat -> R) : field :=
  fun i j p t =>
    let m := (latlng_slices s + 2)%nat in
    let k := (p * time_slices s + t)%nat in
    mkWind (dflow_dy m f (S i) (S j) k) (- (1) * dflow_dx m f (S i) (S j) k).
(** Decoder.__call__, from the output of the perceptron, and from the latents. *)
Definition decode_output (s : field_shape) (z : nat -> R) : field :=
  wind_of_flow s (resized s (flow_fields s z)).
(** Decoder.__call__: vae.py:141-186. *)
Definition decode (s : field_shape) (ps : decoder_params) (latents : nat) (z : nat -> R) : field :=
  decode_output s (decoder_mlp ps latents z).

(** ** Encoder: 116-131 *)
(** x.ravel() of an array of shape (latlng, latlng, pressure, time, 2), row-major. *)
Definition ravel (s : field_shape) (fd : field) (q : nat) : R :=
  let c := (q mod 2)%nat in
  let q1 := (q / 2)%nat in
  let t := (q1 mod time_slices s)%nat in
  let q2 := (q1 / time_slices s)%nat in
  let p := (q2 mod pressure_slices s)%nat in
  let q3 := (q2 / pressure_slices s)%nat in
  let j := (q3 mod latlng_slices s)%nat in
  let i := (q3 / latlng_slices s)%nat in
  if (c =? 0)%nat then u (fd i j p t) else v (fd i j p t).
(** The parameters of Encoder: vae.py:125-130. *)
Record encoder_params := mkEncParams {
  enc_hidden : list dense; mean_layer : dense; logvar_layer : dense }.
(** Encoder.__call__: vae.py:123-131. *)
Definition encode (s : field_shape) (ps : encoder_params) (fd : field) : (nat -> R) * (nat -> R) :=
  let x q := squash (ravel s fd q) 50 in
  let (n, h) := hidden_layers (enc_hidden ps) (output_length s) 1000 x in
  (apply_dense (mean_layer ps) n h, apply_dense (logvar_layer ps) n h).

(** ** WindFieldVAE._reparameterize: 215-220, for given normal samples [eps]. *)
Definition reparameterize (eps mean logvar : nat -> R) (i : nat) : R :=
  mean i + eps i * exp (/ 2 * logvar i).

(** ** WindFieldVAE.__call__: 201-210, with num_latents = 64 (192); [eps] are the normal
    samples. *)
Definition vae_call (s : field_shape) (es : encoder_params) (ds : decoder_params)
    (reparameterize_latents : bool) (eps : nat -> R) (fd : field) : field :=
  let (mean, logvar) := encode s es fd in
  let z := if reparameterize_latents then reparameterize eps mean logvar else mean in
  decode s ds 64 z.

(** ** learn_wind_field_generator.py *)
(** kl_divergence: 96-97; mean_square_error: 100-101. *)
Definition kl_divergence (n : nat) (mean logvar : nat -> R) : R :=
  - / 2 * sumn n (fun i => 1 + logvar i - (mean i) ^ 2 - exp (logvar i)).
(** mean_square_error: learn_wind_field_generator.py:100-101. *)
Definition mean_square_error (n : nat) (reconstructed original : nat -> R) : R :=
  sumn n (fun i => (reconstructed i - original i) ^ 2).
(** constant_schedule: 60-70; step_schedule: 74-93, for a nonnegative epoch and a
    positive frequency ([//] truncates). *)
Definition constant_schedule (value : R) (idx : nat) : R := value.
(** step_schedule: learn_wind_field_generator.py:73-93. *)
Definition step_schedule (start_value increment : R) (frequency : nat) (max_val : R) (idx : nat) : R :=
  Rmin (start_value * increment ^ (idx / frequency)) max_val.

(** utils/wind.py: wind_field_speeds 45-57, mean_speed_in_wind_field 61-71. *)
Definition wind_speed (w : wind) : R := sqrt (u w * u w + v w * v w).
(** mean_speed_in_wind_field: utils/wind.py:61-71. *)
Definition mean_speed (s : field_shape) (fd : field) : R :=
  let n := latlng_slices s in
  sumn n (fun i => sumn n (fun j => sumn (pressure_slices s) (fun p => sumn (time_slices s) (fun t =>
    wind_speed (fd i j p t))))) / INR (num_grid_points s).

(** ** train: learn_wind_field_generator.py:203-318 *)
(** restore_checkpoint (flax) passes its argument through if there is no checkpoint. *)
Definition restore {O} (found : option O) (o : O) : O :=
  match found with Some o' => o' | None => o end.

Section Training.
(** The optimiser (flax), known by its number of steps; [trained kl o o']: train_step,
    104-150, may turn [o] into [o'] with coefficient [kl] (it depends on the batch and
    on the clock-seeded generator). *)
Context {O : Type} (steps : O -> nat) (trained : R -> O -> O -> Prop).
Context (kl_schedule : nat -> R) (num_batches_per_epoch num_epochs : nat).
(** Whether the names mse_series, kld_series and loss_series, used at 289-291, are bound.
    They are not: nothing in the package binds them. *)
Context (series_bound : bool).

(** The start: 241-253.  [checkpoint], [bootstrap]: the checkpoints found in the two
    directories ([None] also if the flag is not given). *)
Definition starting_optimizer (checkpoint bootstrap : option O) (fresh : O) : O :=
  let o := restore checkpoint fresh in
  if (steps o =? 0)%nat then restore bootstrap o else o.
(** learn_wind_field_generator.py:253. *)
Definition first_epoch (o : O) : nat := (steps o / num_batches_per_epoch + 1)%nat.

(** The inner loop: 268-279. *)
Inductive batches (kl : R) : nat -> O -> O -> Prop :=
| batches_none o : batches kl 0 o o
| batches_next n o o1 o2 : trained kl o o1 -> batches kl n o1 o2 -> batches kl (S n) o o2.

(** The outer loop: 261-318, with --checkpoint_directory; the saved checkpoint before
    and after ([keep=1]; saving is atomic).  The process may be killed at any moment;
    evaluating an unbound name raises NameError, which nothing catches. *)
Inductive outcome := finished | name_error | killed.
(** The loop over the epochs: learn_wind_field_generator.py:261-318. *)
Inductive epochs_run : list nat -> option O -> O -> outcome -> option O -> Prop :=
| run_end saved o : epochs_run [] saved o finished saved
| run_killed es saved o : epochs_run es saved o killed saved
| run_unbound e es saved o o' :
    batches (kl_schedule e) num_batches_per_epoch o o' -> series_bound = false ->
    epochs_run (e :: es) saved o name_error saved
| run_saved e es saved o o' out saved' :
    batches (kl_schedule e) num_batches_per_epoch o o' -> series_bound = true ->
    epochs_run es (Some o') o' out saved' ->
    epochs_run (e :: es) saved o out saved'.
(** One call of train; range(epoch, num_epochs). *)
Definition train_run (saved bootstrap : option O) (fresh : O) (out : outcome) (saved' : option O) : Prop :=
  let o := starting_optimizer saved bootstrap fresh in
  epochs_run (seq (first_epoch o) (num_epochs - first_epoch o)) saved o out saved'.
(** Successive calls on one checkpoint directory, initially empty, each with a freshly
    initialised optimiser; the outcomes, last one first. *)
Inductive train_history (bootstrap : option O) : list outcome -> option O -> Prop :=
| history_none : train_history bootstrap [] None
| history_next outs saved fresh out saved' :
    train_history bootstrap outs saved -> steps fresh = 0%nat ->
    train_run saved bootstrap fresh out saved' ->
    train_history bootstrap (out :: outs) saved'.
End Training.
