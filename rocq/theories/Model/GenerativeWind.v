(** Model of env/generative_wind_field.py (paths relative to
    /repo/balloon_learning_environment/), over the reals, like Model/WindField.v.  The trained
    parameters are an argument; [None]: an exception. *)
From Coq Require Import ZArith Reals List Bool.
From Verif Require Import Model.Num Model.Prng Model.WindField Model.Vae.
Import ListNotations.
Open Scope R_scope.

Section Generative.
Context (P : prng) (params : decoder_params).

(** ** GenerativeWindFieldSampler: 40-62 *)
(** field_shape: 48-50. *)
Definition sampler_field_shape : field_shape := default_shape.
(** sample_field: 52-62; the date is not used. *)
Definition sample_field (key : key P) (date_time : Z) : field :=
  let latents := normals P key 64 in
  decode default_shape params 64 latents.
(** generative_wind_field_factory: 35-37. *)
Definition generative_wind_field_factory : forecaster P := grid_field P sampler_field_shape sample_field.

(** ** GenerativeWindField (deprecated): 65-230 *)
(** The attribute field, None before the first reset; field_shape: 85. *)
Definition gen_shape : field_shape := default_shape.
(** reset_forecast: 96-111. *)
Definition gen_reset_forecast (key : key P) (date_time : Z) : field :=
  let latents := normals P key 64 in
  decode default_shape params 64 latents.
(** _boomerang: 177-186. *)
Definition gen_boomerang (t max_val : R) : R :=
  let quotient := t / max_val in
  let truncated := if Rleb 0 quotient then Int_part quotient else (- Int_part (- quotient))%Z in
  let cycle_direction := (truncated mod 2)%Z in
  let remainder := t - max_val * IZR (Int_part quotient) in
  if (cycle_direction mod 2 =? 0)%Z then remainder else max_val - remainder.
(** _prepare_get_forecast_inputs: 188-230, one row per pressure. *)
Definition gen_prepare (x y : R) (pressures : list R) (elapsed : Z) : list point :=
  let x_km := np_clip (x / 1000) (- latlng_displacement_km gen_shape) (latlng_displacement_km gen_shape) in
  let y_km := np_clip (y / 1000) (- latlng_displacement_km gen_shape) (latlng_displacement_km gen_shape) in
  let clipped := map (fun p => np_clip p (min_pressure_pa gen_shape) (max_pressure_pa gen_shape)) pressures in
  let elapsed_hours := hours elapsed in
  let time_field_position :=
    if Rltb elapsed_hours (IZR (time_horizon_hours gen_shape)) then elapsed_hours
    else gen_boomerang elapsed_hours (IZR (time_horizon_hours gen_shape)) in
  map (fun p => mkPoint x_km y_km p time_field_position) clipped.
(** get_forecast: 113-137. *)
Definition gen_get_forecast (fd : option field) (x y pressure : R) (elapsed : Z) : option wind :=
  match fd with
  | None => None
  | Some fd =>
      match interpn gen_shape fd (gen_prepare x y [pressure] elapsed) with
      | None => None
      | Some uv => nth_error uv 0
      end
  end.
(** get_forecast_column: 139-175. *)
Definition gen_get_forecast_column (fd : option field) (x y : R) (pressures : list R) (elapsed : Z)
  : option (list wind) :=
  match fd with
  | None => None
  | Some fd =>
      match interpn gen_shape fd (gen_prepare x y pressures elapsed) with
      | None => None
      | Some uv => all_some (map (fun i => nth_error uv i) (seq 0 (length pressures)))
      end
  end.
(** GenerativeWindField (deprecated): generative_wind_field.py:65-230. *)
Definition generative_wind_field : forecaster P := mkForecaster P field gen_reset_forecast gen_get_forecast.
End Generative.
