(** Model of env/wind_field.py, env/grid_based_wind_field.py and
    env/simplex_wind_noise.py over the reals (paths relative to
    /repo/balloon_learning_environment/).  Positions are metres, velocities
    metres per second, pressures pascals, elapsed times integer microseconds.
    [None]: an exception.  Rounding (including the float32 cast of the query
    point, grid_based_wind_field.py:181) is not modelled. *)
From Coq Require Import ZArith Reals List Bool.
From Verif Require Import Model.Num Model.Prng.
Import ListNotations.
Open Scope R_scope.

(** WindVector and WindVector.add: wind_field.py:39-48. *)
Record wind := mkWind { u : R; v : R }.
(** WindVector.add: wind_field.py:44-48. *)
Definition wind_add (a b : wind) : wind := mkWind (u a + u b) (v a + v b).

(** units.timedelta_to_hours: utils/units.py:312-317. *)
Definition hours (elapsed : Z) : R := IZR elapsed / 1000000 / 3600.

(** np.clip of a float. *)
Definition np_clip (x lo hi : R) : R := Rmin (Rmax x lo) hi.

(** ** SimpleStaticWindField.get_forecast: wind_field.py:160-184 *)
Definition static_forecast (pressure : R) : wind :=
  if Rltb pressure 8000 then mkWind 10 0
  else if Rltb pressure 10000 then mkWind 0 10
  else if Rltb pressure 12000 then mkWind (-10) 0
  else mkWind 0 (-10).

(** ** Grids: vae.FieldShape, generative/vae.py:26-93 *)
Record field_shape := mkShape {
  latlng_slices : nat;
  pressure_slices : nat;
  time_slices : nat;
  latlng_displacement_km : R;
  max_pressure_pa : R;
  min_pressure_pa : R;
  time_horizon_hours : Z
}.
(** The defaults: vae.py:30-38. *)
Definition default_shape : field_shape := mkShape 21 10 9 500 14000 5000 48.

(** jnp.linspace(a, b, n)[i]. *)
Definition linspace (a b : R) (n i : nat) : R := a + (b - a) * INR i / INR (n - 1).
(** latlng_grid_points, pressure_grid_points, time_grid_points: vae.py:77-93; the
    integer dtype of the last one floors. *)
Definition latlng_grid (s : field_shape) : nat -> R :=
  linspace (- latlng_displacement_km s) (latlng_displacement_km s) (latlng_slices s).
(** pressure_grid_points: vae.py:83-87. *)
Definition pressure_grid (s : field_shape) : nat -> R :=
  linspace (min_pressure_pa s) (max_pressure_pa s) (pressure_slices s).
(** time_grid_points: vae.py:89-93. *)
Definition time_grid (s : field_shape) (i : nat) : R :=
  IZR (Int_part (linspace 0 (IZR (time_horizon_hours s)) (time_slices s) i)).

(** ** scipy.interpolate.interpn, method 'linear' *)
(** Library behaviour: np.searchsorted(grid, x), for a sorted grid the number of
    grid points below x. *)
Fixpoint searchsorted (g : nat -> R) (n : nat) (x : R) : nat :=
  match n with
  | O => O
  | S k => (searchsorted g k x + if Rltb (g k) x then 1 else 0)%nat
  end.
(** Library behaviour: index of the cell of x, and position in it. *)
Definition find_index (g : nat -> R) (n : nat) (x : R) : nat :=
  Nat.min (pred (searchsorted g n x)) (n - 2).
(** Library behaviour: the position of x in its cell (scipy.interpolate.interpn,
    grid_based_wind_field.py:91, 125). *)
Definition norm_distance (g : nat -> R) (n : nat) (x : R) : R :=
  let i := find_index g n x in (x - g i) / (g (S i) - g i).

(** The field: a value for each grid index; and a query point. *)
Definition field := nat -> nat -> nat -> nat -> wind.
(** A row of the array of query points: grid_based_wind_field.py:145-187. *)
Record point := mkPoint { px : R; py : R; pp : R; pt : R }.

(** Library behaviour: bounds_error=True raises outside the grid. *)
Definition inside (g : nat -> R) (n : nat) (x : R) : bool := Rleb (g O) x && Rleb x (g (n - 1)%nat).
(** Library behaviour: interpn's check of the bounds of a point. *)
Definition in_bounds (s : field_shape) (q : point) : bool :=
  inside (latlng_grid s) (latlng_slices s) (px q) &&
  inside (latlng_grid s) (latlng_slices s) (py q) &&
  inside (pressure_grid s) (pressure_slices s) (pp q) &&
  inside (time_grid s) (time_slices s) (pt q).

(** Library behaviour: the sum over the 16 corners of the cell, each weighted by
    the product of the (1 - norm_distance) or norm_distance of its axes. *)
Definition edge (nd : R) (e : nat) : R := match e with O => 1 - nd | _ => nd end.
(** Helper, for the corners of a cell. *)
Definition sum2 (f : nat -> R) : R := f 0%nat + f 1%nat.
(** Library behaviour: interpn's linear interpolation at a point. *)
Definition corners (s : field_shape) (q : point) (f : nat -> nat -> nat -> nat -> R) : R :=
  let i := find_index (latlng_grid s) (latlng_slices s) (px q) in
  let j := find_index (latlng_grid s) (latlng_slices s) (py q) in
  let k := find_index (pressure_grid s) (pressure_slices s) (pp q) in
  let l := find_index (time_grid s) (time_slices s) (pt q) in
  let a := norm_distance (latlng_grid s) (latlng_slices s) (px q) in
  let b := norm_distance (latlng_grid s) (latlng_slices s) (py q) in
  let c := norm_distance (pressure_grid s) (pressure_slices s) (pp q) in
  let d := norm_distance (time_grid s) (time_slices s) (pt q) in
  sum2 (fun ei => sum2 (fun ej => sum2 (fun ek => sum2 (fun el =>
    f (i + ei)%nat (j + ej)%nat (k + ek)%nat (l + el)%nat
    * (edge a ei * edge b ej * edge c ek * edge d el))))).
(** Library behaviour: scipy.interpolate.interpn (grid_based_wind_field.py:91, 125). *)
Definition interpn (s : field_shape) (fd : field) (qs : list point) : option (list wind) :=
  if forallb (in_bounds s) qs
  then Some (map (fun q => mkWind (corners s q (fun i j k l => u (fd i j k l)))
                                  (corners s q (fun i j k l => v (fd i j k l)))) qs)
  else None.

(** ** GridBasedWindField: grid_based_wind_field.py:29-187 *)
(** _boomerang: 134-143; int() truncates, [%] is the floored remainder. *)
Definition boomerang (t max_val : R) : R :=
  let cycle_direction := ((if Rleb 0 (t / max_val) then Int_part (t / max_val)
                           else - Int_part (- (t / max_val))) mod 2)%Z in
  let remainder := t - IZR (Int_part (t / max_val)) * max_val in
  if (cycle_direction mod 2 =? 0)%Z then remainder else max_val - remainder.

(** The time looked up: 172-178. *)
Definition time_position (s : field_shape) (elapsed : Z) : R :=
  if Rltb (hours elapsed) (IZR (time_horizon_hours s)) then hours elapsed
  else boomerang (hours elapsed) (IZR (time_horizon_hours s)).

(** _prepare_get_forecast_inputs: 145-187, one row per pressure. *)
Definition prepare (s : field_shape) (x y : R) (pressures : list R) (elapsed : Z) : list point :=
  let x_km := np_clip (x / 1000) (- latlng_displacement_km s) (latlng_displacement_km s) in
  let y_km := np_clip (y / 1000) (- latlng_displacement_km s) (latlng_displacement_km s) in
  map (fun p => mkPoint x_km y_km (np_clip p (min_pressure_pa s) (max_pressure_pa s))
                        (time_position s elapsed)) pressures.

(** get_forecast: 70-94.  The field is [None] before the first reset. *)
Definition grid_forecast (s : field_shape) (fd : option field) (x y pressure : R)
    (elapsed : Z) : option wind :=
  match fd with
  | None => None
  | Some fd =>
      match interpn s fd (prepare s x y [pressure] elapsed) with
      | Some (uv :: _) => Some uv
      | _ => None
      end
  end.
(** get_forecast_column: 96-132; result i is row i of the interpolation. *)
Definition grid_forecast_column (s : field_shape) (fd : option field) (x y : R)
    (pressures : list R) (elapsed : Z) : option (list wind) :=
  match fd with
  | None => None
  | Some fd => interpn s fd (prepare s x y pressures elapsed)
  end.

(** ** Wind noise: simplex_wind_noise.py *)
(** HarmonicParameters: 30-37, and the tables 49-64. *)
Record harmonic_params := mkH {
  weight : R; x_spacing : R; y_spacing : R; pressure_spacing : R; time_spacing : R
}.
(** _U_COMPONENT_HARMONICS: simplex_wind_noise.py:50-56. *)
Definition U_HARMONICS : list harmonic_params :=
  [ mkH 0.1445 702.269 2116.987 2587.802 245;
    mkH 0.2766 1483.570 752.124 646.208 16.39;
    mkH 0.2627 276.810 147.040 587.702 3.836;
    mkH 0.2137 10214.525 1512.216 965.629 41.780;
    mkH 0.1025 181.286 420.942 8500 245 ].
(** _V_COMPONENT_HARMONICS: simplex_wind_noise.py:58-64. *)
Definition V_HARMONICS : list harmonic_params :=
  [ mkH 0.2716 1974.228 2028.814 713.697 26.435;
    mkH 0.2684 699.738 541.845 632.116 9.530;
    mkH 0.2348 217.750 196.522 686.825 3.546;
    mkH 0.1186 47.500 43.048 66.553 8.424;
    mkH 0.1066 3663.291 232.023 7499.741 225 ].
(** NOISE_MAGNITUDE: 69, 76. *)
Definition NOISE_MAGNITUDE : R := sqrt (1.02 / 0.0569).

Section Noise.
Context (P : prng).
(** OpenSimplex(seed).noise4d: a library, an oracle. *)
Context (noise4d : Z -> R -> R -> R -> R -> R).

(** NoisyWindHarmonic: 82-146.  State: the generator's seed and the offsets,
    absent before the first reset. *)
Record simplex_offset := mkOff { off_x : R; off_y : R; off_pressure : R; off_time : R }.
(** The attributes of NoisyWindHarmonic: simplex_wind_noise.py:85-96. *)
Record harmonic := mkHarm { params : harmonic_params; generator : option (Z * simplex_offset) }.
(** NoisyWindHarmonic.__init__: simplex_wind_noise.py:85-96. *)
Definition new_harmonic (p : harmonic_params) : harmonic := mkHarm p None.

(** reset: 98-114. *)
Definition harmonic_reset (h : harmonic) (k : key P) : harmonic :=
  let wind_seed := choice P k 1634753849 in
  let t i := uniforms P k 4 i * 2 - 1 in
  mkHarm (params h) (Some (wind_seed, mkOff (t 0%nat) (t 1%nat) (t 2%nat) (t 3%nat))).

(** get_noise: 116-146. *)
Definition harmonic_noise (h : harmonic) (x y pressure : R) (elapsed : Z) : option R :=
  match generator h with
  | None => None
  | Some (seed, off) =>
      Some (NOISE_MAGNITUDE *
            noise4d seed
              (x / 1000 / x_spacing (params h) + off_x off)
              (y / 1000 / y_spacing (params h) + off_y off)
              (pressure / pressure_spacing (params h) + off_pressure off)
              (hours elapsed / time_spacing (params h) + off_time off))
  end.

(** NoisyWindComponent: 149-211.  __init__: 152-171, for the harmonics that its
    argument selects ('u': U_HARMONICS, 'v': V_HARMONICS; the RuntimeError for other
    arguments is not modelled, SimplexWindNoise passes these two). *)
Definition component := list harmonic.
(** NoisyWindComponent.__init__: simplex_wind_noise.py:152-171. *)
Definition new_component (hs : list harmonic_params) : component := map new_harmonic hs.
(** reset: 173-178; zip of the keys and the harmonics. *)
Fixpoint reset_from (k : key P) (n i : nat) (hs : list harmonic) : list harmonic :=
  match hs with
  | [] => []
  | h :: hs' => harmonic_reset h (split P k n i) :: reset_from k n (S i) hs'
  end.
(** NoisyWindComponent.reset: simplex_wind_noise.py:173-178. *)
Definition component_reset (c : component) (k : key P) : component :=
  reset_from k (length c) 0 c.
(** get_noise: 180-211, the loop 200-204 then 207-208. *)
Fixpoint noise_loop (hs : list harmonic) (x y pressure : R) (elapsed : Z)
    (weighted total total_squared : R) : option (R * R * R) :=
  match hs with
  | [] => Some (weighted, total, total_squared)
  | h :: hs' =>
      match harmonic_noise h x y pressure elapsed with
      | None => None
      | Some noise =>
          noise_loop hs' x y pressure elapsed
            (weighted + noise * weight (params h))
            (total + weight (params h))
            (total_squared + weight (params h) ^ 2)
      end
  end.
(** NoisyWindComponent.get_noise: simplex_wind_noise.py:180-211. *)
Definition component_noise (c : component) (x y pressure : R) (elapsed : Z) : option R :=
  match noise_loop c x y pressure elapsed 0 0 0 with
  | None => None
  | Some (weighted, total, total_squared) =>
      Some (weighted / total * sqrt (total / total_squared))
  end.

(** SimplexWindNoise: wind_field.py:188-218. *)
Record noise_model := mkNoise { noise_u : component; noise_v : component }.
(** __init__: wind_field.py:191-193. *)
Definition new_noise_model : noise_model :=
  mkNoise (new_component U_HARMONICS) (new_component V_HARMONICS).
(** reset_wind_noise: wind_field.py:195-207. *)
Definition noise_reset (m : noise_model) (k : key P) : noise_model :=
  mkNoise (component_reset (noise_u m) (split P k 2 0))
          (component_reset (noise_v m) (split P k 2 1)).
(** get_wind_noise: wind_field.py:209-218. *)
Definition wind_noise (m : noise_model) (x y pressure : R) (elapsed : Z) : option wind :=
  match component_noise (noise_u m) x y pressure elapsed,
        component_noise (noise_v m) x y pressure elapsed with
  | Some a, Some b => Some (mkWind a b)
  | _, _ => None
  end.

(** ** WindField: wind_field.py:54-145, for any forecast implementation *)
(** A forecast implementation: its state after reset_forecast(key, date_time),
    and its get_forecast. *)
Record forecaster := mkForecaster {
  fstate : Type;
  reset_forecast : key P -> Z -> fstate;
  get_forecast : option fstate -> R -> R -> R -> Z -> option wind
}.
(** The two implementations (the sampler of the grid field is an oracle). *)
Definition static_field : forecaster :=
  mkForecaster unit (fun _ _ => tt) (fun _ _ _ p _ => Some (static_forecast p)).
(** GridBasedWindField: grid_based_wind_field.py:29-187. *)
Definition grid_field (s : field_shape) (sample_field : key P -> Z -> field) : forecaster :=
  mkForecaster field sample_field (grid_forecast s).

(** The attributes of WindField: wind_field.py:58-59. *)
Record wind_field (F : forecaster) := mkWF { forecast_state : option (fstate F); noise : noise_model }.
(** WindField.__init__: wind_field.py:58-59. *)
Definition new_wind_field (F : forecaster) : wind_field F := mkWF F None new_noise_model.
(** reset: 113-123. *)
Definition wind_reset (F : forecaster) (w : wind_field F) (k : key P) (date_time : Z) : wind_field F :=
  mkWF F (Some (reset_forecast F (split P k 2 1) date_time))
         (noise_reset (noise F w) (split P k 2 0)).
(** get_forecast through the object; the default get_forecast_column: 89-111. *)
Definition forecast (F : forecaster) (w : wind_field F) := get_forecast F (forecast_state F w).
(** Helper: a list comprehension raises if one of its elements does. *)
Fixpoint all_some {A} (l : list (option A)) : option (list A) :=
  match l with
  | [] => Some []
  | Some a :: l' => match all_some l' with Some r => Some (a :: r) | None => None end
  | None :: _ => None
  end.
(** WindField.get_forecast_column: wind_field.py:89-111. *)
Definition default_forecast_column (F : forecaster) (w : wind_field F) (x y : R)
    (pressures : list R) (elapsed : Z) : option (list wind) :=
  all_some (map (fun p => forecast F w x y p elapsed) pressures).
(** get_ground_truth: 125-145. *)
Definition ground_truth (F : forecaster) (w : wind_field F) (x y pressure : R)
    (elapsed : Z) : option wind :=
  match forecast F w x y pressure elapsed with
  | None => None
  | Some f =>
      match wind_noise (noise F w) x y pressure elapsed with
      | None => None
      | Some n => Some (wind_add f n)
      end
  end.
End Noise.
