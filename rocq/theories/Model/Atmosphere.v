(** Model of env/balloon/standard_atmosphere.py over the real numbers.
    Paths are relative to /repo/balloon_learning_environment/.  Rounding is not
    modelled.  [x ** y] on a positive base is [Rpower]; the theorems show that
    every base is positive. *)
From Coq Require Import Reals List Bool.
From Verif Require Import Model.Num.
Import ListNotations.
Open Scope R_scope.

(** utils/constants.py:23-30. *)
Definition A_GRAVITY : R := 9.80665.
(** The specific gas constant, UNIVERSAL_GAS_CONSTANT / DRY_AIR_MOLAR_MASS: constants.py:26-27.
    *)
Definition A_GAS : R := 8.3144621 / 0.028964922481160.

(** AtmosphericValues: standard_atmosphere.py:51-57. *)
Record values := mkV { v_height : R; v_temperature : R; v_pressure : R; v_density : R }.

(** _HEIGHT_TRANSITIONS, _LAPSE_RATES_LOW, _LAPSE_RATES_HIGH:
    standard_atmosphere.py:66-71. *)
Definition HEIGHT_TRANSITIONS : list R :=
  [-610; 17000; 21000; 32000; 47000; 51000; 71000; 85000].
(** _LAPSE_RATES_LOW: standard_atmosphere.py:68-69. *)
Definition LAPSE_RATES_LOW : list R :=
  [-0.007; 0.006; 0.001; 0.0028; 0; -0.0028; -0.002].
(** _LAPSE_RATES_HIGH: standard_atmosphere.py:70-71. *)
Definition LAPSE_RATES_HIGH : list R :=
  [-0.0058; 0.005; 0.001; 0.0028; 0; -0.0028; -0.002].

(** The lapse rates mixed by reset, for the uniform draw alpha:
    standard_atmosphere.py:82-84. *)
Definition mix_lapse_rates (alpha : R) : list R :=
  map (fun lh => (1 - alpha) * fst lh + alpha * snd lh)
      (combine LAPSE_RATES_LOW LAPSE_RATES_HIGH).

(** _pressure_for_constant_temperature: standard_atmosphere.py:185-192. *)
Definition pressure_for_constant_temperature (dh temp p0 : R) : R :=
  p0 * exp (- (A_GRAVITY * dh) / (A_GAS * temp)).

(** _pressure_for_linear_temperature: standard_atmosphere.py:194-202. *)
Definition pressure_for_linear_temperature (ratio lapse p0 : R) : R :=
  p0 * Rpower ratio (- A_GRAVITY / (A_GAS * lapse)).

(** _initialize_temperature_transitions: standard_atmosphere.py:156-162.  The
    entries after [t]. *)
Fixpoint temperature_transitions (t : R) (hs ls : list R) : list R :=
  match hs, ls with
  | h0 :: ((h1 :: _) as hs'), l :: ls' =>
      let t1 := t + l * (h1 - h0) in
      t :: temperature_transitions t1 hs' ls'
  | _, _ => [t]
  end.

(** _initialize_pressure_transitions: standard_atmosphere.py:164-183. *)
Fixpoint pressure_transitions (p : R) (hs ls ts : list R) : list R :=
  match hs, ls, ts with
  | h0 :: ((h1 :: _) as hs'), l :: ls', t0 :: ((t1 :: _) as ts') =>
      let p1 :=
        if Reqb l 0 then pressure_for_constant_temperature (h1 - h0) t1 p
        else pressure_for_linear_temperature (t1 / t0) l p in
      p :: pressure_transitions p1 hs' ls' ts'
  | _, _, _ => [p]
  end.

(** The attributes of an Atmosphere after reset: standard_atmosphere.py:76-87. *)
Record atmosphere := mkAtm {
  lapse_rates : list R;
  temp_transitions : list R;
  press_transitions : list R
}.

(** reset: standard_atmosphere.py:76-87. *)
Definition atmosphere_reset (alpha : R) : atmosphere :=
  let ls := mix_lapse_rates alpha in
  let ts := temperature_transitions 300 HEIGHT_TRANSITIONS ls in
  mkAtm ls ts (pressure_transitions 108870.8213 HEIGHT_TRANSITIONS ls ts).

(** The loop of at_height: standard_atmosphere.py:99-116; result (temperature,
    pressure), the initial (0, 0) if no layer matches. *)
Fixpoint at_height_loop (hs ls ts ps : list R) (height : R) : R * R :=
  match hs, ls, ts, ps with
  | h0 :: ((h1 :: _) as hs'), l :: ls', t0 :: ts', p0 :: ps' =>
      if Rltb height h1 then
        let temperature := t0 + l * (height - h0) in
        (temperature,
         if Reqb l 0
         then pressure_for_constant_temperature (height - h0) temperature p0
         else pressure_for_linear_temperature (temperature / t0) l p0)
      else at_height_loop hs' ls' ts' ps' height
  | _, _, _, _ => (0, 0)
  end.

(** The loop of at_pressure: standard_atmosphere.py:130-150; result (height,
    temperature). *)
Fixpoint at_pressure_loop (hs ls ts ps : list R) (pressure : R) : R * R :=
  match hs, ls, ts, ps with
  | h0 :: hs', l :: ls', t0 :: ts', p0 :: ((p1 :: _) as ps') =>
      if Rltb p1 pressure then
        let height :=
          if Reqb l 0
          then (- A_GAS * t0 / A_GRAVITY) * ln (pressure / p0) + h0
          else (Rpower (pressure / p0) (- A_GAS * l / A_GRAVITY) - 1) * t0 / l + h0 in
        (height, t0 + l * (height - h0))
      else at_pressure_loop hs' ls' ts' ps' pressure
  | _, _, _, _ => (0, 0)
  end.

(** at_height: standard_atmosphere.py:89-120.  [None]: an assertion failed. *)
Definition at_height (a : atmosphere) (height : R) : option values :=
  if negb (Rleb (hd 0 HEIGHT_TRANSITIONS) height) then None
  else if negb (Rltb height (last HEIGHT_TRANSITIONS 0)) then None
  else
    let '(temperature, pressure) :=
      at_height_loop HEIGHT_TRANSITIONS (lapse_rates a) (temp_transitions a)
        (press_transitions a) height in
    Some (mkV height temperature pressure (pressure / (A_GAS * temperature))).

(** at_pressure: standard_atmosphere.py:122-154. *)
Definition at_pressure (a : atmosphere) (pressure : R) : option values :=
  if negb (Rltb (last (press_transitions a) 0) pressure) then None
  else if negb (Rleb pressure (hd 0 (press_transitions a))) then None
  else
    let '(height, temperature) :=
      at_pressure_loop HEIGHT_TRANSITIONS (lapse_rates a) (temp_transitions a)
        (press_transitions a) pressure in
    Some (mkV height temperature pressure (pressure / (A_GAS * temperature))).
