(** Model of env/balloon/thermal.py over the reals (paths relative to
    /repo/balloon_learning_environment/).  [None]: an exception, or a power of a
    negative number, which is not a float. *)
From Coq Require Import Reals Bool.
From Verif Require Import Model.Num Model.Solar.
Open Scope R_scope.

(** thermal.py:28-49. *)
Definition SOLAR_VIEW_FACTOR : R := 0.25.
(** _EARTH_VIEW_FACTOR: thermal.py:29. *)
Definition EARTH_VIEW_FACTOR : R := 0.4605.
(** _PE01_REFLECTIVITY: thermal.py:40. *)
Definition PE01_REFLECTIVITY : R := 0.0291.
(** _PE01_ABSORPTIVITY_SOLAR: thermal.py:41. *)
Definition PE01_ABSORPTIVITY_SOLAR : R := 0.01435.
(** _PE01_ABSORPTIVITY_IR_BASE: thermal.py:42. *)
Definition PE01_ABSORPTIVITY_IR_BASE : R := 0.04587.
(** _PE01_ABSORPTIVITY_IR_D_TEMPERATURE: thermal.py:43. *)
Definition PE01_ABSORPTIVITY_IR_D_TEMPERATURE : R := 0.000232.
(** _PE01_ABSORPTIVITY_IR_REF_TEMPERATURE: thermal.py:44. *)
Definition PE01_ABSORPTIVITY_IR_REF_TEMPERATURE : R := 210.
(** _PE01_FILM_SPECIFIC_HEAT: thermal.py:45. *)
Definition PE01_FILM_SPECIFIC_HEAT : R := 1500.
(** _STEFAN_BOLTZMAN: thermal.py:47. *)
Definition STEFAN_BOLTZMAN : R := 0.000000056704.
(** UNIVERSAL_GAS_CONSTANT: constants.py:26. *)
Definition T_GAS_CONSTANT : R := 8.3144621.
(** DRY_AIR_MOLAR_MASS: constants.py:27. *)
Definition T_AIR_MOLAR_MASS : R := 0.028964922481160.

(** x ** y for y > 0: the exponential formula, 0 at 0, not a float below. *)
Definition pow (x y : R) : option R :=
  if Rltb 0 x then Some (Rpower x y) else if Reqb x 0 then Some 0 else None.

(** black_body_temperature_to_flux: 52-61; black_body_flux_to_temperature: 64-73. *)
Definition black_body_temperature_to_flux (t : R) : R := STEFAN_BOLTZMAN * t ^ 4.
(** black_body_flux_to_temperature: thermal.py:64-73. *)
Definition black_body_flux_to_temperature (flux : R) : option R :=
  pow (flux / STEFAN_BOLTZMAN) 0.25.
(** absorptivity_ir: 76-89. *)
Definition absorptivity_ir (t : R) : R :=
  PE01_ABSORPTIVITY_IR_BASE
  + PE01_ABSORPTIVITY_IR_D_TEMPERATURE * (t - PE01_ABSORPTIVITY_IR_REF_TEMPERATURE).
(** total_absorptivity: 92-147; a zero divisor raises too. *)
Definition total_absorptivity (absorptivity reflectivity : R) : option R :=
  if Reqb (1 - reflectivity) 0 then None
  else
    let transmisivity := 1 - absorptivity - reflectivity in
    let factor := absorptivity * (1 + transmisivity / (1 - reflectivity)) in
    if Rltb factor 0 || Rltb 1 factor then None else Some factor.

(** convective_heat_air_factor: 150-172. *)
Definition convective_heat_air_factor (radius t ambient p : R) : option R :=
  match pow ambient 1.5, pow (ambient / 273.15) 0.9 with
  | Some amb15, Some ratio09 =>
      let viscosity := 1.458e-6 * amb15 / (ambient + 110.4) in
      let conductivity := 0.0241 * ratio09 in
      let prandtl := 0.804 - 3.25e-4 * ambient in
      let air_density := p * T_AIR_MOLAR_MASS / (T_GAS_CONSTANT * ambient) in
      let grashof :=
        (9.80665 * air_density ^ 2 * (2 * radius) ^ 3 / (ambient * viscosity ^ 2))
        * Rabs (ambient - t) in
      let rayleigh := prandtl * grashof in
      match pow rayleigh 0.25, pow (1 + 2.69e-8 * rayleigh) (1 / 12) with
      | Some ra25, Some ra12 =>
          let nusselt := 2 + 0.457 * ra25 + ra12 in
          let k := nusselt * conductivity / (2 * radius) in
          Some (k * (ambient - t))
      | _, _ => None
      end
  | _, _ => None
  end.

(** d_balloon_temperature_dt: 175-230. *)
Definition d_balloon_temperature_dt (volume mass t ambient p el solar_flux earth_flux : R) : option R :=
  match pow (3 * volume / (4 * PI)) (1 / 3),
        solar_atmospheric_attenuation el p,
        total_absorptivity PE01_ABSORPTIVITY_SOLAR PE01_REFLECTIVITY,
        black_body_flux_to_temperature earth_flux with
  | Some radius, Some attenuation, Some solar_abs, Some earth_t =>
      let area := 4 * PI * radius * radius in
      let q_solar := solar_flux * attenuation * SOLAR_VIEW_FACTOR * area * solar_abs in
      match total_absorptivity (absorptivity_ir earth_t) PE01_REFLECTIVITY,
            total_absorptivity (absorptivity_ir t) PE01_REFLECTIVITY,
            convective_heat_air_factor radius t ambient p with
      | Some earth_abs, Some emissivity, Some convective =>
          let q_earth := earth_flux * EARTH_VIEW_FACTOR * area * earth_abs in
          let q_emitted := black_body_temperature_to_flux t * area * emissivity in
          let q_convective := area * convective in
          Some ((q_solar + q_earth + q_convective - q_emitted) / (PE01_FILM_SPECIFIC_HEAT * mass))
      | _, _, _ => None
      end
  | _, _, _, _ => None
  end.
