(** The equations of motion of the published balloon (1804 m^3, 68.5 kg envelope, 92.5 kg
    payload, 6830 mol of helium), integrated by explicit Euler steps of ten seconds:
    every rate is taken at the beginning of the step.  Written down independently of the
    simulator; only used to *state* properties. *)
From Coq Require Import ZArith Reals.
From Verif Require Import Spec.Envelope Spec.Buoyancy Spec.ThermalSpec Spec.TablesSpec.
Open Scope R_scope.

Record condition := mkCondition {
  instant : Z;              (* microseconds *)
  east : R; north : R;      (* metres from the station *)
  air_pressure : R;         (* Pa *)
  air_temperature : R;      (* K *)
  gas_temperature : R;      (* K *)
  ballast : R;              (* mol of air inside *)
  volume : R;               (* m^3 *)
  overpressure : R;         (* Pa *)
  energy : R;               (* Wh in the battery *)
  charging : R; load : R    (* W *)
}.

(** What the altitude control system does. *)
Inductive control := vent | hold | pump.

(** Share of the sunlight that reaches the balloon; none below -4.242 degrees. *)
Definition air_mass (el p : R) : R :=
  let s := 614 * sin (el * PI / 180) in
  0.34764 * (p / 101325) * (sqrt (1229 + s ^ 2) - s).
Definition sunlight (el p : R) : R :=
  if Rlt_dec el (-4.242) then 0
  else (exp (- 0.65 * air_mass el p) + exp (- 0.95 * air_mass el p)) / 2.
(** Panels hanging [h] metres below the envelope lose 56.08% when the sun is so high that
    it stands behind the envelope. *)
Definition shading (el h : R) : R :=
  if Rle_dec (atan (sqrt (h * (10.41603 + h)) / 8.69275) * 180 / PI) el then 0.4392 else 1.
(** Six panels of 210 W: four at 35 degrees, two at 65 degrees. *)
Definition panel_power (el p : R) : R :=
  210 * sunlight el p * (4 * cos ((el - 35) * PI / 180) * shading el 3.3
                         + 2 * cos ((el - 65) * PI / 180) * shading el 2.7).

(** Fan efficiency at pressure ratio [r] and power [w]: bilinear interpolation of the
    published grid, with the arguments clamped to it. *)
Definition fan_efficiency (r w e : R) : Prop :=
  exists i j, (i < 12)%nat /\ (j < 3)%nat /\
  let a := (Rmax 1.05 (Rmin 1.35 r) - (1.05 + 0.025 * INR i)) / 0.025 in
  let b := (Rmax 100 (Rmin 400 w) - (100 + 100 * INR j)) / 100 in
  0 <= a <= 1 /\ 0 <= b <= 1 /\
  e = (1 - b) * ((1 - a) * efficiency_at i j + a * efficiency_at (S i) j)
      + b * ((1 - a) * efficiency_at i (S j) + a * efficiency_at (S i) (S j)).

(** Air flow into the ballonet (kg/s) and electric power (W): orifice flow through the
    4 cm valve when venting, the fan at its most efficient power when pumping. *)
Definition air_flow (c : control) (s : condition) (flow watts : R) : Prop :=
  match c with
  | hold => flow = 0 /\ watts = 0
  | vent =>
      watts = 0 /\
      flow = - (0.62 * (PI * 0.02 ^ 2) *
        sqrt (2 * overpressure s * ((overpressure s + air_pressure s) * air_molar_mass
                                    / (gas_constant * gas_temperature s))))
  | pump =>
      let ratio := (air_pressure s + Rmax (overpressure s) 0) / air_pressure s in
      watts = efficient_power ratio /\
      exists e, fan_efficiency ratio watts e /\ flow = e * watts / 3600
  end.

Section Step.
(** Height and temperature at a pressure; elevation (degrees) and flux (W/m^2) of the sun
    at a position and time; upwelling infrared radiation (W/m^2); the wind (m/s). *)
Context (profile : R -> option (R * R)) (sun_at : R -> R -> Z -> R * R) (infrared wind_u wind_v : R).

(** Vertical motion: terminal speed up or down, as a change of pressure by the slope of
    the profile over 1 Pa. *)
Definition vertical (s s' : condition) : Prop :=
  let p := air_pressure s in
  let rho := air_density p (air_temperature s) in
  let lift := displaced_mass p (air_temperature s) (volume s) - total_mass 6830 (ballast s) 68.5 92.5 in
  let dir := if Rle_dec 0 lift then 1 else -1 in
  exists v h0 t0 h1 t1,
    terminal_speed rho 0.25 (volume s) (lift * g) v /\
    profile p = Some (h0, t0) /\ profile (p + dir) = Some (h1, t1) /\
    air_pressure s' = p + dir / (h1 - h0) * (dir * v) * 10 /\
    air_temperature s' = t0.

(** Heat balance of the film: sunlight, infrared radiation of the Earth, convection,
    minus its own radiation. *)
Definition heating (s s' : condition) : Prop :=
  let '(el, flux) := sun_at (east s) (north s) (instant s) in
  exists radius earth_temperature sun_share earth_share own_share,
    4 / 3 * PI * radius ^ 3 = volume s /\ 0 < radius /\
    radiated earth_temperature = infrared /\
    total_absorbed film_solar film_reflectivity sun_share /\
    total_absorbed (film_ir earth_temperature) film_reflectivity earth_share /\
    total_absorbed (film_ir (gas_temperature s)) film_reflectivity own_share /\
    1500 * 68.5 * (gas_temperature s' - gas_temperature s) =
    10 * (4 * PI * radius ^ 2) *
      (0.25 * flux * sunlight el (air_pressure s) * sun_share
       + 0.4605 * infrared * earth_share
       + convection (2 * radius) (air_temperature s) (air_pressure s)
           (Rabs (air_temperature s - gas_temperature s)) * (air_temperature s - gas_temperature s)
       - radiated (gas_temperature s) * own_share).

Definition ten_seconds (c : control) (s s' : condition) : Prop :=
  instant s' = (instant s + 10 * 1000000)%Z /\
  east s' = east s + wind_u * 10 /\ north s' = north s + wind_v * 10 /\
  vertical s s' /\ heating s s' /\
  envelope_law (6830 + ballast s) (gas_temperature s) (air_pressure s) 1804 0.0199 (volume s') (overpressure s') /\
  exists flow watts,
    air_flow c s flow watts /\
    ballast s' = Rmax (ballast s + flow / air_molar_mass * 10) 0 /\
    let el := fst (sun_at (east s) (north s) (instant s)) in
    charging s' = (if Rlt_dec (-4.242) el then panel_power el (air_pressure s) else 0) /\
    load s' = (if Rlt_dec (-4.242) el then 120.4 else 183.7) + watts /\
    energy s' = Rmin (Rmax (energy s + (charging s' - load s') * (10 / 3600)) 0) 3058.56.
End Step.
