(** The physics the thermal model claims, independently of its code. *)
From Coq Require Import Reals.
Open Scope R_scope.

(** Stefan-Boltzmann law, W/m^2 at T kelvin. *)
Definition radiated (T : R) : R := 5.6704 / 10 ^ 8 * T ^ 4.

(** Radiation entering a film sphere is partly absorbed (a), partly reflected
    (r); the rest is transmitted inside, where it meets the film again and again.
    [x] is the total absorbed over infinitely many encounters. *)
Definition absorbed_within (a r : R) (n : nat) : R :=
  a + (1 - a - r) * a * sum_f_R0 (fun i => r ^ i) n.
Definition total_absorbed (a r x : R) : Prop := Un_cv (absorbed_within a r) x.

(** Infrared absorptivity of the film: linear in temperature. *)
Definition film_ir (T : R) : R := 0.04587 + 0.000232 * (T - 210).
Definition film_reflectivity : R := 0.0291.
Definition film_solar : R := 0.01435.

(** Convection around a sphere of diameter [D] whose skin is [d] kelvin away from
    air of temperature [T] and pressure [p]: Sutherland's law for the viscosity,
    the ideal gas law for the density, and the Nusselt number as a function of
    the Rayleigh number.  W/(m^2 K). *)
Definition root (x y : R) : R := if Req_EM_T x 0 then 0 else Rpower x y.
Definition air_viscosity (T : R) : R := 1.458 / 10 ^ 6 * root T (3 / 2) / (T + 110.4).
Definition air_conductivity (T : R) : R := 0.0241 * root (T / 273.15) (9 / 10).
Definition air_prandtl (T : R) : R := 0.804 - 0.000325 * T.
Definition dry_air_density (T p : R) : R := p * 0.028964922481160 / (8.3144621 * T).
Definition grashof_number (D T p d : R) : R :=
  9.80665 * dry_air_density T p ^ 2 * D ^ 3 * d / (T * air_viscosity T ^ 2).
Definition rayleigh_number (D T p d : R) : R := air_prandtl T * grashof_number D T p d.
Definition nusselt_number (ra : R) : R :=
  2 + 0.457 * root ra (1 / 4) + root (1 + 2.69 / 10 ^ 8 * ra) (1 / 12).
Definition convection (D T p d : R) : R :=
  nusselt_number (rayleigh_number D T p d) * air_conductivity T / D.
