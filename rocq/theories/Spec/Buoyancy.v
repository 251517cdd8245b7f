(** Vertical motion: Archimedes and terminal velocity. *)
From Coq Require Import Reals.
From Verif Require Import Spec.Envelope.
Open Scope R_scope.

(** kg/mol, m/s^2 *)
Definition air_molar_mass : R := 0.028964922481160.
Definition helium_molar_mass : R := 0.004002602.
Definition g : R := 9.80665.

(** Ideal-gas density of dry air. *)
Definition air_density (p temp : R) : R := p * air_molar_mass / (gas_constant * temp).

Definition displaced_mass (p temp V : R) : R := air_density p temp * V.
Definition total_mass (n_helium n_air envelope payload : R) : R :=
  helium_molar_mass * n_helium + air_molar_mass * n_air + envelope + payload.

(** Speed at which drag balances the excess (or lack) of buoyancy. *)
Definition terminal_speed (rho cod V force v : R) : Prop :=
  0 <= v /\ rho * (cod * Rpower V (2 / 3)) * (v * v) / 2 = Rabs force.
