(** What a user expects of an atmosphere: a temperature profile made of linear
    pieces, and air in hydrostatic equilibrium.  No reference to the model. *)
From Coq Require Import Reals List.
Import ListNotations.
Open Scope R_scope.

(** (bottom, top, lapse rate in K/m at alpha = 0, at alpha = 1). *)
Definition layers : list (R * R * R * R) :=
  [ (-610, 17000, -0.007, -0.0058);
    (17000, 21000, 0.006, 0.005);
    (21000, 32000, 0.001, 0.001);
    (32000, 47000, 0.0028, 0.0028);
    (47000, 51000, 0, 0);
    (51000, 71000, -0.0028, -0.0028);
    (71000, 85000, -0.002, -0.002) ].

(** Degrees gained between the bottom of a layer and height [h], for the part of
    the layer that lies below [h]. *)
Definition gained (alpha h : R) (l : R * R * R * R) : R :=
  let '(bottom, top, low, high) := l in
  (low + alpha * (high - low)) * (Rmin h top - Rmin h bottom).

(** 300 K at -610 m, then the lapse rate of every layer crossed. *)
Definition temperature_profile (alpha h : R) : R :=
  300 + fold_right Rplus 0 (map (gained alpha h) layers).

(** Ideal gas: g / (R_specific), with R_specific = R / M_air. *)
Definition specific_gas_constant : R := 8.3144621 / 0.028964922481160.
Definition gravity : R := 9.80665.

(** [P] satisfies dP/dh = - rho g with rho = P / (R_specific T) at [h]. *)
Definition hydrostatic_at (P T : R -> R) (h : R) : Prop :=
  derivable_pt_lim P h (- (P h / (specific_gas_constant * T h)) * gravity).
