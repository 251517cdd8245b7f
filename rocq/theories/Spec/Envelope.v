(** Physics of a superpressure envelope: ideal gas inside, linear elasticity. *)
From Coq Require Import Reals.
Open Scope R_scope.

(** Universal gas constant, J/(mol K). *)
Definition gas_constant : R := 8.3144621.

(** [V] and [sp] are volume and superpressure of an envelope of base volume
    [V0] and elasticity [dv] (m^3/Pa) holding [n] mols of gas at temperature
    [temp], in ambient pressure [p]:
    - slack: the gas at ambient pressure fits in the base volume; or
    - taut: the gas law holds at the pressure p + sp, and the envelope is
      stretched by dv * sp beyond V0. *)
Definition envelope_law (n temp p V0 dv V sp : R) : Prop :=
  (V <= V0 /\ sp = 0 /\ p * V = n * gas_constant * temp) \/
  (V0 < V /\ 0 < sp /\ V = V0 + dv * sp /\ (p + sp) * V = n * gas_constant * temp).
