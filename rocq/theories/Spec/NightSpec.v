(** Nights and the energy they take: definitions used only to *state* properties. *)
From Coq Require Import ZArith Reals.
From Verif Require Import Model.Num Model.Safety Model.Balloon.
From Verif Require Import Spec.SafetySpec.
Open Scope R_scope.

(** By the forecast of its power layer the balloon is in the night that ends at [dawn]
    (half an hour after a sunrise): no sunset comes before it. *)
Definition night_until (dawn : Z) (s : bstate R) : Prop :=
  let sunrise30 := pow_sunrise_h (power_layer s) in
  let sunset := pow_sunset (power_layer s) in
  next_occurrence sunrise30 (date_time s) dawn /\ ~ is_day sunrise30 sunset (date_time s).

(** Watt-hours that the 183.7 W of the night load take from [now] to [dawn]. *)
Definition night_energy (now dawn : Z) : R := 183.7 * (IZR (dawn - now) / 1000000 / 3600).
