(** An ideal sun, for stating what the searches of solar.py find: the elevation
    is a strictly increasing function of the time to the nearest midnight, and
    midnights are 24 hours apart.  Times are microseconds. *)
From Coq Require Import ZArith Reals.
Open Scope Z_scope.

Definition half_day : Z := 12 * 3600 * 1000000.
Definition one_day : Z := 24 * 3600 * 1000000.

Definition increasing_to (h : Z -> R) (top : Z) : Prop :=
  forall a b, 0 <= a < b -> b <= top -> (h a < h b)%R.

Definition ideal_sun (el : Z -> R) (midnight : Z) : Prop :=
  exists h, increasing_to h half_day /\
    forall t k, Z.abs (t - (midnight + k * one_day)) <= half_day ->
      el t = h (Z.abs (t - (midnight + k * one_day))).
