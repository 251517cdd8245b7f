(** The random draws of a reset (balloon_arena.py and sampling.py, read once more),
    and what it means that they are independent.  Only used to *state* properties. *)
From Coq Require Import ZArith Reals List.
From Verif Require Import Model.Num Model.Prng Model.Balloon Model.Atmosphere Model.Sampling
  Model.WindField Model.Geometry Model.Env Spec.Episodes.
Import ListNotations.
Open Scope R_scope.

(** What randomness is used for at the beginning of an episode. *)
Inductive purpose :=
  LapseRates | Date | Distance | Direction | Latitude | Longitude | StartPressure | Infrared | Winds.

Section Start.
Context (P : prng) (F : forecaster P) (FC : feature_class P F).

(** The state of the arena is computed from nine keys. *)
Definition started (ks : purpose -> key P) (a : arena P F FC) : Prop :=
  a_atmosphere P F FC a = atmosphere_reset (uniform P (ks LapseRates) 0 1) /\
  exists center s floor attempts w0,
    a_balloon P F FC a = Some (center, s) /\
    date_time s = (1293840000 * 1000000 + choice P (ks Date) 126144000 * 1000000)%Z /\
    (let distance := 200000 * beta P (ks Distance) 1.2 2 in
     let direction := uniform P (ks Direction) 0 (2 * PI) in
     x s = distance * cos direction /\ y s = distance * sin direction) /\
    center = (uniform P (ks Latitude) (-10) 10 * PI / 180, uniform P (ks Longitude) (-175) 175 * PI / 180) /\
    at_height (a_atmosphere P F FC a) (50000 * 0.3048) = Some floor /\
    pressure s = uniform P (ks StartPressure) 6500 (v_pressure floor) /\
    sample_upwelling_infrared P attempts LogitNormal (ks Infrared) = Sampled (upwelling_infrared s) /\
    a_wind P F FC a = wind_reset P F w0 (ks Winds) (date_time s).

(** [below k k']: the key [k'] is [k], or derived from it by splitting. *)
Inductive below (k : key P) : key P -> Prop :=
| below_refl : below k k
| below_split k' n i : below k k' -> (i < n)%nat -> below k (split P k' n i).

(** A seed's key is not the result of a split. *)
Definition fresh_seeds : Prop := forall seed k n i, (i < n)%nat -> prng_key P seed <> split P k n i.

(** Calls that do not seed, and how many of them are resets. *)
Definition unseeded (o : op) : bool :=
  match o with Seed _ | Reset (Some _) => false | _ => true end.
Fixpoint resets (os : list op) : nat :=
  match os with [] => 0 | Reset _ :: os' => S (resets os') | _ :: os' => resets os' end.
End Start.
