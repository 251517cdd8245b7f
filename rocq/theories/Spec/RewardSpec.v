(** The documented reward (docstring of perciatelli_reward_function and the
    README), independent of the model's code: distances in kilometres. *)
From Coq Require Import Reals.
From Verif Require Import Model.Num Model.Safety Model.Balloon.
Open Scope R_scope.

(** Distance from the station in km, of a position in metres. *)
Definition distance_km (x y : R) : R := sqrt (x ^ 2 + y ^ 2) / 1000.

(** 1 inside; outside, [dropoff] at the edge, multiplied by [half] for every
    [halflife] kilometres. *)
Definition is_distance_reward (half radius dropoff halflife d r : R) : Prop :=
  (d <= radius /\ r = 1) \/
  (radius < d /\ r = dropoff * Rpower half ((d - radius) / halflife)).

(** Power regularisation: 0.95 up to 100 W, 0.65 from 300 W, linear between. *)
Definition is_power_factor (watts f : R) : Prop :=
  (watts <= 100 /\ f = 0.95) \/
  (100 <= watts <= 300 /\ f = 0.95 + (watts - 100) / (300 - 100) * (0.65 - 0.95)) \/
  (300 <= watts /\ f = 0.65).

(** The penalty applies to a descent without excess energy; energy is in excess
    when the sun covers the daytime load and the battery is above 99%. *)
Definition penalised (w : world R) (s : bstate R) : Prop :=
  last_command s = DOWN /\
  ~ (daytime_power_load s
       < solar_power_fn w (fst (sun w (x s) (y s) (date_time s))) (pressure s)
     /\ 0.99 < battery_charge s / battery_capacity s).


(** Two states with the same power situation. *)
Definition same_power (w : world R) (s s' : bstate R) : Prop :=
  (penalised w s <-> penalised w s') /\ acs_power s = acs_power s'.

