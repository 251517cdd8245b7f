(** Specification of the safety layers, in terms of histories of readings.
    No state machine appears here. *)
From Coq Require Import ZArith Reals List.
From Verif Require Import Model.Num Model.Safety Model.Balloon Spec.Flight.
Import ListNotations.
Open Scope R_scope.

(** Aggressiveness order: DOWN < STAY < UP. *)
Definition rank (a : command) : nat :=
  match a with DOWN => 0 | STAY => 1 | UP => 2 end%nat.

(** Replace a descent by holding; leave anything else alone. *)
Definition no_descent (a : command) : command :=
  match a with DOWN => STAY | STAY => STAY | UP => UP end.

(** Some reading of the history was below [enter], and no later one reached
    [leave]. *)
Definition still_low (enter leave : R) (history : list R) : Prop :=
  exists before r after,
    history = before ++ r :: after /\ r < enter /\
    Forall (fun q => q < leave) after.

(** Mirror image. *)
Definition still_high (enter leave : R) (history : list R) : Prop :=
  exists before r after,
    history = before ++ r :: after /\ enter <= r /\
    Forall (fun q => leave <= q) after.

Definition feet (metres : R) : R := metres / 0.3048.

(** Altitude rule: [earlier] are the altitudes (metres) at the beginning of the
    previous steps, [h] the current one, [a] the command arriving at the layer,
    [out] the command leaving it. *)
Definition altitude_rule (earlier : list R) (h : R) (a out : command) : Prop :=
  let history := map feet (earlier ++ [h]) in
  (feet h < 50000 -> out = UP) /\
  (50000 <= feet h -> still_low 50500 51000 history -> out = no_descent a) /\
  (50000 <= feet h -> ~ still_low 50500 51000 history -> out = a).

(** Envelope rule, pascals. *)
Definition envelope_rule (max : R) (earlier : list R) (sp : R)
    (a out : command) : Prop :=
  let history := earlier ++ [sp] in
  let near_a_limit := still_low 250 300 history \/
                      still_high (max - 250) (max - 300) history in
  (sp < 150 \/ max - 150 <= sp -> out = UP) /\
  (150 <= sp < max - 150 -> near_a_limit -> out = no_descent a) /\
  (150 <= sp < max - 150 -> ~ near_a_limit -> out = a).

(** ** Power *)

Definition day_us : Z := 24 * 3600 * 1000000.

(** [t] is the first instant at or after [now] of the daily event one of whose
    occurrences is [t0], never before [t0]. *)
Definition next_occurrence (t0 now t : Z) : Prop :=
  (now <= t)%Z /\ (exists k, (0 <= k)%Z /\ t = (t0 + k * day_us)%Z) /\
  (forall k, (0 <= k)%Z -> (now <= t0 + k * day_us)%Z ->
             (t <= t0 + k * day_us)%Z).

(** What the power layer is told at one step. *)
Record power_reading := mkPR {
  pr_now : Z;              (* microseconds *)
  pr_night_load : R;       (* W *)
  pr_charge : R;           (* Wh *)
  pr_capacity : R          (* Wh *)
}.

(** The reading of a flight leg. *)
Definition leg_power (l : leg R) : power_reading :=
  let s := fst (fst l) in
  mkPR (date_time s) (nighttime_power_load s) (battery_charge s)
       (battery_capacity s).

(** It is day when the next sunset comes before the next (sunrise + 30 min). *)
Definition is_day (sunrise30 sunset now : Z) : Prop :=
  exists r s, next_occurrence sunrise30 now r /\ next_occurrence sunset now s /\
              (s < r)%Z.

(** Charge left, as a fraction of capacity, at the next sunrise + 30 min if the
    balloon only runs its night load until then. *)
Definition projected_below (sunrise30 : Z) (p : power_reading) (lim : R)
  : Prop :=
  exists r, next_occurrence sunrise30 (pr_now p) r /\
    (pr_charge p - pr_night_load p * (IZR (r - pr_now p) / 1000000 / 3600))
    / pr_capacity p < lim.

(** A reading that makes the layer pause / resume. *)
Definition pause_trigger (sunrise30 sunset : Z) (p : power_reading) : Prop :=
  ~ is_day sunrise30 sunset (pr_now p) /\ projected_below sunrise30 p 0.025.
Definition resume_trigger (sunrise30 sunset : Z) (p : power_reading) : Prop :=
  is_day sunrise30 sunset (pr_now p) /\
  ~ (pr_charge p / pr_capacity p < 0.05).

(** Paused: some reading triggered a pause and none since triggered a resume. *)
Definition power_paused (sunrise30 sunset : Z) (history : list power_reading)
  : Prop :=
  exists before p after,
    history = before ++ p :: after /\ pause_trigger sunrise30 sunset p /\
    Forall (fun q => ~ resume_trigger sunrise30 sunset q) after.

Definition power_rule (sunrise30 sunset : Z) (earlier : list power_reading)
    (p : power_reading) (a out : command) : Prop :=
  let history := earlier ++ [p] in
  (power_paused sunrise30 sunset history -> out = no_descent a) /\
  (~ power_paused sunrise30 sunset history -> out = a).
