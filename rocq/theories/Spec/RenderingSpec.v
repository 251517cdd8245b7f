(** What the pictures of a flight should show (property C86). *)
From Coq Require Import ZArith Reals List.
From Verif Require Import Model.Num Model.Prng Model.Balloon Model.Atmosphere Model.Env.
Import ListNotations.
Open Scope R_scope.

(** Steps of an environment, one after another, and their answers. *)
Fixpoint steps {E A : Type} (step : E -> Z -> E * A) (e : E) (actions : list Z) : E * list A :=
  match actions with
  | [] => (e, [])
  | a :: rest =>
      let '(e, answer) := step e a in
      let '(e, answers) := steps step e rest in (e, answer :: answers)
  end.
(** The states of the balloon after each of the steps that returned. *)
Fixpoint states_after {E A : Type} (step : E -> Z -> E * result A) (balloon : E -> option (bstate R)) (e : E)
    (actions : list Z) : list (bstate R) :=
  match actions with
  | [] => []
  | a :: rest =>
      let '(e, answer) := step e a in
      match answer, balloon e with
      | Returned _, Some s => s :: states_after step balloon e rest
      | _, _ => states_after step balloon e rest
      end
  end.

(** Where a balloon is, in kilometres east and north of the station and of altitude. *)
Definition at_point (atm : atmosphere) (s : bstate R) (p : R * R * R) : Prop :=
  exists v, Atmosphere.at_pressure atm (pressure s) = Some v /\
    p = (x s / 1000, y s / 1000, v_height v / 1000).
(** The time and the charge of its battery in percent. *)
Definition power_point (s : bstate R) : Z * R := (date_time s, 100 * (battery_charge s / battery_capacity s)).
