(** Model of utils/test_helpers.py, create_balloon (paths relative to
    /repo/balloon_learning_environment/), over the reals.  [None]: it raises. *)
From Coq Require Import ZArith Reals.
From RecordUpdate Require Import RecordSet.
From Verif Require Import Model.Num Model.Balloon Model.Solar Model.Atmosphere Model.StableInit Model.Env.
Import RecordSetNotations.
Open Scope R_scope.

(** START_DATE_TIME, in microseconds: utils/test_helpers.py:39. *)
Definition START_DATE_TIME : Z := (1364203532 * 1000000)%Z.

(** create_balloon: utils/test_helpers.py:96-130; LatLng.from_degrees keeps radians, and
    the answer is the balloon's center_latlng and its other fields. *)
Definition create_balloon (px py center_lat center_lng p power_percent : R)
    (time elapsed : option Z) (safety_layer use_stable_init : bool) (infrared : R)
    (atmosphere : option atmosphere) : option (R * R * bstate R) :=
  let now := match time with Some t => t | None => START_DATE_TIME end in
  let elapsed := match elapsed with Some t => t | None => 0%Z end in
  let center := (radians center_lat, radians center_lng) in
  match new_state center px py p now infrared with
  | None => None
  | Some s =>
      let s := s <| power_safety_layer_enabled := safety_layer |> <| time_elapsed := elapsed |> in
      let s := s <| battery_charge := power_percent * battery_capacity s |> in
      if use_stable_init then
        match atmosphere with
        | None => None
        | Some atm =>
            let '(lat, lng) := latlng center px py in
            match cold_start_to_stable_params s lat lng atm with
            | None => None
            | Some s => Some (center, s)
            end
        end
      else Some (center, s)
  end.

(** create_balloon(): its default arguments: utils/test_helpers.py:97-108. *)
Definition create_default_balloon : option (R * R * bstate R) :=
  create_balloon 0 0 0 0 7000 0.95 None None true true 250 None.
