(** Model of env/balloon/pressure_range_builder.py over the reals (paths relative
    to /repo/balloon_learning_environment/).  [None]: an exception. *)
From Coq Require Import ZArith Reals List Bool.
From Verif Require Import Model.Num Model.Safety Model.Balloon Model.Atmosphere Model.WindField
  Model.StableInit.
Import ListNotations.
Open Scope R_scope.

(** _assert_monotonically_increasing: pressure_range_builder.py:38-40. *)
Fixpoint monotonically_increasing (l : list R) : bool :=
  match l with
  | a :: ((b :: _) as l') => Rltb a b && monotonically_increasing l'
  | _ => true
  end.

(** _compute_x_crossing: 43-65; the builtin min and max of two floats. *)
Definition compute_x_crossing (x1 y1 x2 y2 y_star : R) : option R :=
  if Rltb y_star (pymin y1 y2) || Rltb (pymax y1 y2) y_star then None
  else if Rleb x2 x1 then None
  else if Reqb y1 y2 then None
  else
    let alpha := Rabs ((y_star - y1) / (y2 - y1)) in
    Some (alpha * (x2 - x1) + x1).

(** _compute_safe_pressure: 68-102. *)
Definition compute_safe_pressure (pressure1 sp1 pressure2 sp2 min_sp max_sp : R) : option R :=
  if Rleb pressure2 pressure1 then None
  else if Reqb sp1 sp2 then None
  else if (Rltb sp1 min_sp && Rleb min_sp sp2) || (Rleb min_sp sp1 && Rltb sp2 min_sp) then
    compute_x_crossing pressure1 sp1 pressure2 sp2 min_sp
  else if (Rltb max_sp sp1 && Rleb sp2 max_sp) || (Rleb sp1 max_sp && Rltb max_sp sp2) then
    compute_x_crossing pressure1 sp1 pressure2 sp2 max_sp
  else None.

(** The argument [direction] of the search. *)
Inductive search_direction := dir_min | dir_max.

(** _search_for_safe_pressure: 105-182.  [stable_sp p] is the superpressure of
    stable_init.calculate_stable_params_for_pressure at p.  The loop: 155-179;
    [last] is last_pressure_sp. *)
Section Search.
Context (stable_sp : R -> option R).
(** The loop of _search_for_safe_pressure: pressure_range_builder.py:155-179. *)
Fixpoint search_loop (column : list R) (significant : R) (last : R * R)
    (min_sp max_sp : R) (direction : search_direction) : option R :=
  match column with
  | [] => None
  | p :: column' =>
      if match direction with dir_min => Rltb significant p | dir_max => Rltb p significant end
      then search_loop column' significant last min_sp max_sp direction
      else
        match stable_sp p with
        | None => None
        | Some sp =>
            if Rltb max_sp sp || Rltb sp min_sp
            then search_loop column' significant (p, sp) min_sp max_sp direction
            else
              match direction with
              | dir_min => compute_safe_pressure p sp (fst last) (snd last) min_sp max_sp
              | dir_max => compute_safe_pressure (fst last) (snd last) p sp min_sp max_sp
              end
        end
  end.
(** _search_for_safe_pressure: pressure_range_builder.py:105-182. *)
Definition search_for_safe_pressure (column : list R) (significant min_sp max_sp : R)
    (direction : search_direction) : option R :=
  match stable_sp significant with
  | None => None
  | Some sp =>
      if Rleb min_sp sp && Rleb sp max_sp then Some significant
      else
        search_loop (match direction with dir_min => rev column | dir_max => column end)
          significant (significant, sp) min_sp max_sp direction
  end.
End Search.

(** Library behaviour: scipy's interp1d(xs, ys, kind='linear',
    fill_value='extrapolate') at one point, for increasing xs: the cell is the one
    np.searchsorted finds, clipped to the first and last one. *)
Definition interp1d_extrapolate (xs ys : list R) (x : R) : R :=
  let hi := Nat.min (Nat.max (searchsorted (fun i => nth i xs 0) (length xs) x) 1) (length xs - 1) in
  let lo := (hi - 1)%nat in
  let slope := (nth hi ys 0 - nth lo ys 0) / (nth hi xs 0 - nth lo xs 0) in
  slope * (x - nth lo xs 0) + nth lo ys 0.

(** AccessiblePressureRange: 32-35. *)
Record pressure_range := mkRange { min_pressure : R; max_pressure : R }.

(** get_pressure_range: 203-275; [lat], [lng] is b.latlng. *)
Definition get_pressure_range (b : bstate R) (lat lng : R) (atm : atmosphere)
  : option pressure_range :=
  let min_sp := IZR ENV_BUFFER in
  let max_sp := envelope_max_superpressure b - IZR ENV_BUFFER in
  if negb (Rltb 0 max_sp) then None
  else
    match Atmosphere.at_height atm MIN_ALTITUDE with
    | None => None
    | Some v =>
        let search_range_max := v_pressure v in
        let levels := map (linspace 1000 search_range_max 20) (seq 0 20) in
        match all_some (map (Atmosphere.at_pressure atm) levels) with
        | None => None
        | Some column =>
            let total_empty_mass :=
              payload_mass b + envelope_mass b + mols_lift_gas b * HE_MOLAR_MASS in
            let max_altitude_p_over_t :=
              total_empty_mass * UNIVERSAL_GAS_CONSTANT
              / (DRY_AIR_MOLAR_MASS * envelope_volume_base b) in
            let p_over_t := map (fun c => v_pressure c / v_temperature c) column in
            if negb (monotonically_increasing p_over_t) then None
            else
              let min_p := interp1d_extrapolate p_over_t levels max_altitude_p_over_t in
              let stable_sp p :=
                option_map sp_superpressure
                  (calculate_stable_params_for_pressure p (envelope_volume_base b)
                     (envelope_volume_dv_pressure b) (envelope_mass b) (payload_mass b)
                     (mols_lift_gas b) lat lng (date_time b) (upwelling_infrared b) atm) in
              match search_for_safe_pressure stable_sp levels min_p min_sp max_sp dir_max with
              | None => None
              | Some lo =>
                  match search_for_safe_pressure stable_sp levels search_range_max
                          min_sp max_sp dir_min with
                  | None => None
                  | Some hi => Some (mkRange lo hi)
                  end
              end
        end
    end.
