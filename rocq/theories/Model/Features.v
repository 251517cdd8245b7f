(** Model of env/features.py over the reals (paths relative to
    /repo/balloon_learning_environment/).  [None]: an exception.  A feature vector
    is a list of reals: its float32 storage is not modelled. *)
From Coq Require Import ZArith Reals List Bool Arith.
From Verif Require Import Model.Num Model.Prng Model.Safety Model.Balloon Model.Atmosphere
  Model.Geometry Model.Solar Model.SolarSearch Model.Transforms Model.PowerTable Model.WindField
  Model.WindGP Model.PressureRange Model.Env.
From Verif Require Model.Units.
Import ListNotations.
Open Scope R_scope.

(** compute_solar_angle: features.py:56-69; [lat], [lng] is balloon_state.latlng. *)
Definition compute_solar_angle (lat lng : R) (now : Z) : R :=
  fst (fst (solar_calculator lat lng now)).

(** compute_sunrise_time, given the answer of solar.get_next_sunrise_sunset:
    features.py:87-103; times are microseconds; dividing a timedelta by an empty
    one raises. *)
Definition normalized_time (now sunrise sunset : Z) : option R :=
  if negb ((sunrise - us_per_day <=? now)%Z && (now <=? sunrise)%Z) then None
  else if negb ((sunset - us_per_day <=? now)%Z && (now <=? sunset)%Z) then None
  else if (sunset <? sunrise)%Z then
    let sunrise := (sunrise - us_per_day)%Z in
    if (sunset - sunrise =? 0)%Z then None
    else Some (PI * IZR (now - sunrise) / IZR (sunset - sunrise))
  else
    let sunset := (sunset - us_per_day)%Z in
    if (sunrise - sunset =? 0)%Z then None
    else Some (PI + PI * IZR (now - sunset) / IZR (sunrise - sunset)).
(** compute_sunrise_time: features.py:72-103. *)
Definition compute_sunrise_time (lat lng : R) (now : Z) : option R :=
  match get_next_sunrise_sunset (Rltb (Rabs (degrees lat)) 60) Solar.MIN_SOLAR_EL_DEG
          (compute_solar_angle lat lng) now SEARCH_TIME_DELTA with
  | None => None
  | Some (sunrise, sunset) => normalized_time now sunrise sunset
  end.

(** ** Reading a feature vector *)
(** PerciatelliWindFeature: features.py:147-160. *)
Record wind_feature := mkFeature { uncertainty : R; bearing : R; magnitude : R }.
(** is_valid_wind: features.py:154-160. *)
Definition is_valid_wind (w : wind_feature) : bool :=
  negb (Reqb (magnitude w) 1) || negb (Reqb (bearing w) 1) || negb (Reqb (uncertainty w) 0).

(** constants.PERCIATELLI_PRESSURE_RANGE_MIN, MAX: utils/constants.py:37-38. *)
Definition RANGE_MIN : R := 5000.
(** PERCIATELLI_PRESSURE_RANGE_MAX: constants.py:38. *)
Definition RANGE_MAX : R := 14000.

(** np.argmax of three numbers: the first of the largest. *)
Definition argmax3 (a b c : R) : nat :=
  if Rltb a b then (if Rltb b c then 2 else 1) else (if Rltb a c then 2 else 0).

(** NamedPerciatelliFeatures, the attributes: features.py:163-222. *)
Record named := mkNamed {
  winds : list R;
  n_num_pressure_levels : nat;
  balloon_pressure : R;
  n_battery_charge : R;
  solar_elevation : R;
  sin_normalized_solar_cycle : R;
  cos_normalized_solar_cycle : R;
  sin_heading_to_station : R;
  cos_heading_to_station : R;
  distance_to_station : R;
  n_last_command : command;
  navigation_enabled : R;
  navigation_paused : R;
  has_excess_energy : R;
  descent_cost : R;
  internal_pressure_ratio : R
}.
(** __init__: features.py:172-222. *)
Definition new_named (features : list R) : option named :=
  if negb (length features =? 1099)%nat then None
  else
    let w := skipn 16 features in
    if negb (length w mod 3 =? 0)%nat then None
    else
      let f i := nth i features 0 in
      match undo_linear_rescale_with_extrapolation (f 0%nat) RANGE_MIN RANGE_MAX with
      | None => None
      | Some p =>
          Some (mkNamed w (length w / 3) p (f 1%nat) (f 2%nat) (f 3%nat) (f 4%nat) (f 5%nat)
                  (f 6%nat) (f 7%nat)
                  (match argmax3 (f 8%nat) (f 9%nat) (f 10%nat) with
                   | 0%nat => UP | 1%nat => STAY | _ => DOWN
                   end)
                  (f 11%nat) (f 12%nat) (f 13%nat) (f 14%nat) (f 15%nat))
      end.

(** Python's slice l[a:b]: a negative bound counts from the end, then both are
    clipped to the list. *)
Definition py_slice (l : list R) (a b : Z) : list R :=
  let n := Z.of_nat (length l) in
  let fix_ i := Z.max 0 (Z.min n (if (i <? 0)%Z then i + n else i)%Z) in
  firstn (Z.to_nat (fix_ b - fix_ a)) (skipn (Z.to_nat (fix_ a)) l).

(** wind_at: features.py:224-238; PerciatelliWindFeature needs three values. *)
Definition wind_at (n : named) (level : Z) : option wind_feature :=
  if (level <? 0)%Z && (Z.of_nat (n_num_pressure_levels n) <=? level)%Z then None
  else
    match py_slice (winds n) (level * 3) (level * 3 + 3) with
    | [a; b; c] => Some (mkFeature a b c)
    | _ => None
    end.
(** level_is_valid: features.py:240-242. *)
Definition level_is_valid (n : named) (level : Z) : option bool :=
  option_map is_valid_wind (wind_at n level).
(** wind_column_center: features.py:253-256. *)
Definition wind_column_center (n : named) : option Z :=
  if (n_num_pressure_levels n mod 2 =? 1)%nat
  then Some (Z.of_nat (n_num_pressure_levels n / 2)) else None.

(** convert_wind_feature_to_real_wind: features.py:260-266. *)
Definition convert_wind_feature_to_real_wind (w : wind_feature) : option wind_feature :=
  match undo_linear_rescale_with_extrapolation (bearing w) 0 PI,
        undo_squash_to_unit_interval (magnitude w) 30 with
  | Some b, Some m => Some (mkFeature (uncertainty w) b m)
  | _, _ => None
  end.

(** ** Writing a feature vector *)
(** feature_vector[i] = a; IndexError outside. *)
Fixpoint write (v : list R) (i : nat) (a : R) : option (list R) :=
  match v, i with
  | [], _ => None
  | _ :: v', O => Some (a :: v')
  | b :: v', S i' => option_map (cons b) (write v' i' a)
  end.
(** Helper, for features.py:382-455: assignments to entries of the vector, in order. *)
Fixpoint write_all (v : list R) (ws : list (nat * R)) : option (list R) :=
  match ws with
  | [] => Some v
  | (i, a) :: ws' => match write v i a with None => None | Some v' => write_all v' ws' end
  end.
(** float(b) of a bool. *)
Definition float_of_bool (b : bool) : R := if b then 1 else 0.
(** == on AltitudeControlCommand: features.py:429-435. *)
Definition command_eqb (a b : command) : bool :=
  match a, b with UP, UP | STAY, STAY | DOWN, DOWN => true | _, _ => false end.

(** PerciatelliFeatureConstructor: features.py:269-581. *)
(** self.num_pressure_levels, self.pressure_levels, self.num_features: 283-293. *)
Definition NUM_LEVELS : nat := 181.
(** self.pressure_levels: features.py:288-289. *)
Definition pressure_levels : list R := map (linspace RANGE_MIN RANGE_MAX NUM_LEVELS) (seq 0 NUM_LEVELS).
(** self.num_features: features.py:291-293. *)
Definition NUM_FEATURES : nat := 3 * (NUM_LEVELS * 2 - 1) + 16.

(** observation_space: 332-348; a high of [None] is infinity. *)
Definition space_low (i : nat) : R :=
  if existsb (Nat.eqb i) [3; 4; 5; 6]%nat then -1 else if (i =? 15)%nat then 1 else 0.
(** The upper bounds of observation_space: features.py:332-348. *)
Definition space_high (i : nat) : option R := if (i =? 15)%nat then None else Some 1.

(** is_valid_pressure: 353-355. *)
Definition is_valid_pressure (p : R) : bool := Rleb RANGE_MIN p && Rleb p RANGE_MAX.

(** int(round(x)): to the nearest integer, ties to even. *)
Definition py_round (x : R) : Z :=
  let k := Int_part x in
  if Rltb (x - IZR k) (1 / 2) then k
  else if Rltb (1 / 2) (x - IZR k) then (k + 1)%Z
  else if Z.even k then k else (k + 1)%Z.
(** _nearest_pressure_level: 357-380. *)
Definition nearest_pressure_level (p : R) : option Z :=
  let p := if Rltb p RANGE_MIN || Rltb RANGE_MAX p then pymin (pymax p RANGE_MIN) RANGE_MAX
           else p in
  if negb (2 <=? length pressure_levels)%nat then None
  else
    let delta := nth 1 pressure_levels 0 - nth 0 pressure_levels 0 in
    let level := py_round ((p - RANGE_MIN) / delta) in
    if (0 <=? level)%Z && (level <? Z.of_nat NUM_LEVELS)%Z then Some level else None.

(** _add_ambient_features: 382-455. *)
Definition add_ambient_features (atm : atmosphere) (center : R * R) (s : bstate R) (v : list R)
  : option (list R) :=
  let '(lat, lng) := latlng center (x s) (y s) in
  match linear_rescale_with_saturation (pressure s) RANGE_MIN RANGE_MAX,
        linear_rescale_with_saturation (compute_solar_angle lat lng (date_time s)) (-90) 90,
        compute_sunrise_time lat lng (date_time s) with
  | Some f0, Some f2, Some sunrise_time =>
      if negb (Rleb 0 sunrise_time && Rleb sunrise_time (2 * PI + 1e-6)) then None
      else
        let heading := atan2 (- (x s / 1000)) (- (y s / 1000)) in
        match squash_to_unit_interval (Units.relative_distance (x s) (y s) / 1000) 250,
              lookup (pressure_ratio s) (battery_soc s) with
        | Some f7, Some power =>
            match linear_rescale_with_saturation power 100 300 with
            | None => None
            | Some f14 =>
                write_all v
                  [ (0, f0); (1, battery_soc s); (2, f2); (3, sin sunrise_time);
                    (4, cos sunrise_time); (5, sin heading); (6, cos heading); (7, f7);
                    (8, float_of_bool (command_eqb (last_command s) UP));
                    (9, float_of_bool (command_eqb (last_command s) STAY));
                    (10, float_of_bool (command_eqb (last_command s) DOWN));
                    (11, float_of_bool (navigation_is_paused s));
                    (12, float_of_bool (negb (navigation_is_paused s)));
                    (13, float_of_bool (excess_energy (world_of atm center) s));
                    (14, f14); (15, pressure_ratio s) ]%nat
            end
        | _, _ => None
        end
  | _, _, _ => None
  end.

(** _add_unreachable_pressure_levels: 559-581: the vector and the index after; a
    slice that sticks out at the end cannot take three values. *)
Fixpoint add_unreachable_pressure_levels (v : list R) (index levels : nat)
  : option (list R * nat) :=
  match levels with
  | O => Some (v, index)
  | S k =>
      match write_all v [(index, 0); ((index + 1)%nat, 1); ((index + 2)%nat, 1)] with
      | None => None
      | Some v => add_unreachable_pressure_levels v (index + 3) k
      end
  end.

(** The loop over the pressure levels: 534-549. *)
Fixpoint add_levels (ps : list R) (level : nat) (range : pressure_range)
    (deviations angles magnitudes : list R) (v : list R) (index : nat)
  : option (list R * nat) :=
  match ps with
  | [] => Some (v, index)
  | p :: ps' =>
      if Rltb p (min_pressure range) || Rltb (max_pressure range) p then
        match add_unreachable_pressure_levels v index 1 with
        | None => None
        | Some (v, index) => add_levels ps' (S level) range deviations angles magnitudes v index
        end
      else
        match nth_error deviations level, nth_error angles level, nth_error magnitudes level with
        | Some d, Some a, Some m =>
            if negb (Rleb 0 d && Rleb d 1.00001) then None
            else
              match write_all v [(index, d); ((index + 1)%nat, a); ((index + 2)%nat, m)] with
              | None => None
              | Some v =>
                  add_levels ps' (S level) range deviations angles magnitudes v (index + 3)
              end
        | _, _, _ => None
        end
  end.

(** TOLERANCE in metres: features.py:53. *)
Definition TOLERANCE : R := 1e-5.

(** The angle errors: 511-528; [dir] is station_direction, lines 500-505. *)
Definition angle_error (dir : R * R) (mean : R * R) : R :=
  let m := sqrt (fst mean ^ 2 + snd mean ^ 2) in
  let w := (fst mean / (m + TOLERANCE), snd mean / (m + TOLERANCE)) in
  if Rltb m TOLERANCE then PI
  else acos (Transforms.np_clip (fst w * fst dir + snd w * snd dir) (-1) 1).

Section Constructor.
Context (P : prng) (F : forecaster P) (G : regressor).
(** get_forecast_column of the wind field (C35). *)
Context (forecast_column : wind_field P F -> R -> R -> list R -> Z -> option (list wind)).

(** The attributes windgp and _last_balloon_state (with its center_latlng). *)
Record constructor := mkConstructor {
  windgp : gp;
  last_balloon_state : option (R * R * bstate R)
}.
(** __init__: 273-297. *)
Definition new_constructor : constructor := mkConstructor gp_reset None.

(** observe: 299-306; the state is remembered even when the belief raises. *)
Definition constructor_observe (w : wind_field P F) (c : constructor) (center : R * R)
    (s : bstate R) (wind_at_balloon : wind) : constructor * option unit :=
  match WindGP.observe (forecast P F w) (windgp c) (x s) (y s) (pressure s) (time_elapsed s)
          wind_at_balloon with
  | None => (mkConstructor (windgp c) (Some (center, s)), None)
  | Some g => (mkConstructor g (Some (center, s)), Some tt)
  end.

(** _add_wind_features: 457-556. *)
Definition add_wind_features (w : wind_field P F) (atm : atmosphere) (g : gp) (center : R * R)
    (s : bstate R) (v : list R) : option (list R) :=
  let rows := map (fun p => mkLoc (x s) (y s) p (seconds_of (time_elapsed s))) pressure_levels in
  match query_batch G (forecast_column w) g rows, nearest_pressure_level (pressure s) with
  | Some answers, Some balloon_level =>
      let means := map fst answers in
      let deviations := map snd answers in
      if negb ((0 <=? balloon_level)%Z && (balloon_level <? Z.of_nat NUM_LEVELS)%Z) then None
      else
        let num_encoded_levels := (Z.of_nat NUM_LEVELS * 2 - 1)%Z in
        let num_levels_lower := (Z.of_nat NUM_LEVELS - balloon_level - 1)%Z in
        let num_levels_higher := (num_encoded_levels - num_levels_lower - Z.of_nat NUM_LEVELS)%Z in
        if negb (0 <=? num_levels_higher)%Z then None
        else
          match add_unreachable_pressure_levels v 16 (Z.to_nat num_levels_lower) with
          | None => None
          | Some (v, index) =>
              let distance := Units.relative_distance (x s) (y s) in
              let dir := (- x s / (distance + TOLERANCE), - y s / (distance + TOLERANCE)) in
              let '(lat, lng) := latlng center (x s) (y s) in
              match get_pressure_range s lat lng atm with
              | None => None
              | Some range =>
                  let angles := if Rltb distance TOLERANCE then map (fun _ => 0) means
                                else map (angle_error dir) means in
                  let mags := map (fun m => sqrt (fst m ^ 2 + snd m ^ 2)) means in
                  match linear_rescale_with_extrapolation_array angles 0 PI,
                        squash_to_unit_interval_array mags 30 with
                  | Some angles, Some mags =>
                      match add_levels pressure_levels 0 range deviations angles mags v index with
                      | None => None
                      | Some (v, index) =>
                          match add_unreachable_pressure_levels v index
                                  (Z.to_nat num_levels_higher) with
                          | None => None
                          | Some (v, index) => if (index =? length v)%nat then Some v else None
                          end
                      end
                  | _, _ => None
                  end
              end
          end
  | _, _ => None
  end.

(** get_features: 308-330.  Nothing of the object changes: the belief's query
    refits the regressor it caches, which C37 shows not to matter. *)
Definition get_features (w : wind_field P F) (atm : atmosphere) (c : constructor)
  : option (list R) :=
  match last_balloon_state c with
  | None => None
  | Some (center, s) =>
      match add_ambient_features atm center s (repeat 0 NUM_FEATURES) with
      | None => None
      | Some v => add_wind_features w atm (windgp c) center s v
      end
  end.

(** As the feature constructor of an arena. *)
Definition perciatelli : feature_class P F := {|
  fc_object := constructor;
  observation := list R;
  fc_new _ _ := Some new_constructor;
  fc_observe w _ c center s m := constructor_observe w c center s m;
  fc_get_features w atm c := (c, get_features w atm c)
|}.
End Constructor.
