(** Model of agents/random_walk_agent.py and agents/station_seeker_agent.py over the
    reals (paths relative to /repo/balloon_learning_environment/).  [None]: an
    exception. *)
From Coq Require Import ZArith Reals List Bool Arith.
From Verif Require Import Model.Num Model.Prng Model.Transforms Model.Sampling Model.Env Model.Agents
  Model.Features.
Import ListNotations.
Open Scope R_scope.

(** control.AltitudeControlCommand: env/balloon/control.py:21-25. *)
Definition DOWN_ACTION : Z := 0.
(** AltitudeControlCommand.STAY: control.py:24. *)
Definition STAY_ACTION : Z := 1.
(** AltitudeControlCommand.UP: control.py:25. *)
Definition UP_ACTION : Z := 2.

(** ** RandomWalkAgent *)
(** random_walk_agent.py:38-39. *)
Definition HYSTERESIS : R := 100.
(** _STDDEV: random_walk_agent.py:39. *)
Definition STDDEV : R := 0.1666.

Section RandomWalk.
Context (P : prng).
(** The attributes of RandomWalkAgent: random_walk_agent.py:49-60. *)
Record random_walk := mkRandomWalk {
  rw_rng : key P;
  rw_time_elapsed : Z;
  target_pressure : R
}.

(** _sample_new_target_pressure: random_walk_agent.py:58-60. *)
Definition sample_new_target_pressure (rng : key P) (elapsed : Z) : option random_walk :=
  let self_rng := split P rng 2 0 in
  let rng := split P rng 2 1 in
  match sample_pressure P rng None with
  | None => None
  | Some target => Some (mkRandomWalk self_rng elapsed target)
  end.

(** __init__: 49-56; the seed, or the clock's reading, is given. *)
Definition new_random_walk (seed : Z) : option random_walk :=
  sample_new_target_pressure (prng_key P seed) 0.

(** _select_action: 62-73. *)
Definition rw_select_action (a : random_walk) (features : list R) : option Z :=
  if negb (length features =? 1099)%nat then None
  else
    match new_named features with
    | None => None
    | Some n =>
        if Rltb (target_pressure a) (balloon_pressure n - HYSTERESIS) then Some UP_ACTION
        else if Rltb (balloon_pressure n + HYSTERESIS) (target_pressure a) then Some DOWN_ACTION
        else Some STAY_ACTION
    end.

(** begin_episode: 75-78. *)
Definition rw_begin_episode (a : random_walk) (o : list R) : option (random_walk * Z) :=
  match sample_new_target_pressure (rw_rng a) 0 with
  | None => None
  | Some a => option_map (fun action => (a, action)) (rw_select_action a o)
  end.

(** step: 80-91; total_seconds() of microseconds; jax.random.normal(rng), a single
    number, is the only element of a sample of size one. *)
Definition rw_step (a : random_walk) (reward : R) (o : list R) : option (random_walk * Z) :=
  let elapsed := (rw_time_elapsed a + AGENT_TIME_STEP)%Z in
  let self_rng := split P (rw_rng a) 2 0 in
  let rng := split P (rw_rng a) 2 1 in
  let target := target_pressure a + IZR elapsed / 1000000 * STDDEV * normals P rng 1 0 in
  let a := mkRandomWalk self_rng elapsed target in
  option_map (fun action => (a, action)) (rw_select_action a o).

(** RandomWalkAgent: 45-94; set_mode and end_episode do nothing. *)
Definition random_walk_agent : agent_class (list R) :=
  mkAgent (list R) random_walk (fun a _ => a) rw_begin_episode rw_step (fun a _ _ => Some a).
End RandomWalk.

(** ** StationSeekerAgent *)
(** station_seeker_agent.py:45-56. *)
Definition half_radius : R := 35.
(** station_seeker_agent.py:46. *)
Definition magnitude_weight : R := 0.07.
(** station_seeker_agent.py:47. *)
Definition close_bearing_weight : R := 0.6.
(** station_seeker_agent.py:48. *)
Definition far_bearing_weight : R := 0.45.
(** station_seeker_agent.py:49. *)
Definition close_bearing : R := 250.
(** station_seeker_agent.py:50. *)
Definition far_bearing : R := 500.
(** station_seeker_agent.py:51. *)
Definition default_score : R := 0.5.
(** station_seeker_agent.py:52. *)
Definition hysteresis_k2 : R := 0.05.
(** station_seeker_agent.py:53. *)
Definition hysteresis_k3 : R := 0.001.
(** station_seeker_agent.py:54. *)
Definition confidence_epsilon : R := 0.01.
(** station_seeker_agent.py:56. *)
Definition max_altitude_score : R := 1 + hysteresis_k2 + confidence_epsilon.

(** wind_score: 147-178.  A magnitude or a distance feature equal to 1 divides by
    zero: numpy then yields an infinity, which is not a real number; [None] here. *)
Definition wind_score (n : named) (level : Z) : option R :=
  match wind_at n level with
  | None => None
  | Some w =>
      match convert_wind_feature_to_real_wind w,
            undo_squash_to_unit_interval (distance_to_station n) 250 with
      | Some w, Some distance =>
          let bearing_weight_ramp := far_bearing_weight - close_bearing_weight in
          let bearing_weight_rate := far_bearing - close_bearing in
          let bearing_weight_coeff := np_clip ((distance - close_bearing) / bearing_weight_rate) 0 1 in
          let bearing_weight := close_bearing_weight + bearing_weight_coeff * bearing_weight_ramp in
          let alpha_delta := exp (- distance / half_radius) in
          let magnitude_term := exp (- magnitude_weight * magnitude w) in
          let bearing_term := exp (- bearing_weight * bearing w) in
          Some ((1 - alpha_delta) * bearing_term + alpha_delta * magnitude_term)
      | _, _ => None
      end
  end.

(** altitude_score: 115-145. *)
Definition altitude_score (n : named) (level : Z) : option R :=
  match wind_at n level, wind_score n level, wind_column_center n with
  | Some w, Some score, Some midpoint =>
      let level_distance := IZR (Z.abs (level - midpoint)) in
      let hysteresis_term := hysteresis_k2 * exp (- hysteresis_k3 * level_distance) in
      Some ((1 - uncertainty w + confidence_epsilon) * score + uncertainty w * default_score
            + hysteresis_term)
  | _, _, _ => None
  end.

(** The loop of find_best_pressure_level: 93-109; [scores] is not modelled. *)
Fixpoint best_level_loop (n : named) (levels : list Z) (best : option Z) (best_score : R)
  : option (option Z) :=
  match levels with
  | [] => Some best
  | l :: rest =>
      match level_is_valid n l with
      | None => None
      | Some false => best_level_loop n rest best best_score
      | Some true =>
          match altitude_score n l with
          | None => None
          | Some score =>
              if negb (Rleb 0 score && Rleb score max_altitude_score) then None
              else if Rltb best_score score then best_level_loop n rest (Some l) score
              else best_level_loop n rest best best_score
          end
      end
  end.
(** find_best_pressure_level: 88-113. *)
Definition find_best_pressure_level (n : named) : option Z :=
  match best_level_loop n (map Z.of_nat (seq 0 (n_num_pressure_levels n))) None 0 with
  | Some (Some l) => Some l
  | _ => None
  end.

(** pick_action: 72-86. *)
Definition pick_action (features : list R) : option Z :=
  match new_named features with
  | None => None
  | Some n =>
      match find_best_pressure_level n, wind_column_center n with
      | Some level, Some midpoint =>
          if (level <? midpoint)%Z then Some 2%Z
          else if (midpoint <? level)%Z then Some 0%Z
          else Some 1%Z
      | _, _ => None
      end
  end.

(** StationSeekerAgent: 37-178; begin_episode 58-61, step 63-67, end_episode 69-70. *)
Definition station_seeker_agent : agent_class (list R) :=
  mkAgent (list R) unit (fun a _ => a)
    (fun a o => option_map (fun action => (a, action)) (pick_action o))
    (fun a _ o => option_map (fun action => (a, action)) (pick_action o))
    (fun a _ _ => Some a).
