(** Model of env/balloon_arena.py and env/balloon_env.py (paths relative to
    /repo/balloon_learning_environment/), over the reals, for the default arena
    and no renderer.  The feature constructor, the forecast of the wind field and
    the reward function are parameters, as in the code; the first is an object
    with hidden state that may raise. *)
From Coq Require Import ZArith Reals Bool.
From RecordUpdate Require Import RecordSet.
From Verif Require Import Model.Num Model.Prng Model.Safety Model.Balloon Model.Atmosphere
  Model.Geometry Model.Solar Model.SolarSearch Model.Thermal Model.StableInit Model.Sampling
  Model.WindField Model.Reward.
Import RecordSetNotations.
Open Scope R_scope.

(** BalloonState.latlng: balloon.py:217-220. *)
Definition latlng (center : R * R) (x y : R) : R * R := calculate_latlng_from_offset center x y.

(** What the step function of a balloon sees: the atmosphere of the arena
    (balloon.py:438-445, 457-458), the sun at the balloon's position (451-452),
    the thermal model (462-465) and the solar panels (525-527; the value for
    arguments that solar_power refuses is never used, see Balloon.v). *)
Definition world_of (atm : atmosphere) (center : R * R) : world R := {|
  Balloon.at_pressure p :=
    option_map (fun v => (v_height v, v_temperature v)) (Atmosphere.at_pressure atm p);
  sun x y t :=
    let '(el, _, flux) := solar_calculator (fst (latlng center x y)) (snd (latlng center x y)) t in
    (el, flux);
  d_temperature := d_balloon_temperature_dt;
  solar_power_fn el p := match solar_power el p with Some w => w | None => 0 end
|}.

(** What a call ends with.  [Raised]: an exception, or (reset only) the rejection
    sampling of the infrared radiation has not stopped after [draws] draws. *)
Inductive result (A : Type) := Returned (a : A) | Raised.
Arguments Returned {A}. Arguments Raised {A}.

(** constants.AGENT_TIME_STEP: utils/constants.py:35; the default stride:
    balloon.py:269; solar._SEARCH_TIME_DELTA: solar.py:39. *)
Definition AGENT_TIME_STEP : Z := 3 * 60 * 1000000.
(** The stride of the simulation: balloon.py:269. *)
Definition STRIDE : Z := 10 * 1000000.
(** _SEARCH_TIME_DELTA: solar.py:39. *)
Definition SEARCH_TIME_DELTA : Z := 3 * 60 * 1000000.

Section Env.
Context (P : prng) (noise4d : Z -> R -> R -> R -> R -> R) (F : forecaster P).

(** A feature constructor class (features.FeatureConstructor, env/features.py:106-144):
    the factory, observe and get_features, each reading the wind field and the
    atmosphere it was given.  The first component of a result is the object
    afterwards, also when the call raised ([None]). *)
Record feature_class := mkFC {
  fc_object : Type;
  observation : Type;
  fc_new : wind_field P F -> atmosphere -> option fc_object;
  fc_observe : wind_field P F -> atmosphere -> fc_object ->
    R * R -> bstate R -> wind -> fc_object * option unit;
  fc_get_features : wind_field P F -> atmosphere -> fc_object ->
    fc_object * option observation
}.
Context (FC : feature_class).
(** reward_function: balloon_env.py:114-115. *)
Context (reward_fn : wind_field P F -> atmosphere -> R * R -> bstate R -> option R).
Context (draws : nat).

(** ** BalloonArena *)
(** The attributes; the balloon (center_latlng, state) and the feature
    constructor do not exist before the first reset: balloon_arena.py:143-159. *)
Record arena := mkArena {
  a_rng : key P;
  a_atmosphere : atmosphere;
  a_wind : wind_field P F;
  a_balloon : option (R * R * bstate R);
  a_features : option (fc_object FC)
}.
#[export] Instance etaA : Settable _ := settable! mkArena
  <a_rng; a_atmosphere; a_wind; a_balloon; a_features>.

(** BalloonState(center_latlng=.., x=.., ..), with __post_init__:
    balloon.py:150-215. *)
Definition new_state (center : R * R) (px py p : R) (now : Z) (infrared : R)
  : option (bstate R) :=
  let '(lat, lng) := latlng center px py in
  let lat_ok := Rltb (Rabs (degrees lat)) 60 in
  let el t := fst (fst (solar_calculator lat lng t)) in
  match get_next_sunrise_sunset lat_ok Solar.MIN_SOLAR_EL_DEG el now SEARCH_TIME_DELTA with
  | None => None
  | Some ss =>
      Some (default_state now ss <| x := px |> <| y := py |> <| pressure := p |>
              <| upwelling_infrared := infrared |>)
  end.

(** _initialize_balloon: balloon_arena.py:228-268; [rng] is self._rng on entry
    (its new value is [split P rng 6 0]). *)
Definition initialize_balloon (rng : key P) (atm : atmosphere) (now : Z)
  : option (R * R * bstate R) :=
  let keys i := split P rng 6 (S i) in
  let radius := 200 * beta P (keys 0%nat) 1.2 2.0 * 1000 in
  let theta := uniform P (keys 1%nat) 0 (2 * PI) in
  let px := cos theta * radius in
  let py := sin theta * radius in
  let '(lat, lng) := sample_location P (keys 2%nat) in
  let center := (radians lat, radians lng) in
  match sample_pressure P (keys 3%nat) (Some atm),
        sample_upwelling_infrared P draws LogitNormal (keys 4%nat) with
  | Some p, Sampled infrared =>
      match new_state center px py p now infrared with
      | None => None
      | Some s =>
          let '(lat, lng) := latlng center px py in
          match cold_start_to_stable_params s lat lng atm with
          | None => None
          | Some s => Some (center, s)
          end
      end
  | _, _ => None
  end.

(** _get_wind_ground_truth_at_balloon: balloon_arena.py:270-275. *)
Definition wind_at_balloon (a : arena) (s : bstate R) : option wind :=
  ground_truth P noise4d F (a_wind a) (x s) (y s) (pressure s) (time_elapsed s).

(** feature_constructor.observe(self.get_measurements()) and get_features():
    balloon_arena.py:181-182, 200-202, 222-226. *)
Definition observe_and_get_features (a : arena) : arena * result (observation FC) :=
  match a_balloon a, a_features a with
  | Some (center, s), Some f =>
      match wind_at_balloon a s with
      | None => (a, Raised)
      | Some w =>
          match fc_observe FC (a_wind a) (a_atmosphere a) f center s w with
          | (f, None) => (a <| a_features := Some f |>, Raised)
          | (f, Some _) =>
              match fc_get_features FC (a_wind a) (a_atmosphere a) f with
              | (f, None) => (a <| a_features := Some f |>, Raised)
              | (f, Some o) => (a <| a_features := Some f |>, Returned o)
              end
          end
      end
  | _, _ => (a, Raised)
  end.

(** reset, after the seed has been turned into a key: balloon_arena.py:170-182. *)
Definition arena_reset (a : arena) (rng : key P) : arena * result (observation FC) :=
  let rng1 := split P rng 3 0 in
  let atm := atmosphere_reset (uniform P (split P rng 3 1) 0 1) in
  let now := sample_time P (split P rng 3 2) BEGIN_RANGE END_RANGE in
  let rng2 := split P rng1 6 0 in
  let a := a <| a_rng := rng2 |> <| a_atmosphere := atm |> in
  match initialize_balloon rng1 atm now with
  | None => (a, Raised)
  | Some (center, s) =>
      let a := a <| a_balloon := Some (center, s) |> in
      if negb (status_is_ok (bstatus s)) then (a, Raised)
      else
        let a := a <| a_rng := split P rng2 2 0 |>
                   <| a_wind := wind_reset P F (a_wind a) (split P rng2 2 1) now |> in
        match fc_new FC (a_wind a) atm with
        | None => (a, Raised)
        | Some f => observe_and_get_features (a <| a_features := Some f |>)
        end
  end.

(** What reset and __init__ are given as a seed: a Python int, a random key (an array), or
    anything else, such as None or a numpy integer: balloon_arena.py:161-168. *)
Inductive arena_seed := Int_seed (z : Z) | Key_seed (k : key P) | Other_seed.
(** The key: balloon_arena.py:162-168; [now] is the system time in microseconds (168). *)
Definition arena_key (seed : arena_seed) (now : Z) : key P :=
  match seed with
  | Int_seed z => prng_key P z
  | Key_seed k => k
  | Other_seed => prng_key P now
  end.
(** reset: balloon_arena.py:161-182. *)
Definition arena_reset_from (a : arena) (seed : arena_seed) (now : Z) : arena * result (observation FC) :=
  arena_reset a (arena_key seed now).

(** __init__: balloon_arena.py:126-159; [None]: the constructor raised.  The random key is
    a placeholder for None, overwritten before it is read. *)
Definition new_arena_from (seed : arena_seed) (now : Z) : option arena :=
  let a := mkArena (prng_key P 0) (atmosphere_reset (uniform P (prng_key P 0) 0 1))
             (new_wind_field P F) None None in
  match arena_reset_from a seed now with
  | (a, Returned _) => Some a
  | (_, Raised) => None
  end.
(** BalloonArena(...) without a seed: balloon_env.py:145-146. *)
Definition new_arena (now : Z) : option arena := new_arena_from Other_seed now.

(** step: balloon_arena.py:184-202. *)
Definition arena_step (a : arena) (c : command) : arena * result (observation FC) :=
  match a_balloon a with
  | None => (a, Raised)
  | Some (center, s) =>
      match wind_at_balloon a s with
      | None => (a, Raised)
      | Some wv =>
          match simulate_step (world_of (a_atmosphere a) center) (u wv, v wv) c
                  AGENT_TIME_STEP STRIDE s with
          | (s, Balloon.Raised _) => (a <| a_balloon := Some (center, s) |>, Raised)
          | (s, Executed _) =>
              observe_and_get_features (a <| a_balloon := Some (center, s) |>)
          end
      end
  end.

(** ** BalloonEnv *)
(** The attributes that matter: balloon_env.py:139-155, 188, 255. *)
Record env := mkEnv {
  e_radius : R;                   (* metres *)
  e_rng : key P;
  e_iteration : Z;
  e_arena : arena
}.
#[export] Instance etaE : Settable _ := settable! mkEnv <e_radius; e_rng; e_iteration; e_arena>.

(** _get_info: balloon_env.py:280-290. *)
Record info := mkInfo {
  out_of_power : bool;
  envelope_burst : bool;
  zeropressure : bool;
  info_time_elapsed : Z
}.
(** _get_info: balloon_env.py:280-290. *)
Definition get_info (s : bstate R) : info :=
  mkInfo (match bstatus s with OUT_OF_POWER => true | _ => false end)
         (match bstatus s with BURST => true | _ => false end)
         (match bstatus s with ZEROPRESSURE => true | _ => false end)
         (time_elapsed s).

(** seed: balloon_env.py:253-255. *)
Definition env_seed (e : env) (seed : Z) : env := e <| e_rng := prng_key P seed |>.

(** reset: balloon_env.py:192-226, with return_info=True. *)
Definition env_reset (e : env) (seed : option Z) : env * result (observation FC * info) :=
  let e := match seed with Some z => env_seed e z | None => e end in
  let arena_rng := split P (e_rng e) 2 1 in
  let e := e <| e_rng := split P (e_rng e) 2 0 |> in
  match arena_reset (e_arena e) arena_rng with
  | (a, Raised) => (e <| e_arena := a |>, Raised)
  | (a, Returned o) =>
      (e <| e_arena := a |>,
       match a_balloon a with
       | Some (_, s) => Returned (o, get_info s)
       | None => Raised
       end)
  end.

(** __init__: balloon_env.py:109-155; [now1], [now2] are the system times read by
    the arena and by line 155. *)
Definition new_env (radius_km : R) (seed : option Z) (now1 now2 : Z) : option env :=
  match new_arena now1 with
  | None => None
  | Some a =>
      match env_reset (mkEnv (radius_km * 1000) (prng_key P 0) 0 a)
              (Some (match seed with Some z => z | None => now2 end)) with
      | (e, Returned _) => Some e
      | (_, Raised) => None
      end
  end.

(** step: balloon_env.py:157-190: (observation, reward, is_terminal, info).  The
    reward function is called with the simulator state only (line 178). *)
Definition env_step (e : env) (action : Z)
  : env * result (observation FC * R * bool * info) :=
  match command_of_int action with
  | None => (e, Raised)
  | Some c =>
      match arena_step (e_arena e) c with
      | (a, Raised) => (e <| e_arena := a |>, Raised)
      | (a, Returned o) =>
          let e := e <| e_arena := a |> in
          match a_balloon a with
          | None => (e, Raised)
          | Some (center, s) =>
              match reward_fn (a_wind a) (a_atmosphere a) center s with
              | None => (e, Raised)
              | Some reward =>
                  let i := get_info s in
                  let is_terminal := out_of_power i || envelope_burst i || zeropressure i in
                  (e <| e_iteration := (e_iteration e + 1)%Z |>,
                   Returned (o, reward, is_terminal, i))
              end
          end
      end
  end.
End Env.

(** The default reward_function argument: balloon_env.py:114-115. *)
Definition default_reward_fn {P : prng} {F : forecaster P} (_ : wind_field P F) (atm : atmosphere)
    (center : R * R) (s : bstate R) : option R :=
  default_reward (world_of atm center) s.
