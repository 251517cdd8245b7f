(** The two interfaces that the evaluation and training loops use (paths relative
    to /repo/balloon_learning_environment/): a gym environment with the methods of
    env/balloon_env.py, and an agent, agents/agent.py:33-146.  Both are objects
    with hidden state and arbitrary behaviour; [None]: the call raises (the loops
    catch nothing, so the exception ends them and the states are lost). *)
From Coq Require Import ZArith Reals.
From Verif Require Import Model.Num Model.Prng Model.Safety Model.Balloon Model.WindField
  Model.Atmosphere Model.Env.

(** The entries of the info dictionary the loops look at; [None]: no such key. *)
Record info_dict := mkInfoDict {
  d_out_of_power : option bool;
  d_envelope_burst : option bool;
  d_zeropressure : option bool
}.

(** seed, reset, step, get_simulator_state().balloon_state and radius (metres):
    balloon_env.py:109-255.  Rendering is left out: it changes nothing
    (balloon_env.py:228-247, with no renderer, it does nothing). *)
Record gym_env := mkGymEnv {
  g_state : Type;
  g_obs : Type;
  g_seed : g_state -> Z -> option g_state;
  g_reset : g_state -> option (g_state * g_obs);
  g_step : g_state -> Z -> option (g_state * (g_obs * R * bool * info_dict));
  g_balloon : g_state -> option (bstate R);
  g_radius : g_state -> R
}.

(** agent.AgentMode: agent.py:27-30. *)
Inductive agent_mode := TRAIN | EVAL.

(** agent.py:33-112. *)
Record agent_class (obs : Type) := mkAgent {
  ag_state : Type;
  ag_set_mode : ag_state -> agent_mode -> ag_state;
  ag_begin_episode : ag_state -> obs -> option (ag_state * Z);
  ag_step : ag_state -> R -> obs -> option (ag_state * Z);
  ag_end_episode : ag_state -> R -> bool -> option ag_state
}.
Arguments ag_state {obs}. Arguments ag_set_mode {obs}. Arguments ag_begin_episode {obs}.
Arguments ag_step {obs}. Arguments ag_end_episode {obs}.

(** BalloonEnv as such an environment: env.seed, env.reset() (without seed and
    return_info), env.step and the two attributes: balloon_env.py:157-255. *)
Definition balloon_gym (P : prng) (noise4d : Z -> R -> R -> R -> R -> R) (F : forecaster P)
    (FC : feature_class P F)
    (reward_fn : wind_field P F -> atmosphere -> R * R -> bstate R -> option R)
    (draws : nat) : gym_env := {|
  g_state := env P F FC;
  g_obs := observation P F FC;
  g_seed e z := Some (env_seed P F FC e z);
  g_reset e :=
    match env_reset P noise4d F FC draws e None with
    | (e, Returned (o, _)) => Some (e, o)
    | (_, Env.Raised) => None
    end;
  g_step e a :=
    match env_step P noise4d F FC reward_fn e a with
    | (e, Returned (o, r, d, i)) =>
        Some (e, (o, r, d, mkInfoDict (Some (out_of_power i)) (Some (envelope_burst i))
                             (Some (zeropressure i))))
    | (_, Env.Raised) => None
    end;
  g_balloon e :=
    match a_balloon P F FC (e_arena P F FC e) with Some (_, s) => Some s | None => None end;
  g_radius e := e_radius P F FC e
|}.
