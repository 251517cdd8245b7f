(** Using an environment object: any sequence of calls of its public methods.
    Only used to *state* properties. *)
From Coq Require Import ZArith Reals List.
From RecordUpdate Require Import RecordSet.
From Verif Require Import Model.Num Model.Prng Model.Safety Model.Balloon Model.WindField
  Model.Atmosphere Model.Env.
Import ListNotations RecordSetNotations.

Section Episodes.
Context (P : prng) (noise4d : Z -> R -> R -> R -> R -> R) (F : forecaster P).
Context (FC : feature_class P F).
Context (reward_fn : wind_field P F -> atmosphere -> R * R -> bstate R -> option R).
Context (draws : nat).

Inductive op :=
| Seed (seed : Z)                          (* env.seed(seed) *)
| Reset (seed : option Z)                  (* env.reset(seed=seed, return_info=True) *)
| Step (action : Z)                        (* env.step(action) *)
| SetBalloon (center : R * R) (s : bstate R).
    (* env.arena.set_balloon_state, balloon_arena.py:211-212 *)

Inductive response :=
| Done                                                (* a method returning None *)
| First (r : result (observation P F FC * info))
| Next (r : result (observation P F FC * R * bool * info)).

Definition call (e : env P F FC) (o : op) : env P F FC * response :=
  match o with
  | Seed z => (env_seed P F FC e z, Done)
  | Reset z =>
      let '(e, r) := env_reset P noise4d F FC draws e z in (e, First r)
  | Step a =>
      let '(e, r) := env_step P noise4d F FC reward_fn e a in (e, Next r)
  | SetBalloon c s =>
      (mkEnv P F FC (e_radius P F FC e) (e_rng P F FC e) (e_iteration P F FC e)
         (let a := e_arena P F FC e in
          mkArena P F FC (a_rng P F FC a) (a_atmosphere P F FC a) (a_wind P F FC a)
            (Some (c, s)) (a_features P F FC a)), Done)
  end.

(** The object after a sequence of calls, and what the calls returned. *)
Fixpoint after (e : env P F FC) (os : list op) : env P F FC :=
  match os with
  | [] => e
  | o :: os' => after (fst (call e o)) os'
  end.
Fixpoint responses (e : env P F FC) (os : list op) : list response :=
  match os with
  | [] => []
  | o :: os' => snd (call e o) :: responses (fst (call e o)) os'
  end.

(** An environment object somebody can hold: constructed, then used. *)
Definition usable (e : env P F FC) : Prop :=
  exists radius seed now1 now2 e0 os,
    new_env P noise4d F FC draws radius seed now1 now2 = Some e0 /\ e = after e0 os.

(** The state of its balloon. *)
Definition balloon_of (e : env P F FC) : option (bstate R) :=
  match a_balloon P F FC (e_arena P F FC e) with Some (_, s) => Some s | None => None end.
End Episodes.
