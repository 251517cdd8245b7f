(** Model of saving and restoring: get_simulator_state and set_simulator_state,
    env/balloon_arena.py:204-220, with Python's references made explicit.  The
    objects that a SimulatorState (env/simulator_data.py:25-34) refers to live in
    a heap: balloon states, wind fields and atmospheres, by address.  Paths are
    relative to /repo/balloon_learning_environment/. *)
From Coq Require Import ZArith Reals PeanoNat.
From Verif Require Import Model.Num Model.Prng Model.Safety Model.Balloon Model.WindField
  Model.Atmosphere Model.Env.

Section SimState.
Context (P : prng) (noise4d : Z -> R -> R -> R -> R -> R) (F : forecaster P).
Context (FC : feature_class P F).
Context (draws : nat).

(** References (Python). *)
Definition addr := nat.
(** The objects that a SimulatorState refers to: simulator_data.py:25-34. *)
Record heap := mkHeap {
  balloon_at : addr -> R * R * bstate R;      (* BalloonState, with its center_latlng *)
  wind_at : addr -> wind_field P F;
  atmosphere_at : addr -> atmosphere;
  next_free : addr
}.

(** SimulatorState: three references. *)
Record simulator_state := mkSim { s_balloon : addr; s_wind : addr; s_atmosphere : addr }.

(** A BalloonArena whose attributes _balloon.state, _wind_field and _atmosphere
    are references. *)
Record rarena := mkRA {
  ra_rng : key P;
  ra_refs : simulator_state;
  ra_features : option (fc_object P F FC)
}.

(** What the code sees when it follows the references. *)
Definition deref (h : heap) (r : rarena) : arena P F FC :=
  mkArena P F FC (ra_rng r) (atmosphere_at h (s_atmosphere (ra_refs r)))
    (wind_at h (s_wind (ra_refs r))) (Some (balloon_at h (s_balloon (ra_refs r)))) (ra_features r).

(** Helper, for set_simulator_state, balloon_arena.py:209-220: an object changed in place. *)
Definition update {A} (f : addr -> A) (p : addr) (a : A) : addr -> A :=
  fun q => if Nat.eqb q p then a else f q.

(** get_simulator_state: balloon_arena.py:204-207; get_balloon_state returns
    self._balloon.state itself (216-217). *)
Definition get_simulator_state (r : rarena) : simulator_state := ra_refs r.

(** set_simulator_state, set_balloon_state: 209-214, 219-220. *)
Definition set_simulator_state (r : rarena) (st : simulator_state) : rarena :=
  mkRA (ra_rng r) st (ra_features r).

(** step: the dynamics assign attributes of the balloon state object in place
    (env/balloon/balloon.py:286, 324-325, and the safety layers); the wind field
    and the atmosphere are only read. *)
Definition ref_step (h : heap) (r : rarena) (c : command)
  : heap * rarena * result (observation P F FC) :=
  let '(a, res) := arena_step P noise4d F FC (deref h r) c in
  let h' := match a_balloon P F FC a with
            | Some b => mkHeap (update (balloon_at h) (s_balloon (ra_refs r)) b) (wind_at h)
                          (atmosphere_at h) (next_free h)
            | None => h
            end in
  (h', mkRA (ra_rng r) (ra_refs r) (a_features P F FC a), res).

(** reset: atmosphere.reset and wind_field.reset change those objects in place
    (balloon_arena.py:171, 177), the balloon is a new object (173). *)
Definition ref_reset (h : heap) (r : rarena) (k : key P)
  : heap * rarena * result (observation P F FC) :=
  let '(a, res) := arena_reset P noise4d F FC draws (deref h r) k in
  match initialize_balloon P draws (split P k 3 0) (a_atmosphere P F FC a)
          (Sampling.sample_time P (split P k 3 2) Sampling.BEGIN_RANGE Sampling.END_RANGE),
        a_balloon P F FC a with
  | Some _, Some b =>
      (mkHeap (update (balloon_at h) (next_free h) b)
         (update (wind_at h) (s_wind (ra_refs r)) (a_wind P F FC a))
         (update (atmosphere_at h) (s_atmosphere (ra_refs r)) (a_atmosphere P F FC a))
         (S (next_free h)),
       mkRA (a_rng P F FC a)
         (mkSim (next_free h) (s_wind (ra_refs r)) (s_atmosphere (ra_refs r)))
         (a_features P F FC a), res)
  | _, _ =>   (* raised before a balloon was made *)
      (mkHeap (balloon_at h) (wind_at h)
         (update (atmosphere_at h) (s_atmosphere (ra_refs r)) (a_atmosphere P F FC a)) (next_free h),
       mkRA (a_rng P F FC a) (ra_refs r) (ra_features r), res)
  end.

(** copy.deepcopy(simulator_state), which a careful client could use: new objects. *)
Definition deepcopy (h : heap) (st : simulator_state) : heap * simulator_state :=
  (mkHeap (update (balloon_at h) (next_free h) (balloon_at h (s_balloon st)))
          (update (wind_at h) (next_free h) (wind_at h (s_wind st)))
          (update (atmosphere_at h) (next_free h) (atmosphere_at h (s_atmosphere st)))
          (S (next_free h)),
   mkSim (next_free h) (next_free h) (next_free h)).

(** A sequence of steps. *)
Fixpoint ref_steps (h : heap) (r : rarena) (cs : list command) : heap * rarena :=
  match cs with
  | nil => (h, r)
  | cons c cs' => let '(h, r, _) := ref_step h r c in ref_steps h r cs'
  end.
End SimState.
