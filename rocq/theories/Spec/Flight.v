(** What a flight is: a sequence of calls of Balloon.simulate_step on one
    balloon, each with its own wind, atmosphere/sun ([world]), requested command
    and durations.  Only used to *state* properties. *)
From Coq Require Import ZArith List.
From Verif Require Import Model.Num Model.Safety Model.Balloon.
Import ListNotations.

Section Flight.
Context {T : Type} {N : Num T}.

Record call := mkCall {
  c_world : world T;
  c_wind : T * T;
  c_action : command;       (* requested command *)
  c_delta : Z;              (* time_delta, microseconds *)
  c_stride : Z              (* stride, microseconds *)
}.

Definition do_call (s : bstate T) (c : call) : bstate T * outcome :=
  simulate_step (c_world c) (c_wind c) (c_action c) (c_delta c) (c_stride c) s.

(** One record per call: the state in which the call was made, the call, what it
    ended with. *)
Definition leg : Type := bstate T * call * outcome.

Fixpoint fly (s : bstate T) (cs : list call) : list leg :=
  match cs with
  | [] => []
  | c :: cs' => (s, c, snd (do_call s c)) :: fly (fst (do_call s c)) cs'
  end.

(** The state after all the calls. *)
Fixpoint fly_end (s : bstate T) (cs : list call) : bstate T :=
  match cs with
  | [] => s
  | c :: cs' => fly_end (fst (do_call s c)) cs'
  end.

(** The call returned normally. *)
Definition returned (l : leg) : Prop :=
  exists eff, snd l = Executed eff.

(** Readings the safety layers are given at the beginning of a leg. *)
Definition leg_altitude (l : leg) : T :=
  match at_pressure (c_world (snd (fst l))) (pressure (fst (fst l))) with
  | Some (h, _) => h
  | None => nofZ 0   (* only for legs that did not return normally *)
  end.
Definition leg_superpressure (l : leg) : T := superpressure (fst (fst l)).
Definition leg_time (l : leg) : Z := date_time (fst (fst l)).

End Flight.
Arguments call T : clear implicits.
Arguments leg T : clear implicits.
