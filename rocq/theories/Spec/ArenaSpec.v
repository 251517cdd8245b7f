(** Using an arena object by itself: any sequence of calls of reset and step.  Only used
    to *state* properties. *)
From Coq Require Import ZArith Reals List.
From Verif Require Import Model.Num Model.Prng Model.Safety Model.Balloon Model.WindField Model.Atmosphere Model.Env.
Import ListNotations.

Section Arenas.
Context (P : prng) (noise4d : Z -> R -> R -> R -> R -> R) (F : forecaster P).
Context (FC : feature_class P F) (draws : nat).

Inductive arena_op :=
| Arena_reset (seed : arena_seed P) (now : Z)     (* arena.reset(seed), at that system time *)
| Arena_step (c : command).                       (* arena.step(c) *)
Definition arena_call (a : arena P F FC) (o : arena_op) : arena P F FC * result (observation P F FC) :=
  match o with
  | Arena_reset seed now => arena_reset_from P noise4d F FC draws a seed now
  | Arena_step c => arena_step P noise4d F FC a c
  end.
Fixpoint arena_after (a : arena P F FC) (os : list arena_op) : arena P F FC :=
  match os with [] => a | o :: os => arena_after (fst (arena_call a o)) os end.
Fixpoint arena_responses (a : arena P F FC) (os : list arena_op) : list (result (observation P F FC)) :=
  match os with [] => [] | o :: os => snd (arena_call a o) :: arena_responses (fst (arena_call a o)) os end.
(** An arena somebody can hold: constructed, then used. *)
Definition usable_arena (a : arena P F FC) : Prop :=
  exists seed now a0 os, new_arena_from P noise4d F FC draws seed now = Some a0 /\ a = arena_after a0 os.
End Arenas.
