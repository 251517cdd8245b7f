(** What the exploration schedule promises. *)
From Coq Require Import ZArith Reals List Bool.
From Verif Require Import Model.Prng Model.Agents.
Import ListNotations.

(** The action of begin_episode and the next 79 are the learner's, that is four
    hours of three minutes; then forty exploratory actions, that is two hours; and
    so on.  [n] counts the calls of step in the episode, from 1. *)
Definition explores (n : nat) : bool := (80 <=? n mod 120)%nat.

(** Calling an object's method for every element of a list. *)
Fixpoint calls {S I O} (step : S -> I -> option (S * O)) (s : S) (inputs : list I)
  : option (S * list O) :=
  match inputs with
  | [] => Some (s, [])
  | i :: rest =>
      match step s i with
      | None => None
      | Some (s, o) =>
          match calls step s rest with
          | None => None
          | Some (s, os) => Some (s, o :: os)
          end
      end
  end.

(** A step: the reward, the observation and the learner's action. *)
Definition input (obs : Type) : Type := R * obs * Z.

(** The actions when the agent [A] is asked instead of the learner in the steps
    chosen by [exploring], and in no other; [n] is the number of the first. *)
Fixpoint scheduled {obs} (A : agent_class obs) (exploring : nat -> bool) (n : nat)
    (a : ag_state A) (inputs : list (input obs)) : option (ag_state A * list Z) :=
  match inputs with
  | [] => Some (a, [])
  | (reward, o, action) :: rest =>
      match (if exploring n then ag_step A a reward o else Some (a, action)) with
      | None => None
      | Some (a, given) =>
          match scheduled A exploring (S n) a rest with
          | None => None
          | Some (a, given') => Some (a, given :: given')
          end
      end
  end.

(** The key that decides about the k-th episode (from 0): the first half of the
    k-th key of the chain of second halves. *)
Fixpoint chain (P : prng) (k : nat) (key0 : key P) : key P :=
  match k with O => key0 | S k => split P (chain P k key0) 2 1 end.
Definition draw (P : prng) (seed : Z) (k : nat) : R :=
  uniform P (split P (chain P k (prng_key P seed)) 2 0) 0 1.

(** What happens to an exploration strategy or to an agent in the course of time. *)
Inductive event (obs : Type) :=
| Began (o : obs) (action : Z)
| Stepped (i : input obs).
Arguments Began {obs}. Arguments Stepped {obs}.
Definition episodes_begun {obs} (es : list (event obs)) : nat :=
  length (filter (fun e => match e with Began _ _ => true | Stepped _ => false end) es).
