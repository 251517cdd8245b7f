(** The documented suites, and what callers can do with the objects they are given.
    Only used to *state* properties. *)
From Coq Require Import ZArith List String Bool.
From Verif Require Import Model.StrataSeeds Model.Suites.
Import ListNotations.
Open Scope Z_scope.

(** The seeds 0, 1, .., n-1. *)
Definition first_seeds (n : Z) (l : list Z) : Prop :=
  Z.of_nat (List.length l) = n /\ forall i, 0 <= i < n -> nth_error l (Z.to_nat i) = Some i.

Inductive documented : string -> list Z -> Prop :=
| doc_big l : first_seeds 10000 l -> documented "big_eval" l
| doc_medium l : first_seeds 1000 l -> documented "medium_eval" l
| doc_small l : first_seeds 100 l -> documented "small_eval" l
| doc_tiny l : first_seeds 10 l -> documented "tiny_eval" l
| doc_micro : documented "micro_eval" [0]
| doc_stratum name l : In (name, l) STRATA_SEEDS -> documented (name ++ "_strata") l
| doc_all : documented "all_strata" (hardest ++ hard ++ mid ++ easy ++ easiest).

(** What a caller does.  It holds the suites it was given in variables 0, 1, ...; it
    can edit the list of seeds of one in place, in any way, let the attribute refer
    to the list of another, or to a new list, and set the length. *)
Inductive action :=
| Get (name : string)
| EditSeeds (v : nat) (edit : list Z -> list Z)
| ShareSeeds (v w : nat)
| NewSeeds (v : nat) (l : list Z)
| SetLength (v : nat) (n : Z).

Definition update {B} (l : list B) (i : nat) (b : B) : list B :=
  firstn i l ++ (match skipn i l with [] => [] | _ :: r => b :: r end).

Record world := mkWorld { mem : memory; vars : list nat }.
Definition suite_of (w : world) (v : nat) : option (nat * (nat * Z)) :=
  match nth_error (vars w) v with
  | None => None
  | Some a => match nth_error (suite_objects (mem w)) a with None => None | Some s => Some (a, s) end
  end.
Definition with_suite (w : world) (a : nat) (s : nat * Z) : world :=
  mkWorld (mkMemory (lists (mem w)) (update (suite_objects (mem w)) a s)) (vars w).

Definition act (w : world) (x : action) : world :=
  match x with
  | Get name =>
      match get_eval_suite (mem w) name with
      | (m, None) => mkWorld m (vars w)
      | (m, Some s) => mkWorld m (vars w ++ [s])
      end
  | EditSeeds v edit =>
      match suite_of w v with
      | None => w
      | Some (_, (l, _)) =>
          mkWorld (mkMemory (update (lists (mem w)) l (edit (nth l (lists (mem w)) [])))
                            (suite_objects (mem w))) (vars w)
      end
  | ShareSeeds v u =>
      match suite_of w v, suite_of w u with
      | Some (a, (_, n)), Some (_, (l, _)) => with_suite w a (l, n)
      | _, _ => w
      end
  | NewSeeds v l =>
      match suite_of w v with
      | None => w
      | Some (a, (_, n)) =>
          let '(m, r) := alloc_list (mem w) l in with_suite (mkWorld m (vars w)) a (r, n)
      end
  | SetLength v n =>
      match suite_of w v with None => w | Some (a, (l, _)) => with_suite w a (l, n) end
  end.
Definition history (xs : list action) : world := fold_left act xs (mkWorld imported []).
