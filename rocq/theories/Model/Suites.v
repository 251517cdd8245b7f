(** Model of eval/suites.py (paths relative to /repo/balloon_learning_environment/)
    with Python's references: lists and suites are objects in a memory and names
    are bound to them. *)
From Coq Require Import ZArith List String Bool.
From Verif Require Import Model.StrataSeeds.
Import ListNotations.
Open Scope Z_scope.

(** Addresses of list objects and of EvaluationSuite objects (suites.py:23-33: the
    attribute seeds is a reference to a list). *)
Record memory := mkMemory {
  lists : list (list Z);
  suite_objects : list (nat * Z)
}.
(** A new list object (Python), for suites.py:36-49. *)
Definition alloc_list (m : memory) (l : list Z) : memory * nat :=
  (mkMemory (lists m ++ [l]) (suite_objects m), List.length (lists m)).
(** A new EvaluationSuite object (Python), for suites.py:36-63. *)
Definition alloc_suite (m : memory) (s : nat * Z) : memory * nat :=
  (mkMemory (lists m) (suite_objects m ++ [s]), List.length (suite_objects m)).

(** list(range(n)). *)
Definition range (n : Z) : list Z := map Z.of_nat (seq 0 (Z.to_nat n)).

(** What the module binds when it is imported, in order: the lists and the names of
    the suites (suites.py:36-49).  The list of a stratum is the object in
    STRATA_SEEDS; all_strata is a new one, extended by them in the order of line
    45. *)
Definition module_lists : list (list Z) :=
  [ range 10000; range 1000; range 100; range 10; [0];
    hardest; hard; mid; easy; easiest;
    [] ++ hardest ++ hard ++ mid ++ easy ++ easiest ].
(** The keys of _eval_suites: suites.py:36-49. *)
Definition suite_names : list string :=
  [ "big_eval"; "medium_eval"; "small_eval"; "tiny_eval"; "micro_eval";
    "hardest_strata"; "hard_strata"; "mid_strata"; "easy_strata"; "easiest_strata";
    "all_strata" ]%string.
(** The memory after importing suites.py:36-49; every max_episode_length is 960. *)
Definition imported : memory :=
  mkMemory module_lists (map (fun i => (i, 960)) (seq 0 11)).
(** _eval_suites: the name at position i is bound to the suite object i. *)
Fixpoint find (name : string) (names : list string) : option nat :=
  match names with
  | [] => None
  | n :: names => if String.eqb name n then Some O else option_map S (find name names)
  end.

(** available_suites: suites.py:52-53. *)
Definition available_suites : list string := suite_names.

(** get_eval_suite: suites.py:56-63.  [None]: ValueError. *)
Definition get_eval_suite (m : memory) (name : string) : memory * option nat :=
  match find name suite_names with
  | None => (m, None)
  | Some i =>
      let '(seeds, max_length) := nth i (suite_objects m) (O, 0) in
      let '(m, copy) := alloc_list m (nth seeds (lists m) []) in
      let '(m, s) := alloc_suite m (copy, max_length) in
      (m, Some s)
  end.
