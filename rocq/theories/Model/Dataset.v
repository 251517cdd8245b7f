(** Model of how DatasetWindFieldReservoir loads its dataset from a directory:
    generative/dataset_wind_field_reservoir.py:31-52 (paths relative to
    /repo/balloon_learning_environment/).  What the reservoir does afterwards is in
    Model/Loading.v. *)
From Coq Require Import ZArith List Bool String.
From Verif Require Import Model.Loading Model.PyString.
Import ListNotations.
Open Scope string_scope.

(** Library behaviour (Python), used at dataset_wind_field_reservoir.py:41: f'{n:04d}', for n >= 0. *)
Definition format_04d (n : Z) : string :=
  let s := str_of_int n in zeros (4 - String.length s) ++ s.

Section Dataset.
Context {key field : Type}.
(** Library behaviour: jax.random.PRNGKey (52). *)
Context (prng_key : Z -> key).
(** What opening a file and unpickling it gives: an array of fields, i.e. its rows, or an
    exception (42-43).  All fields have one shape: jnp.concatenate (50) would raise otherwise. *)
Context (unpickle : string -> outcome (list field)).

(** The file name of a shard: 41. *)
Definition shard_file (data : string) (i : nat) : string :=
  data ++ "/batch" ++ format_04d (Z.of_nat i) ++ ".pickle".
(** The loop over the shards, from number [i] on: 46-49. *)
Fixpoint load_shards (data : string) (i count : nat) : outcome (list (list field)) :=
  match count with
  | O => Returns []
  | S count =>
      match unpickle (shard_file data i) with
      | Raises e => Raises e
      | Returns rows =>
          match load_shards data (S i) count with
          | Raises e => Raises e
          | Returns rest => Returns (rows :: rest)
          end
      end
  end.
(** __init__ with a directory: 31-52; 200 shards (47). *)
Definition open_reservoir (data : string) (eval_batch_size : nat) (rng_seed : Z)
  : outcome (reservoir (key := key) (field := field)) :=
  match load_shards data 0 200 with
  | Raises e => Raises e
  | Returns shards => Returns (mkReservoir (List.concat shards) eval_batch_size (prng_key rng_seed))
  end.
End Dataset.
