(** Model of models/models.py, of the reservoir of
    generative/dataset_wind_field_reservoir.py, of the registries
    agents/agent_registry.py, utils/run_helpers.py, env/gym.py, and of the checks of
    agents/perciatelli44.py (paths relative to /repo/balloon_learning_environment/). *)
From Coq Require Import ZArith Reals List Bool String.
From Verif Require Import Model.Num.
Import ListNotations.
Open Scope string_scope.
Open Scope list_scope.

(** ** Exceptions *)
Inductive exception :=
| ValueError | RuntimeError
| FileNotFoundError          (* Python's *)
| TfNotFoundError            (* tf.errors.NotFoundError, not a subclass of the former *)
| OtherError.                (* any other, e.g. permission denied *)
Inductive outcome (A : Type) := Returns (a : A) | Raises (e : exception).
Arguments Returns {A} a.
Arguments Raises {A} e.

(** ** models.py *)
(** A location: readable with these bytes, absent, or failing otherwise. *)
Inductive location := Readable (bytes : list Z) | Absent | Broken.
(** Library behaviour: reading a tf.io.gfile.GFile, and importlib.resources.open_binary. *)
Definition gfile_read (l : location) : outcome (list Z) :=
  match l with Readable b => Returns b | Absent => Raises TfNotFoundError | Broken => Raises OtherError end.
(** Library behaviour: importlib.resources.open_binary (models.py:56-79, 106-129). *)
Definition resource_read (l : location) : outcome (list Z) :=
  match l with Readable b => Returns b | Absent => Raises FileNotFoundError | Broken => Raises OtherError end.

(** load_offlineskies22: 32-79.  [path]: what is at the given path, if one is given. *)
Definition load_offlineskies22 (path : option location) (packaged relative : location) : outcome (list Z) :=
  match path with
  | Some l =>
      match gfile_read l with
      | Raises TfNotFoundError => Raises ValueError
      | r => r
      end
  | None =>
      match resource_read packaged with
      | Raises FileNotFoundError =>
          match gfile_read relative with
          | Raises TfNotFoundError => Raises RuntimeError
          | r => r
          end
      | r => r
      end
  end.
(** load_perciatelli44: 82-129; the last attempt catches FileNotFoundError, 125. *)
Definition load_perciatelli44 (path : option location) (packaged relative : location) : outcome (list Z) :=
  match path with
  | Some l =>
      match gfile_read l with
      | Raises TfNotFoundError => Raises ValueError
      | r => r
      end
  | None =>
      match resource_read packaged with
      | Raises FileNotFoundError =>
          match gfile_read relative with
          | Raises FileNotFoundError => Raises RuntimeError
          | r => r
          end
      | r => r
      end
  end.

(** ** DatasetWindFieldReservoir: dataset_wind_field_reservoir.py:28-81, given an array
    (loading the shards, 37-52, is in Model/Dataset.v). *)
Section Reservoir.
Context {key field : Type} (split : key -> key * key).
(** Library behaviour: jax.random.permutation(key, n); jax.random.choice without
    replacement takes its first entries, and raises ValueError if there are too few. *)
Context (permutation : key -> nat -> list nat).

(** The attributes of DatasetWindFieldReservoir: dataset_wind_field_reservoir.py:28-52. *)
Record reservoir := mkReservoir { dataset : list field; eval_batch_size : nat; rng : key }.
(** get_batch: 55-71.  If there are fewer rows than [eval_batch_size], choice is called
    with a negative number and raises ValueError too. *)
Definition get_batch (r : reservoir) (batch_size : nat) : reservoir * outcome (list field) :=
  let '(rng', k) := split (rng r) in
  let r' := mkReservoir (dataset r) (eval_batch_size r) rng' in
  let n := List.length (dataset r) in
  if (n <? eval_batch_size r)%nat then (r', Raises ValueError)
  else
    let pool := (n - eval_batch_size r)%nat in
    if (pool <? batch_size)%nat then (r', Raises ValueError)
    else (r', Returns (flat_map (fun i => match nth_error (dataset r) i with Some f => [f] | None => [] end)
                                (firstn batch_size (permutation k pool)))).
(** get_eval_batch: 73-81.  dataset[-k:] is the whole dataset for k = 0, and for k
    beyond its length. *)
Definition get_eval_batch (r : reservoir) : list field :=
  let n := List.length (dataset r) in
  let k := eval_batch_size r in
  if (k =? 0)%nat then dataset r else skipn (n - k) (dataset r).
End Reservoir.

(** ** agent_registry.py *)
Inductive agent_class :=
| RandomAgent | MLPAgent | DQNAgent | Perciatelli44 | QuantileAgent | StationSeekerAgent
| RandomWalkAgent | AcmeEvalAgent.
(** BASE_DIR: agent_registry.py:39. *)
Definition BASE_DIR : string := "balloon_learning_environment/agents/configs".
(** REGISTRY: 40-58; [acme]: whether the acme agent could be imported. *)
Definition registry (acme : bool) : list (string * (agent_class * option string)) :=
  [("random", (RandomAgent, None));
   ("mlp", (MLPAgent, Some (BASE_DIR ++ "/mlp.gin")));
   ("dqn", (DQNAgent, Some (BASE_DIR ++ "/dqn.gin")));
   ("perciatelli44", (Perciatelli44, None));
   ("quantile", (QuantileAgent, Some (BASE_DIR ++ "/quantile.gin")));
   ("finetune_perciatelli", (QuantileAgent, Some (BASE_DIR ++ "/finetune_perciatelli.gin")));
   ("station_seeker", (StationSeekerAgent, None));
   ("random_walk", (RandomWalkAgent, None))]%string
  ++ (if acme then [("acme_eval_agent", (AcmeEvalAgent, None))] else []).
(** Library behaviour: reading a dict (agent_registry.py:62-75). *)
Fixpoint lookup {A} (name : string) (l : list (string * A)) : option A :=
  match l with
  | [] => None
  | (n, a) :: l' => if String.eqb name n then Some a else lookup name l'
  end.
(** agent_constructor: 62-69; get_default_gin_config: 72-75. *)
Definition agent_constructor (acme : bool) (name : string) : outcome agent_class :=
  match lookup name (registry acme) with Some (c, _) => Returns c | None => Raises ValueError end.
(** get_default_gin_config: agent_registry.py:72-75. *)
Definition get_default_gin_config (acme : bool) (name : string) : outcome (option string) :=
  match lookup name (registry acme) with Some (_, g) => Returns g | None => Raises ValueError end.

(** ** run_helpers.py *)
(** get_agent_gin_file: 30-46. *)
Definition get_agent_gin_file (acme : bool) (name : string) (gin_file : option string) : outcome (option string) :=
  match gin_file with None => get_default_gin_config acme name | Some _ => Returns gin_file end.
(** get_wind_field_factory: 55-72. *)
Inductive wind_field_class := SimpleStaticWindField | GenerativeWindField.
(** get_wind_field_factory: run_helpers.py:55-72. *)
Definition get_wind_field_factory (name : string) : outcome wind_field_class :=
  if String.eqb name "simple" then Returns SimpleStaticWindField
  else if String.eqb name "generative" then Returns GenerativeWindField
  else Raises ValueError.
(** The files bind_gin_variables parses, in order: 75-107. *)
Definition gin_files (acme : bool) (agent : string) (agent_gin_file : option string)
    (additional : list string) : outcome (list string) :=
  match get_agent_gin_file acme agent agent_gin_file with
  | Raises e => Raises e
  | Returns None => Returns additional
  | Returns (Some f) => Returns (f :: additional)
  end.

(** ** perciatelli44.py: the checks of __init__, 49-55. *)
Definition perciatelli44_accepts (num_actions : Z) (observation_shape : list Z) : outcome unit :=
  if negb (num_actions =? 3)%Z then Raises ValueError
  else if list_eq_dec Z.eq_dec observation_shape [1099]%Z then Returns tt else Raises ValueError.

(** begin_episode and step, 66-76: np.argmax of the network's values for the observation
    (the network, a frozen TensorFlow graph, is an oracle). *)
Fixpoint argmax_from (best : R) (at_ i : nat) (l : list R) : nat :=
  match l with
  | [] => at_
  | x :: l' => if Rltb best x then argmax_from x i (S i) l' else argmax_from best at_ (S i) l'
  end.
(** Library behaviour: np.argmax (perciatelli44.py:70, 76). *)
Definition argmax (l : list R) : nat :=
  match l with [] => 0 | x :: l' => argmax_from x 0 1 l' end.
(** begin_episode and step: perciatelli44.py:66-76. *)
Definition perciatelli44_action {observation} (q_values : observation -> list R) (o : observation) : nat :=
  argmax (q_values o).

(** ** gym.py *)
(** Gym's registry, most recent registration first; register adds or replaces. *)
Definition env_id : string := "BalloonLearningEnvironment-v0".
(** env_entry_point: gym.py:27. *)
Definition env_entry_point : string := "balloon_learning_environment.env.balloon_env:BalloonEnv".
(** Library behaviour: registration.registry.env_specs (gym.py:32). *)
Definition env_specs := list (string * string).
(** Library behaviour: registration.register (gym.py:40). *)
Definition register (id entry : string) (specs : env_specs) : env_specs :=
  (id, entry) :: filter (fun s => negb (String.eqb (fst s) id)) specs.
(** register_env: 20-40. *)
Definition register_env (specs : env_specs) : env_specs :=
  match lookup env_id specs with
  | Some _ => specs
  | None => register env_id env_entry_point specs
  end.
