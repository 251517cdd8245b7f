(** Model of the programs eval/eval.py and train.py (paths relative to
    /repo/balloon_learning_environment/): what they do with the file system, and in which
    order they give up.  Parsing the command line and gin files, constructing agents and
    environments and restoring checkpoints are oracles that may raise. *)
From Coq Require Import ZArith Reals String List Bool.
From Verif Require Import Model.Num Model.Agents Model.Eval Model.PyString.
From Verif Require Model.Loading Model.Suites.
Import ListNotations.
Import Loading (outcome, Returns, Raises).
Open Scope string_scope.
Open Scope list_scope.

(** What can be at a path: nothing, a file that has been opened for writing (or that is no
    list of results), or the results in a file. *)
Inductive file := Missing | Unreadable | Results (rs : list eval_result).
(** What a program does to the file system, as far as result files are concerned, one after
    the other (eval.py:94-96); directories are left out. *)
Definition writes := list (string * file).

(** ** eval.py *)
(** The flags: eval.py:33-67 (pretty_json only concerns white space). *)
Record eval_flags := mkEvalFlags {
  f_agent : string;
  f_suite : string;
  f_wind_field : string;
  f_agent_gin_file : option string;
  f_gin_bindings : list string;
  f_output_dir : string;
  f_num_shards : Z;
  f_shard_idx : Z;
  f_checkpoint_dir : option string;
  f_checkpoint_idx : option Z;
  f_name_override : option string;
  f_renderer : option string;
  f_render_period : Z
}.

(** The path that write_result writes to: eval.py:77-89. *)
Definition result_path (f : eval_flags) : string :=
  let file_name := result_file_name (f_name_override f) (f_checkpoint_idx f) (f_agent f)
                     (f_num_shards f) (f_shard_idx f) in
  let dir_path := path_join (f_output_dir f) (f_suite f) in
  path_join dir_path file_name.

(** The suite that get_eval_suite returns, with its seeds: eval.py:122, suites.py:56-63. *)
Definition suite_called (name : string) : outcome suite :=
  match Suites.get_eval_suite Suites.imported name with
  | (_, None) => Raises Loading.ValueError
  | (m, Some s) =>
      let '(l, max_length) := nth s (Suites.suite_objects m) (O, 0%Z) in
      Returns (mkSuite (nth l (Suites.lists m) []) max_length)
  end.

(** _RENDERERS[FLAGS.renderer](): eval.py:70-72, 107-109 (the same in train.py:60-62,
    80-82); an unknown name raises KeyError. *)
Definition make_renderer (renderer : option string) : outcome unit :=
  match renderer with
  | None => Returns tt
  | Some name => if String.eqb name "matplotlib" then Returns tt else Raises Loading.OtherError
  end.

Section Programs.
(** Whether acme is installed; what gin makes of its files and bindings. *)
Context (acme : bool) (parse_gin : list string -> list string -> outcome unit).
(** The environments by their wind field, and gym.make, at a system time. *)
Context (worlds : Loading.wind_field_class -> gym_env).
Context (make_env : forall w, Z -> outcome (g_state (worlds w))).
(** The agents by their class: constructing one, and load_checkpoint. *)
Context (agents : forall w, Loading.agent_class -> agent_class (g_obs (worlds w))).
Context (construct : forall w c, outcome (ag_state (agents w c))).
Context (load_checkpoint : forall w c, ag_state (agents w c) -> string -> Z -> outcome (ag_state (agents w c))).
(** Whether the directory can be made and the file opened. *)
Context (writable : string -> bool).

(** Helper: going on unless something was raised. *)
Definition bind {X Y} (m : outcome X) (k : X -> writes * outcome Y) : writes * outcome Y :=
  match m with Returns x => k x | Raises e => ([], Raises e) end.

(** bind_gin_variables: run_helpers.py:75-106. *)
Definition bind_gin (agent : string) (gin_file : option string) (bindings : list string) : outcome unit :=
  match Loading.gin_files acme agent gin_file [] with
  | Raises e => Raises e
  | Returns files => parse_gin files bindings
  end.

(** write_result: eval.py:75-96: the file is opened, which empties it, and written. *)
Definition write_result (f : eval_flags) (rs : list eval_result) : writes * outcome unit :=
  let file_path := result_path f in
  if writable file_path then ([(file_path, Unreadable); (file_path, Results rs)], Returns tt)
  else ([], Raises Loading.OtherError).

(** Whether to load a checkpoint: eval.py:118-119. *)
Definition maybe_load (f : eval_flags) w c (a : ag_state (agents w c)) : outcome (ag_state (agents w c)) :=
  match f_checkpoint_dir f, f_checkpoint_idx f with
  | Some dir, Some idx => load_checkpoint w c a dir idx
  | _, _ => Returns a
  end.

(** main: eval.py:99-132, at the system time [now].  *)
Definition eval_main (f : eval_flags) (now : Z) : writes * outcome unit :=
  bind (bind_gin (f_agent f) (f_agent_gin_file f) (f_gin_bindings f)) (fun _ =>
  bind (make_renderer (f_renderer f)) (fun _ =>
  bind (Loading.get_wind_field_factory (f_wind_field f)) (fun w =>
  bind (make_env w now) (fun env =>
  bind (Loading.agent_constructor acme (f_agent f)) (fun c =>
  bind (construct w c) (fun agent =>
  bind (maybe_load f w c agent) (fun agent =>
  bind (suite_called (f_suite f)) (fun s =>
  let s := shard s (f_num_shards f) (f_shard_idx f) in
  match eval_agent (worlds w) (agents w c) (f_render_period f) true agent env s with
  | None => ([], Raises Loading.OtherError)
  | Some (rs, _, _) => write_result f rs
  end)))))))).
End Programs.

(** ** train.py *)
(** The directory of a run: train.py:94. *)
Definition run_dir (base_dir agent : string) (run_number : Z) : string :=
  path_join (path_join base_dir agent) (str_of_int run_number).
(** Where its checkpoints go: train_lib.py:106. *)
Definition run_checkpoint_dir (base_dir agent : string) (run_number : Z) : string :=
  path_join (run_dir base_dir agent run_number) "checkpoints".
(** The picture: train.py:105-106. *)
Definition image_save_path (base_dir agent : string) (run_number : Z) : string :=
  path_join base_dir "balloon_path.png".
