(** What eval.py is to do, and processes that share a file system.  Only used to *state*
    properties. *)
From Coq Require Import ZArith Reals Ascii String DecimalString List.
From Verif Require Import Model.Num Model.Agents Model.Eval Model.Programs Spec.SuitesSpec.
From Verif Require Model.Loading.
Import ListNotations.
Open Scope string_scope.
Open Scope list_scope.

(** ** Names *)
(** The name of the evaluated model: the override, if there is one that is not empty;
    otherwise the agent with the number of its checkpoint, if one is given. *)
Inductive model_name (f : eval_flags) : string -> Prop :=
| overridden n : f_name_override f = Some n -> n <> "" -> model_name f n
| with_checkpoint i : f_name_override f = None \/ f_name_override f = Some "" -> f_checkpoint_idx f = Some i ->
    model_name f (f_agent f ++ "_" ++ NilZero.string_of_int (Z.to_int i))%string
| without_checkpoint : f_name_override f = None \/ f_name_override f = Some "" -> f_checkpoint_idx f = None ->
    model_name f (f_agent f).
(** The file: output_dir/suite/model.json, or output_dir/suite/model_shard.json. *)
Inductive result_file (f : eval_flags) : string -> Prop :=
| unsharded n : (f_num_shards f <= 1)%Z -> model_name f n ->
    result_file f (f_output_dir f ++ "/" ++ f_suite f ++ "/" ++ n ++ ".json")%string
| sharded n : (1 < f_num_shards f)%Z -> model_name f n ->
    result_file f (f_output_dir f ++ "/" ++ f_suite f ++ "/" ++ n ++ "_"
                   ++ NilZero.string_of_int (Z.to_int (f_shard_idx f)) ++ ".json")%string.
(** Ordinary flags: a directory that is not empty and does not end with a slash, a suite
    of the list (the flag is an enumeration), and names that do not begin with a slash. *)
Definition begins_with_slash (s : string) : Prop := exists r, s = String "/" r.
Definition orderly (f : eval_flags) : Prop :=
  (exists d c, f_output_dir f = (d ++ String c "")%string /\ c <> "/"%char) /\
  (exists l, documented (f_suite f) l) /\
  forall n, model_name f n -> ~ begins_with_slash n /\ n <> "".

(** ** What is evaluated *)
Inductive known_wind_field : string -> Loading.wind_field_class -> Prop :=
| simple_wind : known_wind_field "simple" Loading.SimpleStaticWindField
| generative_wind : known_wind_field "generative" Loading.GenerativeWindField.

Section Evaluated.
Context (acme : bool) (parse_gin : list string -> list string -> Loading.outcome unit).
Context (worlds : Loading.wind_field_class -> gym_env).
Context (make_env : forall w, Z -> Loading.outcome (g_state (worlds w))).
Context (agents : forall w, Loading.agent_class -> agent_class (g_obs (worlds w))).
Context (construct : forall w c, Loading.outcome (ag_state (agents w c))).
Context (load_checkpoint : forall w c, ag_state (agents w c) -> string -> Z -> Loading.outcome (ag_state (agents w c))).

(** These results are those of the agent of that name, as constructed if no checkpoint is
    asked for, otherwise with the checkpoint loaded, on the shard's part of the suite, in
    a new environment with the wind field of that name. *)
Definition evaluates (f : eval_flags) (now : Z) (rs : list eval_result) : Prop :=
  exists w c env a a1 l env' a',
    known_wind_field (f_wind_field f) w /\
    Loading.agent_constructor acme (f_agent f) = Loading.Returns c /\
    make_env w now = Loading.Returns env /\ construct w c = Loading.Returns a /\
    (forall dir i, f_checkpoint_dir f = Some dir -> f_checkpoint_idx f = Some i ->
       load_checkpoint w c a dir i = Loading.Returns a1) /\
    (f_checkpoint_dir f = None \/ f_checkpoint_idx f = None -> a1 = a) /\
    documented (f_suite f) l /\
    eval_agent (worlds w) (agents w c) (f_render_period f) true a1 env
      (shard (mkSuite l 960) (f_num_shards f) (f_shard_idx f)) = Some (rs, env', a').
(** The configuration is accepted. *)
Definition configured (f : eval_flags) : Prop :=
  (exists files, Loading.gin_files acme (f_agent f) (f_agent_gin_file f) [] = Loading.Returns files /\
     parse_gin files (f_gin_bindings f) = Loading.Returns tt) /\
  (f_renderer f = None \/ f_renderer f = Some "matplotlib").
End Evaluated.

(** ** Processes that share a file system *)
Definition file_system := string -> file.
(** After some writes: at every path what was written there last. *)
Inductive leaves : file_system -> writes -> file_system -> Prop :=
| leaves_all fs fs' : (forall p, fs' p = fs p) -> leaves fs [] fs'
| leaves_write fs p x ws fs1 fs' :
    fs1 p = x -> (forall q, q <> p -> fs1 q = fs q) -> leaves fs1 ws fs' -> leaves fs ((p, x) :: ws) fs'.
(** Any interleaving of what several processes write. *)
Inductive interleaved : list writes -> writes -> Prop :=
| all_done ls : (forall l, In l ls -> l = []) -> interleaved ls []
| one_write ls1 w l ls2 ws : interleaved (ls1 ++ l :: ls2) ws -> interleaved (ls1 ++ (w :: l) :: ls2) (w :: ws).
(** The same flags with another shard. *)
Definition for_shard (f : eval_flags) (i : Z) : eval_flags :=
  mkEvalFlags (f_agent f) (f_suite f) (f_wind_field f) (f_agent_gin_file f) (f_gin_bindings f)
    (f_output_dir f) (f_num_shards f) i (f_checkpoint_dir f) (f_checkpoint_idx f) (f_name_override f)
    (f_renderer f) (f_render_period f).
