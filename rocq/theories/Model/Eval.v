(** Model of eval/eval_lib.py, eval/eval.py and eval/combine_eval_shards.py (paths
    relative to /repo/balloon_learning_environment/), over the reals except for
    the sharding arithmetic, which is in binary64. *)
From Coq Require Import ZArith Reals List Bool String Ascii DecimalString.
From Flocq Require Import Core.
From RecordUpdate Require Import RecordSet.
From Verif Require Import Model.Num Model.Safety Model.Balloon Model.Units Model.Agents.
Import ListNotations RecordSetNotations.
Open Scope R_scope.

(** suites.EvaluationSuite: eval/suites.py:23-33. *)
Record suite := mkSuite { seeds : list Z; max_episode_length : Z }.

(** SimpleBalloonState and from_balloon_state: eval_lib.py:58-78; battery_soc is
    the property of balloon.py:222-229. *)
Record simple_state := mkSimple {
  s_x : R; s_y : R; s_pressure : R; s_superpressure : R; s_time_elapsed : Z; s_battery_soc : R
}.
(** from_balloon_state: eval_lib.py:68-78. *)
Definition from_balloon_state (b : bstate R) : simple_state :=
  mkSimple (x b) (y b) (pressure b) (superpressure b) (time_elapsed b)
    (battery_charge b / battery_capacity b).

(** EvaluationResult: eval_lib.py:82-115. *)
Record eval_result := mkEvalResult {
  r_seed : Z;
  r_cumulative_reward : R;
  r_time_within_radius : R;
  r_out_of_power : bool;
  r_envelope_burst : bool;
  r_zeropressure : bool;
  r_final_timestep : Z;
  r_flight_path : list simple_state
}.

(** _balloon_is_within_radius: eval_lib.py:118-120. *)
Definition balloon_is_within_radius (b : bstate R) (radius : R) : bool :=
  Rleb (Units.relative_distance (x b) (y b)) radius.

Section Eval.
Context (G : gym_env) (A : agent_class (g_obs G)).
Context (render_period : Z) (calculate_flight_path : bool).

(** The local variables of the loop: eval_lib.py:154-165, and the objects. *)
Record locals := mkLocals {
  l_env : g_state G;
  l_agent : ag_state A;
  l_action : Z;
  l_reward : R;
  l_is_done : bool;
  l_total_reward : R;
  l_steps_within_radius : Z;
  l_flight_path : list simple_state;
  l_step_count : Z;
  l_out_of_power : bool;
  l_envelope_burst : bool;
  l_zeropressure : bool
}.
#[export] Instance etaL : Settable _ := settable! mkLocals
  <l_env; l_agent; l_action; l_reward; l_is_done; l_total_reward; l_steps_within_radius;
   l_flight_path; l_step_count; l_out_of_power; l_envelope_burst; l_zeropressure>.

(** One iteration of the while loop: eval_lib.py:167-187.  Rendering changes
    nothing, but a period of 0 raises (ZeroDivisionError). *)
Definition iteration (l : locals) : option locals :=
  match g_step G (l_env l) (l_action l) with
  | None => None
  | Some (e, (o, reward, is_done, info)) =>
  match ag_step A (l_agent l) reward o with
  | None => None
  | Some (a, action) =>
  match g_balloon G e with
  | None => None
  | Some b =>
  if (render_period =? 0)%Z then None else
    let l := l <| l_env := e |> <| l_agent := a |> <| l_action := action |>
               <| l_reward := reward |> <| l_is_done := is_done |>
               <| l_total_reward := l_total_reward l + reward |>
               <| l_flight_path := if calculate_flight_path
                                   then l_flight_path l ++ [from_balloon_state b]
                                   else l_flight_path l |>
               <| l_steps_within_radius :=
                    (l_steps_within_radius l +
                     if balloon_is_within_radius b (g_radius G e) then 1 else 0)%Z |>
               <| l_step_count := (l_step_count l + 1)%Z |> in
    let get (d : option bool) := match d with Some v => v | None => false end in
    Some (if is_done
          then l <| l_out_of_power := get (d_out_of_power info) |>
                 <| l_envelope_burst := get (d_envelope_burst info) |>
                 <| l_zeropressure := get (d_zeropressure info) |>
          else l)
  end end end.

(** The while loop: eval_lib.py:166-187; [fuel] only has to be large enough, and
    the maximal number of steps is. *)
Fixpoint loop (fuel : nat) (max_length : Z) (l : locals) : option locals :=
  match fuel with
  | O => Some l
  | S fuel =>
      if (l_step_count l <? max_length)%Z then
        match iteration l with
        | None => None
        | Some l => if l_is_done l then Some l else loop fuel max_length l
        end
      else Some l
  end.

(** One seed: eval_lib.py:154-209.  [reward] and [is_done] are unbound before
    the loop; as the maximal number of steps is positive they are set before they
    are read. *)
Definition eval_seed (max_length seed : Z) (e : g_state G) (a : ag_state A)
  : option (eval_result * g_state G * ag_state A) :=
  match g_seed G e seed with
  | None => None
  | Some e =>
  match g_reset G e with
  | None => None
  | Some (e, o) =>
  match ag_begin_episode A a o with
  | None => None
  | Some (a, action) =>
  match loop (Z.to_nat max_length) max_length
          (mkLocals e a action 0 false 0 0 [] 0 false false false) with
  | None => None
  | Some l =>
  match ag_end_episode A (l_agent l) (l_reward l) (l_is_done l) with
  | None => None
  | Some a =>
      Some (mkEvalResult seed (l_total_reward l)
              (IZR (l_steps_within_radius l) / IZR (l_step_count l))
              (l_out_of_power l) (l_envelope_burst l) (l_zeropressure l)
              (l_step_count l) (l_flight_path l),
            l_env l, a)
  end end end end end.

(** The loop over the seeds of the suite: eval_lib.py:154-209. *)
Fixpoint eval_seeds (max_length : Z) (zs : list Z) (e : g_state G) (a : ag_state A)
  : option (list eval_result * g_state G * ag_state A) :=
  match zs with
  | [] => Some ([], e, a)
  | z :: zs =>
      match eval_seed max_length z e a with
      | None => None
      | Some (r, e, a) =>
          match eval_seeds max_length zs e a with
          | None => None
          | Some (rs, e, a) => Some (r :: rs, e, a)
          end
      end
  end.

(** eval_agent: eval_lib.py:123-211. *)
Definition eval_agent (a : ag_state A) (e : g_state G) (s : suite)
  : option (list eval_result * g_state G * ag_state A) :=
  if (0 <? max_episode_length s)%Z then
    eval_seeds (max_episode_length s) (seeds s) e (ag_set_mode A a EVAL)
  else None.
End Eval.

(** ** Shards: eval/eval.py *)

(** Python's n / d for integers: the nearest binary64 number (overflow left out). *)
Definition true_divide (n d : Z) : R :=
  round radix2 (FLT_exp (-1074) 53) ZnearestE (IZR n / IZR d).

(** int(len(seeds) * idx / num): eval.py:126-127. *)
Definition shard_bound (len idx num : Z) : Z := Ztrunc (true_divide (len * idx) num).

(** seeds[start:end] for 0 <= start. *)
Definition slice {B} (start end_ : Z) (l : list B) : list B :=
  firstn (Z.to_nat (end_ - start)) (skipn (Z.to_nat start) l).

(** The suite of a shard: eval.py:125-128. *)
Definition shard (s : suite) (num_shards shard_idx : Z) : suite :=
  if (1 <? num_shards)%Z then
    let len := Z.of_nat (List.length (seeds s)) in
    mkSuite (slice (shard_bound len shard_idx num_shards)
                   (shard_bound len (shard_idx + 1) num_shards) (seeds s))
            (max_episode_length s)
  else s.

(** str(n) for an integer. *)
Definition str_of_int (n : Z) : string := NilZero.string_of_int (Z.to_int n).

Open Scope string_scope.
(** The name of the file that write_result writes (in the directory of the suite):
    eval.py:77-86.  An empty name_override counts as none. *)
Definition result_file_name (name_override : option string) (checkpoint_idx : option Z)
    (agent : string) (num_shards shard_idx : Z) : string :=
  let base :=
    match name_override with
    | Some (String _ _ as n) => n
    | _ => match checkpoint_idx with
           | Some i => agent ++ "_" ++ str_of_int i
           | None => agent
           end
    end in
  let base := if (1 <? num_shards)%Z then base ++ "_" ++ str_of_int shard_idx else base in
  base ++ ".json".

(** ** combine_eval_shards.py *)

(** A directory of json files: for each name, the list of results in it, [None]
    if it cannot be read as one. *)
Definition directory := list (string * option (list eval_result)).

(** A file matched by the glob pattern '{model}_*.json' (a model name without
    glob characters): combine_eval_shards.py:48. *)
Definition ends_with (suffix s : string) : bool :=
  (String.length suffix <=? String.length s)%nat &&
  (substring (String.length s - String.length suffix) (String.length suffix) s =? suffix).
(** glob.glob of f'{model}_*.json': combine_eval_shards.py:48 (library behaviour). *)
Definition matches (model name : string) : bool :=
  let p := model ++ "_" in
  prefix p name &&
  ends_with ".json" (substring (String.length p) (String.length name - String.length p) name).

(** sorted(data, key=lambda x: x['seed']): stable. *)
Fixpoint insert_result (r : eval_result) (l : list eval_result) : list eval_result :=
  match l with
  | [] => [r]
  | q :: l' => if (r_seed r <=? r_seed q)%Z then r :: l else q :: insert_result r l'
  end.
(** sorted(data, key=seed): combine_eval_shards.py:52. *)
Definition sort_results (l : list eval_result) : list eval_result := fold_right insert_result [] l.

(** open(..., 'w'): combine_eval_shards.py:58-59 (library behaviour). *)
Definition write (d : directory) (name : string) (content : list eval_result) : directory :=
  (name, Some content) :: filter (fun f => negb (fst f =? name)) d.

(** The loop over the files: combine_eval_shards.py:46-50. *)
Fixpoint read_all (fs : directory) : option (list eval_result) :=
  match fs with
  | [] => Some []
  | (_, None) :: _ => None
  | (_, Some rs) :: fs =>
      match read_all fs with None => None | Some rs' => Some (rs ++ rs')%list end
  end.

(** The body of the loop over the models: combine_eval_shards.py:46-59.  [order]
    is the order in which glob lists the directory. *)
Definition combine (flight_paths : bool) (order : directory -> directory) (d : directory)
    (model : string) : option directory :=
  match read_all (filter (fun f => matches model (fst f)) (order d)) with
  | None => None
  | Some data =>
      let data := sort_results data in
      let data := if flight_paths then data
                  else map (fun r => mkEvalResult (r_seed r) (r_cumulative_reward r)
                         (r_time_within_radius r) (r_out_of_power r) (r_envelope_burst r)
                         (r_zeropressure r) (r_final_timestep r) []) data in
      Some (write d (model ++ ".json") data)
  end.

(** The loop over the models: combine_eval_shards.py:45-59. *)
Fixpoint combine_all (flight_paths : bool) (order : directory -> directory) (d : directory)
    (models : list string) : option directory :=
  match models with
  | [] => Some d
  | m :: ms =>
      match combine flight_paths order d m with
      | None => None
      | Some d => combine_all flight_paths order d ms
      end
  end.
