(** Model of the files of results as texts: eval/eval_lib.py:33-55 (EvalResultEncoder),
    eval/eval.py:75-96 (write_result) and eval/combine_eval_shards.py:42-59 (paths relative
    to /repo/balloon_learning_environment/), with the parts of Python's json module they
    use.  Characters are ASCII.  [None]: the call raises. *)
From Coq Require Import ZArith Reals Bool String Ascii List.
From Verif Require Import Model.Num Model.Balloon Model.Units Model.PyString Model.Eval.
Import ListNotations.
Open Scope string_scope.

(** What json.load returns and json.dump writes (library behaviour), for
    combine_eval_shards.py:49-59: a dict is a list of its keys and values in order. *)
Inductive json :=
| Null | Bool (b : bool) | Int (z : Z) | Float (x : R) | Str (s : string)
| Arr (l : list json) | Obj (l : list (string * json)).

(** d[k] = v on a dict (library behaviour): combine_eval_shards.py:56. *)
Fixpoint dict_set {V} (k : string) (v : V) (d : list (string * V)) : list (string * V) :=
  match d with
  | [] => [(k, v)]
  | (k', v') :: d => if k' =? k then (k, v) :: d else (k', v') :: dict_set k v d
  end.
(** dict(pairs) (library behaviour; json.decoder.JSONObject): combine_eval_shards.py:50. *)
Definition dict_of {V} (pairs : list (string * V)) : list (string * V) :=
  fold_left (fun d kv => dict_set (fst kv) (snd kv) d) pairs [].
(** d[k] (library behaviour): combine_eval_shards.py:52. *)
Fixpoint dict_get {V} (k : string) (d : list (string * V)) : option V :=
  match d with [] => None | (k', v) :: d => if k' =? k then Some v else dict_get k d end.

Section Text.
(** Library behaviour: float.__repr__ and float(str), which json uses for numbers with a
    fraction or an exponent (eval.py:96, combine_eval_shards.py:50, 59). *)
Context (repr : R -> string) (float_of : string -> R).

(** ** Writing: json.dump with indent None or 2 (library behaviour): eval.py:91-96,
       combine_eval_shards.py:58-59 *)
(** A number of spaces (library behaviour): the indent of eval.py:91. *)
Fixpoint spaces (n : nat) : string := match n with O => "" | S n => String " " (spaces n) end.
(** The start of a line at an indent level (library behaviour): eval.py:91. *)
Definition newline (level : nat) : string := String "010" (spaces (2 * level)).
(** What follows an opening bracket (library behaviour, json.encoder): eval.py:91-96. *)
Definition opening (pretty : bool) (level : nat) : string := if pretty then newline level else "".
(** What separates two items (library behaviour, json.encoder): eval.py:91-96. *)
Definition separator (pretty : bool) (level : nat) : string := if pretty then "," ++ newline level else ", ".
(** A key or a string; those of this program need no escaping (library behaviour):
    eval_lib.py:42-48. *)
Definition quote (s : string) : string := String """" (s ++ String """" "").

(** json.dump (library behaviour): eval.py:96, combine_eval_shards.py:59. *)
Fixpoint dump (pretty : bool) (level : nat) (v : json) : string :=
  match v with
  | Null => "null"
  | Bool b => if b then "true" else "false"
  | Int z => PyString.str_of_int z
  | Float x => repr x
  | Str s => quote s
  | Arr [] => "[]"
  | Arr (v :: vs) =>
      "[" ++ opening pretty (S level) ++ dump pretty (S level) v ++
      (fix items (vs : list json) : string :=
         match vs with
         | [] => ""
         | v :: vs => separator pretty (S level) ++ dump pretty (S level) v ++ items vs
         end) vs ++
      opening pretty level ++ "]"
  | Obj [] => "{}"
  | Obj ((k, v) :: kvs) =>
      "{" ++ opening pretty (S level) ++ quote k ++ ": " ++ dump pretty (S level) v ++
      (fix members (kvs : list (string * json)) : string :=
         match kvs with
         | [] => ""
         | (k, v) :: kvs => separator pretty (S level) ++ quote k ++ ": " ++ dump pretty (S level) v ++ members kvs
         end) kvs ++
      opening pretty level ++ "}"
  end.

(** ** Reading: json.load (library behaviour): combine_eval_shards.py:49-50 *)
(** The white space of json (library behaviour): combine_eval_shards.py:50. *)
Definition is_blank (c : ascii) : bool :=
  Ascii.eqb c " " || Ascii.eqb c "009" || Ascii.eqb c "010" || Ascii.eqb c "013".
(** White space is skipped (library behaviour): combine_eval_shards.py:50. *)
Fixpoint skip (s : string) : string :=
  match s with String c r => if is_blank c then skip r else s | "" => "" end.
(** A string, after its opening quote (library behaviour): combine_eval_shards.py:50.
    Control characters are refused; escapes, which this program never writes, are taken
    to be refused, too. *)
Fixpoint scan_string (s : string) : option (string * string) :=
  match s with
  | "" => None
  | String c r =>
      if Ascii.eqb c """" then Some ("", r)
      else if (nat_of_ascii c <? 32)%nat || Ascii.eqb c "\" then None
      else match scan_string r with Some (t, r) => Some (String c t, r) | None => None end
  end.
(** The digits at the beginning (library behaviour): combine_eval_shards.py:50. *)
Definition is_digit (c : ascii) : bool := match digit c with Some _ => true | None => false end.
(** The digits at the beginning and the rest (library behaviour): combine_eval_shards.py:50. *)
Fixpoint digits (s : string) : string * string :=
  match s with
  | String c r => if is_digit c then let '(d, r) := digits r in (String c d, r) else ("", s)
  | "" => ("", "")
  end.
(** One given character (library behaviour): combine_eval_shards.py:50. *)
Definition expect (c : ascii) (s : string) : option string :=
  match s with String c' r => if Ascii.eqb c' c then Some r else None | "" => None end.
(** An optional sign and the rest (library behaviour): combine_eval_shards.py:50. *)
Definition scan_sign (plus : bool) (s : string) : string * string :=
  match expect "-" s with
  | Some r => ("-", r)
  | None => match expect "+" s with
            | Some r => if plus then ("+", r) else ("", s)
            | None => ("", s)
            end
  end.
(** The integer part of a number: an optional minus, then 0 or digits that do not begin
    with 0; and the rest (library behaviour): combine_eval_shards.py:50. *)
Definition scan_integer (s : string) : option (string * string) :=
  let '(sign, s) := scan_sign false s in
  match expect "0" s with
  | Some r => Some (sign ++ "0", r)
  | None => let '(d, r) := digits s in if d =? "" then None else Some (sign ++ d, r)
  end.
(** The optional fraction: a point and at least one digit (library behaviour):
    combine_eval_shards.py:50. *)
Definition scan_fraction (s : string) : string * string :=
  match expect "." s with
  | Some r => let '(d, r) := digits r in if d =? "" then ("", s) else (String "." d, r)
  | None => ("", s)
  end.
(** The optional exponent: e or E, an optional sign and at least one digit (library
    behaviour): combine_eval_shards.py:50. *)
Definition scan_exponent (s : string) : string * string :=
  match s with
  | String e r =>
      if Ascii.eqb e "e" || Ascii.eqb e "E" then
        let '(sign, r) := scan_sign true r in
        let '(d, r) := digits r in
        if d =? "" then ("", s) else (String e (sign ++ d), r)
      else ("", s)
  | "" => ("", s)
  end.
(** A number: an int without fraction and exponent, a float with one (library behaviour):
    combine_eval_shards.py:50. *)
Definition scan_number (s : string) : option (json * string) :=
  match scan_integer s with
  | None => None
  | Some (i, r) =>
      let '(f, r) := scan_fraction r in
      let '(e, r) := scan_exponent r in
      if (f =? "") && (e =? "") then option_map (fun z => (Int z, r)) (parse_int i)
      else Some (Float (float_of (i ++ f ++ e)), r)
  end.
(** A word at the beginning (library behaviour): combine_eval_shards.py:50. *)
Definition scan_word (word : string) (v : json) (s : string) : option (json * string) :=
  if prefix word s then Some (v, drop (String.length word) s) else None.

(** A value, the items of a list after its bracket, and the members of a dict after its
    bracket (library behaviour): combine_eval_shards.py:50.  [fuel] bounds the recursion.
    NaN and Infinity, which no real number is written as, are left out. *)
Fixpoint parse (fuel : nat) (s : string) : option (json * string) :=
  match fuel, s with
  | S fuel, String c r =>
      if Ascii.eqb c """" then
        match scan_string r with Some (t, r) => Some (Str t, r) | None => None end
      else if Ascii.eqb c "[" then
        match expect "]" (skip r) with
        | Some r => Some (Arr [], r)
        | None => match parse_items fuel (skip r) with Some (l, r) => Some (Arr l, r) | None => None end
        end
      else if Ascii.eqb c "{" then
        match expect "}" (skip r) with
        | Some r => Some (Obj [], r)
        | None =>
            match parse_members fuel (skip r) with
            | Some (l, r) => Some (Obj (dict_of l), r)
            | None => None
            end
        end
      else if Ascii.eqb c "n" then scan_word "null" Null s
      else if Ascii.eqb c "t" then scan_word "true" (Bool true) s
      else if Ascii.eqb c "f" then scan_word "false" (Bool false) s
      else scan_number s
  | _, _ => None
  end
with parse_items (fuel : nat) (s : string) : option (list json * string) :=
  match fuel with
  | O => None
  | S fuel =>
      match parse fuel s with
      | None => None
      | Some (v, r) =>
          match expect "]" (skip r), expect "," (skip r) with
          | Some r, _ => Some ([v], r)
          | None, Some r =>
              match parse_items fuel (skip r) with Some (l, r) => Some (v :: l, r) | None => None end
          | None, None => None
          end
      end
  end
with parse_members (fuel : nat) (s : string) : option (list (string * json) * string) :=
  match fuel, expect """" s with
  | S fuel, Some r =>
      match scan_string r with
      | None => None
      | Some (k, r) =>
          match expect ":" (skip r) with
          | None => None
          | Some r =>
              match parse fuel (skip r) with
              | None => None
              | Some (v, r) =>
                  match expect "}" (skip r), expect "," (skip r) with
                  | Some r, _ => Some ([(k, v)], r)
                  | None, Some r =>
                      match parse_members fuel (skip r) with
                      | Some (l, r) => Some ((k, v) :: l, r)
                      | None => None
                      end
                  | None, None => None
                  end
              end
          end
      end
  | _, _ => None
  end.
(** json.load of a file with the given text (library behaviour):
    combine_eval_shards.py:49-50. *)
Definition load (text : string) : option json :=
  match parse (2 * String.length text + 2) (skip text) with
  | Some (v, r) => if skip r =? "" then Some v else None
  | None => None
  end.

(** ** The result files *)
Open Scope R_scope.
(** EvalResultEncoder.default on a SimpleBalloonState: eval_lib.py:40-48; .kilometers is
    units.py:55-58, total_seconds() of a timedelta in microseconds is library behaviour. *)
Definition encode_state (s : simple_state) : json :=
  Obj [("x", Float (s_x s / 1000)); ("y", Float (s_y s / 1000));
       ("pressure", Float (s_pressure s)); ("superpressure", Float (s_superpressure s));
       ("elapsed_seconds", Float (IZR (s_time_elapsed s) / 1000000));
       ("power", Float (s_battery_soc s))]%string.
(** EvalResultEncoder.default on an EvaluationResult (its __dict__, in the order of
    eval_lib.py:101-108): eval_lib.py:49-51. *)
Definition encode_result (r : eval_result) : json :=
  Obj [("seed", Int (r_seed r)); ("cumulative_reward", Float (r_cumulative_reward r));
       ("time_within_radius", Float (r_time_within_radius r)); ("out_of_power", Bool (r_out_of_power r));
       ("envelope_burst", Bool (r_envelope_burst r)); ("zeropressure", Bool (r_zeropressure r));
       ("final_timestep", Int (r_final_timestep r));
       ("flight_path", Arr (map encode_state (r_flight_path r)))]%string.
(** The text that write_result writes: eval.py:91-96. *)
Definition result_text (pretty_json : bool) (rs : list eval_result) : string :=
  dump pretty_json 0 (Arr (map encode_result rs)).

(** ** combine_eval_shards.py *)
(** data.extend(v): combine_eval_shards.py:50 (library behaviour). *)
Definition extend (data : list json) (v : json) : option (list json) :=
  match v with
  | Arr l => Some (data ++ l)
  | Obj l => Some (data ++ map (fun kv => Str (fst kv)) l)
  | Str s => Some (data ++ map (fun c => Str (String c "")) (list_ascii_of_string s))
  | _ => None
  end%list.
(** The loop over the files: combine_eval_shards.py:48-50. *)
Fixpoint load_all (data : list json) (files : list (string * string)) : option (list json) :=
  match files with
  | [] => Some data
  | (_, text) :: files =>
      match load text with
      | None => None
      | Some v => match extend data v with None => None | Some data => load_all data files end
      end
  end.
(** x['seed']: combine_eval_shards.py:52.  Seeds are ints; anything else is taken to
    raise. *)
Definition seed_of (v : json) : option Z :=
  match v with
  | Obj l => match dict_get "seed" l with Some (Int z) => Some z | _ => None end
  | _ => None
  end.
(** The keys, computed once for each element (library behaviour, sorted):
    combine_eval_shards.py:52. *)
Fixpoint keyed (l : list json) : option (list (Z * json)) :=
  match l with
  | [] => Some []
  | v :: l => match seed_of v, keyed l with Some k, Some l => Some ((k, v) :: l) | _, _ => None end
  end.
(** A stable sort by key (library behaviour, sorted): combine_eval_shards.py:52. *)
Fixpoint insert_keyed (x : Z * json) (l : list (Z * json)) : list (Z * json) :=
  match l with
  | [] => [x]
  | y :: l' => if (fst x <=? fst y)%Z then x :: l else y :: insert_keyed x l'
  end.
(** sorted(data, key=...): combine_eval_shards.py:52 (library behaviour). *)
Definition sorted_by_key (l : list (Z * json)) : list json := map snd (fold_right insert_keyed [] l).
(** d['flight_path'] = []: combine_eval_shards.py:54-56. *)
Definition drop_path (v : json) : json :=
  match v with Obj l => Obj (dict_set "flight_path" (Arr []) l) | _ => v end.
(** open(..., 'w') and json.dump: combine_eval_shards.py:58-59 (library behaviour). *)
Definition write_text (d : list (string * string)) (name text : string) : list (string * string) :=
  ((name, text) :: filter (fun f => negb (fst f =? name)) d)%string.
(** The body of the loop over the models: combine_eval_shards.py:46-59, on a directory of
    names and texts, which glob lists in the order [order]. *)
Definition combine_texts (flight_paths pretty_json : bool)
    (order : list (string * string) -> list (string * string)) (d : list (string * string))
    (model : string) : option (list (string * string)) :=
  match load_all [] (filter (fun f => matches model (fst f)) (order d)) with
  | None => None
  | Some data =>
      match keyed data with
      | None => None
      | Some l =>
          let data := sorted_by_key l in
          let data := if flight_paths then data else map drop_path data in
          Some (write_text d (model ++ ".json") (dump pretty_json 0 (Arr data)))
      end
  end.
End Text.
