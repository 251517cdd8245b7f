(** Library behaviour: the functions of Python's str, int and pathlib.PurePosixPath
    that the checkpoint code uses, on ASCII strings. *)
From Coq Require Import ZArith List Bool String Ascii DecimalString.
Import ListNotations.
Open Scope string_scope.

(** Library behaviour (Python), used at dopamine_utils.py:92: s[n:]. *)
Definition drop (n : nat) (s : string) : string := substring n (String.length s - n) s.
(** Library behaviour (Python), used at dopamine_utils.py:92: s[:n]. *)
Definition take (n : nat) (s : string) : string := substring 0 n s.

(** s.rfind(sub); [None] is -1. *)
Fixpoint rfind (sub s : string) : option nat :=
  match s with
  | EmptyString => if sub =? "" then Some O else None
  | String _ r =>
      match rfind sub r with
      | Some i => Some (S i)
      | None => if prefix sub s then Some O else None
      end
  end.

(** s.split(sep) for a single character. *)
Fixpoint split (sep : ascii) (s : string) : list string :=
  match s with
  | EmptyString => [""]
  | String c r =>
      if Ascii.eqb c sep then "" :: split sep r
      else match split sep r with
           | h :: t => String c h :: t
           | [] => [String c ""]
           end
  end.

(** pathlib: path.suffix and path.stem of a file name without slashes. *)
Definition dot (name : string) : option nat :=
  match rfind "." name with
  | Some i => if ((0 <? i) && (i <? String.length name - 1))%nat then Some i else None
  | None => None
  end.
(** Library behaviour (Python), used at dopamine_utils.py:34: PurePath.suffix. *)
Definition suffix (name : string) : string :=
  match dot name with Some i => drop i name | None => "" end.
(** Library behaviour (Python), used at dopamine_utils.py:37, 46: PurePath.stem. *)
Definition stem (name : string) : string :=
  match dot name with Some i => take i name | None => name end.

(** int(s): white space around is ignored, then an optional sign, then digits with
    single underscores between them; [None]: ValueError. *)
Definition is_space (c : ascii) : bool :=
  let n := nat_of_ascii c in ((n =? 32) || ((9 <=? n) && (n <=? 13)) || ((28 <=? n) && (n <=? 31)))%nat.
(** Library behaviour (Python), used at dopamine_utils.py:47, 92: the digits int() reads. *)
Definition digit (c : ascii) : option Z :=
  let n := nat_of_ascii c in
  if ((48 <=? n) && (n <=? 57))%nat then Some (Z.of_nat n - 48)%Z else None.
(** Library behaviour (Python), used at dopamine_utils.py:47, 92: white space before a number.
    *)
Fixpoint lstrip (s : string) : string :=
  match s with
  | String c r => if is_space c then lstrip r else s
  | EmptyString => ""
  end.
(** Library behaviour (Python), used at dopamine_utils.py:47, 92: white space after a number. *)
Fixpoint rstrip (s : string) : string :=
  match s with
  | String c r =>
      let r' := rstrip r in
      if (r' =? "") && is_space c then "" else String c r'
  | EmptyString => ""
  end.
(** Library behaviour (Python), used at dopamine_utils.py:47, 92: the digits of int(). *)
Fixpoint parse_digits (s : string) (acc : Z) (after_digit : bool) : option Z :=
  match s with
  | EmptyString => if after_digit then Some acc else None
  | String c r =>
      match digit c with
      | Some d => parse_digits r (10 * acc + d)%Z true
      | None => if Ascii.eqb c "_" && after_digit then parse_digits r acc false else None
      end
  end.
(** Library behaviour (Python), used at dopamine_utils.py:47, 92: int(s). *)
Definition parse_int (s : string) : option Z :=
  match rstrip (lstrip s) with
  | String "-" r => option_map Z.opp (parse_digits r 0 false)
  | String "+" r => parse_digits r 0 false
  | r => parse_digits r 0 false
  end.

(** str(n) for an integer, and f'{n:05d}'. *)
Definition str_of_int (n : Z) : string := NilZero.string_of_int (Z.to_int n).
(** Library behaviour (Python), used at dopamine_utils.py:29: the padding of :05d. *)
Fixpoint zeros (n : nat) : string :=
  match n with O => "" | S n => String "0" (zeros n) end.
(** Library behaviour (Python), used at dopamine_utils.py:29: f'{n:05d}'. *)
Definition format_05d (n : Z) : string :=
  let digits := str_of_int (Z.abs n) in
  if (n <? 0)%Z then "-" ++ zeros (4 - String.length digits) ++ digits
  else zeros (5 - String.length digits) ++ digits.

(** Library behaviour (Python's posixpath), used at train.py:94, eval.py:88-89,
    acme_eval_agent.py:53, 149: os.path.join(a, b). *)
Definition starts_with_slash (s : string) : bool :=
  match s with String c _ => Ascii.eqb c "/" | EmptyString => false end.
(** s.endswith('/') (library behaviour). *)
Fixpoint ends_with_slash (s : string) : bool :=
  match s with
  | EmptyString => false
  | String c "" => Ascii.eqb c "/"
  | String _ r => ends_with_slash r
  end.
(** os.path.join(a, b) (library behaviour). *)
Definition path_join (a b : string) : string :=
  if starts_with_slash b then b
  else if (a =? "") || ends_with_slash a then a ++ b
  else a ++ "/" ++ b.
(** s.rstrip('/') (library behaviour). *)
Fixpoint rstrip_slash (s : string) : string :=
  match s with
  | EmptyString => ""
  | String c r => let r' := rstrip_slash r in if (r' =? "") && Ascii.eqb c "/" then "" else String c r'
  end.
(** os.path.dirname(p) (library behaviour): up to the last slash; slashes at its end are
    dropped unless there is nothing else. *)
Definition dirname (p : string) : string :=
  match rfind "/" p with
  | None => ""
  | Some i => let head := take (S i) p in if rstrip_slash head =? "" then head else rstrip_slash head
  end.
