(** Model of the checkpoint functions, agents/dopamine_utils.py, and of the agents'
    methods built on them, agents/dqn_agent.py:112-142 (agents/quantile_agent.py has
    the same) (paths relative to /repo/balloon_learning_environment/).

    A checkpoint directory holds files of which only the name matters, and for
    checkpoints the bundle; a directory that does not exist is empty.  Writing is
    not atomic: a file is incomplete from the moment it is opened until its last
    byte is written, and unpickling an incomplete file raises (an EOFError or
    UnpicklingError).  The files of the replay buffer, which Dopamine writes to the
    same directory, are not represented. *)
From Coq Require Import ZArith List Bool String Ascii.
From Verif Require Import Model.PyString.
Import ListNotations.
Open Scope string_scope.

(** _make_checkpoint_filename: dopamine_utils.py:27-29, without the directory. *)
Definition checkpoint_name (iteration : Z) : string :=
  "checkpoint_" ++ format_05d iteration ++ ".pkl".

(** _is_checkpoint_name: 32-41. *)
Definition is_checkpoint_name (name : string) : bool :=
  if negb (suffix name =? ".pkl") then false
  else match split "_"%char (stem name) with
       | [a; b] => (a =? "checkpoint") && (String.length b =? 5)%nat
       | _ => false
       end.

(** _get_checkpoint_iteration: 44-47.  [None]: it raises (ValueError; IndexError is
    impossible after _is_checkpoint_name). *)
Definition get_checkpoint_iteration (name : string) : option Z :=
  match split "_"%char (stem name) with
  | _ :: b :: _ => parse_int b
  | _ => None
  end.

(** The files matched by 'checkpoint_*.pkl' and extract_episode: 90-92, on the last
    component of the path ('checkpoint_' occurs there). *)
Definition globbed (name : string) : bool :=
  let p := "checkpoint_" in
  prefix p name &&
  (let rest := drop (String.length p) name in
   (4 <=? String.length rest)%nat && (drop (String.length rest - 4) rest =? ".pkl")).
(** extract_episode: dopamine_utils.py:91-92. *)
Definition extract_episode (name : string) : option Z :=
  let start := match rfind "checkpoint_" name with Some i => (i + 11)%nat | None => 10%nat end in
  parse_int (substring start (String.length name - 4 - start) name).

(** max(..) of a generator, None: ValueError (from int, or nothing to compare). *)
Fixpoint max_episode (names : list string) : option Z :=
  match names with
  | [] => None
  | [n] => extract_episode n
  | n :: rest =>
      match extract_episode n, max_episode rest with
      | Some a, Some b => Some (Z.max a b)
      | _, _ => None
      end
  end.

(** get_latest_checkpoint: 88-104. *)
Definition get_latest_checkpoint (names : list string) : Z :=
  match max_episode (filter globbed names) with Some k => k | None => -1 end.

Section Files.
Context {B : Type}.

(** A file: [Some b] a complete pickle of the bundle b, [None] anything else. *)
Definition directory := list (string * option B).
(** Library behaviour: the names that listdir returns, dopamine_utils.py:118. *)
Definition names (d : directory) : list string := map fst d.
(** Library behaviour: gfile.exists and reading, dopamine_utils.py:78-82. *)
Definition lookup (d : directory) (name : string) : option (option B) :=
  match find (fun f => fst f =? name) d with Some f => Some (snd f) | None => None end.
(** Library behaviour: gfile.remove, dopamine_utils.py:122. *)
Definition remove (d : directory) (name : string) : directory :=
  filter (fun f => negb (fst f =? name)) d.
(** Library behaviour: writing a file, dopamine_utils.py:68-69. *)
Definition write (d : directory) (name : string) (c : option B) : directory :=
  (name, c) :: remove d name.

(** clean_up_old_checkpoints: 107-122, over a listing.  The directories it goes
    through, and whether it ended with a ValueError. *)
Fixpoint clean_up (listing : list string) (episode_number duration : Z) (d : directory)
  : list directory * bool :=
  match listing with
  | [] => ([], false)
  | name :: rest =>
      if is_checkpoint_name name then
        match get_checkpoint_iteration name with
        | None => ([], true)
        | Some iteration =>
            if (iteration <? episode_number - duration)%Z then
              let d := remove d name in
              let '(ds, raised) := clean_up rest episode_number duration d in
              (d :: ds, raised)
            else clean_up rest episode_number duration d
        end
      else clean_up rest episode_number duration d
  end.
End Files.
Arguments directory B : clear implicits.
