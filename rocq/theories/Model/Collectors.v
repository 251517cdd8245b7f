(** Model of the training metrics, metrics/ (paths relative to
    /repo/balloon_learning_environment/).  A collector is an object with hidden state
    that is told about events; [None]: the call raises.  The texts and files that a
    collector writes are part of its state. *)
From Coq Require Import ZArith Reals List Bool String.
From Verif Require Import Model.Num.
Import ListNotations.
Open Scope list_scope.
Open Scope R_scope.

(** StatisticsInstance: statistics_instance.py:20-27. *)
Record statistics := mkStatistics {
  st_step : Z;
  st_action : Z;
  st_reward : R;
  st_terminal : bool
}.

(** The methods of a collector: collector.py:42-86. *)
Inductive event :=
| Pre_training
| Begin_episode
| Step (s : statistics)
| End_episode (s : statistics)
| End_training.

(** A class of collectors.  A summary writer is represented by its directory. *)
Record collector_class := mkCollectorClass {
  c_state : Type;
  c_handle : c_state -> event -> option c_state;
  c_summary_writer : c_state -> option string
}.
(** An instance of Collector: collector.py:39-86. *)
Record collector := mkCollector { c_class : collector_class; c_value : c_state c_class }.

(** A call of one of the methods of a collector: collector.py:64-83. *)
Definition handle (c : collector) (ev : event) : option collector :=
  match c_handle (c_class c) (c_value c) ev with
  | Some s => Some (mkCollector (c_class c) s)
  | None => None
  end.
(** has_summary_writer and summary_writer: collector.py:85-86. *)
Definition summary_writer (c : collector) : option string := c_summary_writer (c_class c) (c_value c).

(** CollectorDispatcher.pre_training, begin_episode, step, end_episode and
    end_training: collector_dispatcher.py:73-92. *)
Fixpoint dispatch (cs : list collector) (ev : event) : option (list collector) :=
  match cs with
  | [] => Some []
  | c :: rest =>
      match handle c ev with
      | Some c => match dispatch rest ev with Some rest => Some (c :: rest) | None => None end
      | None => None
      end
  end.

(** get_summary_writer: 94-99. *)
Fixpoint get_summary_writer (cs : list collector) : option string :=
  match cs with
  | [] => None
  | c :: rest => match summary_writer c with Some w => Some w | None => get_summary_writer rest end
  end.

(** The constructors and CollectorDispatcher.__init__: 59-71.  Arguments: base_dir,
    the number of actions and the current episode. *)
Definition constructor := option string -> Z -> Z -> option collector.
(** CollectorDispatcher.__init__: collector_dispatcher.py:65-71. *)
Fixpoint make_collectors (base_dir : option string) (num_actions current_episode : Z)
    (l : list constructor) : option (list collector) :=
  match l with
  | [] => Some []
  | k :: rest =>
      match k base_dir num_actions current_episode, make_collectors base_dir num_actions current_episode rest with
      | Some c, Some cs => Some (c :: cs)
      | _, _ => None
      end
  end.

(** ** ConsoleCollector: console_collector.py:29-95. *)
Inductive console_line :=
| Step_line (s : statistics)
| Episode_line (episode : Z) (reward : R) (length : Z) (distribution : list R).

(** The attributes of ConsoleCollector: console_collector.py:35-48, collector.py:42-58. *)
Record console := mkConsole {
  k_num_actions : Z;
  k_episode : Z;
  k_to_file : bool;                     (* _log_file is not None *)
  k_fine : bool;
  k_frequency : Z;
  k_counts : option (list Z);           (* [None]: no begin_episode yet *)
  k_reward : R;
  k_file : list console_line;           (* what is in console.log *)
  k_open : bool;                        (* _log_file_writer exists *)
  k_log : list console_line             (* what went to the log *)
}.

(** self._action_counts[i] += 1 on a numpy array: a negative index counts from the
    end; [None]: IndexError. *)
Fixpoint increment (l : list Z) (i : nat) : option (list Z) :=
  match l, i with
  | [], _ => None
  | c :: l, O => Some ((c + 1)%Z :: l)
  | c :: l, S i => match increment l i with Some l => Some (c :: l) | None => None end
  end.
(** l[i] += 1 on a numpy array: console_collector.py:65. *)
Definition add_at (l : list Z) (i : Z) : option (list Z) :=
  let n := Z.of_nat (List.length l) in
  if ((- n <=? i) && (i <? n))%Z then increment l (Z.to_nat (if (i <? 0)%Z then i + n else i)%Z)
  else None.

(** Writing a line: 72-73, 88-89. *)
Definition put_line (c : console) (line : console_line) : option console :=
  let c := mkConsole (k_num_actions c) (k_episode c) (k_to_file c) (k_fine c) (k_frequency c)
             (k_counts c) (k_reward c) (k_file c) (k_open c) (k_log c ++ [line]) in
  if k_to_file c then
    if k_open c then
      Some (mkConsole (k_num_actions c) (k_episode c) (k_to_file c) (k_fine c) (k_frequency c)
              (k_counts c) (k_reward c) (k_file c ++ [line]) (k_open c) (k_log c))
    else None
  else Some c.

(** Helper, for console_collector.py:61-73: the counts and the reward updated. *)
Definition with_counts (c : console) (counts : list Z) (reward : R) : console :=
  mkConsole (k_num_actions c) (k_episode c) (k_to_file c) (k_fine c) (k_frequency c)
    (Some counts) reward (k_file c) (k_open c) (k_log c).

(** The methods of ConsoleCollector: console_collector.py:53-95. *)
Definition console_handle (c : console) (ev : event) : option console :=
  match ev with
  | Pre_training =>                                             (* 53-55: opened with 'w' *)
      Some (if k_to_file c
            then mkConsole (k_num_actions c) (k_episode c) (k_to_file c) (k_fine c) (k_frequency c)
                   (k_counts c) (k_reward c) [] true (k_log c)
            else c)
  | Begin_episode =>                                            (* 57-59 *)
      if (k_num_actions c <? 0)%Z then None
      else Some (with_counts c (repeat 0%Z (Z.to_nat (k_num_actions c))) 0)
  | Step s =>                                                   (* 61-73 *)
      match k_counts c with
      | None => None
      | Some counts =>
          if ((st_action s <? 0) || (k_num_actions c <=? st_action s))%Z then None
          else
            match add_at counts (st_action s) with
            | None => None
            | Some counts =>
                let c := with_counts c counts (k_reward c + st_reward s) in
                if k_fine c then
                  if (k_frequency c =? 0)%Z then None
                  else if (st_step s mod k_frequency c =? 0)%Z then put_line c (Step_line s)
                  else Some c
                else Some c
            end
      end
  | End_episode s =>                                            (* 75-91 *)
      match k_counts c with
      | None => None
      | Some counts =>
          match add_at counts (st_action s) with
          | None => None
          | Some counts =>
              let c := with_counts c counts (k_reward c + st_reward s) in
              let sum := fold_right Z.add 0%Z counts in
              match put_line c (Episode_line (k_episode c) (k_reward c) (st_step s)
                                  (map (fun n => IZR n / IZR sum) counts)) with
              | None => None
              | Some c =>
                  Some (mkConsole (k_num_actions c) (k_episode c + 1) (k_to_file c) (k_fine c)
                          (k_frequency c) (k_counts c) (k_reward c) (k_file c) (k_open c) (k_log c))
              end
          end
      end
  | End_training =>                                             (* 93-95 *)
      if k_to_file c then if k_open c then Some c else None else Some c
  end.
(** ConsoleCollector: console_collector.py:32-95. *)
Definition console_class : collector_class :=
  mkCollectorClass console console_handle (fun _ => None).
(** __init__: 35-48 with the file as an earlier run left it. *)
Definition make_console (fine : bool) (frequency : Z) (save_to_file : bool)
    (old : list console_line) : constructor :=
  fun base_dir num_actions current_episode =>
    Some (mkCollector console_class
      (mkConsole num_actions current_episode
         (match base_dir with Some _ => save_to_file | None => false end)
         fine frequency None 0 old false [])).

(** ** PickleCollector: pickle_collector.py:26-59.  The files by their number. *)
Record pickler := mkPickler {
  p_episode : Z;
  p_statistics : option (list statistics);
  p_files : list (Z * list statistics)
}.
(** The methods of PickleCollector: pickle_collector.py:40-59. *)
Definition pickle_handle (p : pickler) (ev : event) : option pickler :=
  match ev with
  | Pre_training | End_training => Some p
  | Begin_episode => Some (mkPickler (p_episode p) (Some []) (p_files p))
  | Step s =>
      match p_statistics p with
      | Some l => Some (mkPickler (p_episode p) (Some (l ++ [s])) (p_files p))
      | None => None
      end
  | End_episode s =>
      match p_statistics p with
      | Some l =>
          let l := l ++ [s] in
          Some (mkPickler (p_episode p + 1) (Some l)
                  ((p_episode p, l) :: filter (fun f => negb (fst f =? p_episode p)%Z) (p_files p)))
      | None => None
      end
  end.
(** PickleCollector: pickle_collector.py:26-59. *)
Definition pickle_class : collector_class := mkCollectorClass pickler pickle_handle (fun _ => None).
(** PickleCollector.__init__: pickle_collector.py:29-35. *)
Definition make_pickle (old : list (Z * list statistics)) : constructor :=
  fun base_dir num_actions current_episode =>
    match base_dir with
    | Some _ => Some (mkCollector pickle_class (mkPickler current_episode None old))
    | None => None
    end.

(** ** TensorboardCollector: tensorboard_collector.py:24-80. *)
Inductive scalar_tag := Fine_grained_reward | Episode_reward | Episode_length.
(** The attributes of TensorboardCollector: tensorboard_collector.py:29-41. *)
Record board := mkBoard {
  b_episode : Z;
  b_fine : bool;
  b_frequency : Z;
  b_writer : string;
  b_global_step : option Z;             (* [None]: no pre_training yet *)
  b_reward : option R;                  (* [None]: no begin_episode yet *)
  b_scalars : list (scalar_tag * R * Z)
}.
(** The methods of TensorboardCollector: tensorboard_collector.py:46-80. *)
Definition board_handle (b : board) (ev : event) : option board :=
  match ev with
  | Pre_training =>                                             (* 46-48 *)
      Some (mkBoard (b_episode b) (b_fine b) (b_frequency b) (b_writer b) (Some 0%Z)
              (b_reward b) (b_scalars b))
  | Begin_episode =>                                            (* 50-51 *)
      Some (mkBoard (b_episode b) (b_fine b) (b_frequency b) (b_writer b) (b_global_step b)
              (Some 0) (b_scalars b))
  | Step s =>                                                   (* 53-64 *)
      match b_global_step b, b_reward b with
      | Some g, Some r =>
          if b_fine b && (b_frequency b =? 0)%Z then None
          else
            let scalars :=
              if b_fine b && (g mod b_frequency b =? 0)%Z
              then b_scalars b ++ [(Fine_grained_reward, st_reward s, g)] else b_scalars b in
            Some (mkBoard (b_episode b) (b_fine b) (b_frequency b) (b_writer b) (Some (g + 1)%Z)
                    (Some (r + st_reward s)) scalars)
      | _, _ => None
      end
  | End_episode s =>                                            (* 66-77 *)
      match b_global_step b, b_reward b with
      | Some g, Some r =>
          let scalars :=
            if b_fine b then b_scalars b ++ [(Fine_grained_reward, st_reward s, g)] else b_scalars b in
          let r := r + st_reward s in
          Some (mkBoard (b_episode b + 1) (b_fine b) (b_frequency b) (b_writer b) (Some (g + 1)%Z)
                  (Some r)
                  (scalars ++ [(Episode_reward, r, b_episode b);
                               (Episode_length, IZR (st_step s), b_episode b)]))
      | _, _ => None
      end
  | End_training => Some b
  end.
(** TensorboardCollector: tensorboard_collector.py:26-80. *)
Definition board_class : collector_class :=
  mkCollectorClass board board_handle (fun b => Some (b_writer b)).
(** TensorboardCollector.__init__: tensorboard_collector.py:29-41. *)
Definition make_board (fine : bool) (frequency : Z) : constructor :=
  fun base_dir num_actions current_episode =>
    match base_dir with
    | Some dir =>
        Some (mkCollector board_class
          (mkBoard current_episode fine frequency (dir ++ "/metrics/tensorboard")%string None None []))
    | None => None
    end.

(** train_lib.get_collector_data with AVAILABLE_COLLECTORS: train_lib.py:27-37,
    collector_dispatcher.py:52-56; the options are gin's. *)
Definition get_collector_data (console pickle tensorboard : constructor) (collectors : list string)
  : list constructor :=
  flat_map (fun name =>
    if (name =? "console")%string then [console]
    else if (name =? "pickle")%string then [pickle]
    else if (name =? "tensorboard")%string then [tensorboard]
    else []) collectors.
