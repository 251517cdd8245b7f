(** When a learning agent learns: definitions used only to *state* properties. *)
From Coq Require Import ZArith Reals List.
From Verif Require Import Model.Agents.
Import ListNotations.
Open Scope R_scope.

(** What an agent can be asked, in any order. *)
Inductive ask (obs : Type) :=
| Begin (o : obs)                      (* agent.begin_episode(o) *)
| Reward (r : R) (o : obs)             (* agent.step(r, o) *)
| End (r : R) (terminal : bool)        (* agent.end_episode(r, terminal) *)
| Mode (m : agent_mode).               (* agent.set_mode(m) *)
Arguments Begin {obs}. Arguments Reward {obs}. Arguments End {obs}. Arguments Mode {obs}.

(** The agent after these calls and the actions it answered. *)
Fixpoint asked {obs} (A : agent_class obs) (s : ag_state A) (l : list (ask obs)) : option (ag_state A * list Z) :=
  match l with
  | [] => Some (s, [])
  | q :: l =>
      match
        match q with
        | Begin o => match ag_begin_episode A s o with None => None | Some (s, a) => Some (s, [a]) end
        | Reward r o => match ag_step A s r o with None => None | Some (s, a) => Some (s, [a]) end
        | End r t => match ag_end_episode A s r t with None => None | Some s => Some (s, []) end
        | Mode m => Some (ag_set_mode A s m, [])
        end
      with
      | None => None
      | Some (s, a) => match asked A s l with None => None | Some (s, al) => Some (s, a ++ al) end
      end
  end.

(** The occasions to learn: one before every answer that is given while training.  Each with its
    number and with the number of rewards received while training until then. *)
Fixpoint occasions {obs} (training : bool) (k n : Z) (l : list (ask obs)) : list (Z * Z) :=
  match l with
  | [] => []
  | Mode TRAIN :: l => occasions true k n l
  | Mode EVAL :: l => occasions false k n l
  | Begin _ :: l => if training then (k, n) :: occasions training (k + 1) n l else occasions training k n l
  | Reward _ _ :: l =>
      if training then (k, n + 1)%Z :: occasions training (k + 1) (n + 1) l else occasions training k n l
  | End _ _ :: l => occasions training k (if training then n + 1 else n) l
  end.

(** Rewards received while training, and the mode at the end. *)
Fixpoint received {obs} (training : bool) (n : Z) (l : list (ask obs)) : Z :=
  match l with
  | [] => n
  | Mode TRAIN :: l => received true n l
  | Mode EVAL :: l => received false n l
  | Begin _ :: l => received training n l
  | Reward _ _ :: l | End _ _ :: l => received training (if training then n + 1 else n) l
  end.
Fixpoint mode_after {obs} (training : bool) (l : list (ask obs)) : bool :=
  match l with
  | [] => training
  | Mode TRAIN :: l => mode_after true l
  | Mode EVAL :: l => mode_after false l
  | _ :: l => mode_after training l
  end.

(** What there is to remember of the calls and the answers to them: each reward received while
    training, with the observation that was last answered and the answer. *)
Fixpoint experience {obs} (training : bool) (last : option (obs * Z)) (l : list (ask obs)) (answers : list Z)
  : list (obs * Z * R * bool) :=
  let remembered r terminal :=
    match training, last with
    | true, Some (o, a) => [(o, a, r, terminal)]
    | _, _ => []
    end in
  match l, answers with
  | [], _ => []
  | Mode TRAIN :: l, _ => experience true last l answers
  | Mode EVAL :: l, _ => experience false last l answers
  | Begin o :: l, a :: answers => experience training (Some (o, a)) l answers
  | Reward r o :: l, a :: answers => remembered r false ++ experience training (Some (o, a)) l answers
  | End r t :: l, _ => remembered r t ++ experience training last l answers
  | _, [] => []
  end.

(** A complete episode while training: any number of rewarded steps and the end. *)
Definition episode_asks {obs} (o : obs) (steps : list (R * obs)) (r : R) (terminal : bool) : list (ask obs) :=
  Begin o :: map (fun p => Reward (fst p) (snd p)) steps ++ [End r terminal].

(** Parameters [p] learnt, with targets from parameters [target]: *)
Section Following.
Context {params : Type} (gradient_step : params -> params -> params -> Prop).
(** At each occasion with more than [h] rewards so far: a gradient step if its number is a
    multiple of [u]; then, if it is a multiple of [t], the targets are taken from the
    parameters just learnt. *)
Inductive follows (h u t : Z) : list (Z * Z) -> params * params -> params * params -> Prop :=
| no_occasion p target : follows h u t [] (p, target) (p, target)
| occasion k n l p target p' target' final :
    ((h < n)%Z /\ (u | k)%Z -> gradient_step target p p') ->
    (~ ((h < n)%Z /\ (u | k)%Z) -> p' = p) ->
    ((h < n)%Z /\ (t | k)%Z -> target' = p') ->
    (~ ((h < n)%Z /\ (t | k)%Z) -> target' = target) ->
    follows h u t l (p', target') final ->
    follows h u t ((k, n) :: l) (p, target) final.
(** [c] gradient steps, whatever the targets. *)
Inductive descends : nat -> params -> params -> Prop :=
| at_start p : descends 0 p p
| one_more c target p p' p'' : descends c p p' -> gradient_step target p' p'' -> descends (S c) p p''.
End Following.
