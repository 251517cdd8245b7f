(** Using an Acme evaluation agent.  Only used to *state* properties. *)
From Coq Require Import ZArith Reals String DecimalString List.
From Coq Require Import Ascii.
From Verif Require Import Model.Num Model.Prng Model.Mlp Model.Agents Model.AcmeEval.
Import ListNotations.
Open Scope R_scope.

(** An action whose value is not exceeded; values of which exactly one is best. *)
Definition best (values : list R) (a : nat) : Prop :=
  (a < length values)%nat /\ forall b, (b < length values)%nat -> nth b values 0 <= nth a values 0.
Definition no_tie (values : list R) : Prop := exists a, best values a /\ forall b, best values b -> b = a.

(** The mean of an action's quantiles, as the documentation of quantile regression has it. *)
Definition mean_of (n : nat) (q : nat -> R) (v : R) : Prop :=
  v * INR n = fold_right Rplus 0 (map q (seq 0 n)).

(** A directory whose checkpoints are d/ckpt-0, d/ckpt-1, ...: the latest one is among them. *)
Definition decimal (n : Z) : string := NilZero.string_of_int (Z.to_int n).
Definition checkpoint_file (d : string) (n : Z) : string := (d ++ "/ckpt-" ++ decimal n)%string.
Definition proper_directory (d : string) : Prop :=
  exists d0 c, d = (d0 ++ String c "")%string /\ c <> "/"%char.
Definition keeps (d : string) (c : acme_checkpoints) : Prop :=
  proper_directory d /\ forall p, latest_checkpoint c = Some p -> exists k, p = checkpoint_file d k.
(** What is in the directory, for an iteration. *)
Definition saved_as (d : string) (c : acme_checkpoints) (n : Z) : option network_params :=
  match latest_checkpoint c with None => None | Some _ => restorable c (checkpoint_file d n) end.

Section Using.
Context (P : prng) (sample : key P -> list nat -> nat) {obs : Type} (inputs : nat) (flat : obs -> features).

Inductive request :=
| Begin (o : obs) | Step (r : R) (o : obs) | End (r : R) (terminal : bool) | Mode (m : agent_mode)
| Load (c : acme_checkpoints) (n : Z).
Inductive answer := Action (a : Z) | Done | Raised.

Definition ask (a : acme_agent P) (q : request) : acme_agent P * answer :=
  let acting r := match r with Some (a', z) => (a', Action z) | None => (a, Raised) end in
  let silent r := match r with Some a' => (a', Done) | None => (a, Raised) end in
  match q with
  | Begin o => acting (acme_begin_episode P sample inputs flat a o)
  | Step r o => acting (acme_step P sample inputs flat a r o)
  | End r t => silent (acme_end_episode P a r t)
  | Mode m => silent (acme_set_mode P a m)
  | Load c n => let '(a', ok) := acme_load_checkpoint P a c n in (a', if ok then Done else Raised)
  end.
Fixpoint after (a : acme_agent P) (qs : list request) : acme_agent P :=
  match qs with [] => a | q :: qs => after (fst (ask a q)) qs end.
Fixpoint answers (a : acme_agent P) (qs : list request) : list answer :=
  match qs with [] => [] | q :: qs => snd (ask a q) :: answers (fst (ask a q)) qs end.

(** The parameters in use after a history of requests: those of the last checkpoint that
    was there to be loaded, initially those drawn by the constructor. *)
Inductive in_use (initial : network_params) : list request -> network_params -> Prop :=
| from_construction : in_use initial [] initial
| from_checkpoint h d c n ps : keeps d c -> saved_as d c n = Some ps -> in_use initial (h ++ [Load c n]) ps
| failed_load h ps d c n : in_use initial h ps -> keeps d c -> saved_as d c n = None ->
    in_use initial (h ++ [Load c n]) ps
| other h ps q : in_use initial h ps -> (forall c n, q <> Load c n) -> in_use initial (h ++ [q]) ps.

(** The observations of a list of requests. *)
Definition shown (q : request) : option obs :=
  match q with Begin o | Step _ o => Some o | _ => None end.
End Using.
Arguments Begin {obs}. Arguments Step {obs}. Arguments End {obs}. Arguments Mode {obs}. Arguments Load {obs}.
Arguments shown {obs}. Arguments in_use {obs}.

(** An agent without memory that answers by a rule, and raises where the rule says nothing. *)
Definition by_rule {obs} (rule : obs -> option Z) : agent_class obs :=
  let answer (_ : unit) o := option_map (pair tt) (rule o) in
  mkAgent obs unit (fun a _ => a) answer (fun a _ o => answer a o) (fun a _ _ => Some a).
(** A rule that only speaks where one action is better than all others, and then names it. *)
Definition names_the_best {obs} (values : obs -> list R) (rule : obs -> option Z) : Prop :=
  forall o z, rule o = Some z -> exists a, z = Z.of_nat a /\ best (values o) a /\
    forall b, best (values o) b -> b = a.
