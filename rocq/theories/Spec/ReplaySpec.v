(** What a learner that gets its own past actions back should be told. *)
From Coq Require Import ZArith Reals List.
From Verif Require Import Model.Agents Model.Exploration.
Import ListNotations.

(** The same learner, but keeping a list of the actions it was told it took, one
    for every reward it got, in order. *)
Definition recording {obs} (L : learner obs) : learner obs :=
  mkLearner obs (l_state L * list Z)
    (fun s ev o =>
       match l_begin_episode L (fst s) ev o with
       | None => None | Some (l, a) => Some ((l, snd s), a) end)
    (fun s ev told r o =>
       match l_step L (fst s) ev told r o with
       | None => None | Some (l, a) => Some ((l, snd s ++ [told]), a) end)
    (fun s ev told r terminal =>
       match l_end_episode L (fst s) ev told r terminal with
       | None => None | Some l => Some (l, snd s ++ [told]) end).

(** An episode of an agent: begin_episode, any number of steps, end_episode; the
    result is the agent and the list of all actions it returned. *)
Fixpoint steps {obs} (A : agent_class obs) (a : ag_state A) (inputs : list (R * obs))
  : option (ag_state A * list Z) :=
  match inputs with
  | [] => Some (a, [])
  | (r, o) :: rest =>
      match ag_step A a r o with
      | None => None
      | Some (a, act) =>
          match steps A a rest with None => None | Some (a, acts) => Some (a, act :: acts) end
      end
  end.
Definition episode {obs} (A : agent_class obs) (a : ag_state A) (first : obs)
    (inputs : list (R * obs)) (reward : R) (terminal : bool) : option (ag_state A * list Z) :=
  match ag_begin_episode A a first with
  | None => None
  | Some (a, act) =>
      match steps A a inputs with
      | None => None
      | Some (a, acts) =>
          match ag_end_episode A a reward terminal with
          | None => None
          | Some a => Some (a, act :: acts)
          end
      end
  end.
(** The learner alone, given its own actions back. *)
Definition learner_agent {obs} (L : learner obs) : agent_class obs :=
  mkAgent obs (l_state L * Z * bool)
    (fun s m => (fst s, match m with TRAIN => false | EVAL => true end))
    (fun '(l, _, ev) o => match l_begin_episode L l ev o with
                          | None => None | Some (l, a) => Some ((l, a, ev), a) end)
    (fun '(l, told, ev) r o => match l_step L l ev told r o with
                               | None => None | Some (l, a) => Some ((l, a, ev), a) end)
    (fun '(l, told, ev) r t => match l_end_episode L l ev told r t with
                               | None => None | Some l => Some (l, told, ev) end).
