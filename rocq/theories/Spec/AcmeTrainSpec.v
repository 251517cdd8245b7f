(** Training with Acme: definitions used only to *state* properties. *)
From Coq Require Import ZArith Reals List.
From Verif Require Import Model.Num Model.Agents Model.Acme Model.AcmeTrain Spec.AcmeSpec Spec.AcmeEvalSpec.
Import ListNotations.
Open Scope R_scope.

Section Rounds.
Context (G GE : gym_env) (C : actor (g_obs G)) (V : Type) (get_variables : ac_state C -> V)
        (B : reader (g_obs GE) V) (limit : Z).
(** A round: an episode of training, what the agent is after it, an episode of evaluation
    and its first observation. *)
Record round := mkRound {
  training : list (Z * timestep (g_obs G)); learned : ac_state C;
  first_seen : g_obs GE; evaluation : list (Z * timestep (g_obs GE)) }.

(** Rounds one after the other: the agent trains in its environment from where it was; then
    the evaluating actor acts in the other one, and the variables it can read are those of
    the agent after this episode. *)
Inductive rounds (e0 : g_state G) (c0 : ac_state C) (ee0 : g_state GE) (b0 : rd_state B)
  : list round -> g_state G -> ac_state C -> g_state GE -> rd_state B -> Prop :=
| no_round : rounds e0 c0 ee0 b0 [] e0 c0 ee0 b0
| one_more l e c ee b e1 c1 t es o ee1 b1 k ev :
    rounds e0 c0 ee0 b0 l e c ee b ->
    acme_episode G C limit e c = Some (e1, c1, t) ->
    g_reset GE ee = Some (es, o) ->
    acme_episode GE (reading B (fun _ => get_variables c1)) limit ee (b, O) = Some (ee1, (b1, k), ev) ->
    rounds e0 c0 ee0 b0 (l ++ [mkRound t c1 o ev]) e1 c1 ee1 b1.

(** The steps of the episodes of some rounds. *)
Fixpoint training_steps (l : list round) : Z :=
  match l with [] => 0 | r :: l => Z.of_nat (length (training r)) + training_steps l end%Z.
Fixpoint evaluation_steps (l : list round) : Z :=
  match l with [] => 0 | r :: l => Z.of_nat (length (evaluation r)) + evaluation_steps l end%Z.
End Rounds.
Arguments training {G GE C}. Arguments learned {G GE C}. Arguments first_seen {G GE C}. Arguments evaluation {G GE C}.
Arguments training_steps {G GE C}. Arguments evaluation_steps {G GE C}. Arguments mkRound {G GE C}.

(** The actions of an episode with first observation [o]: the one with number k is best by
    the values [values k] of the observation it was chosen for. *)
Definition acts_best {obs} (values : nat -> obs -> list R) (o : obs) (l : list (Z * timestep obs)) : Prop :=
  forall k ob a, nth_error (observations o l) k = Some ob -> nth_error (map fst l) k = Some a ->
    exists z, a = Z.of_nat z /\ best (values k ob) z.

(** What the log says about training. *)
Definition of_training (r : log_entry) : bool := match lg_label r with ACTOR => true | EVALUATOR => false end.
Definition about_training (r : log_entry) : Z * R * Z * Z :=
  (lg_length r, lg_return r, actor_episodes (lg_counts r), actor_steps (lg_counts r)).
