(** What an evaluation is, in terms of the calls made to the agent and the
    environment.  Only used to *state* properties. *)
From Coq Require Import ZArith Reals List Sorting.Permutation.
From Verif Require Import Model.Num Model.Balloon Model.Agents Model.Eval.
Import ListNotations.
Open Scope R_scope.

(** What can be seen of one executed step: the reward, whether the environment
    said the episode is over and its info, and then the balloon and the radius. *)
Record executed_step := mkStep {
  t_reward : R;
  t_done : bool;
  t_info : info_dict;
  t_balloon : bstate R;
  t_radius : R
}.

Section EvalSpec.
Context (G : gym_env) (A : agent_class (g_obs G)).

(** A number of steps: the environment executes the action, the agent is shown
    the outcome and chooses the next action. *)
Inductive steps : g_state G -> ag_state A -> Z -> list executed_step ->
                  g_state G -> ag_state A -> Prop :=
| no_step e a action : steps e a action [] e a
| one_step e a action e1 o r d i a1 action1 b ts e2 a2 :
    g_step G e action = Some (e1, (o, r, d, i)) ->
    ag_step A a r o = Some (a1, action1) ->
    g_balloon G e1 = Some b ->
    steps e1 a1 action1 ts e2 a2 ->
    steps e a action (mkStep r d i b (g_radius G e1) :: ts) e2 a2.

(** An episode stops after the first step that says so, or after max steps. *)
Definition stops_right (max : Z) (ts : list executed_step) : Prop :=
  exists ts0 t, ts = ts0 ++ [t] /\
    (forall t', In t' ts0 -> t_done t' = false) /\
    (Z.of_nat (length ts) <= max)%Z /\
    (t_done t = true \/ Z.of_nat (length ts) = max).

(** A whole episode on a seed, ended with the last reward and whether the
    environment said that it is over. *)
Definition episode (max seed : Z) (e : g_state G) (a : ag_state A) (ts : list executed_step)
    (e' : g_state G) (a' : ag_state A) : Prop :=
  exists e0 e1 o a1 action a2 ts0 t,
    g_seed G e seed = Some e0 /\ g_reset G e0 = Some (e1, o) /\
    ag_begin_episode A a o = Some (a1, action) /\
    steps e1 a1 action ts e' a2 /\ stops_right max ts /\
    ts = ts0 ++ [t] /\ ag_end_episode A a2 (t_reward t) (t_done t) = Some a'.

(** One episode after the other, on the same two objects. *)
Inductive episodes (max : Z) : list Z -> g_state G -> ag_state A -> list (list executed_step) ->
                               g_state G -> ag_state A -> Prop :=
| no_episode e a : episodes max [] e a [] e a
| one_episode z zs e a ts e1 a1 tss e2 a2 :
    episode max z e a ts e1 a1 -> episodes max zs e1 a1 tss e2 a2 ->
    episodes max (z :: zs) e a (ts :: tss) e2 a2.
End EvalSpec.

(** Sums and counts. *)
Definition total (l : list R) : R := fold_right Rplus 0 l.
Definition is_inside (t : executed_step) : Prop :=
  sqrt (Rsqr (x (t_balloon t)) + Rsqr (y (t_balloon t))) <= t_radius t.
Inductive counts {B} (Q : B -> Prop) : list B -> nat -> Prop :=
| count_none : counts Q [] 0
| count_yes b l n : Q b -> counts Q l n -> counts Q (b :: l) (S n)
| count_no b l n : ~ Q b -> counts Q l n -> counts Q (b :: l) n.

(** A flag that an info dictionary sets. *)
Definition sets (d : option bool) : Prop := d = Some true.

(** What a result says about an episode. *)
Definition reports (with_path : bool) (seed : Z) (ts : list executed_step) (r : eval_result) : Prop :=
  r_seed r = seed /\
  r_cumulative_reward r = total (map t_reward ts) /\
  r_final_timestep r = Z.of_nat (length ts) /\
  (exists inside, counts is_inside ts inside /\
     r_time_within_radius r * INR (length ts) = INR inside) /\
  0 <= r_time_within_radius r <= 1 /\
  (forall ts0 t, ts = ts0 ++ [t] ->
     (r_out_of_power r = true <-> t_done t = true /\ sets (d_out_of_power (t_info t))) /\
     (r_envelope_burst r = true <-> t_done t = true /\ sets (d_envelope_burst (t_info t))) /\
     (r_zeropressure r = true <-> t_done t = true /\ sets (d_zeropressure (t_info t)))) /\
  r_flight_path r =
    (if with_path
     then map (fun t => let b := t_balloon t in
                 mkSimple (x b) (y b) (pressure b) (superpressure b) (time_elapsed b)
                   (battery_charge b / battery_capacity b)) ts
     else []).

(** An agent that starts every episode afresh: what it does in an episode depends
    on that episode only.  [R] relates states that cannot be told apart during an
    episode. *)
Definition same_answer {S S' T} (Rel : S -> S' -> Prop) (p : option (S * T)) (q : option (S' * T)) :=
  match p, q with
  | None, None => True
  | Some (s, v), Some (s', v') => Rel s s' /\ v = v'
  | _, _ => False
  end.
Definition starts_afresh {obs} (A : agent_class obs) : Prop :=
  exists Rel : ag_state A -> ag_state A -> Prop,
    (forall a a' o, same_answer Rel (ag_begin_episode A a o) (ag_begin_episode A a' o)) /\
    (forall a a' r o, Rel a a' -> same_answer Rel (ag_step A a r o) (ag_step A a' r o)) /\
    (forall a a' r d, Rel a a' -> (ag_end_episode A a r d = None <-> ag_end_episode A a' r d = None)).

(** Sorted by seed. *)
Inductive sorted_by_seed : list eval_result -> Prop :=
| sorted_nil : sorted_by_seed []
| sorted_cons r l : (forall q, In q l -> (r_seed r <= r_seed q)%Z) -> sorted_by_seed l ->
    sorted_by_seed (r :: l).
