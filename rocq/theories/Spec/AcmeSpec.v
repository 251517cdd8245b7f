(** Episodes run by Acme: definitions used only to *state* properties. *)
From Coq Require Import ZArith Reals List.
From Verif Require Import Model.Num Model.Balloon Model.Agents Model.Acme.
Import ListNotations.
Open Scope R_scope.

(** The environment executes the actions one after the other; the timesteps carry its
    rewards and observations; [bs] are the balloons after the steps. *)
Inductive flies (G : gym_env) : g_state G -> list (Z * timestep (g_obs G)) -> list (bstate R) -> g_state G -> Prop :=
| flies_no_step e : flies G e [] [] e
| flies_step e a e1 o r d i b t l bs e2 :
    g_step G e a = Some (e1, (o, r, d, i)) -> g_balloon G e1 = Some b ->
    ts_reward t = r -> ts_observation t = o -> ts_discount t = (if d then 0 else 1) ->
    flies G e1 l bs e2 ->
    flies G e ((a, t) :: l) (b :: bs) e2.

(** The timesteps end with the first that is marked as the last. *)
Definition ends_with_last {obs} (l : list (Z * timestep obs)) : Prop :=
  exists l0 a t, l = l0 ++ [(a, t)] /\ ts_last t = true /\ forall a' t', In (a', t') l0 -> ts_last t' = false.

(** An actor is shown the observations in turn and suggests actions; it is told the
    actions that were executed, and what they led to. *)
Inductive coached {obs} (C : actor obs) : ac_state C -> obs -> list (Z * timestep obs) -> list Z -> ac_state C -> Prop :=
| coached_no_step c o : coached C c o [] [] c
| coached_step c o suggested c1 executed t c2 c3 l sl c4 :
    ac_select_action C c o = Some (c1, suggested) ->
    ac_observe C c1 executed t = Some c2 -> ac_update C c2 = Some c3 ->
    coached C c3 (ts_observation t) l sl c4 ->
    coached C c o ((executed, t) :: l) (suggested :: sl) c4.

(** The observations the actions of an episode were chosen for. *)
Definition observations {obs} (first : obs) (l : list (Z * timestep obs)) : list obs :=
  firstn (length l) (first :: map (fun at_ => ts_observation (snd at_)) l).
