(** Agents and actors that answer: definitions used only to *state* properties. *)
From Coq Require Import ZArith Reals String List.
From Verif Require Import Model.Agents Model.Acme Model.Training Model.Collectors.

(** Whatever it is shown ([shown] observations), an agent that is [idle] between episodes
    and [busy] during one answers with an action of the environment. *)
Record obliging {obs} (A : agent_class obs) (shown : obs -> Prop) (idle busy : ag_state A -> Prop) : Prop := {
  obliging_begin : forall a o, idle a -> shown o ->
    exists a' x, ag_begin_episode A a o = Some (a', x) /\ busy a' /\ (0 <= x <= 2)%Z;
  obliging_step : forall a r o, busy a -> shown o ->
    exists a' x, ag_step A a r o = Some (a', x) /\ busy a' /\ (0 <= x <= 2)%Z;
  obliging_end : forall a r t, busy a -> exists a', ag_end_episode A a r t = Some a' /\ idle a'
}.
(** Likewise an Acme actor, whose states are [good]. *)
Record obliging_actor {obs} (C : actor obs) (shown : obs -> Prop) (good : ac_state C -> Prop) : Prop := {
  obliging_select : forall c o, good c -> shown o ->
    exists c' x, ac_select_action C c o = Some (c', x) /\ good c' /\ (0 <= x <= 2)%Z;
  obliging_first : forall c o, good c -> shown o -> exists c', ac_observe_first C c o = Some c' /\ good c';
  obliging_observe : forall c a t, good c -> shown (ts_observation t) ->
    exists c', ac_observe C c a t = Some c' /\ good c';
  obliging_update : forall c, good c -> exists c', ac_update C c = Some c' /\ good c'
}.
(** Collectors that do not raise, [off] between the episodes and [on] during one, as long
    as they are told about actions of the environment. *)
Record recording (off on : list collector -> Prop) : Prop := {
  recording_begin : forall cs, off cs -> exists cs', dispatch cs Begin_episode = Some cs' /\ on cs';
  recording_step : forall cs s, on cs -> (0 <= st_action s <= 2)%Z ->
    exists cs', dispatch cs (Step s) = Some cs' /\ on cs';
  recording_end : forall cs s, on cs -> (0 <= st_action s <= 2)%Z ->
    exists cs', dispatch cs (End_episode s) = Some cs' /\ off cs'
}.
(** Constructors of such collectors: they make them, and these can be told that training
    begins and that it ends. *)
Record collecting (base_dir : string) (constructors : list constructor) (off on : list collector -> Prop) : Prop := {
  collecting_made : forall episode, exists cs cs',
    make_collectors (Some base_dir) 3 episode constructors = Some cs /\
    dispatch cs Pre_training = Some cs' /\ off cs';
  collecting_recording : recording off on;
  collecting_end : forall cs, off cs -> exists cs', dispatch cs End_training = Some cs'
}.
(** Agents that, [made] before the training or restored from a checkpoint, are [idle] once
    they have been given a summary writer and told to train. *)
Definition starts_training {obs} (A : trainable obs) (made idle : ag_state (t_agent A) -> Prop) : Prop :=
  (forall a k b a' ok, made a -> t_unbundle A a k b = Unbundled a' ok -> made a') /\
  (forall a w, made a -> idle (ag_set_mode (t_agent A) (t_set_summary_writer A a w) TRAIN)).
