(** Proofs about the safety layers. *)
From Coq Require Import ZArith Reals Lra Lia Bool List.
From RecordUpdate Require Import RecordSet.
From Verif Require Import Model.Num Model.Safety Model.Balloon.
From Verif Require Import Spec.Flight Spec.SafetySpec Proofs.NumR.
Import ListNotations RecordSetNotations.

(* ------------------------------------------------------------------ *)
(** ** Any numeric type *)
Section Generic.
Context {T : Type} {N : Num T}.

Lemma alt_rank (s : alt_state) a (h : T) :
  (rank a <= rank (snd (alt_get_action s a h)))%nat.
Proof.
  unfold alt_get_action. destruct (alt_transition s h), a; cbn; lia.
Qed.

Lemma env_rank (m : T) s a sp :
  (rank a <= rank (snd (env_get_action m s a sp)))%nat.
Proof.
  unfold env_get_action. destruct (env_transition m s sp), a; cbn; lia.
Qed.

Lemma paused_action_rank a : (rank a <= rank (get_paused_action a))%nat.
Proof. destruct a; cbn; lia. Qed.

Lemma pow_rank s a now (l c k : T) :
  (rank a <= rank (snd (pow_get_action s a now l c k)))%nat.
Proof.
  unfold pow_get_action.
  repeat match goal with |- context [if ?b then _ else _] => destruct b end;
    cbn; auto using paused_action_rank.
Qed.

(** The power layer only ever turns DOWN into STAY. *)
Lemma pow_only_down_to_stay s a now (l c k : T) :
  snd (pow_get_action s a now l c k) = a \/
  (a = DOWN /\ snd (pow_get_action s a now l c k) = STAY).
Proof.
  unfold pow_get_action.
  repeat match goal with |- context [if ?b then _ else _] => destruct b end;
    cbn; destruct a; cbn; auto.
Qed.

Lemma safety_layers_rank (w : world T) a s eff :
  snd (safety_layers w a s) = Some eff -> (rank a <= rank eff)%nat.
Proof.
  unfold safety_layers.
  destruct (if power_safety_layer_enabled s then _ else _) as [p' a1] eqn:E1.
  assert (H1 : (rank a <= rank a1)%nat).
  { destruct (power_safety_layer_enabled s).
    - pose proof (pow_rank (power_layer s) a (date_time s)
        (nighttime_power_load s) (battery_charge s) (battery_capacity s)) as H.
      rewrite E1 in H. exact H.
    - injection E1; intros; subst; lia. }
  destruct (env_get_action _ _ a1 _) as [e' a2] eqn:E2.
  pose proof (env_rank (envelope_max_superpressure s) (envelope_layer s) a1
                (superpressure s)) as H2.
  rewrite E2 in H2; cbn in H2.
  destruct (at_pressure w (pressure s)) as [[h t]|]; [|discriminate].
  destruct (alt_get_action _ a2 h) as [al' a3] eqn:E3.
  pose proof (alt_rank (altitude_layer s) a2 h) as H3.
  rewrite E3 in H3; cbn in *.
  injection 1; intros; subst; lia.
Qed.

(** simulate_step executes what the layers return. *)
Lemma simulate_step_executed (w : world T) wind a d st s s' eff :
  simulate_step w wind a d st s = (s', Executed eff) ->
  bstatus s = OK /\
  exists s1, safety_layers w a (s <| last_command := a |>) = (s1, Some eff) /\
    int_seconds st <> 0%Z /\ (int_seconds d mod int_seconds st = 0)%Z /\
    substeps w wind eff st (Z.to_nat (int_seconds d / int_seconds st)) s1
      = (s', false).
Proof.
  unfold simulate_step. cbn [set bstatus].
  intro H.
  destruct (bstatus s) eqn:Es; cbn in H; try discriminate.
  split; [reflexivity|].
  destruct (safety_layers w a _) as [s1 [eff1|]] eqn:E1; [|discriminate].
  destruct (Z.eqb_spec (int_seconds st) 0); [discriminate|].
  destruct (Z.eqb_spec (int_seconds d mod int_seconds st) 0); cbn in H;
    [|discriminate].
  destruct (substeps _ _ _ _ _ _) as [s2 []] eqn:E2; [discriminate|].
  injection H; intros; subst.
  exists s1; auto.
Qed.

Lemma effective_rank (w : world T) wind a d st s s' eff :
  simulate_step w wind a d st s = (s', Executed eff) -> (rank a <= rank eff)%nat.
Proof.
  intro H. destruct (simulate_step_executed _ _ _ _ _ _ _ _ H)
    as (_ & s1 & H1 & _).
  apply (safety_layers_rank w a (s <| last_command := a |>) eff).
  rewrite H1; reflexivity.
Qed.

(** Layers are not touched by sub-steps. *)
Lemma substep_layers (w : world T) wind a st s s' :
  simulate_substep w wind a st s = Some s' ->
  power_layer s' = power_layer s /\ envelope_layer s' = envelope_layer s /\
  altitude_layer s' = altitude_layer s /\
  power_safety_layer_enabled s' = power_safety_layer_enabled s /\
  last_command s' = last_command s /\
  envelope_max_superpressure s' = envelope_max_superpressure s.
Proof.
  unfold simulate_substep. intro H.
  destruct (next_pressure w s st); [|discriminate].
  destruct (at_pressure w (pressure s)) as [[? ?]|]; [|discriminate].
  destruct (sun _ _ _ _). destruct (d_temperature _ _ _ _ _ _ _ _ _); [|discriminate].
    destruct (calculate_superpressure_and_volume _ _ _ _ _ _).
  destruct (acs_step s a).
  injection H; intro E; subst s'. cbn. repeat split.
Qed.

Lemma substeps_layers (w : world T) wind a st n s :
  forall s' b, substeps w wind a st n s = (s', b) ->
  power_layer s' = power_layer s /\ envelope_layer s' = envelope_layer s /\
  altitude_layer s' = altitude_layer s /\
  power_safety_layer_enabled s' = power_safety_layer_enabled s /\
  last_command s' = last_command s /\
  envelope_max_superpressure s' = envelope_max_superpressure s.
Proof.
  revert s; induction n as [|n IH]; cbn [substeps]; intros s s' b H.
  - injection H; intros; subst; repeat split.
  - destruct (simulate_substep w wind a st s) as [s1|] eqn:E.
    + apply substep_layers in E. destruct E as (E1 & E2 & E3 & E4 & E5 & E6).
      destruct (status_is_ok (bstatus s1)).
      * apply IH in H. destruct H as (H1 & H2 & H3 & H4 & H5 & H6).
        repeat split; congruence.
      * injection H; intros; subst; repeat split; assumption.
    + injection H; intros; subst; repeat split.
Qed.

(** What the layers do to the rest of the state: nothing. *)
Lemma safety_layers_frame (w : world T) a s s1 o :
  safety_layers w a s = (s1, o) ->
  exists p e al, s1 = s <| power_layer := p |> <| envelope_layer := e |>
                        <| altitude_layer := al |>.
Proof.
  unfold safety_layers.
  destruct (if power_safety_layer_enabled s then _ else _) as [p' a1].
  destruct (env_get_action _ _ a1 _) as [e' a2].
  destruct (at_pressure w (pressure s)) as [[h t]|].
  - destruct (alt_get_action _ a2 h) as [al' a3].
    injection 1; intros; subst. exists p', e', al'. reflexivity.
  - injection 1; intros; subst. exists p', e', (altitude_layer s).
    destruct s; reflexivity.
Qed.

(** The paused flag of each layer, in terms of its reaction. *)
Lemma alt_paused_iff s (a : command) (h : T) :
  alt_paused (fst (alt_get_action s a h)) = true <->
  snd (alt_get_action s DOWN h) <> DOWN.
Proof.
  unfold alt_get_action. destruct (alt_transition s h); cbn; split; congruence.
Qed.

Lemma env_paused_iff m s (a : command) (sp : T) :
  env_paused (fst (env_get_action m s a sp)) = true <->
  snd (env_get_action m s DOWN sp) <> DOWN.
Proof.
  unfold env_get_action. destruct (env_transition m s sp); cbn; split; congruence.
Qed.

Lemma pow_paused_iff s a now (l c k : T) :
  pow_paused (fst (pow_get_action s a now l c k)) = true <->
  snd (pow_get_action s DOWN now l c k) <> DOWN.
Proof.
  unfold pow_get_action.
  destruct (Z.ltb _ _).
  - destruct (pow_paused s); cbn; [|split; congruence].
    destruct (nltb _ _); cbn; split; congruence.
  - destruct (pow_paused s); cbn; [split; congruence|].
    destruct (nltb _ _); cbn; split; congruence.
Qed.

Lemma pow_state_indep s a a' now (l c k : T) :
  fst (pow_get_action s a now l c k) = fst (pow_get_action s a' now l c k).
Proof.
  unfold pow_get_action.
  repeat match goal with |- context [if ?b then _ else _] => destruct b end;
    reflexivity.
Qed.


Lemma alt_down_iff s a (h : T) :
  snd (alt_get_action s a h) = DOWN <->
  a = DOWN /\ snd (alt_get_action s DOWN h) = DOWN.
Proof.
  unfold alt_get_action; destruct (alt_transition s h), a; cbn;
    intuition congruence.
Qed.
Lemma env_down_iff m s a (sp : T) :
  snd (env_get_action m s a sp) = DOWN <->
  a = DOWN /\ snd (env_get_action m s DOWN sp) = DOWN.
Proof.
  unfold env_get_action; destruct (env_transition m s sp), a; cbn;
    intuition congruence.
Qed.

(** A layer that is not paused passes every command through. *)
Lemma alt_unpaused_id s a (h : T) :
  alt_paused (fst (alt_get_action s a h)) = false ->
  snd (alt_get_action s a h) = a.
Proof. unfold alt_get_action; destruct (alt_transition s h); cbn; congruence. Qed.
Lemma env_unpaused_id m s a (sp : T) :
  env_paused (fst (env_get_action m s a sp)) = false ->
  snd (env_get_action m s a sp) = a.
Proof. unfold env_get_action; destruct (env_transition m s sp); cbn; congruence. Qed.
Lemma pow_unpaused_id s a now (l c k : T) :
  pow_paused (fst (pow_get_action s a now l c k)) = false ->
  snd (pow_get_action s a now l c k) = a.
Proof.
  unfold pow_get_action.
  destruct (Z.ltb _ _).
  - destruct (pow_paused s); cbn; [|congruence].
    destruct (nltb _ _); cbn; congruence.
  - destruct (pow_paused s); cbn; [congruence|].
    destruct (nltb _ _); cbn; congruence.
Qed.

Lemma layers_unpaused_id (w : world T) a s s1 eff :
  safety_layers w a s = (s1, Some eff) ->
  (power_safety_layer_enabled s = false -> pow_paused (power_layer s) = false) ->
  navigation_is_paused s1 = false -> eff = a.
Proof.
  unfold safety_layers, navigation_is_paused. intros H Hen Hp.
  destruct (if power_safety_layer_enabled s then _ else _) as [p' a1] eqn:E1.
  destruct (env_get_action _ _ a1 _) as [e' a2] eqn:E2.
  destruct (at_pressure w (pressure s)) as [[h t]|]; [|discriminate].
  destruct (alt_get_action _ a2 h) as [al' a3] eqn:E3.
  injection H; intros; subst. cbn in Hp.
  apply orb_false_iff in Hp; destruct Hp as [Hp Hal].
  apply orb_false_iff in Hp; destruct Hp as [Hpw He].
  pose proof (alt_unpaused_id (altitude_layer s) a2 h) as A3.
  rewrite E3 in A3; cbn in A3. rewrite (A3 Hal).
  pose proof (env_unpaused_id (envelope_max_superpressure s)
                (envelope_layer s) a1 (superpressure s)) as A2.
  rewrite E2 in A2; cbn in A2. rewrite (A2 He).
  destruct (power_safety_layer_enabled s).
  - pose proof (pow_unpaused_id (power_layer s) a (date_time s)
        (nighttime_power_load s) (battery_charge s) (battery_capacity s)) as A1.
    rewrite E1 in A1; cbn in A1. exact (A1 Hpw).
  - congruence.
Qed.

(** Paused iff a request to descend would have been refused. *)
Lemma layers_paused_iff (w : world T) a s s1 eff :
  safety_layers w a s = (s1, Some eff) ->
  (power_safety_layer_enabled s = false -> pow_paused (power_layer s) = false) ->
  (navigation_is_paused s1 = true <->
   snd (safety_layers w DOWN s) <> Some DOWN).
Proof.
  unfold safety_layers, navigation_is_paused. intros H Hen.
  destruct (at_pressure w (pressure s)) as [[h t]|];
    [| destruct (if power_safety_layer_enabled s then _ else _);
       destruct (env_get_action _ _ _ _); discriminate].
  set (P := fun b : command =>
    if power_safety_layer_enabled s
    then pow_get_action (power_layer s) b (date_time s) (nighttime_power_load s)
           (battery_charge s) (battery_capacity s)
    else (power_layer s, b)) in *.
  change (if power_safety_layer_enabled s then _ else (power_layer s, a))
    with (P a) in H.
  change (if power_safety_layer_enabled s then _ else (power_layer s, DOWN))
    with (P DOWN).
  assert (HP : pow_paused (fst (P a)) = true <-> snd (P DOWN) <> DOWN).
  { unfold P; destruct (power_safety_layer_enabled s).
    - apply pow_paused_iff.
    - cbn. rewrite Hen by reflexivity. split; congruence. }
  destruct (P a) as [p' a1]; destruct (P DOWN) as [p'' d1]; cbn in HP.
  pose proof (env_paused_iff (envelope_max_superpressure s) (envelope_layer s)
                a1 (superpressure s)) as HE.
  pose proof (env_down_iff (envelope_max_superpressure s) (envelope_layer s)
                d1 (superpressure s)) as HED.
  destruct (env_get_action _ _ a1 _) as [e' a2].
  destruct (env_get_action _ _ d1 _) as [e'' d2].
  destruct (env_get_action _ _ DOWN _) as [e3 d3].
  pose proof (alt_paused_iff (altitude_layer s) a2 h) as HA.
  pose proof (alt_down_iff (altitude_layer s) d2 h) as HAD.
  destruct (alt_get_action _ a2 h) as [al' a3].
  destruct (alt_get_action _ d2 h) as [al'' d4].
  destruct (alt_get_action _ DOWN h) as [al3 d5].
  cbn in *.
  injection H; intros; subst. cbn.
  rewrite !orb_true_iff, HP, HE, HA.
  assert (G : (Some d4 <> Some DOWN) <-> d4 <> DOWN) by (split; congruence).
  rewrite G.
  destruct d1, d2, d3, d4, d5; intuition congruence.
Qed.

End Generic.
