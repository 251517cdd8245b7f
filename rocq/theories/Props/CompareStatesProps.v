(** Property C103: what comparing balloon states settles. *)
From Coq Require Import ZArith String List Bool.
From Flocq Require Import Core BinarySingleNaN.
From RecordUpdate Require Import RecordSet.
From Verif Require Import Model.Num Model.Float64 Model.Safety Model.Balloon Model.CompareStates.
From Verif Require Import Props.FloatProps.
Import ListNotations RecordSetNotations.
Open Scope string_scope.

(** The balloon [s] with the safety layers of [t]. *)
Definition with_layers {T} (t s : bstate T) : bstate T :=
  s <| power_layer := power_layer t |> <| envelope_layer := envelope_layer t |> <| altitude_layer := altitude_layer t |>.

(** The fields that are compared: their names, and when two states have the same value. *)
Definition same {T L A} (get : bstate T -> A) (b1 b2 : L * bstate T) : Prop := get (snd b1) = get (snd b2).
Definition compared {T L} : list (string * (L * bstate T -> L * bstate T -> Prop)) :=
  [ ("center_latlng", fun b1 b2 => fst b1 = fst b2);
    ("date_time", same date_time); ("time_elapsed", same time_elapsed);
    ("envelope_volume_base", same envelope_volume_base); ("envelope_volume_dv_pressure", same envelope_volume_dv_pressure);
    ("envelope_mass", same envelope_mass); ("envelope_max_superpressure", same envelope_max_superpressure);
    ("envelope_cod", same envelope_cod); ("payload_mass", same payload_mass);
    ("nighttime_power_load", same nighttime_power_load); ("daytime_power_load", same daytime_power_load);
    ("acs_valve_hole_diameter", same acs_valve_hole_diameter); ("battery_capacity", same battery_capacity);
    ("x", same x); ("y", same y);
    ("pressure", same pressure); ("ambient_temperature", same ambient_temperature);
    ("mols_lift_gas", same mols_lift_gas); ("mols_air", same mols_air);
    ("internal_temperature", same internal_temperature); ("envelope_volume", same envelope_volume);
    ("superpressure", same superpressure); ("acs_power", same acs_power);
    ("acs_mass_flow", same acs_mass_flow); ("solar_charging", same solar_charging);
    ("power_load", same power_load); ("battery_charge", same battery_charge);
    ("last_command", same last_command); ("status", same bstatus);
    ("upwelling_infrared", same upwelling_infrared) ].

Ltac split_forall H := repeat match type of H with
  | Forall _ (_ :: _) => let A := fresh "A" in apply Forall_cons_iff in H; destruct H as [A H] end; clear H.

(** Two states are == if and only if they differ in nothing but the safety layers. *)
Theorem C103_eq : forall T L (c1 c2 : L) (b1 b2 : bstate T),
  state_eq (c1, b1) (c2, b2) <-> c1 = c2 /\ with_layers b1 b2 = b1.
Proof.
  intros T L c1 c2 b1 b2. unfold state_eq, fields. split.
  - intro H. split_forall H. cbn [fst snd existsb String.eqb Ascii.eqb Bool.eqb orb] in *.
    split; [assumption|]. destruct b1, b2. cbn in *. unfold with_layers. cbn. subst. reflexivity.
  - intros [-> E]. repeat apply Forall_cons; try apply Forall_nil; cbn [fst snd existsb String.eqb Ascii.eqb Bool.eqb orb];
      first [exact I | reflexivity | rewrite <- E; reflexivity].
Qed.

(** The comparison passes, with no fields named, if and only if they differ in nothing but
    the safety layers and the switch of the power safety layer. *)
Theorem C103_compare : forall T L (c1 c2 : L) (b1 b2 : bstate T),
  compare_balloon_states (c1, b1) (c2, b2) [] <->
  c1 = c2 /\ with_layers b1 b2 <| power_safety_layer_enabled := power_safety_layer_enabled b1 |> = b1.
Proof.
  intros T L c1 c2 b1 b2. unfold compare_balloon_states, fields. split.
  - intro H. split_forall H. cbv [fst snd existsb field_passes skipped index prefix substring String.length] in *.
    cbn in *.
    split; [assumption|]. destruct b1, b2. cbn in *. unfold with_layers. cbn. subst. reflexivity.
  - intros [-> E]. repeat apply Forall_cons; try apply Forall_nil; cbn;
      first [exact I | reflexivity | rewrite <- E; reflexivity].
Qed.

(** With fields named, it passes if and only if every named field that is compared differs;
    nothing is asserted of the others, and nothing at all if no name is that of a compared
    field. *)
Theorem C103_named : forall T L (b1 b2 : L * bstate T) names, names <> [] ->
  (compare_balloon_states b1 b2 names <->
   forall name same_value, In (name, same_value) compared -> In name names -> ~ same_value b1 b2) /\
  ((forall name, In name names -> ~ In name (map fst (@compared T L))) -> compare_balloon_states b1 b2 names).
Proof.
  intros T L b1 b2 names Ne.
  assert (X : forall name : string, existsb (String.eqb name) names = true <-> In name names).
  { intro name. rewrite existsb_exists. split.
    - intros (z & I & E). apply String.eqb_eq in E. now subst.
    - intro I. exists name. split; [exact I|apply String.eqb_refl]. }
  assert (K : filter (fun f => negb (skipped (fst f))) (@fields T L) = compared) by reflexivity.
  assert (M : compare_balloon_states b1 b2 names <->
   forall name same_value, In (name, same_value) compared -> In name names -> ~ same_value b1 b2).
  { unfold compare_balloon_states. rewrite Forall_forall, <- K. split.
    - intros H name equal I J. apply filter_In in I. cbn [fst] in I. destruct I as [I S].
      specialize (H _ I). unfold field_passes in H. cbn [fst snd] in H.
      destruct (skipped name); [discriminate S|]. rewrite (proj2 (X _) J) in H. exact H.
    - intros H [name equal] I. unfold field_passes. cbn [fst snd].
      destruct (skipped name) eqn:S; [exact Logic.I|].
      destruct (existsb (String.eqb name) names) eqn:E.
      + apply (H name); [apply filter_In; cbn [fst]; rewrite S; now split|now apply X].
      + destruct names; [contradiction|exact Logic.I]. }
  split; [exact M|]. intro H. apply M. intros name equal I J. destruct (H name J).
  exact (in_map fst _ _ I).
Qed.

Lemma layer_eq T L (c : L) (b : bstate T) p : state_eq (c, b) (c, b <| power_layer := p |>).
Proof. apply C103_eq. split; [reflexivity|]. destruct b. reflexivity. Qed.
Lemma layer_compare T L (c : L) (b : bstate T) p : compare_balloon_states (c, b) (c, b <| power_layer := p |>) [].
Proof. apply C103_compare. split; [reflexivity|]. destruct b. reflexivity. Qed.
Lemma eq_acs T L (c c' : L) (b b' : bstate T) : state_eq (c, b) (c', b') -> acs_power b = acs_power b'.
Proof. intros [_ E]%C103_eq. rewrite <- E. reflexivity. Qed.
Lemma compare_acs T L (c c' : L) (b b' : bstate T) : compare_balloon_states (c, b) (c', b') [] -> acs_power b = acs_power b'.
Proof. intros [_ E]%C103_compare. rewrite <- E. reflexivity. Qed.

(** A balloon by day with a battery at 4 percent, as it is constructed, and the same balloon
    with navigation paused, as it is at the end of a night. *)
Definition fresh : bstate float := demo_start <| battery_charge := float_of_Z 122 |>
    <| power_layer := pow_init (1600060000000000, 1600020000000000)%Z |>.
Definition paused : bstate float :=
  fresh <| power_layer := mkPow true (pow_sunrise_h (power_layer fresh)) (pow_sunset (power_layer fresh)) |>.
Definition descend (s : bstate float) : bstate float * outcome :=
  @simulate_step _ DF demo_world (@lit _ DF 73 10, @lit _ DF (-41) 10) DOWN 10000000 10000000 s.

(** States that are == and pass the comparison should fly alike; they need not: one descends,
    the other does not, and then they differ. *)
Theorem C103_fly_alike_refuted :
  state_eq (tt, fresh) (tt, paused) /\ compare_balloon_states (tt, fresh) (tt, paused) [] /\
  snd (descend fresh) = Executed DOWN /\ snd (descend paused) = Executed STAY /\
  ~ state_eq (tt, fst (descend fresh)) (tt, fst (descend paused)) /\
  ~ compare_balloon_states (tt, fst (descend fresh)) (tt, fst (descend paused)) [].
Proof.
  assert (D : acs_power (fst (descend fresh)) <> acs_power (fst (descend paused))).
  { intro E. assert (X : Bltb (acs_power (fst (descend paused))) (acs_power (fst (descend fresh))) = true) by (vm_compute; reflexivity).
    assert (Y : Bltb (acs_power (fst (descend fresh))) (acs_power (fst (descend fresh))) = false) by (vm_compute; reflexivity).
    rewrite <- E, Y in X. discriminate X. }
  split; [apply layer_eq|]. split; [apply layer_compare|].
  split; [vm_compute; reflexivity|]. split; [vm_compute; reflexivity|]. split.
  - intro E. exact (D (eq_acs _ _ _ _ _ _ E)).
  - intro E. exact (D (compare_acs _ _ _ _ _ _ E)).
Qed.

(** The balloon with and without its power safety layer: the comparison passes, == does not
    hold. *)
Theorem C103_switch : forall T L (c : L) (b : bstate T),
  let b' := b <| power_safety_layer_enabled := negb (power_safety_layer_enabled b) |> in
  compare_balloon_states (c, b) (c, b') [] /\ ~ state_eq (c, b) (c, b').
Proof.
  intros T L c b b'. split.
  - apply C103_compare. split; [reflexivity|]. destruct b. reflexivity.
  - intros [_ E]%C103_eq. apply (f_equal power_safety_layer_enabled) in E. unfold b' in E.
    destruct b as [? ? ? ? ? ? ? ? ? ? ? ? ? ? ? ? ? ? ? ? ? ? ? ? ? ? ? ? q ? ? ? ?]. cbn in E. destruct q; discriminate E.
Qed.

Print Assumptions C103_eq.
Print Assumptions C103_compare.
Print Assumptions C103_named.
Print Assumptions C103_fly_alike_refuted.
Print Assumptions C103_switch.

(** Naming a field that differs, one that does not, and one that does not exist. *)
Example C103_witness : forall T (s : bstate T), time_elapsed s = 0%Z ->
  let a := (tt, s) in let b := (tt, s <| time_elapsed := 5%Z |>) in
  compare_balloon_states a b ["time_elapsed"] /\ ~ compare_balloon_states a b ["time_elapsed"; "x"] /\
  compare_balloon_states a b ["elapsed"] /\ compare_balloon_states a a ["power_safety_layer"] /\
  compare_balloon_states a a [] /\ ~ compare_balloon_states a b [].
Proof.
  intros T s Hs. cbv zeta. split; [|split; [|split; [|split; [|split]]]].
  - apply (proj2 (proj1 (C103_named T unit _ _ ["time_elapsed"] ltac:(discriminate)))). intros name equal I [<-|[]].
    cbn in I. repeat (destruct I as [I|I]; [injection I; intros; subst; try discriminate|]); try contradiction.
    unfold same. cbn. rewrite Hs. discriminate.
  - intro H0. pose proof (proj1 (proj1 (C103_named T unit _ _ ["time_elapsed"; "x"] ltac:(discriminate))) H0) as H.
    apply (H "x" (same x)); [cbn; tauto|cbn; tauto|reflexivity].
  - apply (proj2 (C103_named T unit _ _ ["elapsed"] ltac:(discriminate))). intros name [<-|[]] C. cbn in C.
    repeat (destruct C as [C|C]; [discriminate C|]). exact C.
  - apply (proj2 (C103_named T unit _ _ ["power_safety_layer"] ltac:(discriminate))). intros name [<-|[]] C. cbn in C.
    repeat (destruct C as [C|C]; [discriminate C|]). exact C.
  - apply C103_compare. split; [reflexivity|]. destruct s. reflexivity.
  - intros [_ E]%C103_compare. apply (f_equal time_elapsed) in E. cbn in E. rewrite Hs in E. discriminate E.
Qed.
