(** Proofs about the balloon step: clock, position, battery, gas, status. *)
From Coq Require Import ZArith Reals Lra Lia Bool List.
From RecordUpdate Require Import RecordSet.
From Verif Require Import Model.Num Model.Safety Model.Acs Model.Balloon.
From Verif Require Import Spec.Flight Proofs.NumR Proofs.AcsProofs Proofs.SafetyProofs.
Import ListNotations RecordSetNotations.

(** ** Any numbers: sub-step sequences *)
Section Any.
Context {T : Type} {N : Num T}.

(** [k] successful sub-steps lead from [s] to [s'], all but the last of them
    leaving the balloon OK. *)
Inductive ran (w : world T) (wind : T * T) (a : command) (st : Z)
  : nat -> bstate T -> bstate T -> Prop :=
| ran_0 s : ran w wind a st 0 s s
| ran_last s s' : simulate_substep w wind a st s = Some s' ->
    bstatus s' <> OK -> ran w wind a st 1 s s'
| ran_S k s s1 s' : simulate_substep w wind a st s = Some s1 ->
    bstatus s1 = OK -> ran w wind a st k s1 s' -> ran w wind a st (S k) s s'.

Lemma substeps_ran w wind a st n s s' b :
  substeps w wind a st n s = (s', b) ->
  exists k, (k <= n)%nat /\ ran w wind a st k s s' /\
    (b = true -> (k < n)%nat /\ (bstatus s = OK -> bstatus s' = OK)) /\
    (b = false -> k = n \/ bstatus s' <> OK) /\
    (b = false -> (0 < n)%nat -> (0 < k)%nat).
Proof.
  revert s; induction n as [|n IH]; cbn [substeps]; intros s H.
  - injection H; intros; subst. exists 0%nat.
    split; [lia|]. split; [constructor|]. split; [discriminate|].
    split; [auto|]. lia.
  - destruct (simulate_substep w wind a st s) as [s1|] eqn:E.
    + destruct (status_is_ok (bstatus s1)) eqn:Es.
      * assert (Hok : bstatus s1 = OK) by (destruct (bstatus s1); cbn in Es; congruence).
        destruct (IH _ H) as (k & Hk & Hr & Ht & Hf & _).
        exists (S k). split; [lia|]. split; [econstructor; eauto|].
        split; [intro Hb; destruct (Ht Hb); split; [lia|auto]|].
        split; [intro Hb; destruct (Hf Hb); [left; lia|auto]|]. lia.
      * injection H; intros; subst. exists 1%nat.
        assert (bstatus s' <> OK) by (destruct (bstatus s'); cbn in Es; congruence).
        split; [lia|]. split; [apply ran_last; assumption|].
        split; [discriminate|]. split; [auto|lia].
    + injection H; intros; subst. exists 0%nat.
      split; [lia|]. split; [constructor|].
      split; [intro; split; [lia|auto]|]. split; discriminate.
Qed.

(** A call is: nothing but bookkeeping of the layers, then [k] sub-steps. *)
Lemma call_ran w wind a d st s s' o :
  simulate_step w wind a d st s = (s', o) ->
  exists p e al k eff,
    ran w wind eff st k
      (s <| last_command := a |> <| power_layer := p |>
         <| envelope_layer := e |> <| altitude_layer := al |>) s' /\
    (bstatus s <> OK -> k = 0%nat /\ s' = s <| last_command := a |> /\
                        o = Raised AssertionError) /\
    (k <> 0%nat -> bstatus s = OK) /\
    (k <> 0%nat -> (Z.of_nat k <= int_seconds d / int_seconds st)%Z) /\
    (k <> 0%nat -> int_seconds st <> 0%Z /\ (int_seconds d mod int_seconds st = 0)%Z) /\
    (forall e0, o = Executed e0 ->
       e0 = eff /\ bstatus s = OK /\
       int_seconds st <> 0%Z /\ (int_seconds d mod int_seconds st = 0)%Z /\
       (k = Z.to_nat (int_seconds d / int_seconds st) \/ bstatus s' <> OK) /\
       ((0 < int_seconds d / int_seconds st)%Z -> (0 < k)%nat)) /\
    (forall e0, o = Raised e0 -> bstatus s = OK -> bstatus s' = OK).
Proof.
  unfold simulate_step. cbn [set bstatus].
  set (s0 := s <| last_command := a |>).
  assert (Hs0 : s0 = s0 <| power_layer := power_layer s |>
     <| envelope_layer := envelope_layer s |>
     <| altitude_layer := altitude_layer s |>)
    by (unfold s0; destruct s; reflexivity).
  intro H.
  destruct (status_is_ok (bstatus s)) eqn:Es; cbn [negb] in H.
  2:{ exists (power_layer s), (envelope_layer s), (altitude_layer s), 0%nat, a.
      injection H; intros; subst s' o.
      assert (bstatus s <> OK) by (destruct (bstatus s); cbn in Es; congruence).
      split; [rewrite <- Hs0; apply ran_0|].
      split; [auto|]. split; [congruence|]. split; [congruence|].
      split; [congruence|].
      split; [discriminate|]. contradiction. }
  assert (Hok : bstatus s = OK) by (destruct (bstatus s); cbn in Es; congruence).
  destruct (safety_layers w a s0) as [s1 o1] eqn:E1.
  pose proof (safety_layers_frame w a s0 s1 o1 E1) as (p & e & al & Hf).
  exists p, e, al. fold s0. rewrite <- Hf.
  assert (Hs1 : bstatus s1 = OK) by (rewrite Hf; cbn; exact Hok).
  destruct o1 as [eff|].
  - destruct (Z.eqb_spec (int_seconds st) 0) as [Z0|Z0].
    { exists 0%nat, eff. injection H; intros; subst s' o.
      split; [apply ran_0|]. split; [congruence|]. split; [congruence|].
      split; [congruence|]. split; [congruence|]. split; [discriminate|]. auto. }
    destruct (Z.eqb_spec (int_seconds d mod int_seconds st) 0) as [M0|M0];
      cbn [negb] in H.
    2:{ exists 0%nat, eff. injection H; intros; subst s' o.
        split; [apply ran_0|]. split; [congruence|]. split; [congruence|].
        split; [congruence|]. split; [congruence|]. split; [discriminate|]. auto. }
    destruct (substeps w wind eff st _ s1) as [s2 b] eqn:E2.
    destruct (substeps_ran _ _ _ _ _ _ _ _ E2) as (k & Hk & Hr & Ht & Hff & H0).
    exists k, eff.
    destruct b; injection H; intros; subst s' o;
      (split; [assumption|]); (split; [congruence|]);
      (split; [auto|]); (split; [lia|]); (split; [auto|]).
    + split; [discriminate|]. intros e0 _ _. apply (Ht eq_refl). exact Hs1.
    + split; [|discriminate].
      intros e0 Ee; injection Ee; intro; subst e0.
      split; [reflexivity|]. split; [exact Hok|]. split; [exact Z0|].
      split; [exact M0|]. split; [apply Hff; reflexivity|].
      intro. apply H0; [reflexivity|lia].
  - exists 0%nat, a. injection H; intros; subst s' o.
    split; [apply ran_0|]. split; [congruence|]. split; [congruence|].
    split; [congruence|]. split; [congruence|]. split; [discriminate|]. auto.
Qed.

Lemma ran_clock w wind a st k s s' :
  ran w wind a st k s s' ->
  date_time s' = (date_time s + Z.of_nat k * st)%Z /\
  time_elapsed s' = (time_elapsed s + Z.of_nat k * st)%Z.
Proof.
  assert (Hst : forall s s', simulate_substep w wind a st s = Some s' ->
    date_time s' = (date_time s + st)%Z /\
    time_elapsed s' = (time_elapsed s + st)%Z).
  { clear. intros s s'. unfold simulate_substep. intro H.
    destruct (next_pressure w s st); [|discriminate].
    destruct (at_pressure w (pressure s)) as [[? ?]|]; [|discriminate].
    destruct (sun _ _ _ _). destruct (d_temperature _ _ _ _ _ _ _ _ _); [|discriminate].
    destruct (calculate_superpressure_and_volume _ _ _ _ _ _).
    destruct (acs_step s a).
    injection H; intro E; subst s'. cbn. auto. }
  induction 1 as [s|s s' H Hb|k s s1 s' H Hb Hr IH].
  - cbn; lia.
  - destruct (Hst _ _ H). lia.
  - destruct (Hst _ _ H). lia.
Qed.

(** What a sub-step does to each field. *)
Lemma substep_fields w wind a st s s' :
  simulate_substep w wind a st s = Some s' ->
  exists np h amb,
    next_pressure w s st = Some np /\
    at_pressure w (pressure s) = Some (h, amb) /\
    let el := fst (sun w (x s) (y s) (date_time s)) in
    let flux := snd (sun w (x s) (y s) (date_time s)) in
    let vs := calculate_superpressure_and_volume (mols_lift_gas s) (mols_air s)
          (internal_temperature s) (pressure s)
          (envelope_volume_base s) (envelope_volume_dv_pressure s) in
    let day := nltb MIN_SOLAR_EL_DEG el in
    date_time s' = (date_time s + st)%Z /\
    time_elapsed s' = (time_elapsed s + st)%Z /\
    envelope_volume_base s' = envelope_volume_base s /\
    envelope_volume_dv_pressure s' = envelope_volume_dv_pressure s /\
    envelope_mass s' = envelope_mass s /\
    envelope_max_superpressure s' = envelope_max_superpressure s /\
    envelope_cod s' = envelope_cod s /\
    payload_mass s' = payload_mass s /\
    nighttime_power_load s' = nighttime_power_load s /\
    daytime_power_load s' = daytime_power_load s /\
    acs_valve_hole_diameter s' = acs_valve_hole_diameter s /\
    battery_capacity s' = battery_capacity s /\
    x s' = nadd (x s) (nmul (fst wind) (total_seconds st)) /\
    y s' = nadd (y s) (nmul (snd wind) (total_seconds st)) /\
    pressure s' = np /\
    ambient_temperature s' = amb /\
    mols_lift_gas s' = mols_lift_gas s /\
    mols_air s' = pymax (nadd (mols_air s)
       (nmul (ndiv (snd (acs_step s a)) DRY_AIR_MOLAR_MASS) (total_seconds st)))
       (nofZ 0) /\
    (exists d_temp, d_temperature w (envelope_volume s) (envelope_mass s)
          (internal_temperature s) (ambient_temperature s) (pressure s)
          el flux (upwelling_infrared s) = Some d_temp /\
      internal_temperature s' = nadd (internal_temperature s)
        (nmul d_temp (total_seconds st))) /\
    envelope_volume s' = fst vs /\
    superpressure s' = snd vs /\
    acs_power s' = fst (acs_step s a) /\
    acs_mass_flow s' = snd (acs_step s a) /\
    solar_charging s' = (if day then solar_power_fn w el (pressure s) else nofZ 0) /\
    power_load s' = nadd (if day then daytime_power_load s else nighttime_power_load s)
                         (fst (acs_step s a)) /\
    battery_charge s' =
      clip (nadd (battery_charge s)
              (nmul (nsub (solar_charging s') (power_load s')) (timedelta_to_hours st)))
           (nofZ 0) (battery_capacity s) /\
    last_command s' = last_command s /\
    bstatus s' = next_status s (superpressure s') (battery_charge s') /\
    power_safety_layer_enabled s' = power_safety_layer_enabled s /\
    power_layer s' = power_layer s /\
    envelope_layer s' = envelope_layer s /\
    altitude_layer s' = altitude_layer s /\
    upwelling_infrared s' = upwelling_infrared s.
Proof.
  unfold simulate_substep. intro H.
  destruct (next_pressure w s st) as [np|]; [|discriminate].
  destruct (at_pressure w (pressure s)) as [[h amb]|]; [|discriminate].
  destruct (sun _ _ _ _) as [el flux] eqn:Esun.
  destruct (d_temperature _ _ _ _ _ _ _ _ _) as [d_temp|] eqn:Ed; [|discriminate].
  destruct (calculate_superpressure_and_volume _ _ _ _ _ _) as [nv nsp] eqn:Ev.
  destruct (acs_step s a) as [ap fl] eqn:Ea.
  exists np, h, amb. injection H; intro E; subst s'. cbn -[next_status]. repeat split.
  exists d_temp. split; reflexivity.
Qed.

(** Invariants of sub-steps are invariants of calls and flights. *)
Lemma ran_invariant (P : bstate T -> Prop) w wind a st k s s' :
  (forall s s', simulate_substep w wind a st s = Some s' ->
      bstatus s = OK -> P s -> P s') ->
  bstatus s = OK \/ k = 0%nat ->
  ran w wind a st k s s' -> P s -> P s'.
Proof.
  intros Hst Hk Hr. revert Hk. induction Hr; intros Hk HP.
  - exact HP.
  - destruct Hk as [Hk|Hk]; [eauto|discriminate].
  - destruct Hk as [Hk|Hk]; [|discriminate]. apply IHHr; eauto.
Qed.

(** Relations that are reflexive, transitive and hold across a sub-step hold
    across any run of them. *)
Lemma ran_relation (Rel : bstate T -> bstate T -> Prop) w wind a st k s s' :
  (forall s, Rel s s) -> (forall s1 s2 s3, Rel s1 s2 -> Rel s2 s3 -> Rel s1 s3) ->
  (forall s s', simulate_substep w wind a st s = Some s' -> Rel s s') ->
  ran w wind a st k s s' -> Rel s s'.
Proof.
  intros Hrefl Htrans Hst Hr. induction Hr; eauto.
Qed.

(** Status: the last sub-step decides. *)
Lemma ran_status w wind a st k s s' :
  ran w wind a st k s s' -> bstatus s = OK -> bstatus s' <> OK ->
  exists k' s1, k = S k' /\ bstatus s1 = OK /\ ran w wind a st k' s s1 /\
    simulate_substep w wind a st s1 = Some s'.
Proof.
  induction 1 as [s|s s' H Hb|k s s1 s' H Hb Hr IH]; intros Hs Hs'.
  - contradiction.
  - exists 0%nat, s. repeat split; auto. apply ran_0.
  - destruct (IH Hb Hs') as (k' & s2 & -> & H1 & H2 & H3).
    exists (S k'), s2. repeat split; auto. econstructor; eauto.
Qed.

(** A call on a failed balloon. *)
Lemma call_absorbing w wind a d st s :
  bstatus s <> OK ->
  simulate_step w wind a d st s = (s <| last_command := a |>, Raised AssertionError).
Proof.
  intro H. unfold simulate_step. cbn [set bstatus].
  destruct (bstatus s); cbn; [contradiction|reflexivity..].
Qed.

End Any.

Open Scope R_scope.

(** ** Position *)
Lemma ran_position (w : world R) wind a st k s s' :
  ran w wind a st k s s' ->
  let dt := IZR (time_elapsed s' - time_elapsed s) / 1000000 in
  x s' = x s + fst wind * dt /\ y s' = y s + snd wind * dt.
Proof.
  intro H; cbv zeta.
  refine (ran_relation (fun s s' =>
    x s' = x s + fst wind * (IZR (time_elapsed s' - time_elapsed s) / 1000000) /\
    y s' = y s + snd wind * (IZR (time_elapsed s' - time_elapsed s) / 1000000))
    w wind a st k s s' _ _ _ H); clear.
  - intro s. rewrite Z.sub_diag. lra.
  - intros s1 s2 s3 [A1 A2] [B1 B2]. rewrite !minus_IZR in *. lra.
  - intros s s' E. apply substep_fields in E.
    destruct E as (np & h & amb & _ & _ & Ef). cbv zeta in Ef.
    decompose [and] Ef. clear Ef.
    replace (time_elapsed s' - time_elapsed s)%Z with st by lia.
    unfold total_seconds, us_per_second in *. numR. auto.
Qed.

(** ** Battery *)
Lemma clip_range v lo hi : lo <= hi -> lo <= clip v lo hi <= hi.
Proof. intro H. unfold clip. numR. rcases; lra. Qed.

Lemma clip_value (v lo hi : R) : lo <= hi -> clip v lo hi = Rmin (Rmax v lo) hi.
Proof. intro H. unfold clip. rewrite pymax_R, pymin_R. reflexivity. Qed.

Definition battery_ok (s : bstate R) : Prop :=
  0 <= battery_charge s <= battery_capacity s /\
  (bstatus s = OUT_OF_POWER <-> battery_charge s = 0).

Lemma substep_battery (w : world R) wind a st s s' :
  simulate_substep w wind a st s = Some s' -> bstatus s = OK ->
  0 <= battery_capacity s -> battery_ok s' /\ battery_capacity s' = battery_capacity s.
Proof.
  intros E Hok Hc. apply substep_fields in E.
  destruct E as (np & h & amb & _ & _ & Ef). cbv zeta in Ef.
  decompose [and] Ef. clear Ef.
  assert (Hr : 0 <= battery_charge s' <= battery_capacity s).
  { match goal with H : battery_charge s' = _ |- _ => rewrite H end.
    apply clip_range; assumption. }
  split; [|assumption]. split; [lra|].
  match goal with H : bstatus s' = _ |- _ => rewrite H end.
  unfold next_status. rewrite Hok. numR. rcases; split; intros; try discriminate;
    try reflexivity; lra.
Qed.

(** ** Gas *)
Definition parameters (s : bstate R) : list R :=
  [envelope_volume_base s; envelope_volume_dv_pressure s; envelope_mass s;
   envelope_max_superpressure s; envelope_cod s; payload_mass s;
   nighttime_power_load s; daytime_power_load s; acs_valve_hole_diameter s;
   battery_capacity s; mols_lift_gas s; upwelling_infrared s].

Lemma substep_parameters (w : world R) wind a st s s' :
  simulate_substep w wind a st s = Some s' -> parameters s' = parameters s.
Proof.
  intro E. apply substep_fields in E.
  destruct E as (np & h & amb & _ & _ & Ef). cbv zeta in Ef.
  decompose [and] Ef. clear Ef. unfold parameters. congruence.
Qed.

Lemma acs_flow_up s : snd (acs_step (T:=R) s UP) <= 0.
Proof.
  cbn [acs_step snd]. numR.
  set (d := acs_valve_hole_diameter s).
  set (q := sqrt _).
  assert (0 <= q) by apply sqrt_pos.
  assert (0 <= PI * (d * d) / 4).
  { pose proof PI_RGT_0. assert (0 <= d * d) by nra. nra. }
  nra.
Qed.

Lemma acs_flow_stay s : snd (acs_step (T:=R) s STAY) = 0.
Proof. reflexivity. Qed.

Lemma acs_flow_down s : 0 <= snd (acs_step (T:=R) s DOWN).
Proof.
  cbn [acs_step snd]. apply mass_flow_nonneg.
  - rewrite most_efficient_power_curve.
    pose proof (power_curve_range (pressure_ratio s)). lra.
  - apply fan_efficiency_range.
Qed.

Lemma M_air_pos : 0 < @DRY_AIR_MOLAR_MASS R Num_R.
Proof. unfold DRY_AIR_MOLAR_MASS. numR. lra. Qed.

Definition ballast_direction (a : command) (before after : R) : Prop :=
  match a with
  | UP => after <= before
  | STAY => after = before
  | DOWN => before <= after
  end.

Lemma substep_ballast (w : world R) wind a st s s' :
  simulate_substep w wind a st s = Some s' -> (0 <= st)%Z -> 0 <= mols_air s ->
  0 <= mols_air s' /\ ballast_direction a (mols_air s) (mols_air s').
Proof.
  intros E Hst H0. apply substep_fields in E.
  destruct E as (np & h & amb & _ & _ & Ef). cbv zeta in Ef.
  decompose [and] Ef. clear Ef.
  match goal with H : mols_air s' = _ |- _ => rename H into Hm end.
  rewrite pymax_R in Hm.
  set (f := snd (acs_step s a)) in *.
  assert (Hts : 0 <= @total_seconds R Num_R st).
  { unfold total_seconds, us_per_second. numR. apply IZR_le in Hst. lra. }
  pose proof M_air_pos as HM.
  assert (Hk : forall g, 0 <= g -> 0 <= g / DRY_AIR_MOLAR_MASS * total_seconds st).
  { intros g Hg. apply Rmult_le_pos; [|assumption].
    apply Rmult_le_pos; [assumption|]. left. apply Rinv_0_lt_compat. assumption. }
  cbn [nadd nmul ndiv nofZ Num_R] in Hm.
  split; [rewrite Hm; apply Rmax_r|].
  destruct a; cbn.
  - pose proof (acs_flow_down s) as Hf. fold f in Hf. specialize (Hk _ Hf).
    rewrite Hm. eapply Rle_trans; [|apply Rmax_l]. lra.
  - unfold f in Hm. rewrite acs_flow_stay in Hm. rewrite Hm.
    replace (mols_air s + 0 / DRY_AIR_MOLAR_MASS * total_seconds st)
      with (mols_air s) by (field; lra).
    apply Rmax_left. exact H0.
  - pose proof (acs_flow_up s) as Hf. fold f in Hf.
    specialize (Hk (- f) ltac:(lra)).
    replace (- f / DRY_AIR_MOLAR_MASS * total_seconds st)
      with (- (f / DRY_AIR_MOLAR_MASS * total_seconds st)) in Hk by (field; lra).
    rewrite Hm. apply Rmax_lub; lra.
Qed.

(** ** From sub-steps to calls and flights *)
Section Lift.
Context {T : Type} {N : Num T}.

(** The state from which a call's sub-steps start. *)
Definition relayered (s : bstate T) a p e al : bstate T :=
  s <| last_command := a |> <| power_layer := p |>
    <| envelope_layer := e |> <| altitude_layer := al |>.

Lemma call_invariant (P : bstate T -> Prop) (Q : Z -> Prop) c s :
  (forall s a p e al, P s -> P (relayered s a p e al)) ->
  (forall w wind a st s s', Q st -> simulate_substep w wind a st s = Some s' ->
      bstatus s = OK -> P s -> P s') ->
  Q (c_stride c) -> P s -> P (fst (do_call s c)).
Proof.
  intros Hl Hs HQ HP. unfold do_call.
  destruct (simulate_step _ _ _ _ _ s) as [s' o] eqn:E. cbn.
  destruct (call_ran _ _ _ _ _ _ _ _ E)
    as (p & e & al & k & eff & Hr & _ & Hk & _).
  eapply ran_invariant; [| |exact Hr|].
  - intros s1 s2 E1. eapply Hs; eauto.
  - destruct k; [right; reflexivity|left]. cbn. apply Hk. discriminate.
  - apply Hl, HP.
Qed.

Lemma flight_invariant (P : bstate T -> Prop) (Q : Z -> Prop) cs s :
  (forall s a p e al, P s -> P (relayered s a p e al)) ->
  (forall w wind a st s s', Q st -> simulate_substep w wind a st s = Some s' ->
      bstatus s = OK -> P s -> P s') ->
  Forall (fun c => Q (c_stride c)) cs -> P s -> P (fly_end s cs).
Proof.
  intros Hl Hs. revert s. induction cs as [|c cs IH]; intros s HQ HP; cbn; [exact HP|].
  inversion HQ; subst. apply IH; [assumption|].
  eapply call_invariant; eauto.
Qed.
End Lift.

Lemma flight_battery (s0 : bstate R) cs :
  0 < battery_charge s0 <= battery_capacity s0 -> bstatus s0 = OK ->
  let s := fly_end s0 cs in
  battery_capacity s = battery_capacity s0 /\
  0 <= battery_charge s <= battery_capacity s /\
  0 <= battery_soc s <= 1 /\
  (bstatus s = OUT_OF_POWER <-> battery_charge s = 0).
Proof.
  intros Hb Hok. cbv zeta.
  assert (H : battery_ok (fly_end s0 cs) /\
              battery_capacity (fly_end s0 cs) = battery_capacity s0).
  { apply (flight_invariant (fun s => battery_ok s /\
             battery_capacity s = battery_capacity s0) (fun _ => True)).
    - intros s a p e al. unfold battery_ok, relayered. cbn. auto.
    - intros w wind a st s s' _ E Hs [_ Hc].
      destruct (substep_battery _ _ _ _ _ _ E Hs) as [B1 B2]; [lra|].
      split; [exact B1|congruence].
    - clear. induction cs; constructor; auto.
    - split; [|reflexivity]. split; [lra|]. rewrite Hok. split; [discriminate|lra]. }
  destruct H as [[H1 H2] H3]. split; [exact H3|]. split; [exact H1|].
  split; [|exact H2]. unfold battery_soc. numR.
  assert (0 < battery_capacity (fly_end s0 cs)) by lra.
  split.
  - apply Rmult_le_pos; [lra|]. left. apply Rinv_0_lt_compat. lra.
  - apply Rmult_le_reg_r with (battery_capacity (fly_end s0 cs)); [assumption|].
    unfold Rdiv. rewrite Rmult_assoc, Rinv_l by lra. lra.
Qed.

(** Energy balance of a sub-step. *)
Lemma substep_energy (w : world R) wind a st s s' :
  simulate_substep w wind a st s = Some s' -> 0 <= battery_capacity s ->
  let el := fst (sun w (x s) (y s) (date_time s)) in
  let hours := IZR st / 1000000 / 3600 in
  let charging := if Rlt_dec (-4.242) el then solar_power_fn w el (pressure s) else 0 in
  let load := (if Rlt_dec (-4.242) el then daytime_power_load s
               else nighttime_power_load s) + acs_power s' in
  solar_charging s' = charging /\ power_load s' = load /\
  battery_charge s' =
    Rmin (Rmax (battery_charge s + (charging - load) * hours) 0) (battery_capacity s) /\
  (a <> DOWN -> acs_power s' = 0).
Proof.
  intros E Hc. apply substep_fields in E.
  destruct E as (np & h & amb & _ & _ & Ef). cbv zeta in Ef.
  decompose [and] Ef. clear Ef. cbv zeta.
  set (el := fst (sun w (x s) (y s) (date_time s))) in *.
  assert (Hel : MIN_SOLAR_EL_DEG = -4.242) by (unfold MIN_SOLAR_EL_DEG; numR; lra).
  rewrite Hel in *.
  assert (Hap : acs_power s' = fst (acs_step s a)) by assumption.
  rewrite <- Hap in *.
  assert (Hday : forall u v : R,
    (if nltb (-4.242) el then u else v) = (if Rlt_dec (-4.242) el then u else v)).
  { intros. cbn. unfold Rltb. destruct (Rlt_dec _ _); reflexivity. }
  rewrite Hday in *.
  match goal with H : solar_charging s' = _ |- _ => rename H into Hsc end.
  match goal with H : power_load s' = _ |- _ => rename H into Hpl end.
  match goal with H : battery_charge s' = _ |- _ => rename H into Hch end.
  split; [exact Hsc|]. split; [exact Hpl|]. split.
  - rewrite Hch, Hsc, Hpl.
    unfold timedelta_to_hours, total_seconds, us_per_second.
    rewrite clip_value by exact Hc. numR.
    replace (36000 / 10) with 3600 by lra. reflexivity.
  - intro Ha. rewrite Hap. destruct a; [contradiction|reflexivity|reflexivity].
Qed.

Lemma flight_parameters (s0 : bstate R) cs :
  parameters (fly_end s0 cs) = parameters s0.
Proof.
  apply (flight_invariant (fun s => parameters s = parameters s0) (fun _ => True)).
  - intros s a p e al H. exact H.
  - intros w wind a st s s' _ E _ H. rewrite <- H. eapply substep_parameters; eauto.
  - clear. induction cs; constructor; auto.
  - reflexivity.
Qed.

Lemma flight_ballast_nonneg (s0 : bstate R) cs :
  Forall (fun c => (0 <= c_stride c)%Z) cs ->
  0 <= mols_air s0 -> 0 <= mols_air (fly_end s0 cs).
Proof.
  apply (flight_invariant (fun s => 0 <= mols_air s) (fun st => (0 <= st)%Z)).
  - intros s a p e al H. exact H.
  - intros w wind a st s s' Hst E _ H.
    destruct (substep_ballast _ _ _ _ _ _ E Hst H). assumption.
Qed.

(** Direction of the ballast over a whole call. *)
Lemma call_ballast (s : bstate R) c eff :
  (0 <= c_stride c)%Z -> 0 <= mols_air s ->
  snd (do_call s c) = Executed eff ->
  ballast_direction eff (mols_air s) (mols_air (fst (do_call s c))).
Proof.
  intros Hst H0 Heff. unfold do_call in *.
  destruct (simulate_step _ _ _ _ _ s) as [s' o] eqn:E. cbn in *. subst o.
  destruct (call_ran _ _ _ _ _ _ _ _ E)
    as (p & e & al & k & eff' & Hr & _ & _ & _ & _ & Hx & _).
  destruct (Hx eff eq_refl) as (-> & _). clear Hx E.
  fold (relayered s (c_action c) p e al) in Hr.
  change (mols_air s) with (mols_air (relayered s (c_action c) p e al)) in *.
  set (s1 := relayered s (c_action c) p e al) in *. clearbody s1. clear s.
  induction Hr as [s|s s' H Hb|k s s2 s' H Hb Hr IH].
  - destruct eff'; cbn; lra.
  - destruct (substep_ballast _ _ _ _ _ _ H Hst H0). assumption.
  - destruct (substep_ballast _ _ _ _ _ _ H Hst H0) as [Q1 Q2].
    specialize (IH Q1). destruct eff'; cbn in *; lra.
Qed.

(** Valve and pump flow with the formulas spelled out. *)
Lemma acs_flow_formula (s : bstate R) a :
  acs_step s a =
  match a with
  | STAY => (0, 0)
  | UP =>
      (0, - (0.62 * (PI * (acs_valve_hole_diameter s / 2) ^ 2) *
        sqrt (2 * superpressure s *
              ((superpressure s + pressure s) * 0.028964922481160
               / (8.3144621 * internal_temperature s)))))
  | DOWN =>
      let r := pressure_ratio s in
      let p := get_most_efficient_power r in
      (p, get_fan_efficiency r p * p / 3600)
  end.
Proof.
  destruct a; cbn [acs_step]; try reflexivity.
  unfold DRY_AIR_MOLAR_MASS, UNIVERSAL_GAS_CONSTANT. numR. f_equal.
  replace (28964922481160 / 1000000000000000) with 0.028964922481160 by lra.
  replace (83144621 / 10000000) with 8.3144621 by lra.
  rewrite <- Ropp_mult_distr_l.
  replace (62 / 100) with 0.62 by lra. 
  field_simplify. reflexivity.
Qed.

(** ** Clock over a call *)
Lemma call_clock {T} {N : Num T} (s : bstate T) c :
  let s' := fst (do_call s c) in
  exists k : Z, (0 <= k)%Z /\
    date_time s' = (date_time s + k * c_stride c)%Z /\
    time_elapsed s' = (time_elapsed s + k * c_stride c)%Z /\
    (bstatus s <> OK -> k = 0%Z).
Proof.
  cbv zeta. unfold do_call.
  destruct (simulate_step _ _ _ _ _ s) as [s' o] eqn:E. cbn.
  destruct (call_ran _ _ _ _ _ _ _ _ E)
    as (p & e & al & k & eff' & Hr & Hno & _).
  apply ran_clock in Hr. cbn in Hr. exists (Z.of_nat k).
  split; [lia|]. split; [tauto|]. split; [tauto|].
  intro H. destruct (Hno H) as [-> _]. reflexivity.
Qed.

Lemma int_seconds_floor d : (0 <= d)%Z -> int_seconds d = (d / 1000000)%Z.
Proof. intro H. unfold int_seconds, us_per_second. apply Z.quot_div_nonneg; lia. Qed.

Lemma call_clock_any {T} {N : Num T} (s : bstate T) c :
  (0 <= c_delta c)%Z -> (0 <= c_stride c)%Z ->
  let dsec := (c_delta c / 1000000)%Z in
  let ssec := (c_stride c / 1000000)%Z in
  forall s' o, do_call s c = (s', o) ->
  (forall eff, o = Executed eff ->
     (0 < ssec)%Z /\ (ssec | dsec)%Z /\
     (bstatus s' = OK ->
        time_elapsed s' = (time_elapsed s + dsec / ssec * c_stride c)%Z /\
        date_time s' = (date_time s + dsec / ssec * c_stride c)%Z) /\
     (bstatus s' <> OK -> exists k, (0 < k <= dsec / ssec)%Z /\
         time_elapsed s' = (time_elapsed s + k * c_stride c)%Z /\
         date_time s' = (date_time s + k * c_stride c)%Z)) /\
  (ssec = 0%Z \/ ~ (ssec | dsec)%Z -> (exists e, o = Raised e) /\
     time_elapsed s' = time_elapsed s /\ date_time s' = date_time s).
Proof.
  intros Hd0 Hs0 dsec ssec s' o E. unfold do_call in E.
  destruct (call_ran _ _ _ _ _ _ _ _ E)
    as (p & e & al & k & eff' & Hr & Hno & Hk1 & Hk2 & Hk3 & Hx & _).
  rewrite !int_seconds_floor in * by lia.
  fold dsec in Hk2, Hk3, Hx. fold ssec in Hk2, Hk3, Hx.
  assert (0 <= dsec)%Z by (apply Z.div_pos; lia).
  assert (0 <= ssec)%Z by (apply Z.div_pos; lia).
  clearbody dsec ssec.
  pose proof (ran_clock _ _ _ _ _ _ _ Hr) as [C1 C2]. cbn in C1, C2.
  split.
  - intros eff ->. destruct (Hx eff eq_refl) as (_ & Hok & Hnz & Hm & Hor & Hpos).
    assert (Hdiv : (ssec | dsec)%Z) by (apply Z.mod_divide; [lia|exact Hm]).
    split; [lia|]. split; [exact Hdiv|]. split.
    + intro Hok'. destruct Hor as [Hkk|]; [|contradiction].
      assert (0 <= dsec / ssec)%Z by (apply Z.div_pos; lia).
      assert (Hz : Z.of_nat k = (dsec / ssec)%Z) by lia.
      rewrite <- Hz. split; assumption.
    + intro Hbad. exists (Z.of_nat k).
      destruct (ran_status _ _ _ _ _ _ _ Hr Hok Hbad) as (k' & _ & -> & _).
      split; [|split; assumption].
      split; [lia|]. apply Hk2. discriminate.
  - intro Hnd.
    assert (Hbad : forall m, ssec <> 0%Z /\ (dsec mod ssec = m)%Z -> m <> 0%Z).
    { intros m [Hnz Hm] ->. destruct Hnd as [|Hnd]; [contradiction|].
      apply Hnd. apply Z.mod_divide; [lia|exact Hm]. }
    assert (Hk0 : k = 0%nat).
    { destruct k as [|k]; [reflexivity|]. exfalso.
      exact (Hbad 0%Z (Hk3 (Nat.neq_succ_0 k)) eq_refl). }
    subst k. cbn in C1, C2. split; [|lia].
    destruct o as [eff|e0]; [|eauto]. exfalso.
    destruct (Hx eff eq_refl) as (_ & _ & Hnz & Hm & _).
    exact (Hbad 0%Z (conj Hnz Hm) eq_refl).
Qed.

Lemma call_clock_whole {T} {N : Num T} (s : bstate T) c dsec ssec :
  c_delta c = (dsec * 1000000)%Z -> c_stride c = (ssec * 1000000)%Z ->
  (0 <= dsec)%Z -> (0 < ssec)%Z ->
  forall s' o, do_call s c = (s', o) ->
  (forall eff, o = Executed eff ->
     (ssec | dsec)%Z /\
     (bstatus s' = OK -> time_elapsed s' = (time_elapsed s + c_delta c)%Z /\
                         date_time s' = (date_time s + c_delta c)%Z) /\
     (bstatus s' <> OK -> exists k, (0 < k <= dsec / ssec)%Z /\
         time_elapsed s' = (time_elapsed s + k * c_stride c)%Z /\
         date_time s' = (date_time s + k * c_stride c)%Z)) /\
  (~ (ssec | dsec)%Z -> (exists e, o = Raised e) /\
     time_elapsed s' = time_elapsed s /\ date_time s' = date_time s).
Proof.
  intros Hd Hs Hd0 Hs0 s' o E.
  pose proof (call_clock_any s c ltac:(lia) ltac:(lia) s' o E) as [H1 H2].
  replace (c_delta c / 1000000)%Z with dsec in * by (rewrite Hd; symmetry; apply Z.div_mul; lia).
  replace (c_stride c / 1000000)%Z with ssec in * by (rewrite Hs; symmetry; apply Z.div_mul; lia).
  split; [|auto].
  intros eff He. destruct (H1 eff He) as (_ & Hdiv & Hok & Hbad).
  split; [exact Hdiv|]. split; [|exact Hbad].
  intro K. specialize (Hok K).
  replace (dsec / ssec * c_stride c)%Z with (c_delta c) in Hok; [exact Hok|].
  assert (dsec = ssec * (dsec / ssec))%Z
    by (apply Z.div_exact; [lia|apply Z.mod_divide; [lia|exact Hdiv]]).
  nia.
Qed.

(** ** Position over a call *)
Lemma call_position (s : bstate R) c :
  let s' := fst (do_call s c) in
  let dt := IZR (time_elapsed s' - time_elapsed s) / 1000000 in
  x s' = x s + fst (c_wind c) * dt /\ y s' = y s + snd (c_wind c) * dt.
Proof.
  cbv zeta. unfold do_call.
  destruct (simulate_step _ _ _ _ _ s) as [s' o] eqn:E. cbn.
  destruct (call_ran _ _ _ _ _ _ _ _ E)
    as (p & e & al & k & eff' & Hr & _).
  apply ran_position in Hr. cbn in Hr. exact Hr.
Qed.
