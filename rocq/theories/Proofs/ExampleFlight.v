(** A concrete flight used to show that hypotheses can be met: the default
    balloon (balloon.py:150-215) at night in a linear atmosphere. *)
From Coq Require Import ZArith Reals Lra Lia Bool List.
From RecordUpdate Require Import RecordSet.
From Verif Require Import Model.Num Model.Safety Model.Acs Model.Balloon.
From Verif Require Import Spec.Flight Spec.SafetySpec Spec.Envelope Proofs.NumR.
From Verif Require Import Proofs.SafetyProofs Proofs.BalloonProofs Proofs.EnvelopeProofs.
Import ListNotations RecordSetNotations.
Open Scope R_scope.

(** Height [h0 - p] metres at pressure [p], 206 K everywhere; sun 10 degrees
    below the horizon; no heat exchange. *)
Definition demo_world (h0 : R) : world R := {|
  at_pressure := fun p => Some (h0 - p, 206);
  sun := fun _ _ _ => (-10, 0);
  d_temperature := fun _ _ _ _ _ _ _ _ => Some 0;
  solar_power_fn := fun _ _ => 0
|}.

(** 00:00 local; sunrise six hours ahead, sunset eighteen. *)
Definition hour : Z := 3600 * 1000000.
Definition demo_state : bstate R := default_state 0 (6 * hour, 18 * hour)%Z.

Definition demo_call (h0 : R) (a : command) : call R :=
  mkCall (demo_world h0) (3, -2) a 1000000 1000000.

Section Total.
Context {T : Type} {N : Num T}.
Lemma total_atmosphere_returns (w : world T) wind a d st s :
  (forall p, at_pressure w p <> None) ->
  (forall a b c d e f g h, d_temperature w a b c d e f g h <> None) ->
  bstatus s = OK -> int_seconds st <> 0%Z ->
  (int_seconds d mod int_seconds st = 0)%Z ->
  exists eff, snd (simulate_step w wind a d st s) = Executed eff.
Proof.
  intros Hw Ht Hs H0 Hm. unfold simulate_step. cbn [set bstatus]. rewrite Hs. cbn [status_is_ok negb].
  assert (Hsub : forall e n s, snd (substeps w wind e st n s) = false).
  { intros e n. induction n as [|n IH]; intro s1; cbn [substeps]; [reflexivity|].
    destruct (simulate_substep w wind e st s1) as [s2|] eqn:E.
    - destruct (status_is_ok (bstatus s2)); [apply IH|reflexivity].
    - exfalso. unfold simulate_substep, next_pressure in E.
      pose proof (Hw (pressure s1)) as W1.
      pose proof (Hw (nadd (pressure s1) (nmul (direction s1) (nofZ 1)))) as W2.
      destruct (at_pressure w (pressure s1)) as [[? ?]|]; [|congruence].
      destruct (at_pressure w _) as [[? ?]|]; [|congruence].
      destruct (sun _ _ _ _) as [el flux].
      destruct (d_temperature w _ _ _ _ _ _ _ _) eqn:Ed; [|exact (Ht _ _ _ _ _ _ _ _ Ed)].
      destruct (calculate_superpressure_and_volume _ _ _ _ _ _), (acs_step s1 e). discriminate. }
  destruct (safety_layers w a _) as [s1 [eff|]] eqn:E1.
  - exists eff. destruct (Z.eqb_spec (int_seconds st) 0); [contradiction|].
    destruct (Z.eqb_spec (int_seconds d mod int_seconds st) 0); [|contradiction].
    cbn [negb].
    pose proof (Hsub eff (Z.to_nat (int_seconds d / int_seconds st)) s1) as Q.
    destruct (substeps w wind eff st _ s1) as [s2 b]. cbn in Q. subst b. reflexivity.
  - exfalso. unfold safety_layers in E1.
    destruct (if power_safety_layer_enabled _ then _ else _) as [p' a1].
    destruct (env_get_action _ _ a1 _) as [e' a2].
    pose proof (Hw (pressure (s <| last_command := a |>))) as W1.
    destruct (at_pressure w _) as [[h t]|]; [|congruence].
    destruct (alt_get_action _ a2 h). discriminate.
Qed.
End Total.

Lemma demo_returns h0 a s : bstatus s = OK ->
  exists eff, snd (do_call s (demo_call h0 a)) = Executed eff.
Proof.
  intro H. apply total_atmosphere_returns; try assumption.
  - discriminate.
  - discriminate.
  - discriminate.
  - reflexivity.
Qed.

(** After one call of at least one and less than two seconds the default balloon
    is still OK, whatever is requested. *)
Lemma demo_short_call_ok h0 a d st :
  (1000000 <= d < 2000000)%Z -> (1000000 <= st < 2000000)%Z ->
  exists s' eff, do_call demo_state (mkCall (demo_world h0) (3, -2) a d st)
                 = (s', Executed eff) /\ bstatus s' = OK.
Proof.
  intros Hd Hst.
  assert (Id : int_seconds d = 1%Z)
    by (rewrite int_seconds_floor by lia; symmetry; apply Z.div_unique with (d - 1000000)%Z; lia).
  assert (Ist : int_seconds st = 1%Z)
    by (rewrite int_seconds_floor by lia; symmetry; apply Z.div_unique with (st - 1000000)%Z; lia).
  assert (He : exists eff, snd (do_call demo_state (mkCall (demo_world h0) (3, -2) a d st))
                           = Executed eff).
  { apply total_atmosphere_returns; try reflexivity; try discriminate.
    - cbn [c_stride]. rewrite Ist. discriminate.
    - cbn [c_stride c_delta]. rewrite Ist, Id. reflexivity. }
  destruct He as [eff He].
  destruct (do_call demo_state _) as [s' o] eqn:E. cbn in He. subst o.
  exists s', eff. split; [reflexivity|].
  unfold do_call in E.
  destruct (simulate_step_executed _ _ _ _ _ _ _ _ E) as (_ & s1 & HL & _ & _ & HS).
  cbn [c_delta c_stride c_world c_wind c_action] in *.
  rewrite Ist, Id in HS. change (Z.to_nat (1 / 1)) with 1%nat in HS.
  cbn [substeps] in HS.
  destruct (simulate_substep _ _ _ _ s1) as [s2|] eqn:E2; [|discriminate].
  assert (s2 = s') by (destruct (status_is_ok (bstatus s2)); congruence). subst s2.
  apply safety_layers_frame in HL. destruct HL as (p & e & al & Hs1).
  assert (F : mols_lift_gas s1 = 6830 /\ mols_air s1 = 0 /\
    internal_temperature s1 = 206 /\ pressure s1 = 6000 /\
    envelope_volume_base s1 = 1804 /\ envelope_volume_dv_pressure s1 = 199 / 10000 /\
    battery_charge s1 = 29056 / 10 /\ battery_capacity s1 = 305856 / 100 /\
    bstatus s1 = OK /\ envelope_max_superpressure s1 = 2380 /\
    nighttime_power_load s1 = 1837 / 10)
    by (rewrite Hs1; repeat split).
  clear Hs1. destruct F as (F1 & F2 & F3 & F4 & F5 & F6 & F7 & F8 & F9 & F10 & F11).
  apply substep_fields in E2. destruct E2 as (np & hh & amb & _ & _ & Ef).
  cbv zeta in Ef. decompose [and] Ef. clear Ef.
  match goal with H : bstatus s' = _ |- _ => rewrite H end.
  match goal with H : superpressure s' = _ |- _ => rename H into Hsp end.
  match goal with H : battery_charge s' = _ |- _ => rename H into Hch end.
  match goal with H : power_load s' = _ |- _ => rename H into Hpl end.
  match goal with H : solar_charging s' = _ |- _ => rename H into Hsc end.
  assert (Hb : 0 < superpressure s' < 500).
  { rewrite Hsp, F1, F2, F3, F4, F5, F6.
    pose proof (sv_bounds 6830 0 206 6000 1804 (199 / 10000)) as B.
    unfold gas_constant in B.
    specialize (B ltac:(lra) ltac:(lra) ltac:(lra) ltac:(lra)). cbv zeta in B.
    destruct B as [B1 B2]. split; [exact B1|]. eapply Rlt_trans; [exact B2|]. lra. }
  assert (Hc : 0 < battery_charge s').
  { rewrite Hch, Hpl, Hsc, F7, F8, F11. unfold MIN_SOLAR_EL_DEG.
    cbn [demo_world sun fst solar_power_fn].
    assert (Hap : 0 <= fst (acs_step (T:=R) s1 eff) <= 400).
    { destruct eff; cbn [acs_step fst].
      - rewrite AcsProofs.most_efficient_power_curve.
        pose proof (AcsProofs.power_curve_range (pressure_ratio s1)). lra.
      - cbn. lra.
      - cbn. lra. }
    set (ap := fst (acs_step s1 eff)) in *.
    unfold clip, timedelta_to_hours, total_seconds, us_per_second. numR.
    assert (Hh : 0 <= IZR st / 1000000 / (36000 / 10) <= 1 / 1000).
    { assert (IZR st < 2000000) by (apply IZR_lt; lia).
      assert (1000000 <= IZR st) by (apply IZR_le; lia). lra. }
    set (hh' := IZR st / 1000000 / (36000 / 10)) in *. clearbody hh'.
    assert (Hl : 0 <= (1837 / 10 + ap) * hh' <= 600 * (1 / 1000))
      by (split; [apply Rmult_le_pos; lra|apply Rmult_le_compat; lra]).
    rcases; lra. }
  unfold next_status. rewrite F9, F10.
  numR. rewrite Rltb_false by lra. rewrite Rleb_false by lra. rewrite Rleb_false by lra.
  reflexivity.
Qed.

Lemma demo_first_call_ok h0 a :
  bstatus (fst (do_call demo_state (demo_call h0 a))) = OK.
Proof.
  destruct (demo_short_call_ok h0 a 1000000 1000000 ltac:(lia) ltac:(lia))
    as (s' & eff & E & H).
  unfold demo_call. rewrite E. exact H.
Qed.

(** A two-call flight that returns. *)
Lemma demo_flight_returns h0 h1 a1 a2 :
  Forall returned (fly demo_state [demo_call h0 a1; demo_call h1 a2]).
Proof.
  cbn [fly]. constructor; [|constructor; [|constructor]].
  - apply demo_returns. reflexivity.
  - apply demo_returns. apply demo_first_call_ok.
Qed.
