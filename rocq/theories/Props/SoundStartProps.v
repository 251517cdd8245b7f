(** Property C63, continued: every episode starts with a sound envelope. *)
From Coq Require Import ZArith Reals Lra Lia Psatz Bool List.
From RecordUpdate Require Import RecordSet.
From Verif Require Import Model.Num Model.Prng Model.Safety Model.Balloon Model.Atmosphere
  Model.Geometry Model.Solar Model.SolarSearch Model.Thermal Model.StableInit Model.Sampling
  Model.WindField Model.Env
  Spec.PrngSpec Spec.AtmosphereSpec
  Proofs.NumR Proofs.AtmosphereProofs Proofs.SolarProofs Proofs.EnvelopeProofs Proofs.StartFloat
  Proofs.EnvProofs Props.AtmosphereProps Props.SamplingProps Props.EnvProps Props.DefaultRangeProps.
Import ListNotations RecordSetNotations.
Open Scope R_scope.
#[local] Opaque initialize_balloon Sampling.sample_time atmosphere_reset simulate_step world_of.

Lemma cold_start_fields s0 la ln atm s : cold_start_to_stable_params s0 la ln atm = Some s ->
  exists r, calculate_stable_params_for_pressure (pressure s0) (envelope_volume_base s0)
    (envelope_volume_dv_pressure s0) (envelope_mass s0) (payload_mass s0) (mols_lift_gas s0) la ln
    (date_time s0) (upwelling_infrared s0) atm = Some r /\
  pressure s = pressure s0 /\ upwelling_infrared s = upwelling_infrared s0 /\
  superpressure s = sp_superpressure r /\ internal_temperature s = sp_internal_temperature r /\
  ambient_temperature s = sp_ambient_temperature r /\ (default_balloon s0 -> default_balloon s).
Proof.
  unfold cold_start_to_stable_params. destruct (calculate_stable_params_for_pressure _ _ _ _ _ _ _ _ _ _ _) as [r|]; [|discriminate].
  intro E. injection E as <-. exists r. repeat (split; [reflexivity|]). exact (fun D => D).
Qed.

Lemma initialize_sound (P : prng) (HP : lawful P) draws rng alpha now center s :
  0 <= alpha <= 1 -> before_2100 now ->
  initialize_balloon P draws rng (atmosphere_reset alpha) now = Some (center, s) ->
  default_balloon s /\ 250 <= superpressure s <= 2379 /\
  exists v, Atmosphere.at_pressure (atmosphere_reset alpha) (pressure s) = Some v /\
    ambient_temperature s = v_temperature v /\
    v_temperature v + 0.29 <= internal_temperature s <= v_temperature v + 47.3.
Proof.
  intros Ha Hnow E.
  destruct (initialize_balloon_some P HP _ _ _ _ _ _ Ha E) as
    (_ & _ & _ & Hp & (v & Ev & Hv) & Hir & _ & _ & Hd & _).
  Transparent initialize_balloon. unfold initialize_balloon in E. Opaque initialize_balloon.
  destruct (sample_location P _) as [lat lng].
  destruct (sample_pressure P _ _) as [p|]; [|discriminate].
  destruct (sample_upwelling_infrared P draws LogitNormal _) as [ir| |]; try discriminate.
  set (px := cos _ * _) in E. set (py := sin _ * _) in E. clearbody px py.
  unfold new_state in E. destruct (latlng _ px py) as [la ln].
  destruct (SolarSearch.get_next_sunrise_sunset _ _ _ _ _) as [ss|]; [|discriminate].
  cbn -[cold_start_to_stable_params default_state] in E.
  set (s0 := _ : bstate R) in E.
  destruct (cold_start_to_stable_params s0 la ln (atmosphere_reset alpha)) as [s1|] eqn:Ec; [|discriminate].
  assert (s1 = s) as -> by congruence. clear E.
  destruct (cold_start_fields _ _ _ _ _ Ec) as (r & Er & G1 & G2 & G3 & G4 & G5 & G6). clear Ec.
  assert (F1 : pressure s0 = p) by reflexivity. assert (F2 : upwelling_infrared s0 = ir) by reflexivity.
  assert (F3 : date_time s0 = now) by reflexivity.
  assert (D : default_balloon s0).
  { unfold default_balloon, s0. cbn [envelope_volume_base envelope_volume_dv_pressure
      envelope_mass payload_mass mols_lift_gas envelope_max_superpressure set default_state]. numR. repeat split; lra. }
  specialize (G6 D). rewrite F1 in *. rewrite F2 in *. rewrite F3 in *.
  destruct D as (D1 & D2 & D3 & D4 & D5 & _). rewrite D1, D2, D3, D4, D5 in Er. clearbody s0. clear D1 D2 D3 D4 D5 F1 F2 F3.
  rewrite G1 in *. rewrite G2 in Hir.
  destruct (start_params alpha p v la ln now ir Ha Ev Hp Hv (century _ Hnow) Hir) as (r' & E' & R1 & R2).
  assert (r' = r) as -> by congruence.
  split; [exact G6|]. rewrite G3. split; [exact R1|]. exists v. split; [exact Ev|]. rewrite G4, G5. split; [|exact R2].
  unfold calculate_stable_params_for_pressure in E'. rewrite Ev in E'.
  destruct (solar_calculator la ln now) as [[el az] flux].
  destruct (newton _ _ _); [|discriminate]. destruct (calculate_superpressure_and_volume _ _ _ _ _ _).
  injection E' as <-. reflexivity.
Qed.

(** Whatever the seed: no start is close to a zero-pressure failure (superpressure 0)
    or beyond the pressure at which the envelope bursts, and the gas is warmer than
    the air around it. *)
Theorem C63_sound_envelope : forall (P : prng) noise4d (F : forecaster P) (FC : feature_class P F) draws
    (e e' : env P F FC) seed o i,
  lawful P ->
  env_reset P noise4d F FC draws e seed = (e', Returned (o, i)) ->
  exists center s,
    a_balloon P F FC (e_arena P F FC e') = Some (center, s) /\
    envelope_max_superpressure s = 2380 /\ 250 <= superpressure s <= 2379 /\
    ambient_temperature s + 0.29 <= internal_temperature s <= ambient_temperature s + 47.3.
Proof.
  intros P noise4d F FC draws e e' seed o i HP E. unfold env_reset in E.
  set (e1 := match seed with Some z => _ | None => _ end) in E. clearbody e1.
  set (k := split P (e_rng P F FC e1) 2 1) in E. cbn -[arena_reset get_info] in E.
  unfold arena_reset in E. cbn -[get_info observe_and_get_features] in E.
  set (alpha := uniform P (split P k 3 1) 0 1) in *.
  assert (Ha : 0 <= alpha <= 1) by (pose proof (uniform_range P HP (split P k 3 1) 0 1 ltac:(lra)); unfold alpha; lra).
  destruct (initialize_balloon _ _ _ _ _) as [[center s]|] eqn:Ei; [|discriminate].
  assert (Hnow : before_2100 (sample_time P (split P k 3 2) BEGIN_RANGE END_RANGE)).
  { pose proof (C52_default_time P HP (split P k 3 2)) as T. unfold before_2100, BEGIN_RANGE, END_RANGE in *. lia. }
  destruct (initialize_balloon_some P HP _ _ _ _ _ _ Ha Ei) as (_ & _ & _ & _ & _ & _ & Hok & _).
  destruct (initialize_sound P HP _ _ _ _ _ _ Ha Hnow Ei) as (D & S & v & _ & Et & T).
  rewrite Hok in E. cbn -[get_info observe_and_get_features] in E.
  destruct (fc_new _ _ _ _ _) as [f|]; [|discriminate].
  match type of E with context [observe_and_get_features P noise4d F FC ?b] => set (a1 := b) in E end.
  pose proof (observe_balloon P noise4d F FC a1) as Hob.
  destruct (observe_and_get_features P noise4d F FC a1) as [a2 [o2|]]; [|discriminate].
  cbn [fst] in Hob. change (a_balloon P F FC a1) with (Some (center, s)) in Hob.
  rewrite Hob in E. injection E as <- <- <-.
  exists center, s. split; [exact Hob|]. split; [apply D|]. split; [exact S|]. rewrite Et. exact T.
Qed.
Print Assumptions C63_sound_envelope.
