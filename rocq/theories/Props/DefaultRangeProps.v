(** Property C76: the accessible pressure range of the default balloon. *)
From Coq Require Import ZArith Reals Lra Lia List.
From Verif Require Import Model.Num Model.Safety Model.Balloon Model.Atmosphere Model.StableInit
  Model.PressureRange Model.Solar.
From Verif Require Import Spec.RangeSpec.
From Verif Require Import Proofs.NumR Proofs.AtmosphereProofs Proofs.RealSun Proofs.FloatPressure Proofs.FloatAtmosphere
  Props.AtmosphereProps Props.RangeProps.
Import ListNotations.
Open Scope R_scope.

(** ** Specification *)
(** The balloon's constants have their default values (balloon.py). *)
Definition default_balloon (b : bstate R) : Prop :=
  envelope_volume_base b = 1804 /\ envelope_volume_dv_pressure b = 0.0199 /\ envelope_mass b = 68.5 /\
  payload_mass b = 92.5 /\ mols_lift_gas b = 6830 /\ envelope_max_superpressure b = 2380.
(** From 1970 on, before 2100 (microseconds). *)
Definition before_2100 (now : Z) : Prop := (0 <= now < 4102444800000000)%Z.

Lemma century now : before_2100 now -> -1 <= julian_century now <= 1.
Proof.
  intro H. destruct (julian_century_value now) as (-> & _).
  { unfold in_years. change us_per_day with 86400000000%Z. unfold before_2100 in H. lia. }
  assert (0 <= now / 1000000 < 4102444800)%Z as [A1 A2].
  { unfold before_2100 in H. split; [apply Z.div_pos; lia|apply Z.div_lt_upper_bound; lia]. }
  apply IZR_le in A1. apply IZR_lt in A2. lra.
Qed.

(** At every place and date, with every infrared radiation the simulator draws, and
    in each of its atmospheres, the balloon floats safely at both ends: the range goes
    from the ceiling at which the full envelope floats to the lowest altitude. *)
Theorem C76_whole_range : forall alpha b lat lng, 0 <= alpha <= 1 ->
  default_balloon b -> before_2100 (date_time b) -> 225 <= upwelling_infrared b <= 315 ->
  let atm := atmosphere_reset alpha in
  exists floor ceiling top,
    at_height atm (50000 * 0.3048) = Some floor /\
    Atmosphere.at_pressure atm top = Some ceiling /\
    interpolates 20 (fun i => ratio_at atm (level (v_pressure floor) i)) (level (v_pressure floor))
      (floating_ratio b) top /\
    get_pressure_range b lat lng atm = Some (mkRange top (v_pressure floor)) /\
    safe (floating_superpressure b lat lng atm) 250 2130 top /\
    safe (floating_superpressure b lat lng atm) 250 2130 (v_pressure floor) /\
    5000 < top < 6800 /\ 11300 < v_pressure floor < 12750.
Proof.
  intros alpha b lat lng Ha (D1 & D2 & D3 & D4 & D5 & D6) Hd Hf atm.
  destruct (C50_range alpha b lat lng Ha) as (floor & top & Ef & _ & Top & H). cbv zeta in Top, H.
  fold atm in Ef, Top, H.
  assert (HF : 29.9 <= floating_ratio b <= 30).
  { unfold floating_ratio. rewrite D1, D3, D4, D5. lra. }
  destruct (top_band alpha floor _ top Ha HF Ef Top) as (ceiling & Ec & Tc & Qc).
  destruct (bottom_band alpha floor Ha Ef) as [Tf Qf].
  exists floor, ceiling, top. split; [exact Ef|]. split; [exact Ec|]. split; [exact Top|].
  set (bottom := v_pressure floor) in *.
  assert (Pf : bottom = bottom / v_temperature floor * v_temperature floor) by (field; lra).
  assert (Pt : top = top / v_temperature ceiling * v_temperature ceiling) by (field; lra).
  assert (Rb : 60 * 189 <= bottom <= 61 * 208.2) by (rewrite Pf; split; apply Rmult_le_compat; lra).
  assert (Rt : 28.4 * 176.7 <= top <= 32 * 212) by (rewrite Pt; split; apply Rmult_le_compat; lra).
  enough (X : get_pressure_range b lat lng atm = Some (mkRange top bottom) /\
    safe (floating_superpressure b lat lng atm) 250 2130 top /\
    safe (floating_superpressure b lat lng atm) 250 2130 bottom).
  { destruct X as (X1 & X2 & X3). split; [exact X1|]. split; [exact X2|]. split; [exact X3|]. lra. }
  replace 2130 with (envelope_max_superpressure b - 250) by (rewrite D6; lra).
  pose proof (century _ Hd) as Hj.
  destruct (C15_pressure_then_height alpha top Ha) as [_ Bt]. destruct (Bt ceiling Ec) as [Et _].
  pose proof (round_trip_height alpha Ha _ _ Ef) as Rf.
  set (sp := floating_superpressure b lat lng atm) in *.
  assert (S1 : safe sp 250 (envelope_max_superpressure b - 250) top).
  { destruct (floats_safely atm top ceiling lat lng (date_time b) (upwelling_infrared b) Ec Et Hj Hf (or_introl (conj Tc Qc)))
      as (r & E & Hr).
    exists (sp_superpressure r). split; [|rewrite D6; lra].
    unfold sp, floating_superpressure. rewrite D1, D2, D3, D4, D5, E. reflexivity. }
  assert (S2 : safe sp 250 (envelope_max_superpressure b - 250) bottom).
  { destruct (floats_safely atm bottom floor lat lng (date_time b) (upwelling_infrared b) Rf eq_refl Hj Hf
      (or_intror (conj Tf Qf))) as (r & E & Hr).
    exists (sp_superpressure r). split; [|rewrite D6; lra].
    unfold sp, floating_superpressure. rewrite D1, D2, D3, D4, D5, E. reflexivity. }
  assert (NU : forall p, safe sp 250 (envelope_max_superpressure b - 250) p ->
     ~ unsafe sp 250 (envelope_max_superpressure b - 250) p).
  { intros p (s1 & E1 & H1) (s2 & E2 & H2). rewrite E1 in E2. injection E2 as <-. contradiction. }
  assert (NN : forall p l, safe sp 250 (envelope_max_superpressure b - 250) p ->
     ~ no_range_end sp 250 (envelope_max_superpressure b - 250) p l).
  { intros p l S [N|[U _]]; [|exact (NU p S U)]. destruct S as (s1 & E1 & _). congruence. }
  split; [|split; assumption].
  destruct (get_pressure_range b lat lng atm) as [[lo hi]|].
  - cbn [min_pressure max_pressure] in H. destruct H as (_ & L & U).
    destruct L as [[_ ->]|[L _]]; [|elim (NU _ S1 L)]. destruct U as [[_ ->]|[U _]]; [|elim (NU _ S2 U)]. reflexivity.
  - exfalso. destruct H as [H|[H|H]]; [lra|elim (NN _ _ S1 H)|elim (NN _ _ S2 H)].
Qed.
Print Assumptions C76_whole_range.

(** The state the constructor of the balloon gives, at noon on 2013-01-01. *)
Example C76_witness : let b := default_state (T := R) 1357041600000000 (0, 0)%Z in
  default_balloon b /\ before_2100 (date_time b) /\ 225 <= upwelling_infrared b <= 315.
Proof.
  unfold default_balloon, before_2100, default_state. cbn [envelope_volume_base envelope_volume_dv_pressure
    envelope_mass payload_mass mols_lift_gas envelope_max_superpressure date_time upwelling_infrared].
  numR. repeat split; lra || lia.
Qed.
