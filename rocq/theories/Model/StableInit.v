(** Model of env/balloon/stable_init.py over the reals (paths relative to
    /repo/balloon_learning_environment/).  [None]: one of the library calls
    raised; nothing has been assigned then. *)
From Coq Require Import Reals Bool ZArith.
From RecordUpdate Require Import RecordSet.
From Verif Require Import Model.Num Model.Safety Model.Acs Model.Balloon Model.Atmosphere
  Model.Solar Model.Thermal.
Import RecordSetNotations.
Open Scope R_scope.

(** StableParams: stable_init.py:31-37. *)
Record stable_params := mkStable {
  sp_ambient_temperature : R;
  sp_internal_temperature : R;
  sp_mols_air : R;
  sp_envelope_volume : R;
  sp_superpressure : R
}.

(** mols_air: stable_init.py:85-91. *)
Definition initial_mols_air (p v_base m_env m_payload mols_lift ambient : R) : R :=
  let mols :=
    (p * DRY_AIR_MOLAR_MASS * v_base / (UNIVERSAL_GAS_CONSTANT * ambient)
     - m_env - m_payload - HE_MOLAR_MASS * mols_lift) / DRY_AIR_MOLAR_MASS in
  Rmax mols 0.

(** One pass of the loop body: stable_init.py:104-117; the new temperature and
    the mean rate that decides whether the search stops. *)
Definition delta_temp : R := 0.01.
(** One iteration: stable_init.py:104-117. *)
Definition newton_step (rate : R -> option R) (t : R) : option (R * R) :=
  match rate (t - delta_temp / 2), rate (t + delta_temp / 2) with
  | Some d1, Some d2 =>
      let d2t := (d2 - d1) / delta_temp in
      let mean := (d1 + d2) / 2 in
      Some (if Rltb 0 (Rabs d2t) then t - mean / d2t else t, mean)
  | _, _ => None
  end.

(** The loop: stable_init.py:100-120. *)
Fixpoint newton (n : nat) (rate : R -> option R) (t : R) : option R :=
  match n with
  | O => Some t
  | S k =>
      match newton_step rate t with
      | None => None
      | Some (t', mean) => if Rltb (Rabs mean) 1e-5 then Some t' else newton k rate t'
      end
  end.

(** calculate_stable_params_for_pressure: stable_init.py:40-129. *)
Definition calculate_stable_params_for_pressure (p v_base dv m_env m_payload mols_lift : R)
    (lat lng : R) (now : Z) (infrared : R) (atm : atmosphere) : option stable_params :=
  match Atmosphere.at_pressure atm p with
  | None => None
  | Some v =>
      let ambient := v_temperature v in
      let mols_air := initial_mols_air p v_base m_env m_payload mols_lift ambient in
      let '(el, _, flux) := solar_calculator lat lng now in
      let rate t := d_balloon_temperature_dt v_base m_env t ambient p el flux infrared in
      match newton 10 rate 206 with
      | None => None
      | Some internal =>
          let '(vol, sp) :=
            calculate_superpressure_and_volume mols_lift mols_air internal p v_base dv in
          Some (mkStable ambient internal mols_air vol sp)
      end
  end.

(** cold_start_to_stable_params: stable_init.py:132-157; [lat], [lng] is
    balloon_state.latlng. *)
Definition cold_start_to_stable_params (s : bstate R) (lat lng : R) (atm : atmosphere)
  : option (bstate R) :=
  match calculate_stable_params_for_pressure (pressure s) (envelope_volume_base s)
          (envelope_volume_dv_pressure s) (envelope_mass s) (payload_mass s)
          (mols_lift_gas s) lat lng (date_time s) (upwelling_infrared s) atm with
  | None => None
  | Some r =>
      Some (s <| ambient_temperature := sp_ambient_temperature r |>
              <| internal_temperature := sp_internal_temperature r |>
              <| mols_air := sp_mols_air r |>
              <| envelope_volume := sp_envelope_volume r |>
              <| superpressure := sp_superpressure r |>)
  end.
