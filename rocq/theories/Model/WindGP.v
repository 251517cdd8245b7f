(** Model of env/wind_gp.py (paths relative to
    /repo/balloon_learning_environment/) over the reals.  [None]: an exception.
    The Gaussian-process regressor of sklearn is a parameter: [fit] of the training
    rows, absent when it raises, then a prediction per query row.  The one the code
    uses is in Model/GaussianProcess.v. *)
From Coq Require Import ZArith Reals List Bool.
From Verif Require Import Model.Num Model.WindField.
Import ListNotations.
Open Scope R_scope.

(** A row (x, y, p, t): metres, metres, pascals, seconds. *)
Record loc := mkLoc { lx : R; ly : R; lp : R; lt : R }.

(** Library behaviour: the regressor.  predict returns mean and standard
    deviation of both components for each row separately. *)
Record regressor := mkGp {
  model : Type;
  fit : list (loc * (R * R)) -> option model;
  predict : model -> loc -> (R * R) * (R * R)
}.

Section GP.
Context (G : regressor).
(** The forecast object: get_forecast and get_forecast_column. *)
Context (get_forecast : R -> R -> R -> Z -> option wind).
Context (get_forecast_column : R -> R -> list R -> Z -> option (list wind)).

(** self.time_horizon: wind_gp.py:63; _SIGMA_EXP_SQUARED: 37. *)
Definition time_horizon : R := 6 * 3600.
(** _SIGMA_EXP_SQUARED: wind_gp.py:37. *)
Definition SIGMA_EXP_SQUARED : R := 3.6 ^ 2.

(** The attributes measurement_locations and error_values. *)
Record gp := mkState { measurement_locations : list loc; error_values : list (R * R) }.

(** reset: 82-96 (the forecast is the section parameter). *)
Definition gp_reset : gp := mkState [] [].

(** timedelta.total_seconds(); and timedelta(seconds=s), which rounds to the
    microsecond (ties upwards here, to even in Python). *)
Definition seconds_of (elapsed : Z) : R := IZR elapsed / 1000000.
(** dt.timedelta(seconds=s): wind_gp.py:237. *)
Definition timedelta_of_seconds (s : R) : Z := Int_part (s * 1000000 + 1 / 2).

(** observe: 98-119. *)
Definition observe (st : gp) (x y pressure : R) (elapsed : Z) (measurement : wind) : option gp :=
  match get_forecast x y pressure elapsed with
  | None => None
  | Some forecast =>
      let error := (u measurement - u forecast, v measurement - v forecast) in
      Some (mkState (measurement_locations st ++ [mkLoc x y pressure (seconds_of elapsed)])
                    (error_values st ++ [error]))
  end.

(** The mean of the two columns of deviations**2 / sigma^2: 196-207. *)
Definition deviation (d : R * R) : R :=
  (fst d ^ 2 / SIGMA_EXP_SQUARED + snd d ^ 2 / SIGMA_EXP_SQUARED) / 2.

(** The predicted errors and deviations: 161-207. *)
Definition raw_prediction (st : gp) (rows : list loc) (r0 : loc) : option (list ((R * R) * R)) :=
  match measurement_locations st with
  | [] => Some (map (fun _ => ((0, 0), 0)) rows)
  | _ =>
      let data := combine (measurement_locations st) (error_values st) in
      let data :=
        if forallb (fun r => Reqb (lt r) (lt r0)) rows
        then filter (fun m => Rltb (Rabs (lt (fst m) - lt r0)) time_horizon) data
        else data in
      match fit G data with
      | None => None
      | Some fitted =>
          Some (map (fun r => let '(mean, dev) := predict G fitted r in (mean, deviation dev)) rows)
      end
  end.

(** _add_forecast_to_prediction: 217-241. *)
Fixpoint add_forecasts (out : list ((R * R) * R)) (fs : list wind) : list ((R * R) * R) :=
  match out, fs with
  | ((a, b), d) :: out', f :: fs' => ((a + u f, b + v f), d) :: add_forecasts out' fs'
  | _, _ => out
  end.
(** wind_gp.py:231. *)
Definition same_column (r0 r : loc) : bool :=
  Reqb (lx r) (lx r0) && Reqb (ly r) (ly r0) && Reqb (lt r) (lt r0).

(** query_batch: 143-215; indexing row 0 of an empty batch raises. *)
Definition query_batch (st : gp) (rows : list loc) : option (list ((R * R) * R)) :=
  match rows with
  | [] => None
  | r0 :: _ =>
      match raw_prediction st rows r0 with
      | None => None
      | Some out =>
          if forallb (same_column r0) rows then
            match get_forecast_column (lx r0) (ly r0) (map lp rows)
                    (timedelta_of_seconds (lt r0)) with
            | None => None
            | Some fs => Some (add_forecasts out fs)
            end
          else None
      end
  end.
(** query: 121-141. *)
Definition query (st : gp) (x y pressure : R) (elapsed : Z) : option ((R * R) * R) :=
  match query_batch st [mkLoc x y pressure (seconds_of elapsed)] with
  | Some (r :: _) => Some r
  | _ => None
  end.
End GP.
