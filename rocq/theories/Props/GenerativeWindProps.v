(** Property C87: the generative wind field and its deprecated predecessor. *)
From Coq Require Import ZArith Reals List Bool Lia Lra.
From Verif Require Import Model.Num Model.Prng Model.WindField Model.Vae Model.GenerativeWind.
From Verif Require Import Spec.WindSpec Proofs.NumR Props.WindProps Props.ResetProps.
Import ListNotations.
Open Scope R_scope.

Section Generative.
Context (P : prng) (noise4d : Z -> R -> R -> R -> R -> R) (params : decoder_params).
Notation old := (generative_wind_field P params).
Notation new := (generative_wind_field_factory P params).

Lemma boomerang_same t m : gen_boomerang t m = boomerang t m.
Proof. unfold gen_boomerang, boomerang. cbv zeta. rewrite (Rmult_comm m). reflexivity. Qed.
Lemma prepare_same x y ps e : gen_prepare x y ps e = prepare default_shape x y ps e.
Proof.
  unfold gen_prepare, prepare, time_position, gen_shape. cbv zeta. rewrite boomerang_same, map_map. reflexivity.
Qed.
Lemma interpn_length s fd qs ws : interpn s fd qs = Some ws -> length ws = length qs.
Proof. unfold interpn. destruct (forallb _ qs); [|discriminate]. intros [= <-]. apply map_length. Qed.
Lemma forecast_same fd x y p e : gen_get_forecast fd x y p e = grid_forecast default_shape fd x y p e.
Proof.
  unfold gen_get_forecast, grid_forecast. destruct fd as [fd|]; [|reflexivity]. rewrite prepare_same. unfold gen_shape.
  destruct (interpn default_shape fd _) as [[|w ws]|]; reflexivity.
Qed.
Lemma all_rows {A} (l : list A) : all_some (map (fun i => nth_error l i) (seq 0 (length l))) = Some l.
Proof.
  assert (G : forall (l pre : list A), all_some (map (fun i => nth_error (pre ++ l) i) (seq (length pre) (length l))) = Some l).
  { clear. induction l as [|a l IH]; intros pre; [reflexivity|]. cbn [length seq map all_some].
    rewrite nth_error_app2, Nat.sub_diag by lia. cbn [nth_error].
    specialize (IH (pre ++ [a])). rewrite <- app_assoc, app_length in IH. cbn [app length] in IH.
    rewrite Nat.add_1_r in IH. rewrite IH. reflexivity. }
  exact (G l []).
Qed.
Lemma column_same fd x y ps e : gen_get_forecast_column fd x y ps e = grid_forecast_column default_shape fd x y ps e.
Proof.
  unfold gen_get_forecast_column, grid_forecast_column. destruct fd as [fd|]; [|reflexivity]. rewrite prepare_same. unfold gen_shape.
  destruct (interpn default_shape fd _) as [ws|] eqn:E; [|reflexivity].
  apply interpn_length in E. unfold prepare in E. rewrite map_length in E. rewrite <- E. apply all_rows.
Qed.

(** However often the two fields are reset, with the same keys and dates (also never), they
    report the same forecast, the same column of forecasts and the same ground truth for
    every query, or refuse it both. *)
Theorem C87_same_winds (resets : list (key P * Z)) x y p ps e :
  let o := reset_history P old resets in let n := reset_history P new resets in
  forecast P old o x y p e = forecast P new n x y p e /\
  ground_truth P noise4d old o x y p e = ground_truth P noise4d new n x y p e /\
  gen_get_forecast_column (forecast_state P old o) x y ps e
  = grid_forecast_column default_shape (forecast_state P new n) x y ps e.
Proof.
  cbv zeta.
  assert (S : forecast_state P old (reset_history P old resets) = forecast_state P new (reset_history P new resets) /\
              noise P old (reset_history P old resets) = noise P new (reset_history P new resets)).
  { induction resets as [|[k d] resets [IH1 IH2]] using rev_ind; [split; reflexivity|].
    unfold reset_history in *. rewrite !fold_left_app. cbn. split; [reflexivity|].
    now rewrite IH2. }
  destruct S as [S1 S2].
  assert (E1 : forecast P old (reset_history P old resets) x y p e = forecast P new (reset_history P new resets) x y p e).
  { unfold forecast. rewrite S1. apply forecast_same. }
  split; [exact E1|]. split; [unfold ground_truth; rewrite E1, S2; reflexivity|].
  rewrite S1. apply column_same.
Qed.

(** After a reset everything they report is determined by the key alone: neither the date nor
    what happened before matters. *)
Theorem C87_key_decides before before' k d d' x y p e :
  let w := wind_reset P new (reset_history P new before) k d in
  let w' := wind_reset P new (reset_history P new before') k d' in
  forecast P new w x y p e = forecast P new w' x y p e /\
  ground_truth P noise4d new w x y p e = ground_truth P noise4d new w' x y p e.
Proof.
  cbv zeta.
  destruct (C36_after_reset P noise4d new before k d x y p e) as [N1 S1].
  destruct (C36_after_reset P noise4d new before' k d' x y p e) as [N2 S2].
  assert (E : forecast P new (wind_reset P new (reset_history P new before) k d) x y p e
            = forecast P new (wind_reset P new (reset_history P new before') k d') x y p e).
  { unfold forecast. rewrite S1, S2. reflexivity. }
  split; [exact E|]. unfold ground_truth. rewrite E, N1, N2. reflexivity.
Qed.

(** After a reset every query about the present or the future is answered. *)
Theorem C87_answers : answers old /\ answers new.
Proof.
  assert (N : answers new) by apply C65_forecasts.
  split; [|exact N]. intros st x y p e He. change (gen_get_forecast (Some st) x y p e <> None). rewrite forecast_same. exact (N st x y p e He).
Qed.
End Generative.
Print Assumptions C87_same_winds.
Print Assumptions C87_key_decides.
Print Assumptions C87_answers.
