(** Property C84, continued: whole training runs come to their end, with every iteration
    saved, and the packaged collectors never stop them. *)
From Coq Require Import ZArith Reals String List Bool Lia Lra Sorting.Permutation.
From Verif Require Import Model.Num Model.Prng Model.Safety Model.Balloon Model.WindField Model.WindGP Model.Atmosphere
  Model.Env Model.Features Model.Agents Model.Checkpoints Model.Collectors Model.Training Model.FeatureAgents.
From Verif Require Import Spec.PrngSpec Spec.FeatureSpec Spec.CompleteSpec Spec.CheckpointSpec Spec.TrainingSpec.
From Verif Require Import Proofs.CompleteProofs Proofs.RunProofs.
From Verif Require Import Props.EnvProps Props.ResetProps Props.PerciatelliResetProps Props.ObservationProps Props.ProgressProps Props.CompleteProps.
Import ListNotations.
Open Scope list_scope.
Open Scope R_scope.

(** With feature constructors and reward functions that do not raise, an agent that always
    answers, collectors that do not raise and checkpoints that work, a training run returns,
    and every iteration up to its number has then been saved, once and in order - whatever
    earlier runs, finished or cut off, have left in the directory. *)
Theorem C84_run : forall (P : prng) noise4d (F : forecaster P) (FC : feature_class P F) reward_fn,
  lawful P -> sampling_ends P -> answers F -> never_raises FC ->
  (forall w atm center s, reward_fn w atm center s <> None) ->
  forall (A : trainable (observation P F FC)) made idle busy base_dir constructors off on (listdir : directory (t_bundle_type A) -> list string),
  obliging (t_agent A) (fun _ => True) idle busy -> starts_training A made idle ->
  collecting base_dir constructors off on -> checkpoints_work A -> (forall d, Permutation (listdir d) (names d)) ->
  forall draws0 d0 l d e a num_iterations max render_period episodes,
  (forall f, In f d0 -> foreign (fst f)) ->
  history (balloon_gym P noise4d F FC reward_fn draws0) A listdir d0 l d ->
  made a -> render_period <> 0%Z -> (max <= 14000000)%Z ->
  exists N (tr : list (happening (t_bundle_type A) * directory (t_bundle_type A)))
    (result : env P F FC * ag_state (t_agent A) * list collector * directory (t_bundle_type A)),
    map fst (saved (l ++ map fst tr)) = first_iterations (Nat.max (List.length (saved l)) (Z.to_nat num_iterations)) /\
    forall draws, (N <= draws)%nat ->
      run_training_loop (balloon_gym P noise4d F FC reward_fn draws) A listdir base_dir 3 num_iterations max render_period
        episodes constructors e a d = (tr, Some result).
Proof.
  intros P noise4d F FC reward_fn HP HS HF HC HR A made idle busy bd ctors off on listdir HA HT HL HB Hl draws0 d0 l d e a n max rp epi Hd Hh Hm Hrp Hmax.
  apply (run_after_history P noise4d F FC reward_fn A made idle off on bd ctors HT HL HB listdir Hl max rp) with (draws0 := draws0) (d0 := d0); auto.
  intros n' e' a' cs' Hi Ho.
  exact (C84_training P noise4d F FC reward_fn HP HS HF HC HR A idle busy off on a' e' cs' rp n' max HA (collecting_recording _ _ _ _ HL) Hi Ho Hrp Hmax).
Qed.
Print Assumptions C84_run.

(** The same with the default feature constructor, while the winds cannot carry the balloon
    out of reach, for agents that answer for readable observations. *)
Theorem C84_default_run : forall (P : prng) noise4d (F : forecaster P) G fcol reward_fn,
  lawful P -> sampling_ends P -> answers F -> regresses G -> column_of fcol ->
  (forall w atm center s, reward_fn w atm center s <> None) ->
  forall W K,
  (forall w px py pp t wv, ground_truth P noise4d F w px py pp t = Some wv -> sqrt (u wv * u wv + v wv * v wv) <= W) ->
  200000 + 180 * W * INR K <= 4000000 -> (Z.of_nat K <= 14000000)%Z ->
  forall (A : trainable (list R)) made idle busy base_dir constructors off on (listdir : directory (t_bundle_type A) -> list string),
  obliging (t_agent A) readable idle busy -> starts_training A made idle ->
  collecting base_dir constructors off on -> checkpoints_work A -> (forall d, Permutation (listdir d) (names d)) ->
  forall draws0 d0 l d e a num_iterations max render_period episodes,
  (forall f, In f d0 -> foreign (fst f)) ->
  history (balloon_gym P noise4d F (perciatelli P F G fcol) reward_fn draws0) A listdir d0 l d ->
  made a -> render_period <> 0%Z -> (max <= Z.of_nat K)%Z ->
  exists N (tr : list (happening (t_bundle_type A) * directory (t_bundle_type A)))
    (result : env P F (perciatelli P F G fcol) * ag_state (t_agent A) * list collector * directory (t_bundle_type A)),
    map fst (saved (l ++ map fst tr)) = first_iterations (Nat.max (List.length (saved l)) (Z.to_nat num_iterations)) /\
    forall draws, (N <= draws)%nat ->
      run_training_loop (balloon_gym P noise4d F (perciatelli P F G fcol) reward_fn draws) A listdir base_dir 3 num_iterations max
        render_period episodes constructors e a d = (tr, Some result).
Proof.
  intros P noise4d F G fcol reward_fn HP HS HF HG Hcol HR W K Hw Near Short A made idle busy bd ctors off on listdir HA HT HL HB Hl
    draws0 d0 l d e a n max rp epi Hd Hh Hm Hrp Hmax.
  apply (run_after_history P noise4d F (perciatelli P F G fcol) reward_fn A made idle off on bd ctors HT HL HB listdir Hl max rp)
    with (draws0 := draws0) (d0 := d0); auto.
  intros n' e' a' cs' Hi Ho.
  exact (C84_default_training P noise4d F G fcol reward_fn HP HS HF HG Hcol HR W K Hw Near Short A idle busy off on a' e' cs' rp n' max
           HA (collecting_recording _ _ _ _ HL) Hi Ho Hrp Hmax).
Qed.
Print Assumptions C84_default_run.

(** The packaged collectors, in any selection and with any files left by earlier runs,
    never raise, if fine-grained logging is not asked for every 0 steps. *)
Theorem C84_collectors : forall base_dir collectors console_fine console_frequency save_to_file old_log old_files board_fine board_frequency,
  (console_fine = true -> console_frequency <> 0%Z) -> (board_fine = true -> board_frequency <> 0%Z) ->
  exists off on, collecting base_dir
    (get_collector_data (make_console console_fine console_frequency save_to_file old_log) (make_pickle old_files)
       (make_board board_fine board_frequency) collectors) off on.
Proof.
  intros bd collectors f1 n1 save old files f2 n2 H1 H2. exists (Forall off_collector), (Forall on_collector). split.
  - intro episode. destruct (packaged_made bd f1 n1 save old files f2 n2 episode collectors H1 H2) as (cs & E & Fr).
    destruct (dispatch_all fresh_collector off_collector _ packaged_pre cs Fr) as (cs' & E' & Off). eauto.
  - split.
    + intros cs H. exact (dispatch_all _ _ _ packaged_begin cs H).
    + intros cs s H Hs. exact (dispatch_all _ _ _ (fun c => packaged_step s c Hs) cs H).
    + intros cs s H Hs. exact (dispatch_all _ _ _ (fun c => packaged_end_episode s c Hs) cs H).
  - intros cs H. destruct (dispatch_all _ (fun _ => True) _ packaged_end cs H) as (cs' & E & _). eauto.
Qed.
Print Assumptions C84_collectors.

(** The condition on the frequencies is needed: otherwise the first step ends the run. *)
Theorem C84_every_zero_steps_refuted :
  (forall k s, k_fine k = true -> k_frequency k = 0%Z -> console_handle k (Collectors.Step s) = None) /\
  (forall b s, b_fine b = true -> b_frequency b = 0%Z -> board_handle b (Collectors.Step s) = None).
Proof.
  split.
  - intros k s H1 H2. cbn. destruct (k_counts k); [|reflexivity]. destruct (_ || _); [reflexivity|].
    destruct (add_at _ _); [|reflexivity]. now rewrite H1, H2.
  - intros b s H1 H2. cbn. rewrite H1, H2. destruct (b_global_step b), (b_reward b); reflexivity.
Qed.
Print Assumptions C84_every_zero_steps_refuted.

(** The station seeker, given something to save, on the static wind field without noise with
    the default features and reward, with all three collectors: two episodes of 960 steps
    an iteration, three iterations, in a directory that holds something else. *)
Definition seeker_with_checkpoints : trainable (list R) :=
  mkTrainable (list R) station_seeker_agent unit (fun _ _ => Some (Some tt)) (fun a _ _ => Unbundled a true) (Some 2%Z) (fun a _ => a).
Example C84_run_witness : forall e, exists N (tr : list (happening unit * directory unit))
    (result : env witness_prng (static_field witness_prng) witness_fc * unit * list collector * directory unit),
  map fst (saved (map fst tr)) = [0; 1; 2]%Z /\
  forall draws, (N <= draws)%nat ->
    run_training_loop (balloon_gym witness_prng still (static_field witness_prng) witness_fc default_reward_fn draws)
      seeker_with_checkpoints names "dir" 3 3 960 10 2
      (get_collector_data (make_console true 100 true []) (make_pickle []) (make_board false 0) ["console"; "pickle"; "tensorboard"]%string)
      e tt [("notes.txt"%string, None)] = (tr, Some result).
Proof.
  intro e. destruct C65_witness as (L & S0 & _).
  assert (Near : 200000 + 180 * 10 * INR 960 <= 4000000) by (replace (INR 960) with 960 by (rewrite INR_IZR_INZ; reflexivity); lra).
  destruct (C84_collectors "dir" ["console"; "pickle"; "tensorboard"]%string true 100 true [] [] false 0 ltac:(lia) ltac:(discriminate))
    as (off & on & HL).
  destruct (C84_default_run witness_prng still (static_field witness_prng) witness_regressor (default_forecast_column _ _)
    default_reward_fn L S0 (proj1 (C65_forecasts _)) witness_regresses (witness_column _ _) (default_reward_answers _ _)
    10 960 (fun w => ten_metres _ w) Near ltac:(lia) seeker_with_checkpoints (fun _ => True) (fun _ => True) (fun _ => True) "dir"
    (get_collector_data (make_console true 100 true []) (make_pickle []) (make_board false 0) ["console"; "pickle"; "tensorboard"]%string)
    off on names C84_station_seeker) with (draws0 := 0%nat) (d0 := [("notes.txt"%string, @None unit)]) (l := @nil (happening unit))
      (d := [("notes.txt"%string, @None unit)]) (e := e) (a := tt)
      (num_iterations := 3%Z) (max := 960%Z) (render_period := 10%Z) (episodes := 2%Z)
    as (N & tr & result & Hs & E).
  - split; auto.
  - exact HL.
  - split; [cbn; eauto|]. split; [cbn; eauto|]. cbn. intros z [= <-]. lia.
  - intro d. apply Permutation_refl.
  - intros f [<-|[]]. cbn. intros [s Q]. discriminate Q.
  - constructor.
  - exact I.
  - lia.
  - lia.
  - exists N, tr, result. split; [exact Hs|exact E].
Qed.
