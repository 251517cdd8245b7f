(** Property C94, continued: with the regressor the program uses, the assumption on
    regressors that C77, C80 and C84 make is met, so observations, episodes and runs of the
    default environment come about without it. *)
From Coq Require Import ZArith Reals String List Bool Lia Lra Sorting.Permutation.
From Verif Require Spec.Episodes.
From Verif Require Import Model.Num Model.Prng Model.Safety Model.Balloon Model.Geometry Model.Solar Model.WindField Model.WindGP Model.GaussianProcess Model.Atmosphere
  Model.Env Model.Features Model.Agents Model.Checkpoints Model.Collectors Model.Training Model.FeatureAgents Model.Eval.
From Verif Require Import Spec.PrngSpec Spec.FeatureSpec Spec.CompleteSpec Spec.CheckpointSpec Spec.TrainingSpec.
From Verif Require Import Props.EnvProps Props.ResetProps Props.PerciatelliResetProps Props.ObservationProps Props.ProgressProps
  Props.CompleteProps Props.RunProps Props.GaussianProps.
Import ListNotations.
Open Scope list_scope.
Open Scope R_scope.

Theorem C94_regresses : regresses matern_regressor.
Proof.
  split.
  - intros data N E. apply C94_fits in N. destruct N as (m & F). congruence.
  - intros data m r mean su sv F Q.
    assert (Hs : su = sv /\ 0 <= su) by (injection Q as _ <- <-; split; [reflexivity|apply sqrt_pos]).
    destruct Hs as (<- & S0).
    assert (K : predicts data r mean (su ^ 2)) by (exists m, su; auto).
    destruct (C94_bounds _ _ _ _ K) as (_ & U).
    assert (su <= 3.6); [|lra]. destruct (Rle_lt_dec su 3.6) as [L|L]; [exact L|]. exfalso.
    assert (3.6 * 3.6 < su * su) by (apply Rmult_le_0_lt_compat; lra). cbn [pow] in U. lra.
Qed.

Section Default.
Context (P : prng) (noise4d : Z -> R -> R -> R -> R -> R) (F : forecaster P)
  (fcol : wind_field P F -> R -> R -> list R -> Z -> option (list wind))
  (reward_fn : wind_field P F -> atmosphere -> R * R -> bstate R -> option R).
Local Notation FC := (perciatelli P F matern_regressor fcol).
Notation env := (env P F FC).
Notation gym := (balloon_gym P noise4d F FC reward_fn).
Hypothesis HP : lawful P.
Hypothesis HF : answers F.
Hypothesis Hcol : column_of fcol.

(** Every reset returns an observation. *)
Theorem C94_reset (e : env) (seed : option Z) : sampling_ends P ->
  exists n e' o i, forall draws, (n <= draws)%nat ->
    env_reset P noise4d F FC draws e seed = (e', Returned (o, i)).
Proof. intro HS. exact (C77_reset P F matern_regressor fcol C94_regresses Hcol HP noise4d HS HF e seed). Qed.

(** From reset on, a step returns exactly if its action is one of the three, the episode has
    not ended, and the balloon ends up at a latitude below 60 degrees. *)
Theorem C94_steps (draws : nat) (e0 e1 e e' : env) seed o1 i1 actions action r :
  (forall w atm center s, reward_fn w atm center s <> None) ->
  env_reset P noise4d F FC draws e0 seed = (e1, Returned (o1, i1)) ->
  (Z.of_nat (length actions) < 14000000)%Z ->
  e = Episodes.after P noise4d F FC reward_fn draws e1 (map Episodes.Step actions) ->
  env_step P noise4d F FC reward_fn e action = (e', r) ->
  exists center s s', a_balloon P F FC (e_arena P F FC e) = Some (center, s) /\
    a_balloon P F FC (e_arena P F FC e') = Some (center, s') /\
    Rabs (fst center) <= 10 * PI / 180 /\
    ((exists answer, r = Returned answer) <->
     (0 <= action <= 2)%Z /\ bstatus s = OK /\ Rabs (degrees (fst (latlng center (x s') (y s')))) < 60).
Proof.
  intros HR E Hl He Es.
  exact (C80_default_features P noise4d F matern_regressor fcol reward_fn draws e0 e1 e e' seed o1 i1 actions action r
    HP HF C94_regresses Hcol HR E Hl He Es).
Qed.

(** Evaluations of agents that answer for readable observations return, while the winds
    cannot carry the balloon out of reach. *)
Theorem C94_evaluation (W : R) (K : nat) (A : agent_class (list R)) idle busy a (e : env) render_period flight_path zs max :
  sampling_ends P -> (forall w atm center s, reward_fn w atm center s <> None) ->
  (forall w px py pp t wv, ground_truth P noise4d F w px py pp t = Some wv -> sqrt (u wv * u wv + v wv * v wv) <= W) ->
  200000 + 180 * W * INR K <= 4000000 -> (Z.of_nat K <= 14000000)%Z ->
  obliging A readable idle busy -> idle (ag_set_mode A a EVAL) -> render_period <> 0%Z -> (0 < max <= Z.of_nat K)%Z ->
  exists N rs e' a', idle a' /\ forall draws, (N <= draws)%nat ->
    eval_agent (gym draws) A render_period flight_path a e (mkSuite zs max) = Some (rs, e', a').
Proof.
  intros HS HR Hw Near Short HA Hi Hrp Hm.
  exact (C84_default_evaluation P noise4d F matern_regressor fcol reward_fn HP HS HF C94_regresses Hcol HR W K Hw Near Short
    A idle busy a e render_period flight_path zs max HA Hi Hrp Hm).
Qed.
End Default.
Print Assumptions C94_regresses.
Print Assumptions C94_reset.
Print Assumptions C94_steps.
Print Assumptions C94_evaluation.

(** The station seeker on the static wind field without noise, with the default features
    over this regressor and the default reward. *)
Example C94_evaluation_witness : forall e zs, exists N rs e' a', forall draws, (N <= draws)%nat ->
  eval_agent (balloon_gym witness_prng still (static_field witness_prng)
      (perciatelli witness_prng (static_field witness_prng) matern_regressor (default_forecast_column _ _)) default_reward_fn draws)
    station_seeker_agent 10 true tt e (mkSuite zs 960) = Some (rs, e', a').
Proof.
  intros e zs. destruct C65_witness as (L & S0 & _).
  assert (Near : 200000 + 180 * 10 * INR 960 <= 4000000) by (replace (INR 960) with 960 by (rewrite INR_IZR_INZ; reflexivity); lra).
  destruct (C94_evaluation witness_prng still (static_field witness_prng) (default_forecast_column _ _)
    default_reward_fn L (proj1 (C65_forecasts _)) (witness_column _ _) 10 960 station_seeker_agent _ _ tt e 10%Z true zs 960%Z
    S0 (default_reward_answers _ _) (fun w => ten_metres _ w) Near ltac:(lia) C84_station_seeker I ltac:(lia) ltac:(lia))
    as (N & rs & e' & a' & _ & E).
  exists N, rs, e', a'. exact E.
Qed.
