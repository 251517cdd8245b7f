(** Properties C70 (a step of the environment) and C71 (random keys of a reset). *)
From Coq Require Import ZArith Reals List Bool Lia Lra.
From RecordUpdate Require Import RecordSet.
From Verif Require Import Model.Num Model.Prng Model.Safety Model.Balloon Model.Atmosphere Model.Sampling
  Model.StableInit Model.Solar Model.SolarSearch Model.Geometry Model.WindField Model.Env.
From Verif Require Import Spec.PrngSpec Spec.Episodes Spec.StartSpec Spec.Flight.
From Verif Require Import Proofs.BalloonProofs Proofs.EnvProofs Props.WindProps.
Import ListNotations RecordSetNotations.
Open Scope R_scope.

#[local] Opaque initialize_balloon Sampling.sample_time atmosphere_reset simulate_step world_of U_HARMONICS V_HARMONICS.

Section Start.
Context (P : prng) (noise4d : Z -> R -> R -> R -> R -> R) (F : forecaster P).
Context (FC : feature_class P F).
Context (reward_fn : wind_field P F -> atmosphere -> R * R -> bstate R -> option R).
Context (draws : nat).
Notation env := (env P F FC).
Notation arena := (arena P F FC).
Notation env_step := (env_step P noise4d F FC reward_fn).
Notation env_reset := (env_reset P noise4d F FC draws).
Notation arena_reset := (arena_reset P noise4d F FC draws).
Notation after := (after P noise4d F FC reward_fn draws).
Notation call := (call P noise4d F FC reward_fn draws).
Notation a_wind := (a_wind P F FC).
Notation a_atmosphere := (a_atmosphere P F FC).
Notation a_balloon := (a_balloon P F FC).
Notation a_features := (a_features P F FC).
Notation e_arena := (e_arena P F FC).
Notation e_rng := (e_rng P F FC).
Notation started := (started P F FC).

(** ** C70 *)
Theorem C70_step : forall (e e' : env) action o reward done i,
  env_step e action = (e', Returned (o, reward, done, i)) ->
  a_wind (e_arena e') = a_wind (e_arena e) /\ a_atmosphere (e_arena e') = a_atmosphere (e_arena e) /\
  exists center s s' wind wind' f f' f'',
    a_balloon (e_arena e) = Some (center, s) /\ a_balloon (e_arena e') = Some (center, s') /\
    (let w := a_wind (e_arena e) in let atm := a_atmosphere (e_arena e) in
     ground_truth P noise4d F w (x s) (y s) (pressure s) (time_elapsed s) = Some wind /\
     ground_truth P noise4d F w (x s') (y s') (pressure s') (time_elapsed s') = Some wind' /\
     (let seconds := IZR (time_elapsed s' - time_elapsed s) / 1000000 in
      x s' = x s + u wind * seconds /\ y s' = y s + v wind * seconds) /\
     a_features (e_arena e) = Some f /\
     fc_observe P F FC w atm f center s' wind' = (f', Some tt) /\
     fc_get_features P F FC w atm f' = (f'', Some o) /\
     a_features (e_arena e') = Some f'' /\
     reward_fn w atm center s' = Some reward).
Proof.
  intros e e' action o reward done i E.
  destruct (env_step_returns _ _ _ _ _ _ _ _ _ _ _ _ E)
    as (c & ce & s & s' & wv & eff & Hc & Hb & Hb' & Hs & Hg & Hi & Hd & Hr).
  pose proof (env_step_wind P noise4d F FC reward_fn e action) as Hw. rewrite E in Hw. cbn [fst] in Hw.
  split; [exact Hw|].
  pose proof (call_position s (mkCall (world_of (a_atmosphere (e_arena e)) ce)
     (u wv, v wv) c AGENT_TIME_STEP STRIDE)) as D. unfold do_call in D.
  cbn [c_world c_wind c_action c_delta c_stride] in D. rewrite Hs in D. cbn [fst snd] in D.
  unfold Env.env_step in E. rewrite Hc in E. unfold arena_step in E. rewrite Hb in E.
  unfold wind_at_balloon at 1 in E. rewrite Hg, Hs in E.
  unfold observe_and_get_features, wind_at_balloon in E.
  cbn -[ground_truth fc_observe fc_get_features get_info] in E.
  destruct (a_features (e_arena e)) as [f|]; [|discriminate].
  destruct (ground_truth P noise4d F (a_wind (e_arena e)) (x s') (y s') (pressure s') (time_elapsed s'))
    as [wv'|] eqn:Hg'; [|discriminate].
  destruct (fc_observe P F FC _ _ f ce s' wv') as [f1 [[]|]] eqn:Ef1; [|discriminate].
  destruct (fc_get_features P F FC _ _ f1) as [f2 [o'|]] eqn:Ef2; [|discriminate].
  cbn -[get_info] in E. rewrite Hr in E. injection E as <- <- _ _. cbn.
  split; [reflexivity|]. exists ce, s, s', wv, wv', f, f1, f2. repeat split; assumption || apply D.
Qed.

(** ** C71 *)
Notation path_key := (fold_right (fun '(n, i) k => split P k n i)).
Definition valid (l : list (nat * nat)) : Prop := Forall (fun '(n, i) => (i < n)%nat) l.

Lemma path_injective seed l l' : splits_injectively P -> fresh_seeds P -> valid l -> valid l' ->
  path_key (prng_key P seed) l = path_key (prng_key P seed) l' -> l = l'.
Proof.
  intros I Fr V. revert l'. induction V as [|[n i] l Hi V IH]; intros l' V' E.
  - destruct V' as [|[n' i'] l' Hi' V']; [reflexivity|]. elim (Fr _ _ _ _ Hi' E).
  - destruct V' as [|[n' i'] l' Hi' V']; [elim (Fr _ _ _ _ Hi (eq_sym E))|].
    cbn [fold_right] in E. apply I in E; [|assumption..]. destruct E as (E & -> & ->).
    f_equal. now apply IH.
Qed.
Lemma below_path k k' : below P k k' -> exists l, valid l /\ k' = path_key k l.
Proof.
  induction 1 as [|k' n i _ (l & V & ->) Hi]; [exists []; split; [constructor|reflexivity]|].
  exists ((n, i) :: l). split; [constructor; assumption|reflexivity].
Qed.

(** The derivations of the nine keys, last split first. *)
Definition route (p : purpose) : list (nat * nat) :=
  match p with
  | LapseRates => [(3, 1)] | Date => [(3, 2)]
  | Distance => [(6, 1); (3, 0)] | Direction => [(6, 2); (3, 0)]
  | Latitude => [(2, 0); (6, 3); (3, 0)] | Longitude => [(2, 1); (6, 3); (3, 0)]
  | StartPressure => [(6, 4); (3, 0)] | Infrared => [(6, 5); (3, 0)]
  | Winds => [(2, 1); (6, 0); (3, 0)]
  end%nat.
Definition start_path (n : nat) (p : purpose) : list (nat * nat) :=
  route p ++ (2, 1)%nat :: repeat (2, 0)%nat n.

Lemma start_path_valid n p : valid (start_path n p).
Proof.
  unfold valid, start_path. apply Forall_app. split; [destruct p; repeat constructor|].
  constructor; [lia|]. apply Forall_forall. intros q Hq. apply repeat_spec in Hq. subst. lia.
Qed.
Lemma repeat_rev {A} (a : A) n : rev (repeat a n) = repeat a n.
Proof.
  induction n as [|n IH]; [reflexivity|]. cbn [repeat rev]. rewrite IH.
  change (a :: repeat a n) with (repeat a (S n)). rewrite <- (Nat.add_1_r n), repeat_app. reflexivity.
Qed.
Lemma start_path_prefix n p n' p' l l' :
  l ++ start_path n p = l' ++ start_path n' p' -> n = n' /\ p = p'.
Proof.
  intro E. apply (f_equal (@rev _)) in E. unfold start_path in E. rewrite !app_assoc in E.
  rewrite !rev_app_distr in E. cbn [rev] in E. rewrite !repeat_rev in E.
  rewrite <- !app_assoc in E. revert n' E.
  induction n as [|n IH]; intros [|n'] E; cbn [repeat app] in E; [|discriminate..|].
  - split; [reflexivity|]. injection E as E. 
    destruct p, p'; cbn in E; try reflexivity; discriminate E.
  - injection E as E. destruct (IH n' E). auto.
Qed.

Lemma reset_started a k : forall a' o, arena_reset a k = (a', Returned o) ->
  started (fun p => path_key k (route p)) a'.
Proof.
  intros a' o E. unfold Env.arena_reset in E.
  cbn -[get_info observe_and_get_features] in E.
  destruct (initialize_balloon P draws _ _ _) as [[center s]|] eqn:Ei; [|discriminate].
  cbn -[observe_and_get_features] in E.
  destruct (negb _); [discriminate|].
  destruct (fc_new _ _ _ _ _) as [f|]; [|discriminate].
  match type of E with observe_and_get_features P noise4d F FC ?b = _ => set (a1 := b) in E end.
  pose proof (observe_balloon P noise4d F FC a1) as Hob. pose proof (observe_wind P noise4d F FC a1) as How.
  assert (Hat : a_atmosphere (fst (observe_and_get_features P noise4d F FC a1)) = a_atmosphere a1).
  { unfold observe_and_get_features. destruct (a_balloon a1) as [[c1 s1]|]; [|reflexivity].
    destruct (a_features a1) as [f0|]; [|reflexivity].
    destruct (wind_at_balloon P noise4d F FC a1 s1) as [w0|]; [|reflexivity].
    destruct (fc_observe _ _ _ _ _ _ _ _ _) as [f1 [|]]; [|reflexivity].
    destruct (fc_get_features _ _ _ _ _ _) as [f2 [|]]; reflexivity. }
  rewrite E in Hob, How, Hat. cbn [fst] in Hob, How, Hat. clear E.
  unfold StartSpec.started. rewrite Hat. cbn [a1 Env.a_atmosphere set]. split; [reflexivity|].
  rewrite Hob, How. cbn [a1 Env.a_balloon Env.a_wind set].
  Transparent initialize_balloon. unfold initialize_balloon in Ei. Opaque initialize_balloon.
  unfold sample_location in Ei.
  destruct (sample_pressure P _ _) as [p0|] eqn:Ep; [|discriminate].
  destruct (sample_upwelling_infrared P _ _ _) as [ir| |] eqn:Eir; try discriminate.
  unfold sample_pressure in Ep.
  destruct (at_height _ MIN_ALTITUDE_M) as [fl|] eqn:Ea; [|discriminate]. cbn [option_map] in Ep. injection Ep as <-.
  destruct (new_state _ _ _ _ _ _) as [s0|] eqn:En; [|discriminate].
  destruct (latlng _ _ _) as [la ln].
  destruct (cold_start_to_stable_params s0 la ln _) as [s1|] eqn:Ec; [|discriminate].
  injection Ei as <- <-.
  exists (radians (uniform P (split P (split P (split P k 3 0) 6 3) 2 0) (-10) 10),
          radians (uniform P (split P (split P (split P k 3 0) 6 3) 2 1) (-175) 175)), s1, fl, draws, (a_wind a).
  assert (Same : x s1 = x s0 /\ y s1 = y s0 /\ pressure s1 = pressure s0 /\
     upwelling_infrared s1 = upwelling_infrared s0 /\ date_time s1 = date_time s0).
  { unfold cold_start_to_stable_params in Ec.
    destruct (calculate_stable_params_for_pressure _ _ _ _ _ _ _ _ _ _ _) as [r|]; [|discriminate].
    injection Ec as <-. repeat split. }
  destruct Same as (-> & -> & -> & -> & ->).
  unfold new_state in En. destruct (latlng _ _ _) as [la' ln'].
  destruct (get_next_sunrise_sunset _ _ _ _ _) as [ss|]; [|discriminate]. injection En as <-.
  cbn [x y pressure upwelling_infrared date_time set default_state].
  split; [reflexivity|].
  replace 2.0 with 2 by lra.
  Transparent sample_time. split; [reflexivity|]. Opaque sample_time.
  split; [split; cbn [fold_right route]; ring|].
  split; [unfold radians; reflexivity|]. split; [exact Ea|]. split; [reflexivity|].
  split; [exact Eir|reflexivity].
Qed.

Lemma reset_rng (e : env) seed : e_rng (fst (env_reset e seed)) =
  split P (match seed with Some z => prng_key P z | None => e_rng e end) 2 0.
Proof.
  unfold Env.env_reset. destruct seed as [z|]; cbn -[arena_reset get_info];
    destruct (arena_reset _ _) as [a [o|]]; reflexivity.
Qed.
Lemma step_rng (e : env) z : e_rng (fst (env_step e z)) = e_rng e.
Proof.
  unfold Env.env_step. destruct (command_of_int z) as [c|]; [|reflexivity].
  destruct (arena_step _ _ _ _ _ _) as [a [o|]]; [|reflexivity]. cbn -[get_info].
  destruct (a_balloon a) as [[ce s]|]; [|reflexivity]. destruct (reward_fn _ _ _ _); reflexivity.
Qed.
Lemma after_rng os : forall (e : env) seed n, forallb unseeded os = true ->
  e_rng e = path_key (prng_key P seed) (repeat (2, 0)%nat n) ->
  e_rng (after e os) = path_key (prng_key P seed) (repeat (2, 0)%nat (resets os + n)).
Proof.
  induction os as [|o os IH]; intros e seed n U E; [exact E|]. cbn [forallb] in U.
  apply andb_true_iff in U. destruct U as [Uo U]. cbn [Episodes.after].
  destruct o as [z|[z|]|z|c s]; try discriminate Uo; unfold Episodes.call; cbn [resets].
  - replace (S (resets os) + n)%nat with (resets os + S n)%nat by lia. apply (IH _ seed (S n) U).
    pose proof (reset_rng e None) as H. destruct (env_reset e None) as [e1 r]. cbn [fst] in *.
    rewrite H, E. reflexivity.
  - apply (IH _ seed n U). pose proof (step_rng e z) as H. destruct (env_step e z) as [e1 r].
    cbn [fst] in *. rewrite H. exact E.
  - apply (IH _ seed n U). exact E.
Qed.
Lemma env_reset_started (e e' : env) seed o i k :
  match seed with Some z => prng_key P z | None => e_rng e end = k ->
  env_reset e seed = (e', Returned (o, i)) -> started (fun p => path_key (split P k 2 1) (route p)) (e_arena e').
Proof.
  intros <- E. unfold Env.env_reset in E.
  assert (K : split P (e_rng (match seed with Some z => env_seed P F FC e z | None => e end)) 2 1 =
    split P (match seed with Some z => prng_key P z | None => e_rng e end) 2 1) by (destruct seed; reflexivity).
  rewrite K in E. clear K.
  set (e1 := match seed with Some z => env_seed P F FC e z | None => e end) in E. clearbody e1.
  set (k := split P _ 2 1) in *. clearbody k. cbn -[Env.arena_reset get_info] in E.
  destruct (arena_reset (e_arena e1) k) as [a [o1|]] eqn:Ea; [|discriminate].
  destruct (a_balloon a) as [[ce s]|]; [|discriminate]. injection E as <- _ _. cbn.
  exact (reset_started _ _ _ _ Ea).
Qed.

(** Once an environment is seeded, the start of the n-th episode (from 0), whatever
    is done before and in between, is computed from nine keys that depend on the
    seed and on n only, and no two of all these keys, or of the keys derived from
    them later (redrawing the infrared, seeding the wind noise), coincide. *)
Theorem C71_keys : splits_injectively P -> fresh_seeds P -> forall seed,
  exists keys : nat -> purpose -> key P,
    (forall n p n' p' k, below P (keys n p) k -> below P (keys n' p') k -> n = n' /\ p = p') /\
    forall (e e0 : env) r, env_reset e (Some seed) = (e0, r) ->
      (forall oi, r = Returned oi -> started (keys O) (e_arena e0)) /\
      forall os e' oi, forallb unseeded os = true ->
        env_reset (after e0 os) None = (e', Returned oi) ->
        started (keys (S (resets os))) (e_arena e').
Proof.
  intros I Fr seed. exists (fun n p => path_key (prng_key P seed) (start_path n p)). split.
  - intros n p n' p' k B B'. apply below_path in B, B'.
    destruct B as (l & V & ->), B' as (l' & V' & E). rewrite <- !fold_right_app in E.
    apply path_injective in E; try assumption.
    + exact (start_path_prefix _ _ _ _ _ _ E).
    + apply Forall_app. split; [exact V|apply start_path_valid].
    + apply Forall_app. split; [exact V'|apply start_path_valid].
  - intros e e0 r E. assert (K : forall n p, path_key (prng_key P seed) (start_path n p) =
      path_key (split P (path_key (prng_key P seed) (repeat (2, 0)%nat n)) 2 1) (route p)).
    { intros n p. unfold start_path. rewrite fold_right_app. reflexivity. }
    split.
    + intros [o i] ->. pose proof (env_reset_started e e0 (Some seed) o i _ eq_refl E) as H.
      exact H.
    + intros os e' [o i] U E'. pose proof (reset_rng e (Some seed)) as Hr. rewrite E in Hr. cbn [fst] in Hr.
      pose proof (after_rng os e0 seed 1 U Hr) as Ha. rewrite Nat.add_1_r in Ha.
      pose proof (env_reset_started _ _ None _ _ _ Ha E') as H.
      unfold StartSpec.started in *. setoid_rewrite K. exact H.
Qed.
End Start.

(** A library without collisions. *)
Example C71_witness : splits_injectively path_prng /\ fresh_seeds path_prng.
Proof.
  split; [apply C36_witness|]. intros seed k n i _ E. discriminate E.
Qed.
Print Assumptions C70_step.
Print Assumptions C71_keys.
