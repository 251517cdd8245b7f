(** The environment: reproducibility, termination. *)
From Coq Require Import ZArith Reals Lra Lia Bool List.
From RecordUpdate Require Import RecordSet.
From Verif Require Import Model.Num Model.Prng Model.Safety Model.Balloon Model.WindField
  Model.Atmosphere Model.Env Spec.Episodes Proofs.BalloonProofs.
Import ListNotations RecordSetNotations.

#[local] Opaque initialize_balloon Sampling.sample_time atmosphere_reset simulate_step world_of U_HARMONICS V_HARMONICS.

Section EnvProofs.
Context (P : prng) (noise4d : Z -> R -> R -> R -> R -> R) (F : forecaster P).
Context (FC : feature_class P F).
Context (reward_fn : wind_field P F -> atmosphere -> R * R -> bstate R -> option R).
Context (draws : nat).
Notation env := (env P F FC).
Notation arena := (arena P F FC).
Notation env_step := (env_step P noise4d F FC reward_fn).
Notation env_reset := (env_reset P noise4d F FC draws).
Notation arena_step := (arena_step P noise4d F FC).
Notation arena_reset := (arena_reset P noise4d F FC draws).
Notation observe := (observe_and_get_features P noise4d F FC).
Notation call := (call P noise4d F FC reward_fn draws).
Notation after := (after P noise4d F FC reward_fn draws).
Notation responses := (responses P noise4d F FC reward_fn draws).
Notation a_wind := (a_wind P F FC).
Notation a_balloon := (a_balloon P F FC).
Notation e_arena := (e_arena P F FC).

(** ** The noise tables never change *)
Definition tables (w : wind_field P F) : Prop :=
  map params (noise_u (noise P F w)) = U_HARMONICS /\
  map params (noise_v (noise P F w)) = V_HARMONICS.

Lemma reset_from_params k n i hs : map params (reset_from P k n i hs) = map params hs.
Proof. revert i. induction hs as [|h hs IH]; intro i; cbn; [reflexivity|]. now rewrite IH. Qed.
Lemma reset_from_ext k n i hs hs' : map params hs = map params hs' ->
  reset_from P k n i hs = reset_from P k n i hs'.
Proof.
  revert i hs'. induction hs as [|h hs IH]; intros i [|h' hs'] E; cbn in E; try discriminate; [reflexivity|].
  injection E; intros E1 E2. cbn. unfold harmonic_reset. rewrite E2. f_equal. now apply IH.
Qed.
Lemma wind_reset_tables w k t : tables w -> tables (wind_reset P F w k t).
Proof.
  intros [A B]. unfold tables, wind_reset, noise_reset, component_reset. cbn.
  rewrite !reset_from_params. auto.
Qed.
Lemma wind_reset_forgets w w' k t : tables w -> tables w' ->
  wind_reset P F w k t = wind_reset P F w' k t.
Proof.
  intros [A B] [A' B']. unfold wind_reset, noise_reset, component_reset. cbn.
  assert (L : forall c c' : component, map params c = map params c' -> length c = length c')
    by (intros c c' E; rewrite <- (map_length params c), E; apply map_length).
  do 2 f_equal; rewrite (L _ _ (eq_trans A (eq_sym A'))) || rewrite (L _ _ (eq_trans B (eq_sym B')));
    apply reset_from_ext; congruence.
Qed.

Lemma observe_wind a : a_wind (fst (observe a)) = a_wind a.
Proof.
  unfold observe_and_get_features. destruct (a_balloon a) as [[c s]|]; [|reflexivity].
  destruct (a_features P F FC a) as [f0|]; [|reflexivity].
  destruct (wind_at_balloon P noise4d F FC a s) as [w0|]; [|reflexivity].
  destruct (fc_observe _ _ _ _ _ _ _ _ _) as [f [|]]; [|reflexivity].
  destruct (fc_get_features _ _ _ _ _ _) as [f' [|]]; reflexivity.
Qed.
Lemma observe_balloon a : a_balloon (fst (observe a)) = a_balloon a.
Proof.
  unfold observe_and_get_features. destruct (a_balloon a) as [[c s]|] eqn:E; [|exact E].
  destruct (a_features P F FC a) as [f0|]; [|exact E].
  destruct (wind_at_balloon P noise4d F FC a s) as [w0|]; [|exact E].
  destruct (fc_observe _ _ _ _ _ _ _ _ _) as [f [|]]; [|exact E].
  destruct (fc_get_features _ _ _ _ _ _) as [f' [|]]; exact E.
Qed.

Lemma arena_reset_tables a k : tables (a_wind a) -> tables (a_wind (fst (arena_reset a k))).
Proof.
  intro H. unfold arena_reset.
  destruct (initialize_balloon _ _ _ _ _) as [[c s]|]; [|exact H].
  destruct (negb _); [exact H|].
  destruct (fc_new _ _ _ _ _); [rewrite observe_wind|]; cbn; now apply wind_reset_tables.
Qed.
Lemma arena_step_wind a c : a_wind (fst (arena_step a c)) = a_wind a.
Proof.
  unfold arena_step. destruct (a_balloon a) as [[ce s]|]; [|reflexivity].
  destruct (wind_at_balloon _ _ _ _ _ _); [|reflexivity].
  destruct (simulate_step _ _ _ _ _ _) as [s' [e|x]]; [|reflexivity].
  now rewrite observe_wind.
Qed.
Lemma env_step_wind e z : a_wind (e_arena (fst (env_step e z))) = a_wind (e_arena e).
Proof.
  unfold env_step. destruct (command_of_int z) as [c|]; [|reflexivity].
  pose proof (arena_step_wind (e_arena e) c) as H.
  destruct (arena_step (e_arena e) c) as [a [o|]]; [|exact H]. cbn in *.
  destruct (a_balloon a) as [[ce s]|]; [|exact H].
  destruct (reward_fn _ _ _ _); exact H.
Qed.
Lemma env_reset_tables e z : tables (a_wind (e_arena e)) ->
  tables (a_wind (e_arena (fst (env_reset e z)))).
Proof.
  intro H. unfold env_reset.
  set (e1 := match z with Some z => _ | None => _ end).
  assert (H1 : tables (a_wind (e_arena e1))) by (destruct z; exact H).
  clearbody e1. cbn.
  pose proof (arena_reset_tables (e_arena e1) (split P (e_rng P F FC e1) 2 1) H1) as H2.
  destruct (arena_reset _ _) as [a [o|]]; exact H2.
Qed.
Lemma call_tables e o : tables (a_wind (e_arena e)) -> tables (a_wind (e_arena (fst (call e o)))).
Proof.
  intro H. destruct o as [z|z|z|c s]; unfold Episodes.call.
  - exact H.
  - pose proof (env_reset_tables e z H) as H1. destruct (env_reset e z); exact H1.
  - pose proof (env_step_wind e z) as H1. destruct (env_step e z). cbn in *. now rewrite H1.
  - exact H.
Qed.
Lemma after_tables os e : tables (a_wind (e_arena e)) -> tables (a_wind (e_arena (after e os))).
Proof. revert e. induction os as [|o os IH]; intros e H; cbn; [exact H|]. apply IH. now apply call_tables. Qed.

Lemma new_env_tables radius seed now1 now2 e :
  new_env P noise4d F FC draws radius seed now1 now2 = Some e -> tables (a_wind (e_arena e)).
Proof.
  unfold new_env, new_arena, new_arena_from, arena_reset_from, arena_key.
  set (a0 := mkArena _ _ _ _ _ _ _ _).
  assert (H0 : tables (a_wind a0)) by (split; reflexivity).
  pose proof (arena_reset_tables a0 (prng_key P now1) H0) as H1.
  destruct (arena_reset a0 (prng_key P now1)) as [a [o|]]; [|discriminate]. cbn in H1.
  set (e0 := mkEnv _ _ _ _ _ _ _). set (z := Some (match seed with Some z => z | None => now2 end)).
  pose proof (env_reset_tables e0 z H1) as H2.
  destruct (env_reset e0 z) as [e1 [r|]]; [|discriminate]. intros [= <-]. exact H2.
Qed.

Lemma usable_tables e : usable P noise4d F FC reward_fn draws e -> tables (a_wind (e_arena e)).
Proof.
  intros (radius & seed & now1 & now2 & e0 & os & E & ->). apply after_tables. eapply new_env_tables; eauto.
Qed.

(** ** Two environments that cannot be told apart *)
Definition same (e e' : env) : Prop :=
  e_rng P F FC e = e_rng P F FC e' /\ e_arena e = e_arena e'.

Lemma arena_reset_forgets a a' k : tables (a_wind a) -> tables (a_wind a') ->
  snd (arena_reset a k) = snd (arena_reset a' k) /\
  (snd (arena_reset a k) <> Raised -> fst (arena_reset a k) = fst (arena_reset a' k)).
Proof.
  intros H H'. unfold arena_reset.
  destruct (initialize_balloon _ _ _ _ _) as [[c s]|]; [|cbn; tauto].
  destruct (negb _); [cbn; tauto|]. cbn -[observe_and_get_features].
  rewrite (wind_reset_forgets (a_wind a) (a_wind a')) by assumption.
  destruct (fc_new _ _ _ _ _) as [f|]; [|cbn; tauto].
  cbn -[observe_and_get_features]. split; reflexivity.
Qed.

Lemma reset_forgets e e' z : tables (a_wind (e_arena e)) -> tables (a_wind (e_arena e')) ->
  snd (env_reset e (Some z)) = snd (env_reset e' (Some z)) /\
  (snd (env_reset e (Some z)) <> Raised ->
   same (fst (env_reset e (Some z))) (fst (env_reset e' (Some z)))).
Proof.
  intros H H'. unfold env_reset, env_seed. cbn -[Env.arena_reset].
  destruct (arena_reset_forgets _ _ (split P (prng_key P z) 2 1) H H') as [A B].
  destruct (arena_reset (e_arena e) _) as [a [o|]]; destruct (arena_reset (e_arena e') _) as [a' [o'|]];
    cbn in *; try discriminate.
  - injection A as ->. rewrite B by discriminate. split; [reflexivity|]. intros _. split; reflexivity.
  - split; [reflexivity|]. intro N. now contradiction N.
Qed.

Lemma call_same e e' o : same e e' ->
  snd (call e o) = snd (call e' o) /\ same (fst (call e o)) (fst (call e' o)).
Proof.
  intros [R A]. destruct e as [r k i a], e' as [r' k' i' a']. cbn in R, A. subst k' a'.
  destruct o as [z|z|z|c s]; unfold Episodes.call.
  - split; [reflexivity|]. split; reflexivity.
  - unfold env_reset, env_seed. destruct z as [z|]; cbn -[Env.arena_reset];
      destruct (arena_reset _ _) as [b [o|]]; cbn; (split; [reflexivity|split; reflexivity]).
  - unfold env_step. destruct (command_of_int z) as [c|]; [|split; [reflexivity|split; reflexivity]].
    cbn -[Env.arena_step]. destruct (arena_step a c) as [b [o|]]; cbn;
      [|split; [reflexivity|split; reflexivity]].
    destruct (a_balloon b) as [[ce s]|]; [|split; [reflexivity|split; reflexivity]].
    destruct (reward_fn _ _ _ _); split; [reflexivity|split; reflexivity|reflexivity|split; reflexivity].
  - split; [reflexivity|]. split; reflexivity.
Qed.
Lemma responses_same os e e' : same e e' -> responses e os = responses e' os.
Proof.
  revert e e'. induction os as [|o os IH]; intros e e' H; [reflexivity|]. cbn.
  destruct (call_same e e' o H) as [A B]. rewrite A. f_equal. now apply IH.
Qed.

Lemma reproducible e e' z os :
  tables (a_wind (e_arena e)) -> tables (a_wind (e_arena e')) ->
  snd (env_reset e (Some z)) = snd (env_reset e' (Some z)) /\
  (snd (env_reset e (Some z)) <> Raised ->
   responses (fst (env_reset e (Some z))) os = responses (fst (env_reset e' (Some z))) os).
Proof.
  intros H H'. destruct (reset_forgets e e' z H H') as [A B]. split; [exact A|].
  intro N. apply responses_same. auto.
Qed.

Lemma constructor_resets radius z now1 now2 e e' os :
  new_env P noise4d F FC draws radius (Some z) now1 now2 = Some e ->
  tables (a_wind (e_arena e')) ->
  snd (env_reset e' (Some z)) <> Raised /\
  responses e os = responses (fst (env_reset e' (Some z))) os.
Proof.
  intros E H'. unfold new_env, new_arena, new_arena_from, arena_reset_from, arena_key in E.
  set (a0 := mkArena _ _ _ _ _ _ _ _) in E.
  assert (H0 : tables (a_wind a0)) by (split; reflexivity).
  pose proof (arena_reset_tables a0 (prng_key P now1) H0) as H1.
  destruct (arena_reset a0 (prng_key P now1)) as [a [o|]]; [|discriminate]. cbn in H1.
  set (e0 := mkEnv _ _ _ _ _ _ _) in E.
  destruct (reset_forgets e0 e' z H1 H') as [A B].
  destruct (env_reset e0 (Some z)) as [e1 [r|]] eqn:Er; [|discriminate]. injection E as <-.
  cbn [fst snd] in A, B. split; [now rewrite <- A|]. apply responses_same. apply B. discriminate.
Qed.

(** ** Termination *)
Lemma arena_step_simulates a c a' o : arena_step a c = (a', Returned o) ->
  exists ce s s' wv eff, a_balloon a = Some (ce, s) /\ a_balloon a' = Some (ce, s') /\
    a_atmosphere P F FC a' = a_atmosphere P F FC a /\
    simulate_step (world_of (a_atmosphere P F FC a) ce) (u wv, v wv) c AGENT_TIME_STEP STRIDE s
      = (s', Executed eff) /\
    ground_truth P noise4d F (a_wind a) (x s) (y s) (pressure s) (time_elapsed s) = Some wv.
Proof.
  unfold arena_step. destruct (a_balloon a) as [[ce s]|]; [|discriminate].
  unfold wind_at_balloon at 1.
  destruct (ground_truth P noise4d F (a_wind a) (x s) (y s) (pressure s) (time_elapsed s))
    as [wv|] eqn:G; [|discriminate].
  destruct (simulate_step _ _ _ _ _ _) as [s' [eff|]] eqn:S; [|discriminate].
  intro E. exists ce, s, s', wv, eff. split; [reflexivity|].
  match type of E with observe ?b = _ => set (b0 := b) in E end.
  pose proof (observe_balloon b0) as Hb.
  assert (Ha : forall b, a_atmosphere P F FC (fst (observe b)) = a_atmosphere P F FC b).
  { intro b. unfold observe_and_get_features. destruct (a_balloon b) as [[c1 s1]|]; [|reflexivity].
    destruct (a_features P F FC b) as [f0|]; [|reflexivity].
    destruct (wind_at_balloon P noise4d F FC b s1) as [w0|]; [|reflexivity].
    destruct (fc_observe _ _ _ _ _ _ _ _ _) as [f [|]]; [|reflexivity].
    destruct (fc_get_features _ _ _ _ _ _) as [f' [|]]; reflexivity. }
  pose proof (Ha b0) as Hat.
  rewrite E in Hb, Hat. cbn in Hb, Hat. split; [exact Hb|]. split; [exact Hat|].
  split; [|assumption]. match goal with |- ?g => let t := type of S in constr_eq g t; exact S end.
Qed.

Lemma env_step_returns e z e' o r d i : env_step e z = (e', Returned (o, r, d, i)) ->
  exists c ce s s' wv eff, command_of_int z = Some c /\
    a_balloon (e_arena e) = Some (ce, s) /\ a_balloon (e_arena e') = Some (ce, s') /\
    simulate_step (world_of (a_atmosphere P F FC (e_arena e)) ce) (u wv, v wv) c
      AGENT_TIME_STEP STRIDE s = (s', Executed eff) /\
    ground_truth P noise4d F (a_wind (e_arena e)) (x s) (y s) (pressure s) (time_elapsed s) = Some wv /\
    i = get_info s' /\ d = negb (status_is_ok (bstatus s')) /\
    reward_fn (a_wind (e_arena e)) (a_atmosphere P F FC (e_arena e)) ce s' = Some r.
Proof.
  unfold Env.env_step. destruct (command_of_int z) as [c|]; [|discriminate].
  pose proof (arena_step_wind (e_arena e) c) as Hw.
  destruct (arena_step (e_arena e) c) as [a [o'|]] eqn:E; [|discriminate].
  destruct (arena_step_simulates _ _ _ _ E) as (ce & s & s' & wv & eff & Hb & Hb' & Ha & Hs & Hg).
  cbn in Hw. cbn -[get_info]. rewrite Hb'.
  destruct (reward_fn _ _ ce s') as [rw|] eqn:Er; [|discriminate]. rewrite Hw, Ha in Er.
  intros [= <- <- <- <- <-]. exists c, ce, s, s', wv, eff. cbn.
  repeat split; try assumption. unfold get_info; cbn. destruct (bstatus s'); reflexivity.
Qed.

Lemma env_step_absorbed e z ce s : a_balloon (e_arena e) = Some (ce, s) -> bstatus s <> OK ->
  snd (env_step e z) = Raised /\
  exists c, a_balloon (e_arena (fst (env_step e z))) = Some (ce, s <| last_command := c |>).
Proof.
  intros Hb Hs.
  assert (Keep : exists c, a_balloon (e_arena e) = Some (ce, s <| last_command := c |>))
    by (exists (last_command s); rewrite Hb; destruct s; reflexivity).
  unfold Env.env_step. destruct (command_of_int z) as [c|]; [|split; [reflexivity|exact Keep]].
  unfold Env.arena_step. rewrite Hb.
  destruct (wind_at_balloon _ _ _ _ _ _) as [wv|]; [|split; [reflexivity|exact Keep]].
  rewrite (call_absorbing _ _ c _ _ s Hs). split; [reflexivity|]. exists c. reflexivity.
Qed.
End EnvProofs.
