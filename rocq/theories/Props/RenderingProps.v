(** Property C86: rendering shows the flight and changes nothing. *)
From Coq Require Import ZArith Reals Lra Lia Bool String List.
From Verif Require Spec.Episodes.
From Verif Require Import Model.Num Model.Prng Model.Safety Model.Balloon Model.Atmosphere Model.WindField Model.Env Model.Rendering.
From Verif Require Import Spec.PrngSpec Spec.RenderingSpec.
From Verif Require Import Proofs.NumR Proofs.FloatAtmosphere Proofs.EnvProofs Proofs.MotionProofs Proofs.SteadyAir Proofs.SteadyFlight Props.EnvProps Props.StartProps Props.ResetProps Props.PerciatelliResetProps Props.RewardProps Props.ProgressProps.
Import ListNotations.
Open Scope R_scope.
#[local] Opaque simulate_step world_of atmosphere_reset wind_reset.

Lemma power_line_of states :
  combine (map date_time states) (map (fun s => battery_soc s * 100) states) = map power_point states.
Proof.
  induction states as [|s l IH]; [reflexivity|]. cbn [map combine]. f_equal; [|exact IH].
  unfold power_point, battery_soc. f_equal. numR. ring.
Qed.

Section Rendering.
Context (frame : Type) (picture : figure -> frame).
Context (P : prng) (noise4d : Z -> R -> R -> R -> R -> R) (F : forecaster P) (FC : feature_class P F).
Context (reward_fn : wind_field P F -> atmosphere -> R * R -> bstate R -> option R) (draws : nat).
Notation env := (env P F FC).
Notation renv := (renv P F FC).
Notation rendered_env := (mkREnv P F FC).
Notation env_step := (env_step P noise4d F FC reward_fn).
Notation env_reset := (env_reset P noise4d F FC draws).
Notation renv_step := (renv_step P noise4d F FC reward_fn).
Notation renv_reset := (renv_reset P noise4d F FC draws).
Notation balloon_of := (Episodes.balloon_of P F FC).
Notation atm_of e := (a_atmosphere P F FC (e_arena P F FC e)).
Notation env_render := (env_render frame picture P F FC).

(** What the renderer remembers: the given states. *)
Definition remembers (atm : atmosphere) (r : renderer) (states : list (bstate R)) : Prop :=
  Forall2 (at_point atm) states (r_trajectory r) /\
  r_charge r = map (fun s => battery_soc s * 100) states /\ r_datetime r = map date_time states.
Lemma remembers_step alpha r states s : 0 <= alpha <= 1 -> 4400 <= pressure s <= 32000 ->
  remembers (atmosphere_reset alpha) r states ->
  exists r', renderer_step r (atmosphere_reset alpha) s = (r', Returned tt) /\
    remembers (atmosphere_reset alpha) r' (states ++ [s]).
Proof.
  intros Ha Hp (H1 & H2 & H3). destruct (air_lookup alpha (pressure s) Ha ltac:(lra)) as (h & t & E & _).
  unfold profile_of in E. unfold renderer_step.
  destruct (Atmosphere.at_pressure (atmosphere_reset alpha) (pressure s)) as [v|] eqn:Ev; [|discriminate].
  eexists. split; [reflexivity|]. split; [|cbn; rewrite !map_app, H2, H3; auto].
  cbn. apply Forall2_app; [exact H1|]. constructor; [|constructor]. exists v. split; [exact Ev|reflexivity].
Qed.

(** Resets: same answer; the renderer then remembers the initial state only. *)
Lemma reset_rendered (e e' : env) r seed res : env_reset e seed = (e', res) -> lawful P ->
  match res with
  | Raised => exists e'' r', renv_reset (rendered_env e (Some r)) seed = (rendered_env e'' (Some r'), Raised) /\ e'' = e'
  | Returned a => exists r' s, balloon_of e' = Some s /\
      renv_reset (rendered_env e (Some r)) seed = (rendered_env e' (Some r'), Returned a) /\ remembers (atm_of e') r' [s]
  end.
Proof.
  intros E HP.
  assert (C : match res with Raised => True | Returned _ => cruising P F FC 0 e' end).
  { destruct res as [[o i]|]; [|exact I]. eapply start_steady; eassumption. }
  revert E C. unfold Env.env_reset, Rendering.renv_reset. cbn [base].
  set (rng := match seed with Some z => prng_key P z | None => e_rng P F FC e end).
  replace (e_rng P F FC match seed with Some z => env_seed P F FC e z | None => e end) with rng
    by (unfold rng; destruct seed; reflexivity).
  replace (RecordSet.set (e_rng P F FC) (fun _ => split P rng 2 0) match seed with Some z => env_seed P F FC e z | None => e end)
    with (mkEnv P F FC (e_radius P F FC e) (split P rng 2 0) (e_iteration P F FC e) (e_arena P F FC e))
    by (unfold rng; destruct seed; reflexivity).
  cbn [e_arena].
  destruct (arena_reset P noise4d F FC draws (e_arena P F FC e) (split P rng 2 1)) as [a [o|]].
  - destruct (a_balloon P F FC a) as [[center s]|] eqn:Eb.
    + intros [= <- <-] (c0 & s0 & alpha & w & k & d & f & Hb & Al & Ha & Hat & _).
      cbn in Hb, Hat. rewrite Eb in Hb. injection Hb as <- <-.
      destruct Al as (_ & _ & _ & Hp & _). cbn. rewrite ?Hat.
      destruct (remembers_step alpha renderer_reset [] s Ha Hp) as (r' & E' & M).
      { repeat split; constructor. }
      exists r', s. unfold record_state. cbn [e_renderer]. rewrite E'. unfold Episodes.balloon_of. cbn.
      rewrite Eb. auto.
    + intros [= <- <-] _. cbn. eexists _, _. split; reflexivity.
  - intros [= <- <-] _. cbn. eexists _, _. split; reflexivity.
Qed.

Context (HR : forall w atm center s, reward_fn w atm center s <> None).

(** Steps. *)
Lemma step_rendered n (e e' : env) r states a res :
  (Z.of_nat n < 14000000)%Z -> cruising P F FC n e -> remembers (atm_of e) r states ->
  env_step e a = (e', res) ->
  exists r', renv_step (rendered_env e (Some r)) a = (rendered_env e' (Some r'), res) /\
    atm_of e' = atm_of e /\
    remembers (atm_of e') r' (states ++ match res, balloon_of e' with Returned _, Some s => [s] | _, _ => [] end).
Proof.
  intros Hn Cr M E. pose proof (cruising_step P noise4d F FC reward_fn n e a Hn Cr) as Cr'. rewrite E in Cr'. cbn [fst] in Cr'.
  assert (HA : atm_of e' = atm_of e).
  { pose proof (MotionProps.env_step_balloon P noise4d F FC reward_fn e a) as H. rewrite E in H. apply H. }
  rewrite HA. revert E Cr' HA. unfold Env.env_step, Rendering.renv_step. cbn [base e_renderer].
  destruct (command_of_int a) as [c|].
  2: { intros [= <- <-] _ _. exists r. rewrite app_nil_r. auto. }
  destruct (arena_step P noise4d F FC (e_arena P F FC e) c) as [ar [o|]].
  2: { intros [= <- <-] _ HA. exists r. rewrite app_nil_r. auto. }
  destruct (a_balloon P F FC ar) as [[center s]|] eqn:Eb.
  2: { intros [= <- <-] _ HA. exists r. rewrite app_nil_r. auto. }
  destruct (reward_fn (a_wind P F FC ar) (a_atmosphere P F FC ar) center s) as [reward|] eqn:Er; [|destruct (HR _ _ _ _ Er)].
  intros [= <- <-] (c0 & s0 & alpha & w & k & d & f & Hb & Al & Ha & Hat & _) HA. cbn in Hb, Hat, HA.
  rewrite Eb in Hb. injection Hb as <- <-. destruct Al as (_ & _ & _ & Hp & _).
  unfold record_state. rewrite <- HA, Hat in M |- *.
  destruct (remembers_step alpha r states s Ha Hp M) as (r' & E' & M'). rewrite E'.
  exists r'. unfold Episodes.balloon_of. cbn. rewrite Eb. auto.
Qed.

Lemma steps_rendered actions : forall n (e : env) r states,
  (Z.of_nat (n + length actions) <= 14000000)%Z -> cruising P F FC n e -> remembers (atm_of e) r states ->
  exists r', steps renv_step (rendered_env e (Some r)) actions
             = (rendered_env (fst (steps env_step e actions)) (Some r'), snd (steps env_step e actions)) /\
    atm_of (fst (steps env_step e actions)) = atm_of e /\
    remembers (atm_of e) r' (states ++ states_after env_step balloon_of e actions).
Proof.
  induction actions as [|a actions IH]; intros n e r states Hn Cr M.
  - exists r. cbn. rewrite app_nil_r. auto.
  - cbn [length] in Hn. cbn [steps states_after].
    destruct (env_step e a) as [e' res] eqn:E.
    destruct (step_rendered n e e' r states a res ltac:(lia) Cr M E) as (r1 & E1 & HA & M1). rewrite E1.
    pose proof (cruising_step P noise4d F FC reward_fn n e a ltac:(lia) Cr) as Cr'. rewrite E in Cr'. cbn [fst] in Cr'.
    destruct (IH (S n) e' r1 _ ltac:(lia) Cr' M1) as (r2 & E2 & HA2 & M2). rewrite E2.
    destruct (steps env_step e' actions) as [e'' answers] eqn:Es. cbn [fst snd] in *.
    exists r2. split; [reflexivity|]. split; [congruence|]. rewrite HA, <- app_assoc in M2.
    destruct res as [x0|]; [destruct (balloon_of e')|]; exact M2.
Qed.

(** With a renderer, an episode gives the same answers as without ... *)
Theorem C86_same_answers (e0 e1 : env) r0 seed o1 i1 actions :
  lawful P -> env_reset e0 seed = (e1, Returned (o1, i1)) -> (Z.of_nat (length actions) <= 14000000)%Z ->
  exists r1 r2, renv_reset (rendered_env e0 (Some r0)) seed = (rendered_env e1 (Some r1), Returned (o1, i1)) /\
    steps renv_step (rendered_env e1 (Some r1)) actions
    = (rendered_env (fst (steps env_step e1 actions)) (Some r2), snd (steps env_step e1 actions)).
Proof.
  intros HP E Hl. destruct (reset_rendered e0 e1 r0 seed _ E HP) as (r1 & s & _ & E1 & M).
  destruct (steps_rendered actions 0 e1 r1 [s] Hl (start_steady P noise4d F FC reward_fn draws _ _ _ _ _ HP E) M) as (r2 & E2 & _).
  exists r1, r2. auto.
Qed.

(** ... and the picture shows the whole flight since the reset and nothing else, with the
    marker where the balloon is. *)
Theorem C86_picture (e0 e1 : env) (re1 re2 : renv) r0 seed o1 i1 actions s1 answers :
  lawful P -> env_reset e0 seed = (e1, Returned (o1, i1)) -> (Z.of_nat (length actions) <= 14000000)%Z ->
  balloon_of e1 = Some s1 ->
  fst (renv_reset (rendered_env e0 (Some r0)) seed) = re1 -> steps renv_step re1 actions = (re2, answers) ->
  exists fig, env_render re2 "human" = Some (Shown fig) /\
    env_render re2 "rgb_array" = Some (Frame (picture fig)) /\ env_render re2 "tensorboard" = Some Nothing /\
    (let states := s1 :: states_after env_step balloon_of e1 actions in
     Forall2 (at_point (atm_of e1)) states (path_line fig) /\
     at_point (atm_of e1) (last states s1) (marker fig) /\
     power_line fig = map power_point states).
Proof.
  intros HP E Hl Hs1 <- Er. destruct (reset_rendered e0 e1 r0 seed _ E HP) as (r1 & s & Hs & E1 & M).
  rewrite Hs1 in Hs. injection Hs as <-. rewrite E1 in Er. cbn [fst] in Er.
  destruct (steps_rendered actions 0 e1 r1 [s1] Hl (start_steady P noise4d F FC reward_fn draws _ _ _ _ _ HP E) M) as (r2 & E2 & HA & M2).
  rewrite E2 in Er. injection Er as <- _. unfold Rendering.env_render. cbn [e_renderer].
  cbn [app] in M2. set (states := s1 :: states_after env_step balloon_of e1 actions) in *.
  destruct M2 as (M1 & M2 & M3).
  assert (NE : exists l q, r_trajectory r2 = l ++ [q] /\ at_point (atm_of e1) (last states s1) q).
  { assert (HL : states <> []) by discriminate. pose proof M1 as M0.
    rewrite (app_removelast_last s1 HL) in M0. apply Forall2_app_inv_l in M0 as (l & l2 & F1 & F2 & ET).
    inversion F2 as [|? q ? l3 F3 F4]; subst. inversion F4; subst. exists l, q. split; [exact ET|exact F3]. }
  destruct NE as (l & q & ET & Hm).
  exists (mkFigure (r_trajectory r2) q (combine (r_datetime r2) (r_charge r2))).
  unfold render. cbn [existsb render_modes negb orb String.eqb Ascii.eqb Bool.eqb]. rewrite ET, rev_app_distr. cbn.
  rewrite <- ET. repeat split; auto. rewrite M2, M3.
  exact (power_line_of states).
Qed.
End Rendering.

Section General.
Context (frame : Type) (picture : figure -> frame).
Context (P : prng) (noise4d : Z -> R -> R -> R -> R -> R) (F : forecaster P) (FC : feature_class P F).
Context (reward_fn : wind_field P F -> atmosphere -> R * R -> bstate R -> option R) (draws : nat).
Notation rendered_env := (mkREnv P F FC).

(** Without a renderer the environment is the plain one, and rendering does nothing. *)
Theorem C86_no_renderer (e : env P F FC) :
  (forall a, renv_step P noise4d F FC reward_fn (rendered_env e None) a =
     let '(e', r) := env_step P noise4d F FC reward_fn e a in (rendered_env e' None, r)) /\
  (forall seed, renv_reset P noise4d F FC draws (rendered_env e None) seed =
     let '(e', r) := env_reset P noise4d F FC draws e seed in (rendered_env e' None, r)) /\
  forall mode, env_render frame picture P F FC (rendered_env e None) mode = Some Nothing.
Proof.
  repeat split.
  - intros a. unfold renv_step, env_step. cbn [base e_renderer]. destruct (command_of_int a) as [c|]; [|reflexivity].
    destruct (arena_step _ _ _ _ _ _) as [ar [o|]]; [|reflexivity].
    destruct (a_balloon P F FC ar) as [[center s]|]; [|reflexivity]. cbn [record_state].
    destruct (reward_fn _ _ _ _); reflexivity.
  - intros seed. unfold renv_reset, env_reset. cbn [base e_renderer].
    destruct seed as [z|]; cbn;
      (destruct (arena_reset _ _ _ _ _ _ _) as [ar [o|]]; [|reflexivity];
       destruct (a_balloon P F FC ar) as [[center s]|]; reflexivity).
Qed.

(** The modes: besides the three of [render.modes] every mode is refused, also 'ansi', which
    gym and the documentation of render name. *)
Theorem C86_modes (e : env P F FC) r mode :
  In mode ["human"; "rgb_array"; "tensorboard"]%string \/
  env_render frame picture P F FC (rendered_env e (Some r)) mode = None.
Proof.
  unfold env_render, render. cbn [e_renderer].
  destruct (existsb (String.eqb mode) render_modes) eqn:E; [|right; reflexivity].
  left. apply existsb_exists in E as (m & Hm & E). apply String.eqb_eq in E as ->. exact Hm.
Qed.
Corollary C86_ansi (e : env P F FC) r : env_render frame picture P F FC (rendered_env e (Some r)) "ansi" = None.
Proof. destruct (C86_modes e r "ansi") as [[H|[H|[H|[]]]]|H]; [discriminate..|exact H]. Qed.

(** A newly constructed environment can be drawn at once: the picture is one point. *)
Theorem C86_constructed radius seed now1 now2 e :
  lawful P -> new_renv P noise4d F FC draws radius seed now1 now2 = Some e ->
  exists fig s p, env_render frame picture P F FC e "human" = Some (Shown fig) /\
    Episodes.balloon_of P F FC (base P F FC e) = Some s /\
    at_point (a_atmosphere P F FC (e_arena P F FC (base P F FC e))) s p /\
    path_line fig = [p] /\ marker fig = p /\ power_line fig = [power_point s].
Proof.
  intros HP H. unfold new_renv in H. destruct (new_arena P noise4d F FC draws now1) as [a|]; [|discriminate].
  set (e0 := mkEnv P F FC (radius * 1000) (prng_key P 0) 0 a) in *.
  set (sd := match seed with Some z => z | None => now2 end) in *.
  destruct (env_reset P noise4d F FC draws e0 (Some sd)) as [e1 res] eqn:E.
  pose proof (reset_rendered P noise4d F FC reward_fn draws e0 e1 renderer_reset (Some sd) res E HP) as R0.
  destruct res as [[o i]|].
  - destruct R0 as (r' & s & Hs & E' & (M1 & M2 & M3)). rewrite E' in H. injection H as <-.
    cbn [base]. inversion M1 as [|? p ? l Hp Hn E0]; subst. inversion Hn; subst.
    exists (mkFigure [p] p [power_point s]), s, p. unfold env_render, render. cbn [e_renderer].
    rewrite M2, M3. replace (r_trajectory r') with [p] by assumption. cbn.
    repeat split; auto. do 3 f_equal. exact (power_line_of [s]).
  - destruct R0 as (e'' & r' & E' & _). rewrite E' in H. discriminate.
Qed.
End General.
Print Assumptions C86_same_answers.
Print Assumptions C86_picture.
Print Assumptions C86_no_renderer.
Print Assumptions C86_modes.
Print Assumptions C86_ansi.
Print Assumptions C86_constructed.

(** A flight of one step: two points. *)
Example C86_witness : forall e seed, exists N, forall draws, (N <= draws)%nat -> exists fig p q,
  env_render nat (fun _ => 0%nat) _ _ _
    (fst (steps (renv_step _ still _ witness_fc default_reward_fn)
       (fst (renv_reset witness_prng still (static_field witness_prng) witness_fc draws
          (mkREnv _ _ _ e (Some renderer_reset)) seed)) [2%Z])) "human" = Some (Shown fig) /\ path_line fig = [p; q].
Proof.
  intros e seed. destruct C65_witness as (L & _ & _). destruct (C80_witness e seed) as (N & e1 & o1 & i1 & W).
  exists N. intros draws Hd. destruct (W draws Hd) as (E & (e2 & o & r & done & i & E2) & _).
  destruct (C63_start _ _ _ _ _ _ _ _ _ _ L E) as (_ & _ & _ & _ & ce & s1 & alpha & Hb & _).
  destruct (steps (renv_step _ still _ witness_fc default_reward_fn)
       (fst (renv_reset witness_prng still (static_field witness_prng) witness_fc draws
          (mkREnv _ _ _ e (Some renderer_reset)) seed)) [2%Z]) as [re2 answers] eqn:Es.
  assert (B1 : Episodes.balloon_of witness_prng (static_field witness_prng) witness_fc e1 = Some s1)
    by (unfold Episodes.balloon_of; rewrite Hb; reflexivity).
  destruct (C86_picture nat (fun _ => 0%nat) _ _ _ _ default_reward_fn draws (default_reward_answers _ _) e e1 _ re2 renderer_reset seed o1 i1
    [2%Z] s1 answers L E ltac:(cbn; lia) B1 eq_refl Es) as (fig & F1 & _ & _ & F2 & _).
  cbn [states_after] in F2. fold witness_step in F2. rewrite E2 in F2.
  destruct (env_step_returns _ _ _ _ _ _ _ _ _ _ _ _ E2) as (_ & ce' & _ & s2 & _ & _ & _ & _ & Hb2 & _).
  unfold Episodes.balloon_of in F2. rewrite Hb2 in F2.
  inversion F2 as [|? p ? l _ F3]; subst. inversion F3 as [|? q ? l' _ F4]; subst. inversion F4; subst.
  exists fig, p, q. split; [exact F1|congruence].
Qed.
