(** Property C38: evaluation results. *)
From Coq Require Import ZArith Reals List Bool Lia Lra.
From RecordUpdate Require Import RecordSet.
From Verif Require Import Model.Num Model.Balloon Model.Units Model.Agents Model.Eval.
From Verif Require Import Spec.EvalSpec.
From Verif Require Import Proofs.NumR Proofs.EvalProofs Proofs.ExampleFlight.
Import ListNotations RecordSetNotations.
Open Scope R_scope.

Lemma inside_counts ts : exists n, counts is_inside ts n /\ Z.of_nat n = zsum (map inside ts).
Proof.
  induction ts as [|t ts (n & H & E)]; [exists O; split; [constructor|reflexivity]|].
  cbn [map]. unfold inside at 1, balloon_is_within_radius, Units.relative_distance.
  destruct (Rleb_spec (sqrt (x (t_balloon t) * x (t_balloon t) + y (t_balloon t) * y (t_balloon t))) (t_radius t))
    as [L|L].
  - exists (S n). split; [constructor; assumption|]. unfold zsum in *. cbn [fold_right]. lia.
  - exists n. split; [constructor; [|assumption]|].
    + unfold is_inside, Rsqr. lra.
    + unfold zsum in *. cbn [fold_right]. lia.
Qed.
Lemma counts_le {B} (Q : B -> Prop) l n : counts Q l n -> (n <= length l)%nat.
Proof. induction 1; cbn; lia. Qed.

Section EvalProps.
(** Any environment, any agent. *)
Context (G : gym_env) (A : agent_class (g_obs G)).
Context (rp : Z) (fp : bool).

Lemma eval_seed_spec max z e a r e' a' : (0 < max)%Z ->
  eval_seed G A rp fp max z e a = Some (r, e', a') ->
  exists ts, episode G A max z e a ts e' a' /\ reports fp z ts r.
Proof.
  intros Hm. unfold eval_seed.
  destruct (g_seed G e z) as [e0|] eqn:E0; [|discriminate].
  destruct (g_reset G e0) as [[e1 o]|] eqn:E1; [|discriminate].
  destruct (ag_begin_episode A a o) as [[a1 action]|] eqn:E2; [|discriminate].
  set (l0 := mkLocals G A e1 a1 action 0 false 0 0 [] 0 false false false).
  destruct (loop G A rp fp (Z.to_nat max) max l0) as [l|] eqn:E3; [|discriminate].
  destruct (ag_end_episode A (l_agent G A l) (l_reward G A l) (l_is_done G A l)) as [a2|] eqn:E4; [|discriminate].
  intros [= <- <- <-].
  destruct (loop_spec G A rp fp _ _ _ _ E3) as (ts & Hs & (HL & HS & HN) & Ad).
  { unfold l0; cbn; lia. }
  destruct ts as [|t ts]. { specialize (HN eq_refl). lia. }
  destruct (@exists_last _ (t :: ts) ltac:(discriminate)) as [ts0 [u Eu]].
  rewrite Eu in *. clear t ts Eu HN. destruct (HS _ _ eq_refl) as [H1 H2]. clear HS.
  destruct Ad as (A1&A2&A3&A4&A5&A6&A7&A8&A9).
  unfold l0 in A1,A2,A3,A4,A5,A6,A7,A8,A9. cbn in A1,A2,A3,A4,A5,A6,A7,A8,A9.
  rewrite map_app in A1,A2,A7,A8,A9. cbn [map] in A1,A2,A7,A8,A9. rewrite last_snoc in A1. rewrite last_snoc in A2.
  rewrite last_snoc in A7. rewrite last_snoc in A8. rewrite last_snoc in A9.
  exists (ts0 ++ [u]). split.
  - exists e0, e1, o, a1, action, (l_agent G A l), ts0, u. repeat split; try assumption.
    + exists ts0, u. repeat split; auto; [lia|]. destruct H2; [auto|right; lia].
    + now rewrite <- A1, <- A2.
  - assert (Hlen : (1 <= length (ts0 ++ [u]))%nat) by (rewrite app_length; cbn; lia).
    unfold reports; cbn [r_seed r_cumulative_reward r_time_within_radius r_out_of_power
      r_envelope_burst r_zeropressure r_final_timestep r_flight_path].
    destruct (inside_counts (ts0 ++ [u])) as (n & Hn & En).
    assert (Hr : IZR (l_steps_within_radius G A l) / IZR (l_step_count G A l)
               = INR n / INR (length (ts0 ++ [u]))).
    { rewrite A4, A6, <- En, !INR_IZR_INZ. reflexivity. }
    assert (Hp : 0 < INR (length (ts0 ++ [u]))) by (apply lt_0_INR; lia).
    pose proof (le_INR _ _ (counts_le _ _ _ Hn)). pose proof (pos_INR n).
    assert (Hb : forall f v, v = flag f false u -> forall ts1 t, ts0 ++ [u] = ts1 ++ [t] ->
      (v = true <-> t_done t = true /\ sets (f (t_info t)))).
    { intros f v -> ts1 t E. apply app_inj_tail in E. destruct E as [_ <-]. unfold flag, sets.
      destruct (t_done u); [|intuition congruence].
      destruct (f (t_info u)) as [[]|]; intuition congruence. }
    split; [reflexivity|]. split; [rewrite A3; lra|]. split; [exact A6|].
    split. { exists n. split; [assumption|]. rewrite Hr. field. lra. }
    split. { rewrite Hr. split.
      - apply Rmult_le_pos; [assumption|]. left. now apply Rinv_0_lt_compat.
      - apply Rmult_le_reg_r with (INR (length (ts0 ++ [u]))); [assumption|].
        unfold Rdiv. rewrite Rmult_assoc, Rinv_l by lra. lra. }
    split. { intros ts1 t E. split; [|split]; eapply Hb; eauto. }
    exact A5.
Qed.

Lemma eval_seeds_spec max zs : (0 < max)%Z -> forall e a rs e' a',
  eval_seeds G A rp fp max zs e a = Some (rs, e', a') ->
  exists tss, episodes G A max zs e a tss e' a' /\ length tss = length zs /\
    map r_seed rs = zs /\
    Forall2 (fun zt r => reports fp (fst zt) (snd zt) r) (List.combine zs tss) rs.
Proof.
  intro Hm. induction zs as [|z zs IH]; intros e a rs e' a' E; cbn [eval_seeds] in E.
  - injection E as <- <- <-. exists []. repeat split; constructor.
  - destruct (eval_seed G A rp fp max z e a) as [[[r e1] a1]|] eqn:E1; [|discriminate].
    destruct (eval_seeds G A rp fp max zs e1 a1) as [[[rs1 e2] a2]|] eqn:E2; [|discriminate].
    injection E as <- <- <-.
    destruct (eval_seed_spec _ _ _ _ _ _ _ Hm E1) as (ts & Hts & Hr).
    destruct (IH _ _ _ _ _ E2) as (tss & Htss & HL & HZ & HF).
    exists (ts :: tss). split; [econstructor; eauto|]. split; [cbn; lia|]. split.
    + cbn. f_equal; [apply Hr|assumption].
    + cbn. constructor; assumption.
Qed.

(** ** C38 *)
(** The results are one per seed, in the order of the suite; they report on one
    episode per seed, each run as it should be, on the same two objects one after
    the other. *)
Theorem C38_results : forall a e suite rs e' a',
  eval_agent G A rp fp a e suite = Some (rs, e', a') ->
  map r_seed rs = seeds suite /\
  exists tss, length tss = length (seeds suite) /\
    episodes G A (max_episode_length suite) (seeds suite) e (ag_set_mode A a EVAL) tss e' a' /\
    Forall2 (fun zt r => reports fp (fst zt) (snd zt) r) (List.combine (seeds suite) tss) rs.
Proof.
  intros a e s rs e' a'. unfold eval_agent.
  destruct (Z.ltb_spec 0 (max_episode_length s)) as [Hm|]; [|discriminate].
  intro E. destruct (eval_seeds_spec _ _ Hm _ _ _ _ _ E) as (tss & H1 & H2 & H3 & H4).
  split; [assumption|]. exists tss. auto.
Qed.

(** It raises only if the suite allows no step, the rendering period is 0, or a call
    of the agent or the environment raises: if the episodes can be run, there are
    results. *)
Theorem C38_returns : forall a e suite tss e' a',
  (0 < max_episode_length suite)%Z -> rp <> 0%Z ->
  episodes G A (max_episode_length suite) (seeds suite) e (ag_set_mode A a EVAL) tss e' a' ->
  exists rs, eval_agent G A rp fp a e suite = Some (rs, e', a').
Proof.
  intros a e s tss e' a' Hm Hrp H. unfold eval_agent.
  destruct (Z.ltb_spec 0 (max_episode_length s)) as [_|]; [|lia].
  revert H. generalize (ag_set_mode A a EVAL). set (max := max_episode_length s) in *. clearbody max.
  generalize (seeds s). clear a s. intros zs a H.
  induction H as [e a|z zs e a ts e1 a1 tss e2 a2 H1 H2 (rs & IH)]; [exists []; reflexivity|].
  destruct H1 as (e0 & e00 & o & a0 & action & a00 & ts0 & u & E0 & E1 & E2 & Hs & Hst & -> & E3).
  destruct Hst as (ts1 & u1 & Eu & Hn & Hlen & Hlast). apply app_inj_tail in Eu. destruct Eu as [<- <-].
  assert (St : stopped (Z.to_nat max) (ts0 ++ [u])).
  { split; [lia|]. split.
    - intros ts1 t E. apply app_inj_tail in E. destruct E as [<- <-]. split; [assumption|].
      destruct Hlast; [now left|right; lia].
    - intro E. destruct ts0; discriminate. }
  set (l0 := mkLocals G A e00 a0 action 0 false 0 0 [] 0 false false false).
  destruct (loop_complete G A rp fp max _ (Z.to_nat max) l0 e1 a00 Hrp Hs St) as (l & El & He & Ha).
  { unfold l0; cbn; lia. }
  destruct (loop_spec G A rp fp _ _ _ _ El) as (ts' & Hs' & St' & Ad).
  { unfold l0; cbn; lia. }
  assert (ts0 ++ [u] = ts').
  { revert Hs Hs' St St'. change e00 with (l_env G A l0). change a0 with (l_agent G A l0).
    change action with (l_action G A l0). intros Hs Hs' St St'.
    rewrite He, Ha in Hs'.
    eapply stopped_same; eauto. }
  subst ts'. destruct Ad as (A1&A2&_). unfold l0 in A1, A2. cbn in A1, A2.
  rewrite map_app in A1, A2. cbn [map] in A1, A2. rewrite last_snoc in A1. rewrite last_snoc in A2.
  exists (mkEvalResult z (l_total_reward G A l)
              (IZR (l_steps_within_radius G A l) / IZR (l_step_count G A l))
              (l_out_of_power G A l) (l_envelope_burst G A l) (l_zeropressure G A l)
              (l_step_count G A l) (l_flight_path G A l) :: rs).
  cbn [eval_seeds]. unfold eval_seed. rewrite E0, E1, E2.
  change (mkLocals G A e00 a0 action 0 false 0 0 [] 0 false false false) with l0.
  rewrite El, A1, A2, Ha, E3, He, IH. reflexivity.
Qed.
End EvalProps.
Print Assumptions C38_results.
Print Assumptions C38_returns.

(** A concrete evaluation: an environment whose episodes end at the third step with
    an empty battery, an agent that always says 1, two seeds, at most 5 steps; and
    at most 2 steps. *)
Definition demo_gym (balloon : Z -> bstate R) : gym_env := {|
  g_state := Z;
  g_obs := Z;
  g_seed _ z := Some z;
  g_reset _ := Some (0%Z, 0%Z);
  g_step n a := Some ((n + 1)%Z, (n, IZR a, (2 <=? n)%Z, mkInfoDict (Some (2 <=? n)%Z) None (Some false)));
  g_balloon n := Some (balloon n);
  g_radius _ := 50000
|}.
Definition demo_agent : agent_class Z := {|
  ag_state := unit;
  ag_set_mode a _ := a;
  ag_begin_episode a _ := Some (a, 1%Z);
  ag_step a _ _ := Some (a, 1%Z);
  ag_end_episode a _ _ := Some a
|}.
#[local] Opaque balloon_is_within_radius from_balloon_state.
Lemma demo_results (b : Z -> bstate R) k :
  (forall n, x (b n) = IZR n * 30000 /\ y (b n) = 0) ->
  exists r1 r2 e' a',
    eval_agent (demo_gym b) demo_agent 10 true tt 0%Z (mkSuite [7%Z; k] 5) = Some ([r1; r2], e', a') /\
    r_seed r2 = k /\ r_final_timestep r2 = 3%Z /\ r_out_of_power r2 = true /\
    r_envelope_burst r2 = false /\ r_cumulative_reward r2 = 3 /\
    r_time_within_radius r2 = 1 / 3.
Proof.
  intros Hb. eexists _, _, _, _. split; [lazy -[Rplus Rdiv IZR balloon_is_within_radius from_balloon_state]; reflexivity|].
  cbn [r_seed r_final_timestep r_out_of_power r_envelope_burst r_cumulative_reward r_time_within_radius].
  assert (Q : forall n, balloon_is_within_radius (b n) 50000
            = Rleb (sqrt (Rsqr (IZR n * 30000))) 50000).
  { intro n. with_strategy transparent [balloon_is_within_radius] unfold balloon_is_within_radius.
    unfold Units.relative_distance. f_equal. f_equal.
    destruct (Hb n) as [-> ->]. unfold Rsqr. lra. }
  rewrite !Q, !sqrt_Rsqr by lra.
  rewrite (Rleb_true (1 * 30000) 50000), (Rleb_false (2 * 30000) 50000), (Rleb_false (3 * 30000) 50000) by lra.
  cbn. repeat split; lra.
Qed.
Example C38_witness : forall k, exists r1 r2 e' a',
    eval_agent (demo_gym (fun n => demo_state <| x := IZR n * 30000 |>)) demo_agent 10 true tt 0%Z
      (mkSuite [7%Z; k] 5) = Some ([r1; r2], e', a') /\
    r_seed r2 = k /\ r_final_timestep r2 = 3%Z /\ r_out_of_power r2 = true /\
    r_envelope_burst r2 = false /\ r_cumulative_reward r2 = 3 /\
    r_time_within_radius r2 = 1 / 3.
Proof. intro k. apply demo_results. intro n. split; reflexivity. Qed.
