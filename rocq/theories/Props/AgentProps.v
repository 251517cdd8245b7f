(** Properties C48 and C49: the random walk and the station seeker. *)
From Coq Require Import ZArith Reals List Bool Arith Lia Lra Psatz.
From Verif Require Import Model.Num Model.Prng Model.Safety Model.Balloon Model.Transforms Model.Sampling
  Model.Env Model.Agents Model.Atmosphere Model.Geometry Model.WindField Model.WindGP
  Model.PressureRange Model.Features Model.FeatureAgents.
From Verif Require Import Spec.FeatureSpec Spec.SeekerSpec Spec.ReplaySpec Spec.PrngSpec.
From Verif Require Import Proofs.NumR Proofs.FeatureProofs Proofs.AgentProofs Props.FeatureProps.
Import ListNotations.
Open Scope R_scope.

(** ** C49 *)
Theorem C49_best_level : forall v, plausible v ->
  (forall k, usable v k -> 0 <= score v k <= 1.06) /\
  match pick_action v with
  | None => forall k, ~ usable v k
  | Some action => exists k, usable v k /\
      (forall j, usable v j -> score v j <= score v k /\ ((j < k)%Z -> score v j < score v k)) /\
      action = (if Z.ltb k 180 then 2 else if Z.ltb 180 k then 0 else 1)%Z
  end.
Proof.
  intros v Pl. split; [|exact (pick_action_spec v Pl)]. intros k U.
  destruct (new_named_total v (proj1 Pl)) as (n & En & _).
  destruct (seeker_score v n En Pl k U) as [_ B]. lra.
Qed.

(** On the observations of the simulator: the agent heads for a reachable pressure
    level of maximal score, and has an answer unless no level is reachable. *)
Theorem C49_on_observations : forall (P : prng) (F : forecaster P) (G : regressor) fcol w atm c center s v,
  get_features P F G fcol w atm c = Some v -> last_balloon_state c = Some (center, s) ->
  0 < pressure s -> 0 <= battery_charge s <= battery_capacity s -> 0 < battery_capacity s ->
  plausible v /\
  exists b range, nearest_level (pressure s) b /\
    get_pressure_range s (fst (latlng center (x s) (y s))) (snd (latlng center (x s) (y s))) atm
      = Some range /\
    let reachable l := is_level l /\ min_pressure range <= level_pressure l <= max_pressure range in
    match pick_action v with
    | None => forall l, ~ reachable l
    | Some action => exists l, reachable l /\
        (forall l', reachable l' -> score v (l' - b + 180) <= score v (l - b + 180)) /\
        action = (if Z.ltb l b then 2 else if Z.ltb b l then 0 else 1)%Z
    end.
Proof.
  intros P F G fcol w atm c center s v E L Hp Hb Hc.
  destruct (C27_in_observation_space P F G fcol w atm c center s v E L Hp Hb Hc) as (Amb & Win & D1 & _).
  destruct (C26_named_winds P F G fcol w atm c center s v E L) as (n & b & rg & En & _ & N & Er & Hw).
  assert (Lv : length v = 1099%nat) by apply (C24_layout P F G fcol w atm c center s v E L).
  assert (Pl : plausible v).
  { split; [exact Lv|]. split.
    - split; [|exact D1]. destruct (Amb 7%nat ltac:(lia)) as [A _]. exact A.
    - intros k [Hk U]. specialize (Win k Hk). destruct (wind_entry v k) as [[un be] ma].
      destruct Win as (W1 & W2 & W3 & [W4|W4]); [contradiction|]. lra. }
  split; [exact Pl|]. exists b, rg. split; [exact N|]. split; [exact Er|]. intro reachable.
  assert (Us : forall k, usable v k <-> (0 <= k <= 360)%Z /\ reachable (b + k - 180)%Z).
  { intro k. split.
    - intro U. assert (Hk := proj1 U). split; [exact Hk|].
      destruct (Hw k Hk) as (_ & ok & Ek & Hok). apply Hok.
      destruct (seeker_valid v n En k Hk) as (ok' & Ek' & Hok'). rewrite Ek in Ek'. injection Ek' as <-.
      apply Hok'. exact U.
    - intros [Hk Rk]. destruct (Hw k Hk) as (_ & ok & Ek & Hok). apply Hok in Rk.
      destruct (seeker_valid v n En k Hk) as (ok' & Ek' & Hok'). rewrite Ek in Ek'. injection Ek' as <-.
      apply Hok'. exact Rk. }
  destruct N as [Nb _]. unfold is_level in Nb.
  assert (Us' : forall l, reachable l -> usable v (l - b + 180)%Z).
  { intros l Rl. apply Us. replace (b + (l - b + 180) - 180)%Z with l by lia. split; [|exact Rl].
    destruct Rl as [Hl _]. unfold is_level in Hl. lia. }
  pose proof (pick_action_spec v Pl) as H. destruct (pick_action v) as [action|].
  - destruct H as (k & U & Best & ->). exists (b + k - 180)%Z. split; [apply Us; exact U|]. split.
    + intros l' Rl'. replace (b + k - 180 - b + 180)%Z with k by lia. apply Best. apply Us'. exact Rl'.
    + destruct (Z.ltb_spec k 180), (Z.ltb_spec 180 k), (Z.ltb_spec (b + k - 180) b),
        (Z.ltb_spec b (b + k - 180)); try lia; reflexivity.
  - intros l Rl. apply (H (l - b + 180)%Z). apply Us'. exact Rl.
Qed.

(** An observation with two usable levels of equal wind, 178 and 181: the balloon
    stays below, goes to the nearer one. *)
Definition sample_vector : list R :=
  repeat 0 16 ++ concat (map (fun k => if ((k =? 178) || (k =? 181))%nat then [0; 0.25; 0] else [0; 1; 1]) (seq 0 361)).
Lemma sample_entry k : (0 <= k <= 360)%Z ->
  wind_entry sample_vector k = if ((k =? 178) || (k =? 181))%Z then (0, 0.25, 0) else (0, 1, 1).
Proof.
  intro Hk. unfold wind_entry, component, sample_vector.
  assert (C : forall i m j, (i < m)%nat -> (j < 3)%nat -> forall a,
    nth (3 * i + j) (concat (map (fun k => if ((k =? 178) || (k =? 181))%nat then [0; 0.25; 0] else [0; 1; 1]) (seq a m))) 0
    = nth j (if ((a + i =? 178) || (a + i =? 181))%nat then [0; 0.25; 0] else [0; 1; 1]) 0).
  { intros i m. revert i. induction m as [|m IH]; intros i j Hi Hj a; [lia|]. cbn [seq map concat].
    assert (L3 : length (if ((a =? 178) || (a =? 181))%nat then [0; 0.25; 0] else [0; 1; 1]) = 3%nat)
      by (destruct (_ || _); reflexivity).
    destruct i as [|i].
    - rewrite app_nth1 by (rewrite L3; lia). rewrite Nat.add_0_r. reflexivity.
    - rewrite app_nth2 by (rewrite L3; lia). rewrite L3.
      replace (3 * S i + j - 3)%nat with (3 * i + j)%nat by lia. rewrite IH by lia.
      replace (S a + i)%nat with (a + S i)%nat by lia. reflexivity. }
  set (k0 := Z.to_nat k). assert (Ek : k = Z.of_nat k0) by (unfold k0; lia).
  assert (Hk0 : (k0 < 361)%nat) by lia. clearbody k0. subst k.
  replace (Z.to_nat (16 + 3 * Z.of_nat k0)) with (16 + (3 * k0 + 0))%nat by lia.
  assert (S16 : forall j l, nth (16 + j) (repeat 0 16 ++ l) 0 = nth j l 0).
  { intros j l. rewrite app_nth2 by (rewrite repeat_length; lia). f_equal. rewrite repeat_length. lia. }
  replace (16 + (3 * k0 + 0) + 1)%nat with (16 + (3 * k0 + 1))%nat by lia.
  replace (16 + (3 * k0 + 0) + 2)%nat with (16 + (3 * k0 + 2))%nat by lia.
  rewrite !S16, !C by lia. cbn [Nat.add].
  replace ((Z.of_nat k0 =? 178)%Z || (Z.of_nat k0 =? 181)%Z) with ((k0 =? 178) || (k0 =? 181))%nat.
  2:{ destruct (Nat.eqb_spec k0 178), (Nat.eqb_spec k0 181), (Z.eqb_spec (Z.of_nat k0) 178),
        (Z.eqb_spec (Z.of_nat k0) 181); try lia; reflexivity. }
  destruct ((k0 =? 178) || (k0 =? 181))%nat; reflexivity.
Qed.
Example C49_example : plausible sample_vector /\ pick_action sample_vector = Some 0%Z.
Proof.
  assert (Us : forall k, usable sample_vector k -> k = 178%Z \/ k = 181%Z).
  { intros k [Hk U]. rewrite sample_entry in U by exact Hk.
    destruct (Z.eqb_spec k 178), (Z.eqb_spec k 181); auto. elim U. reflexivity. }
  assert (Pl : plausible sample_vector).
  { split; [|split].
    - unfold sample_vector. rewrite app_length, repeat_length.
      assert (C : forall m a, length (concat (map (fun k => if ((k =? 178) || (k =? 181))%nat then [0; 0.25; 0] else [0; 1; 1]) (seq a m))) = (3 * m)%nat).
      { induction m as [|m IH]; intro a; [reflexivity|]. cbn [seq map concat]. rewrite app_length, IH.
        destruct (_ || _); cbn [length]; lia. }
      rewrite C. reflexivity.
    - unfold component, sample_vector. cbn. lra.
    - intros k U. rewrite sample_entry by apply U. destruct (Us k U) as [-> | ->]; cbn; lra. }
  split; [exact Pl|].
  assert (U1 : usable sample_vector 178).
  { split; [lia|]. rewrite sample_entry by lia. cbn. intro Q. injection Q. lra. }
  assert (U2 : usable sample_vector 181).
  { split; [lia|]. rewrite sample_entry by lia. cbn. intro Q. injection Q. lra. }
  assert (Lt : score sample_vector 178 < score sample_vector 181).
  { unfold score. rewrite !sample_entry by lia. cbn [Z.eqb orb Pos.eqb]. unfold score_of_level.
    apply Rplus_lt_compat_l. apply Rmult_lt_compat_l; [lra|]. apply exp_increasing. cbn. lra. }
  pose proof (pick_action_spec _ Pl) as H. destruct (pick_action sample_vector) as [action|].
  - destruct H as (k & U & Best & ->). destruct (Us k U) as [-> | ->]; [|reflexivity].
    destruct (Best _ U2) as [B _]. lra.
  - elim (H _ U1).
Qed.

(** ** C48 *)
Section Walk.
Context (P : prng).

(** An episode: the target starts uniformly between 6500 and 11400 Pa, whatever came
    before, moves at every step, and the actions head for it with a tolerance of
    100 Pa on either side. *)
Theorem C48_episode : forall a first inputs reward terminal,
  let agent := random_walk_agent P in
  let target0 := uniform P (split P (rw_rng P a) 2 1) 6500 11400 in
  let target := walk_target P (fun i => 180 * INR i) (walk_key P (rw_rng P a) 1) target0 in
  match episode agent a first inputs reward terminal with
  | None => length first <> 1099%nat \/ exists i, In i inputs /\ length (snd i) <> 1099%nat
  | Some (a', actions) =>
      actions =
        map (fun '(n, o) => walk_action (target n) (observed_pressure o))
            (combine (seq 0 (S (length inputs))) (first :: map snd inputs)) /\
      target_pressure P a' = target (length inputs)
  end.
Proof.
  intros a first inputs reward terminal agent target0 target.
  unfold episode. cbn [ag_begin_episode agent random_walk_agent]. unfold rw_begin_episode, sample_new_target_pressure.
  unfold sample_pressure. cbn [option_map]. rewrite walk_select.
  destruct (Nat.eqb_spec (length first) 1099) as [L|]; [|left; assumption]. cbn [option_map].
  change (mkRandomWalk P (split P (rw_rng P a) 2 0) 0 (uniform P (split P (rw_rng P a) 2 1) 6500 11400))
    with (walk_state P (walk_key P (rw_rng P a) 1) target0 0).
  cbn [target_pressure]. pose proof (walk_steps P (walk_key P (rw_rng P a) 1) target0 inputs 0) as H.
  unfold agent. rewrite H. clear H.
  destruct (forallb _ inputs) eqn:All.
  - cbn [ag_end_episode random_walk_agent]. split; [|reflexivity].
    cbn [seq combine map]. f_equal.
    change (walk_target P (fun i : nat => 180 * INR i) (walk_key P (rw_rng P a) 1) target0) with target.
    clear All. generalize 0%nat.
    induction inputs as [|[r o] rest IH]; intro m; [reflexivity|]. cbn [length seq combine map snd]. f_equal. apply IH.
  - right. assert (N : ~ (forall i, In i inputs -> (length (snd i) =? 1099)%nat = true)).
    { intro H. assert (forallb (fun i : R * list R => (length (snd i) =? 1099)%nat) inputs = true)
        by (apply forallb_forall; exact H). congruence. }
    clear -All. induction inputs as [|i rest IH]; [discriminate|]. cbn [forallb] in All.
    destruct (Nat.eqb_spec (length (snd i)) 1099) as [E|E].
    + cbn in All. destruct (IH All) as (j & Hj & Nj). exists j. split; [right; exact Hj|exact Nj].
    + exists i. split; [left; reflexivity|exact E].
Qed.

Theorem C48_first_target : lawful P -> forall k, 6500 <= uniform P k 6500 11400 < 11400.
Proof. intros HP k. apply (uniform_range P HP). lra. Qed.
End Walk.

(** The target does not stay in the range of pressures: it may leave it for good,
    after one step already, and the agent then always commands "down". *)
Definition drifting : prng :=
  mkPrng unit (fun _ => tt) (fun _ _ _ => tt) (fun _ _ => 0%Z) (fun _ a _ => a) (fun _ _ _ => 0)
    (fun _ _ _ => 1000) (fun _ _ _ => 0) (fun _ => 0) (fun _ => 1).
Theorem C48_stays_in_range_refuted :
  lawful drifting /\
  forall inputs, (forall i, In i inputs ->
      length (snd i) = 1099%nat /\ 0 <= component (snd i) 0 <= 1) ->
    exists a0 act a actions,
      ag_begin_episode (random_walk_agent drifting) (mkRandomWalk drifting tt 0 0) (repeat 0 1099) = Some (a0, act) /\
      steps (random_walk_agent drifting) a0 inputs = Some (a, actions) /\
      Forall (fun action => action = 0%Z) actions /\
      (inputs <> [] -> 36000 < target_pressure drifting a).
Proof.
  split.
  { constructor; cbn; intros; try lia; lra. }
  intros inputs Hin.
  pose proof (C48_episode drifting (mkRandomWalk drifting tt 0 0) (repeat 0 1099) inputs 0 true) as H.
  cbv zeta in H. unfold episode in H.
  destruct (ag_begin_episode _ _ _) as [[a0 act]|] eqn:E0.
  2:{ exfalso. destruct H as [H|(i & Hi & Ni)]; [apply H, repeat_length|]. elim Ni. apply Hin, Hi. }
  destruct (steps _ a0 inputs) as [[a actions]|] eqn:E1.
  2:{ exfalso. destruct H as [H|(i & Hi & Ni)]; [apply H, repeat_length|]. elim Ni. apply Hin, Hi. }
  exists a0, act, a, actions. split; [first [exact E0|reflexivity]|]. split; [first [exact E1|reflexivity]|].
  cbn [ag_end_episode random_walk_agent] in H. destruct H as [Ha Ht].
  set (T := walk_target drifting (fun i => 180 * INR i) _ _) in *.
  assert (HT : forall n, 6500 <= T n /\ (n <> O -> 36000 < T n)).
  { induction n as [|n IH].
    - split; [unfold T; cbn; lra|congruence].
    - assert (36000 < T (S n)); [|split; [lra|auto]].
      unfold T in *. cbn [walk_target]. set (t := walk_target _ _ _ _ n) in *.
      replace (noise drifting _ n) with 1000 by reflexivity. rewrite S_INR. pose proof (pos_INR n). lra. }
  split.
  - cbn [seq combine map] in Ha. injection Ha as _ ->.
    apply Forall_forall. intros action Hact. apply in_map_iff in Hact. destruct Hact as ([n o] & <- & Hno).
    assert (Ho := in_combine_r _ _ _ _ Hno). apply in_combine_l, in_seq in Hno.
    apply in_map_iff in Ho. destruct Ho as (i & <- & Hi). destruct (Hin i Hi) as [_ Hc].
    destruct (HT n) as [_ Hn]. specialize (Hn ltac:(lia)).
    unfold walk_action, observed_pressure. fold T.
    destruct (Rlt_dec (T n) _); [lra|]. destruct (Rlt_dec _ (T n)); [reflexivity|lra].
  - intro Ne. rewrite Ht. apply HT. destruct inputs; [congruence|discriminate].
Qed.

(** Nor does it move with the time since its last update, as the comment in the code
    says (180 seconds at every step): the n-th step counts n times as much. *)
Theorem C48_time_since_update_refuted :
  lawful drifting /\ exists inputs, 
    match episode (random_walk_agent drifting) (mkRandomWalk drifting tt 0 0) (repeat 0 1099) inputs 0 true with
    | None => False
    | Some (a, _) =>
        target_pressure drifting a =
          walk_target drifting (fun _ => 180) tt 6500 (length inputs) + 180 * 0.1666 * 1000
    end.
Proof.
  split; [apply C48_stays_in_range_refuted|]. exists [(0, repeat 0 1099); (0, repeat 0 1099)].
  pose proof (C48_episode drifting (mkRandomWalk drifting tt 0 0) (repeat 0 1099) 
                [(0, repeat 0 1099); (0, repeat 0 1099)] 0 true) as H. cbv zeta in H.
  destruct (episode _ _ _ _ _ _) as [[a actions]|].
  - destruct H as [_ ->]. cbn -[Rmult Rplus IZR]. lra.
  - destruct H as [H|(i & Hi & Ni)]; [apply H, repeat_length|].
    destruct Hi as [<-|[<-|[]]]; apply Ni, repeat_length.
Qed.

Print Assumptions C49_best_level.
Print Assumptions C49_on_observations.
Print Assumptions C48_episode.
Print Assumptions C48_first_target.
Print Assumptions C48_stays_in_range_refuted.
Print Assumptions C48_time_since_update_refuted.
