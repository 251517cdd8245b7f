(** Property C88: the power guard brings the balloon through the night. *)
From Coq Require Import ZArith Reals Lra Lia Bool List.
From RecordUpdate Require Import RecordSet.
From Verif Require Spec.Episodes.
From Verif Require Import Model.Num Model.Prng Model.Safety Model.Balloon Model.Atmosphere Model.WindField Model.WindGP Model.Env.
From Verif Require Import Spec.PrngSpec Spec.SafetySpec Spec.NightSpec.
From Verif Require Import Proofs.NumR Proofs.BalloonProofs Proofs.SafetyHistory Proofs.NightProofs.
From Verif Require Import Props.EnvProps Props.VehicleProps Props.ResetProps Props.MotionProps Props.ProgressProps.
Import ListNotations RecordSetNotations.
Open Scope R_scope.
#[local] Opaque simulate_step world_of atmosphere_reset wind_reset.

Section Night.
Context (P : prng) (noise4d : Z -> R -> R -> R -> R -> R) (F : forecaster P) (FC : feature_class P F).
Context (reward_fn : wind_field P F -> atmosphere -> R * R -> bstate R -> option R) (draws : nat).
Notation env := (Env.env P F FC).
Notation arena := (e_arena P F FC).
Notation balloon e := (a_balloon P F FC (e_arena P F FC e)).
Notation env_step := (Env.env_step P noise4d F FC reward_fn).
Notation env_reset := (Env.env_reset P noise4d F FC draws).
Notation after := (Episodes.after P noise4d F FC reward_fn draws).

(** The battery of the published vehicle, guarded. *)
Lemma step_night_env (e : env) z center s : balloon e = Some (center, s) -> charged s -> power_safety_layer_enabled s = true ->
  exists s', balloon (fst (env_step e z)) = Some (center, s') /\ charged s' /\ power_safety_layer_enabled s' = true /\
    (date_time s <= date_time s' <= date_time s + 180000000)%Z /\
    forall dawn m, m <= 56.464 -> night_until dawn s -> night_energy (date_time s) dawn + m <= battery_charge s ->
      night_energy (date_time s') dawn + m <= battery_charge s' /\ ((date_time s' <= dawn)%Z -> night_until dawn s').
Proof.
  intros Hb Hc He. destruct (env_step_balloon P noise4d F FC reward_fn e z) as [_ [B|(ce & s0 & s' & wind & c & r & B0 & Es & B)]].
  - exists s. rewrite B. split; [exact Hb|]. split; [exact Hc|]. split; [exact He|]. split; [lia|]. auto.
  - rewrite Hb in B0. injection B0 as <- <-. exists s'. split; [exact B|].
    destruct (step_charged _ _ _ _ _ _ (world_gives _ _) Hc He Es) as [C' E']. split; [exact C'|]. split; [exact E'|].
    split; [exact (proj2 (simulate_clock _ _ _ _ _ _ Es))|].
    intros dawn m Hm Hn Hl. destruct (night_step _ _ _ _ _ _ _ _ (world_gives _ _) Hc He Hm Hn Hl Es) as (_ & _ & K). exact K.
Qed.

Lemma after_night_env actions : forall (e : env) center s, balloon e = Some (center, s) -> charged s -> power_safety_layer_enabled s = true ->
  exists s', balloon (after e (map Episodes.Step actions)) = Some (center, s') /\ charged s' /\ power_safety_layer_enabled s' = true /\
    (date_time s <= date_time s')%Z /\
    forall dawn m, m <= 56.464 -> night_until dawn s -> night_energy (date_time s) dawn + m <= battery_charge s ->
      (date_time s' <= dawn)%Z -> night_until dawn s' /\ night_energy (date_time s') dawn + m <= battery_charge s'.
Proof.
  induction actions as [|z actions IH]; intros e center s Hb Hc He; cbn [map Episodes.after].
  - exists s. repeat (split; [assumption || lia|]). auto.
  - destruct (step_night_env e z center s Hb Hc He) as (s1 & B1 & C1 & E1 & D1 & K1).
    unfold Episodes.call. destruct (env_step e z) as [e1 r1]. cbn [fst] in *.
    destruct (IH e1 center s1 B1 C1 E1) as (s' & B' & C' & E' & D' & K').
    exists s'. repeat (split; [assumption || lia|]). intros dawn m Hm Hn Hl Hd.
    destruct (K1 dawn m Hm Hn Hl) as [L1 N1]. apply (K' dawn m Hm (N1 ltac:(lia)) L1 Hd).
Qed.

(** The night from any state in which the battery is the published one. *)
Theorem C88_night : forall (e : env) center s actions action dawn margin,
  balloon e = Some (center, s) -> power_safety_layer_enabled s = true ->
  daytime_power_load s = 120.4 -> nighttime_power_load s = 183.7 -> battery_capacity s = 3058.56 ->
  battery_charge s <= 3058.56 -> (bstatus s = OUT_OF_POWER -> battery_charge s <= 0) ->
  night_until dawn s ->
  0 < margin <= 56.464 -> night_energy (date_time s) dawn + margin <= battery_charge s ->
  let e2 := after e (map Episodes.Step actions) in
  exists s2, balloon e2 = Some (center, s2) /\
    ((date_time s2 <= dawn)%Z ->
       night_until dawn s2 /\
       night_energy (date_time s2) dawn + margin <= battery_charge s2 /\
       bstatus s2 <> OUT_OF_POWER /\
       exists s3, balloon (fst (env_step e2 action)) = Some (center, s3) /\
         margin - 9.185 <= battery_charge s3 /\
         (9.185 < margin -> bstatus s3 <> OUT_OF_POWER)).
Proof.
  intros e center s actions action dawn m Hb He H1 H2 H3 H4 H5 Hn Hm Hl e2.
  assert (Hc : charged s) by (unfold charged; auto).
  destruct (after_night_env actions e center s Hb Hc He) as (s2 & B2 & C2 & E2 & D2 & K2). fold e2 in B2.
  exists s2. split; [exact B2|]. intro Hd. destruct (K2 dawn m ltac:(lra) Hn Hl Hd) as [N2 L2].
  split; [exact N2|]. split; [exact L2|].
  assert (Hp : forall a b, (a <= b)%Z -> 0 <= night_energy a b).
  { intros a b Hab. unfold night_energy. assert (0 <= IZR (b - a)) by (apply IZR_le; lia). lra. }
  split. { intro Q. destruct C2 as (_ & _ & _ & _ & C2). specialize (C2 Q). pose proof (Hp _ _ Hd). lra. }
  destruct (step_night_env e2 action center s2 B2 C2 E2) as (s3 & B3 & C3 & E3 & D3 & K3).
  destruct (K3 dawn m ltac:(lra) N2 L2) as [L3 _].
  assert (Hq : - 9.185 <= night_energy (date_time s3) dawn).
  { unfold night_energy. assert (IZR (-180000000) <= IZR (dawn - date_time s3)) by (apply IZR_le; lia). lra. }
  exists s3. split; [exact B3|]. split; [lra|].
  intros Hmm Q. destruct C3 as (_ & _ & _ & _ & C3). specialize (C3 Q). lra.
Qed.

(** Every episode is in such a state at every moment. *)
Theorem C88_episode : forall (e0 e1 : env) seed o1 i1 actions,
  lawful P -> env_reset e0 seed = (e1, Returned (o1, i1)) ->
  exists center s, balloon (after e1 (map Episodes.Step actions)) = Some (center, s) /\
    power_safety_layer_enabled s = true /\
    daytime_power_load s = 120.4 /\ nighttime_power_load s = 183.7 /\ battery_capacity s = 3058.56 /\
    battery_charge s <= 3058.56 /\ (bstatus s = OUT_OF_POWER -> battery_charge s <= 0).
Proof.
  intros e0 e1 seed o1 i1 actions HP E.
  destruct (C63_start _ _ _ _ _ _ _ _ _ _ HP E) as (_ & _ & _ & _ & center & s & alpha & Hb & _ & _ & _ & _ & _ & _ & _
    & _ & Hok & _ & _ & Hch & _).
  destruct (C63_vehicle _ _ _ _ _ _ _ _ _ _ E) as (ce & b & Hb1 & (_ & _ & _ & _ & _ & _ & _ & _ & V1 & V2 & V3) & (L & _) & _).
  assert (Q : Some (center, s) = Some (ce, b)) by (rewrite <- Hb; exact Hb1). injection Q as <- <-.
  assert (C : charged s).
  { unfold charged. rewrite Hch, Hok. repeat (split; [assumption || lra|]). discriminate. }
  destruct (after_night_env actions e1 center s Hb C L) as (s' & B' & (A1 & A2 & A3 & A4 & A5) & E' & _).
  exists center, s'. auto 10.
Qed.

(** An episode that begins in a night that lasts for at most 15 and a half hours more does not run
    out of power before it is over, whatever the policy. *)
Theorem C88_first_night : forall (e0 e1 : env) seed o1 i1 actions action center s dawn,
  lawful P -> env_reset e0 seed = (e1, Returned (o1, i1)) ->
  balloon e1 = Some (center, s) -> night_until dawn s ->
  (dawn - date_time s <= 55800 * 1000000)%Z ->
  let e2 := after e1 (map Episodes.Step actions) in
  exists s2, balloon e2 = Some (center, s2) /\
    ((date_time s2 <= dawn)%Z ->
       bstatus s2 <> OUT_OF_POWER /\ 56.464 <= battery_charge s2 /\
       exists s3, balloon (fst (env_step e2 action)) = Some (center, s3) /\ bstatus s3 <> OUT_OF_POWER).
Proof.
  intros e0 e1 seed o1 i1 actions action center s dawn HP E Hb Hn Hd e2.
  destruct (C63_start _ _ _ _ _ _ _ _ _ _ HP E) as (_ & _ & _ & _ & ce & s0 & alpha & Hb0 & _ & _ & _ & _ & _ & _ & _
    & _ & Hok & _ & _ & Hch & _).
  assert (Q : Some (ce, s0) = Some (center, s)) by (rewrite <- Hb0; exact Hb). injection Q as -> ->.
  destruct (C88_episode e0 e1 seed o1 i1 [] HP E) as (ce & b & Hb1 & G1 & G2 & G3 & G4 & G5 & G6).
  cbn [map Episodes.after] in Hb1.
  assert (Q : Some (center, s) = Some (ce, b)) by (rewrite <- Hb; exact Hb1). injection Q as <- <-.
  assert (Hl : night_energy (date_time s) dawn + 56.464 <= battery_charge s).
  { rewrite Hch. unfold night_energy. apply IZR_le in Hd. rewrite mult_IZR in Hd. lra. }
  destruct (C88_night e1 center s actions action dawn 56.464 Hb G1 G2 G3 G4 G5 G6 Hn ltac:(lra) Hl) as (s2 & B2 & K).
  exists s2. split; [exact B2|]. intro D2. destruct (K D2) as (N2 & L2 & O2 & s3 & B3 & _ & O3).
  split; [exact O2|]. split.
  - assert (0 <= night_energy (date_time s2) dawn).
    { unfold night_energy. assert (0 <= IZR (dawn - date_time s2)) by (apply IZR_le; lia). lra. }
    lra.
  - exists s3. split; [exact B3|]. apply O3. lra.
Qed.
End Night.
Print Assumptions C88_night.
Print Assumptions C88_episode.
Print Assumptions C88_first_night.

(** The balloon of a witness episode, placed eight hours before a dawn and twenty before a sunset: the
    hypotheses of [C88_night] are met with the full margin, so it flies through that night. *)
Definition eight_hours_of_night (s : bstate R) : bstate R :=
  s <| power_layer := mkPow false (date_time s + 28800 * 1000000) (date_time s + 72000 * 1000000) |>.
Example C88_witness : forall e seed, exists n e1 o1 i1 center s, forall draws, (n <= draws)%nat ->
  witness_reset draws e seed = (e1, Returned (o1, i1)) /\
  let s' := eight_hours_of_night s in
  let dawn := (date_time s + 28800 * 1000000)%Z in
  let e' := fst (Episodes.call _ still _ witness_fc default_reward_fn draws e1 (Episodes.SetBalloon center s')) in
  a_balloon _ _ _ (e_arena _ _ _ e1) = Some (center, s) /\
  night_until dawn s' /\ night_energy (date_time s') dawn + 56.464 <= battery_charge s' /\
  forall actions, exists s2,
    a_balloon _ _ _ (e_arena _ _ _ (Episodes.after _ still _ witness_fc default_reward_fn draws e' (map Episodes.Step actions))) = Some (center, s2) /\
    ((date_time s2 <= dawn)%Z -> bstatus s2 <> OUT_OF_POWER).
Proof.
  intros e seed. destruct (C80_witness e seed) as (n & e1 & o1 & i1 & K).
  destruct (K n (le_n _)) as [E0 _].
  destruct C65_witness as (L & _).
  destruct (C63_start _ _ _ _ _ _ _ _ _ _ L E0) as (_ & _ & _ & _ & center & s & alpha & Hb & _ & _ & _ & _ & _ & _ & _ & _ & Hok & _ & _ & Hch & _).
  exists n, e1, o1, i1, center, s. intros draws Hn. destruct (K draws Hn) as [E _]. split; [exact E|].
  intros s' dawn e'. split; [exact Hb|].
  assert (N : night_until dawn s').
  { split.
    - split; [unfold dawn; cbn; lia|]. split; [exists 0%Z; unfold dawn; cbn; lia|]. unfold dawn, day_us; cbn; intros; lia.
    - intros (r1 & r2 & (A1 & (k1 & B1 & B2) & B3) & (C1 & (k2 & D1 & D2) & D3) & Lt). cbn in *. unfold day_us in *.
      pose proof (B3 0%Z). pose proof (D3 0%Z). lia. }
  split; [exact N|].
  assert (H : night_energy (date_time s') dawn + 56.464 <= battery_charge s').
  { cbn. rewrite Hch. unfold night_energy, dawn. replace (date_time s + 28800 * 1000000 - date_time s)%Z with 28800000000%Z by lia. lra. }
  split; [exact H|]. intro actions.
  destruct (C88_episode _ _ _ _ default_reward_fn _ _ _ _ _ _ [] L E) as (ce & b & Hb1 & G1 & G2 & G3 & G4 & G5 & G6).
  cbn [map Episodes.after] in Hb1.
  assert (Q : Some (center, s) = Some (ce, b)) by (rewrite <- Hb; exact Hb1). injection Q as <- <-.
  destruct (C88_night _ still _ witness_fc default_reward_fn draws e' center s' actions 1 dawn 56.464 eq_refl G1 G2 G3 G4 G5 G6 N ltac:(lra) H)
    as (s2 & B2 & K2).
  exists s2. split; [exact B2|]. intro D. destruct (K2 D) as (_ & _ & O & _). exact O.
Qed.
