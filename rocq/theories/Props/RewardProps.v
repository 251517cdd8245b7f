(** Property theorems C17 and C18 (default reward). *)
From Coq Require Import ZArith Reals Lra Lia Psatz Bool.
From RecordUpdate Require Import RecordSet.
From Verif Require Import Model.Num Model.Safety Model.Balloon Model.Reward.
From Verif Require Import Spec.RewardSpec Proofs.NumR Proofs.RewardProofs Proofs.ExampleFlight.
Import RecordSetNotations.
Open Scope R_scope.

(** The documented reward, for every state and every choice of the three
    parameters; the decay constant is one half up to 1e-11. *)
Theorem C18_documented_value : forall (w : world R) (s : bstate R) radius dropoff halflife,
  halflife <> 0 ->
  exists half base factor,
    Rabs (half - 1 / 2) <= 1 / 100000000000 /\
    perciatelli_reward_function w s radius dropoff halflife = Some (base * factor) /\
    is_distance_reward half radius dropoff halflife (distance_km (x s) (y s)) base /\
    let excess :=
      daytime_power_load s
        < solar_power_fn w (fst (sun w (x s) (y s) (date_time s))) (pressure s)
      /\ 0.99 < battery_charge s / battery_capacity s in
    (last_command s = DOWN /\ ~ excess -> is_power_factor (acs_power s) factor) /\
    (~ (last_command s = DOWN /\ ~ excess) -> factor = 1).
Proof.
  intros w s radius dropoff halflife Hh.
  destruct (reward_value w s radius dropoff halflife Hh) as (b & f & E & Hb & Hp & Hn).
  exists half_const, b, f. split; [exact half_const_close|]. auto.
Qed.
Print Assumptions C18_documented_value.

(** ** C17 *)
Theorem C17_range_and_optimum : forall (w : world R) (s : bstate R),
  exists r, default_reward w s = Some r /\
    0 < r <= 1 /\
    fst reward_range <= r <= snd reward_range /\
    (r = 1 <->
       distance_km (x s) (y s) <= 50 /\
       ~ (last_command s = DOWN /\
          ~ (daytime_power_load s
               < solar_power_fn w (fst (sun w (x s) (y s) (date_time s))) (pressure s)
             /\ 0.99 < battery_charge s / battery_capacity s))).
Proof.
  intros w s. destruct (reward_range_lemma w s 50 (4 / 10) 100) as (r & E & Rr & I); try lra.
  exists r. split; [exact E|]. split; [exact Rr|]. split; [cbn; lra|exact I].
Qed.
Print Assumptions C17_range_and_optimum.

(** ** C18 *)
(** Same power situation: penalised in both or in neither, and same ACS power. *)
Theorem C18_distance : forall (w : world R) (s s' : bstate R) radius dropoff halflife r r',
  0 < dropoff < 1 -> 0 < halflife ->
  same_power w s s' ->
  perciatelli_reward_function w s radius dropoff halflife = Some r ->
  perciatelli_reward_function w s' radius dropoff halflife = Some r' ->
  let d := distance_km (x s) (y s) in
  let d' := distance_km (x s') (y s') in
  (d <= d' -> r' <= r) /\
  (d < d' -> radius < d' -> r' < r) /\
  (d = d' -> r = r') /\
  (radius < d -> d' = d + halflife -> Rabs (r' - r / 2) <= 1 / 100000000000).
Proof.
  intros w s s' radius dropoff halflife r r' Hd Hh Hs E E' d d'.
  destruct (reward_monotone _ _ _ _ _ _ _ _ Hd Hh Hs E E') as (A & B & C & D).
  repeat split; auto.
  intros O Q. rewrite (D O Q).
  destruct (reward_range_lemma w s radius dropoff halflife Hd Hh) as (r0 & E0 & Rr & _).
  rewrite E in E0. injection E0 as ->.
  replace (half_const * r0 - r0 / 2) with ((half_const - 1 / 2) * r0) by lra.
  rewrite Rabs_mult, (Rabs_right r0) by lra.
  pose proof half_const_close. pose proof (Rabs_pos (half_const - 1 / 2)). nra.
Qed.
Print Assumptions C18_distance.

Theorem C18_vanishes_far_away : forall radius dropoff halflife,
  0 < dropoff < 1 -> 0 < halflife ->
  forall eps, 0 < eps -> exists D, forall (w : world R) (s : bstate R) r,
    D < distance_km (x s) (y s) ->
    perciatelli_reward_function w s radius dropoff halflife = Some r -> r < eps.
Proof. exact reward_vanishes. Qed.
Print Assumptions C18_vanishes_far_away.

(** The penalty of an expensive descent, at a given distance. *)
Theorem C18_power_penalty : forall (w : world R) (s s' : bstate R) radius dropoff halflife r r',
  0 < dropoff < 1 -> 0 < halflife ->
  perciatelli_reward_function w s radius dropoff halflife = Some r ->
  perciatelli_reward_function w s' radius dropoff halflife = Some r' ->
  distance_km (x s) (y s) = distance_km (x s') (y s') ->
  penalised w s' ->
  (~ penalised w s ->
     exists f, is_power_factor (acs_power s') f /\ 0.65 <= f <= 0.95 /\ r' = f * r) /\
  (penalised w s ->
     (acs_power s <= acs_power s' -> r' <= r) /\
     (100 <= acs_power s < acs_power s' -> acs_power s' <= 300 -> r' < r)).
Proof.
  intros w s s' radius dropoff halflife r r' Hd Hh E E' Q P'. split; intro P.
  - exact (reward_penalty _ _ _ _ _ _ _ _ Hd Hh E E' Q P P').
  - exact (reward_more_power _ _ _ _ _ _ _ _ Hd Hh E E' Q P P').
Qed.
Print Assumptions C18_power_penalty.

(** A balloon 60 km out, descending at night with 200 W: 0.4 * 2^(-0.1) * 0.8. *)
Definition descending : bstate R :=
  demo_state <| x := 36000 |> <| y := 48000 |> <| last_command := DOWN |> <| acs_power := 200 |>.
Lemma descending_distance : distance_km (x descending) (y descending) = 60.
Proof.
  unfold distance_km. cbn.
  replace (36000 * (36000 * 1) + 48000 * (48000 * 1)) with (60000 * 60000) by ring.
  rewrite sqrt_square by lra. lra.
Qed.
Example C17_C18_witness :
  penalised (demo_world 20000) descending /\
  ~ penalised (demo_world 20000) (descending <| last_command := STAY |>) /\
  same_power (demo_world 20000) descending (descending <| x := 90000 |>) /\
  exists half, Rabs (half - 1 / 2) <= 1 / 100000000000 /\
    default_reward (demo_world 20000) descending = Some (0.4 * Rpower half 0.1 * 0.8).
Proof.
  assert (P : penalised (demo_world 20000) descending).
  { split; [reflexivity|]. cbn. intros [A _]. lra. }
  split; [exact P|]. split; [intros [A _]; discriminate A|].
  split.
  { split; [|reflexivity]. split; intros _; [|exact P]. split; [reflexivity|].
    cbn. intros [A _]. lra. }
  destruct (reward_value (demo_world 20000) descending 50 (4/10) 100) as (b & f & E & Hb & Hp & _);
    [lra|].
  exists half_const. split; [exact half_const_close|].
  unfold default_reward. rewrite E. specialize (Hp P). rewrite descending_distance in Hb.
  destruct Hb as [[? _]|[_ ->]]; [lra|].
  assert (f = 0.8) as ->.
  { destruct Hp as [[? ->]|[[? ->]|[? ->]]]; cbn in *; lra. }
  replace ((60 - 50) / 100) with 0.1 by lra. replace (4 / 10) with 0.4 by lra. reflexivity.
Qed.
