(** Property C75: what the observation returned by the environment describes. *)
From Coq Require Import ZArith Reals Lra Lia List Bool.
From RecordUpdate Require Import RecordSet.
From Verif Require Import Model.Num Model.Prng Model.Safety Model.Balloon Model.Atmosphere
  Model.WindField Model.WindGP Model.PressureRange Model.Env Model.Features.
From Verif Require Import Spec.FeatureSpec Spec.BeliefSpec Spec.Episodes.
From Verif Require Import Proofs.NumR Proofs.WindProofs Proofs.EnvProofs.
From Verif Require Import Props.WindGPProps Props.FeatureProps.
Import ListNotations RecordSetNotations.
#[local] Opaque initialize_balloon Sampling.sample_time atmosphere_reset simulate_step world_of
  wind_reset.
Open Scope R_scope.

Section Observation.
Context (P : prng) (noise4d : Z -> R -> R -> R -> R -> R) (F : forecaster P) (G : regressor).
Context (fcol : wind_field P F -> R -> R -> list R -> Z -> option (list wind)).
Context (reward_fn : wind_field P F -> atmosphere -> R * R -> bstate R -> option R).
Context (draws : nat).
Notation FC := (perciatelli P F G fcol).
Notation env := (env P F FC).
Notation env_step := (env_step P noise4d F FC reward_fn).
Notation env_reset := (env_reset P noise4d F FC draws).
Notation a_wind := (a_wind P F FC).
Notation a_atmosphere := (a_atmosphere P F FC).
Notation a_balloon := (a_balloon P F FC).
Notation a_features := (a_features P F FC).
Notation e_arena := (e_arena P F FC).

(** An episode so far: a reset and then steps, all of which returned; the balloon
    states after each of them, oldest first; the environment and the observation at
    the end. *)
Inductive flown : list (bstate R) -> env -> list R -> Prop :=
| flown_reset e seed e' o i s :
    env_reset e seed = (e', Returned (o, i)) -> balloon_of P F FC e' = Some s ->
    flown [s] e' o
| flown_step l e o action e' o' r d i s :
    flown l e o -> env_step e action = (e', Returned (o', r, d, i)) ->
    balloon_of P F FC e' = Some s ->
    flown (l ++ [s]) e' o'.

(** What is learnt in a state: how much the wind differs from its forecast there. *)
Definition learnt (w : wind_field P F) (s : bstate R) (l : loc * (R * R)) : Prop :=
  exists actual expected,
    ground_truth P noise4d F w (x s) (y s) (pressure s) (time_elapsed s) = Some actual /\
    forecast P F w (x s) (y s) (pressure s) (time_elapsed s) = Some expected /\
    l = (mkLoc (x s) (y s) (pressure s) (IZR (time_elapsed s) / 1000000),
         (u actual - u expected, v actual - v expected)).

(** The states less than six hours away from the time [t]. *)
Definition recent_states (t : Z) (l : list (bstate R)) : list (bstate R) :=
  filter (fun s => Z.abs (time_elapsed s - t) <? 6 * 3600 * 1000000)%Z l.

(** The belief the object holds. *)
Definition holds (w : wind_field P F) (g : gp) (l : list (bstate R)) : Prop :=
  exists ls, Forall2 (learnt w) l ls /\
    measurement_locations g = map fst ls /\ error_values g = map snd ls.

Lemma observed (a a' : arena P F FC) o l g :
  observe_and_get_features P noise4d F FC a = (a', Returned o) ->
  a_features a = Some g -> holds (a_wind a) (windgp g) l ->
  exists center s g', a_balloon a = Some (center, s) /\ a' = a <| Env.a_features P F FC := Some g' |> /\
    get_features P F G fcol (a_wind a) (a_atmosphere a) g' = Some o /\
    last_balloon_state g' = Some (center, s) /\
    holds (a_wind a) (windgp g') (l ++ [s]).
Proof.
  unfold observe_and_get_features. intros E Hg (ls & H1 & H2 & H3).
  destruct (a_balloon a) as [[center s]|]; [|discriminate]. rewrite Hg in E.
  unfold wind_at_balloon in E.
  destruct (ground_truth _ _ _ _ _ _ _ _) as [actual|] eqn:Ea; [|discriminate].
  cbn [fc_observe perciatelli] in E. unfold constructor_observe, observe in E.
  destruct (forecast P F (a_wind a) (x s) (y s) (pressure s) (time_elapsed s)) as [f|] eqn:Ef;
    [|discriminate].
  cbn [fc_get_features perciatelli] in E.
  destruct (Features.get_features _ _ _ _ _ _ _) as [vec|] eqn:Ev; [|discriminate].
  injection E as <- <-.
  exists center, s. eexists. split; [reflexivity|]. split; [reflexivity|].
  split; [exact Ev|]. split; [reflexivity|]. cbn [windgp].
  exists (ls ++ [(mkLoc (x s) (y s) (pressure s) (IZR (time_elapsed s) / 1000000),
                  (u actual - u f, v actual - v f))]).
  split.
  - apply Forall2_app; [exact H1|]. constructor; [|constructor].
    exists actual, f. auto.
  - cbn [measurement_locations error_values]. rewrite !map_app, H2, H3. split; reflexivity.
Qed.

Lemma flown_object l e o : flown l e o ->
  exists center s g before, l = before ++ [s] /\
    a_balloon (e_arena e) = Some (center, s) /\ a_features (e_arena e) = Some g /\
    get_features P F G fcol (a_wind (e_arena e)) (a_atmosphere (e_arena e)) g = Some o /\
    last_balloon_state g = Some (center, s) /\ holds (a_wind (e_arena e)) (windgp g) l.
Proof.
  induction 1 as [e seed e' o i s E Hb|l e o action e' o' r d i s Hf IH E Hb].
  - unfold Env.env_reset in E.
    set (e1 := match seed with Some z => env_seed P F FC e z | None => e end) in E.
    destruct (arena_reset _ _ _ _ _ _ _) as [a [o1|]] eqn:Ea; [|discriminate].
    assert (e' = (e1 <| e_rng P F FC := split P (e_rng P F FC e1) 2 0 |>
                     <| Env.e_arena P F FC := a |>) /\ o1 = o) as [-> ->].
    { cbn in E |- *. destruct (a_balloon a) as [[? ?]|]; [|discriminate].
      injection E as <- <- _. split; reflexivity. }
    unfold balloon_of in Hb. cbn in Hb |- *.
    unfold arena_reset in Ea. cbv zeta in Ea.
    destruct (initialize_balloon _ _ _ _) as [[center s0]|]; [|discriminate].
    destruct (negb _); [discriminate|]. cbn [fc_new perciatelli] in Ea.
    destruct (observed _ _ _ [] new_constructor Ea eq_refl) as (ce & s' & g' & Q1 & Q2 & Q3 & Q4 & Q5).
    { exists []. split; [constructor|split; reflexivity]. }
    rewrite Q2 in Hb |- *. cbn in Hb, Q1, Q3, Q5 |- *. injection Q1 as -> ->. injection Hb as ->.
    exists ce, s, g', []. repeat split; assumption.
  - destruct IH as (center & s0 & g & before & -> & Hb0 & Hg & _ & _ & Hh).
    unfold Env.env_step in E. destruct (command_of_int action) as [c|]; [|discriminate].
    destruct (arena_step _ _ _ _ _ _) as [a [o1|]] eqn:Ea; [|discriminate].
    cbn -[get_info] in E. destruct (a_balloon a) as [[ce s1]|] eqn:Eb; [|discriminate].
    destruct (reward_fn _ _ _ _); [|discriminate]. injection E as <- <- _ _ _.
    unfold balloon_of in Hb. cbn in Hb |- *. rewrite Eb in Hb |- *. injection Hb as ->.
    unfold arena_step in Ea. rewrite Hb0 in Ea.
    destruct (wind_at_balloon _ _ _ _ _ _) as [wv|]; [|discriminate].
    destruct (simulate_step _ _ _ _ _ _) as [s2 [eff|]]; [|discriminate].
    destruct (observed _ _ _ (before ++ [s0]) g Ea Hg Hh) as (ce' & s' & g' & Q1 & Q2 & Q3 & Q4 & Q5).
    rewrite Q2 in Eb |- *. cbn in Eb, Q1, Q3, Q5 |- *. injection Q1 as <- <-. injection Eb as <- <-.
    exists center, s2, g', (before ++ [s0]). repeat split; assumption.
Qed.

(** The ambient part describes the balloon as it is now. *)
Theorem C75_balloon : forall l e vec, flown l e vec ->
  exists center s n before,
    a_balloon (e_arena e) = Some (center, s) /\ l = before ++ [s] /\
    length vec = 1099%nat /\ new_named vec = Some n /\
    balloon_pressure n = Rmin (Rmax (pressure s) 5000) 14000 /\
    n_battery_charge n = battery_charge s / battery_capacity s /\
    sqrt (x s ^ 2 + y s ^ 2) * sin_heading_to_station n = 0 - x s /\
    sqrt (x s ^ 2 + y s ^ 2) * cos_heading_to_station n = 0 - y s /\
    Transforms.undo_squash_to_unit_interval (distance_to_station n) 250 =
      Some (sqrt (x s ^ 2 + y s ^ 2) / 1000) /\
    n_last_command n = last_command s /\
    internal_pressure_ratio n = pressure_ratio s.
Proof.
  intros l e vec H. destruct (flown_object l e vec H) as (center & s & g & before & -> & Hb & _ & Hv & Hl & _).
  destruct (C24_layout P F G fcol _ _ _ _ _ _ Hv Hl) as [Hlen _].
  destruct (C26_named_features P F G fcol _ _ _ _ _ _ Hv Hl)
    as (n & t & pw & Hn & _ & _ & P1 & P2 & P3 & Bt & _ & _ & _ & Sh & Ch & Ds & Lc & _ & _ & Pr).
  exists center, s, n, before. split; [exact Hb|]. split; [reflexivity|]. split; [exact Hlen|].
  split; [exact Hn|]. split; [|repeat split; assumption].
  unfold Rmin, Rmax. destruct (Rle_dec (pressure s) 5000) as [L1|L1].
  - rewrite (P2 L1). destruct Rle_dec; lra.
  - destruct (Rle_dec (pressure s) 14000) as [L2|L2].
    + apply P1. lra.
    + apply P3. lra.
Qed.

Lemma learnt_time w : forall l ls t, Forall2 (learnt w) l ls ->
  Forall2 (learnt w) (recent_states t l)
    (filter (fun m => Rltb (Rabs (lt (fst m) - seconds_of t)) time_horizon) ls).
Proof.
  intros l ls t H. induction H as [|s m l ls Hm H IH]; cbn [recent_states filter]; [constructor|].
  fold (recent_states t l).
  assert (E : Rltb (Rabs (lt (fst m) - seconds_of t)) time_horizon =
              (Z.abs (time_elapsed s - t) <? 6 * 3600 * 1000000)%Z).
  { destruct Hm as (a & f & _ & _ & ->). cbn [fst lt]. unfold seconds_of, time_horizon.
    replace (IZR (time_elapsed s) / 1000000 - IZR t / 1000000)
      with (IZR (time_elapsed s - t) / 1000000) by (rewrite minus_IZR; lra).
    unfold Rdiv. rewrite Rabs_mult, (Rabs_right (/ 1000000)) by lra. rewrite <- abs_IZR.
    change (6 * 3600 * 1000000)%Z with 21600000000%Z.
    destruct (Z.ltb_spec (Z.abs (time_elapsed s - t)) 21600000000) as [Q|Q].
    - apply IZR_lt in Q. apply Rltb_true. lra.
    - apply IZR_le in Q. apply Rltb_false. lra. }
  rewrite E. destruct (_ <? _)%Z; [constructor; assumption|exact IH].
Qed.

(** The wind part: level by level, the forecast now, corrected by a regressor
    trained on what was learnt in every state of the episode less than six hours
    old (and nothing else). *)
Theorem C75_winds : forall l e vec, flown l e vec ->
  let w := a_wind (e_arena e) in
  (forall x y ps t, ps <> [] ->
     fcol w x y ps t = all_some (map (fun p => forecast P F w x y p t) ps)) ->
  exists center s before b range ls,
    a_balloon (e_arena e) = Some (center, s) /\ l = before ++ [s] /\
    nearest_level (pressure s) b /\
    get_pressure_range s (fst (latlng center (x s) (y s))) (snd (latlng center (x s) (y s)))
      (a_atmosphere (e_arena e)) = Some range /\
    Forall2 (learnt w) (recent_states (time_elapsed s) l) ls /\
    forall k, (0 <= k <= 360)%Z ->
      let level := (b + k - 180)%Z in
      let reachable := is_level level /\
        min_pressure range <= level_pressure level <= max_pressure range in
      (reachable -> exists f trained eu ev su sv,
         forecast P F w (x s) (y s) (level_pressure level) (time_elapsed s) = Some f /\
         fit G ls = Some trained /\
         predict G trained (mkLoc (x s) (y s) (level_pressure level)
                              (IZR (time_elapsed s) / 1000000)) = ((eu, ev), (su, sv)) /\
         encodes (x s) (y s) (eu + u f) (ev + v f) (((su / 3.6) ^ 2 + (sv / 3.6) ^ 2) / 2)
           (wind_entry vec k)) /\
      (~ reachable -> wind_entry vec k = unreachable).
Proof.
  intros l e vec H w Hcol.
  destruct (flown_object l e vec H) as (center & s & g & before & El & Hb & _ & Hv & Hl & (ls & H1 & H2 & H3)).
  fold w in Hv, H1.
  destruct (C25_wind_column P F G fcol w _ _ _ _ _ Hcol Hv Hl) as (b & range & Hn & Hr & Hk).
  exists center, s, before, b, range, (filter (fun m => Rltb (Rabs (lt (fst m) - seconds_of (time_elapsed s))) time_horizon) ls).
  split; [exact Hb|]. split; [exact El|]. split; [exact Hn|]. split; [exact Hr|].
  split; [apply learnt_time; exact H1|].
  intros k Bk level reachable. destruct (Hk k Bk) as [K1 K2]. split; [|exact K2].
  intro Re. destruct (K1 Re) as (mu & mv & dev & Q & _ & En). clear K1 K2.
  apply (WindGPProofs.query_spec G (forecast P F w) (fcol w)) in Q; [|exact Hcol].
  destruct Q as (a & b' & d & f & Q1 & Q2 & Q3).
  cbn [lx ly lp lt] in Q1, Q2.
  unfold WindGPProofs.correction in Q1. rewrite H2 in Q1.
  assert (Hne : ls <> []).
  { intro Z. subst ls l. inversion H1. now destruct before. }
  destruct ls as [|m0 ls]; [contradiction|]. cbn [map] in Q1.
  unfold WindGPProofs.fresh_data in Q1. rewrite H2, H3 in Q1. cbn [lt] in Q1.
  assert (C : forall q : list (loc * (R * R)), combine (map fst q) (map snd q) = q).
  { induction q as [|[q1 q2] q IH]; cbn; [reflexivity|]. now rewrite IH. }
  rewrite C in Q1. fold level in Q1, Q2, En. clear Hne C.
  rewrite WindGPProofs.timedelta_roundtrip in Q2.
  destruct (fit G _) as [trained|] eqn:Ef; [|discriminate].
  destruct (predict G trained _) as [[eu ev] [su sv]] eqn:Ep.
  injection Q1 as <- <- <-. injection Q3 as -> -> ->.
  exists f, trained, eu, ev, su, sv. split; [exact Q2|]. split; [reflexivity|]. split; [exact Ep|].
  assert (Hdev : deviation (su, sv) = ((su / 3.6) ^ 2 + (sv / 3.6) ^ 2) / 2).
  { unfold deviation, SIGMA_EXP_SQUARED. cbn [fst snd]. field; lra. }
  rewrite <- Hdev. exact En.
Qed.
End Observation.
Print Assumptions C75_balloon.
Print Assumptions C75_winds.
