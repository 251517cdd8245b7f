(** The safety layers along whole histories (real-number instance). *)
From Coq Require Import ZArith Reals Lra Lia Bool List Classical.
From RecordUpdate Require Import RecordSet.
From Verif Require Import Model.Num Model.Safety Model.Balloon.
From Verif Require Import Spec.Flight Spec.SafetySpec.
From Verif Require Import Proofs.NumR Proofs.SafetyProofs.
Import ListNotations RecordSetNotations.
Open Scope R_scope.

(* ------------------------------------------------------------------ *)
(** ** Histories *)

Lemma still_low_snoc e l hist r :
  still_low e l (hist ++ [r]) <-> (r < e \/ (still_low e l hist /\ r < l)).
Proof.
  split.
  - intros (b & q & af & E & Hq & Haf).
    destruct (exists_last (l:=q :: af)) as (af' & z & Ez); [discriminate|].
    rewrite Ez, app_assoc in E. apply app_inj_tail in E. destruct E as [E1 E2].
    subst z. destruct af' as [|q' af''].
    + cbn in Ez. injection Ez; intros; subst. left; assumption.
    + cbn in Ez. injection Ez; intros Eaf; intros; subst q' af.
      right. apply Forall_app in Haf. destruct Haf as [Haf Hr].
      split; [|inversion Hr; assumption].
      exists b, q, af''. auto.
  - intros [H|[(b & q & af & E & Hq & Haf) Hr]].
    + exists hist, r, []. auto.
    + exists b, q, (af ++ [r]). rewrite E, <- app_assoc. cbn.
      repeat split; auto. apply Forall_app; auto.
Qed.

Lemma still_high_snoc e l hist r :
  still_high e l (hist ++ [r]) <-> (e <= r \/ (still_high e l hist /\ l <= r)).
Proof.
  split.
  - intros (b & q & af & E & Hq & Haf).
    destruct (exists_last (l:=q :: af)) as (af' & z & Ez); [discriminate|].
    rewrite Ez, app_assoc in E. apply app_inj_tail in E. destruct E as [E1 E2].
    subst z. destruct af' as [|q' af''].
    + cbn in Ez. injection Ez; intros; subst. left; assumption.
    + cbn in Ez. injection Ez; intros Eaf; intros; subst q' af.
      right. apply Forall_app in Haf. destruct Haf as [Haf Hr].
      split; [|inversion Hr; assumption].
      exists b, q, af''. auto.
  - intros [H|[(b & q & af & E & Hq & Haf) Hr]].
    + exists hist, r, []. auto.
    + exists b, q, (af ++ [r]). rewrite E, <- app_assoc. cbn.
      repeat split; auto. apply Forall_app; auto.
Qed.

Lemma still_low_nil e l : ~ still_low e l [].
Proof. intros (b & q & af & E & _). destruct b; discriminate. Qed.
Lemma still_high_nil e l : ~ still_high e l [].
Proof. intros (b & q & af & E & _). destruct b; discriminate. Qed.

(* ------------------------------------------------------------------ *)
(** ** Altitude *)

(** State reached after a list of altitude readings. *)
Definition alt_run (hs : list R) : alt_state :=
  fold_left (fun s h => alt_transition s h) hs ANominal.

Lemma alt_thresholds :
  MIN_ALTITUDE = 50000 * 0.3048 /\
  nadd MIN_ALTITUDE ALT_BUFFER = 50500 * 0.3048 /\
  nadd (nadd MIN_ALTITUDE ALT_BUFFER) ALT_HYSTERESIS = 51000 * 0.3048.
Proof.
  unfold MIN_ALTITUDE, ALT_BUFFER, ALT_HYSTERESIS, metres_of_feet.
  numR. lra.
Qed.

Lemma feet_lt h f : feet h < f <-> h < f * 0.3048.
Proof. unfold feet. split; intros; lra. Qed.

Lemma alt_transition_R s h :
  alt_transition s h =
  if Rlt_dec (feet h) 50000 then AVeryLow
  else if Rlt_dec (feet h) 50500 then ALow
  else if Rlt_dec (feet h) 51000 then alt_low_nominal s
  else ANominal.
Proof.
  unfold alt_transition. destruct alt_thresholds as (E1 & E2 & E3).
  rewrite E3, E2, E1. cbn [nltb Num_R]. unfold alt_very_low, alt_low, alt_nominal.
  destruct (Rltb_spec h (50000 * 0.3048)), (Rlt_dec (feet h) 50000);
    rewrite ?feet_lt in *; try lra; auto.
  destruct (Rltb_spec h (50500 * 0.3048)), (Rlt_dec (feet h) 50500);
    rewrite ?feet_lt in *; try lra; auto.
  destruct (Rltb_spec h (51000 * 0.3048)), (Rlt_dec (feet h) 51000);
    rewrite ?feet_lt in *; try lra; auto.
Qed.

Lemma alt_run_snoc hs h : alt_run (hs ++ [h]) = alt_transition (alt_run hs) h.
Proof. unfold alt_run. rewrite fold_left_app. reflexivity. Qed.

Lemma alt_run_spec hs :
  (alt_run hs <> ANominal <-> still_low 50500 51000 (map feet hs)).
Proof.
  induction hs as [|h hs IH] using rev_ind.
  - cbn. split; [congruence|]. intro H; apply still_low_nil in H; contradiction.
  - rewrite alt_run_snoc, map_app. cbn [map]. rewrite still_low_snoc, <- IH.
    rewrite alt_transition_R.
    destruct (Rlt_dec (feet h) 50000).
    { split; [|congruence]. intros _. left; lra. }
    destruct (Rlt_dec (feet h) 50500).
    { split; [|congruence]. intros _. left; lra. }
    destruct (Rlt_dec (feet h) 51000).
    { destruct (alt_run hs); cbn; split; intros; try congruence;
        try (right; split; [congruence|lra]).
      destruct H as [H|[H _]]; [lra|congruence]. }
    split; [congruence|]. intros [H|[_ H]]; lra.
Qed.

Lemma alt_get_action_rule hs h a :
  altitude_rule hs h a (snd (alt_get_action (alt_run hs) a h)).
Proof.
  unfold altitude_rule. rewrite <- alt_run_spec, alt_run_snoc.
  unfold alt_get_action. rewrite alt_transition_R.
  destruct (Rlt_dec (feet h) 50000).
  { repeat split; cbn; intros; try reflexivity; lra. }
  destruct (Rlt_dec (feet h) 50500).
  { repeat split; cbn; intros; try lra; [destruct a; reflexivity|].
    exfalso; apply H0; discriminate. }
  destruct (Rlt_dec (feet h) 51000); cycle 1.
  { repeat split; cbn; intros; try lra; congruence. }
  destruct (alt_run hs); repeat split; cbn; intros; try lra; try congruence;
    try (destruct a; reflexivity); exfalso; apply H0; discriminate.
Qed.

(* ------------------------------------------------------------------ *)
(** ** Envelope *)

Definition env_run (m : R) (sps : list R) : env_state :=
  fold_left (fun s r => env_transition m s r) sps ENominal.

Lemma env_run_snoc m hs h :
  env_run m (hs ++ [h]) = env_transition m (env_run m hs) h.
Proof. unfold env_run. rewrite fold_left_app. reflexivity. Qed.

Lemma env_transition_R m s r :
  env_transition m s r =
  if Rlt_dec r 150 then ELowCritical
  else if Rlt_dec r 250 then ELow
  else if Rlt_dec r 300 then env_low_nominal s
  else if Rlt_dec r (m - 300) then ENominal
  else if Rlt_dec r (m - 250) then env_high_nominal s
  else if Rlt_dec r (m - 150) then EHigh
  else EHighCritical.
Proof.
  unfold env_transition, CRITICAL_BUFFER, ENV_BUFFER, ENV_HYSTERESIS.
  change (250 + 50)%Z with 300%Z. numR.
  replace (m - 250 - 50) with (m - 300) by lra.
  unfold Rltb.
  repeat match goal with |- context [Rlt_dec ?p ?q] => destruct (Rlt_dec p q) end;
    reflexivity.
Qed.

(** Which band the last reading outside the gaps was in. *)
Lemma env_run_spec m hs : 600 <= m ->
  (env_run m hs = ELow \/ env_run m hs = ELowCritical <->
     still_low 250 300 hs) /\
  (env_run m hs = EHigh \/ env_run m hs = EHighCritical <->
     still_high (m - 250) (m - 300) hs).
Proof.
  intro Hm. induction hs as [|h hs IH] using rev_ind.
  - cbn. split; (split; [intros [?|?]; discriminate|]); intro H;
      [apply still_low_nil in H|apply still_high_nil in H]; contradiction.
  - rewrite env_run_snoc, still_low_snoc, still_high_snoc.
    destruct IH as [IH1 IH2]. rewrite <- IH1, <- IH2. clear IH1 IH2.
    rewrite env_transition_R.
    destruct (Rlt_dec h 150).
    { split; split; intros; auto; try (left; lra);
        try (destruct H; discriminate); destruct H as [H|[_ H]]; lra. }
    destruct (Rlt_dec h 250).
    { split; split; intros; auto; try (left; lra);
        try (destruct H; discriminate); destruct H as [H|[_ H]]; lra. }
    destruct (Rlt_dec h 300).
    { destruct (env_run m hs); cbn; split; split; intros; auto;
        try (destruct H; discriminate);
        try (destruct H as [H|[H H']]; try lra; destruct H; discriminate);
        try (right; split; [auto|lra]). }
    destruct (Rlt_dec h (m - 300)).
    { split; split; intros; try (destruct H; discriminate);
        destruct H as [H|[_ H]]; lra. }
    destruct (Rlt_dec h (m - 250)).
    { destruct (env_run m hs); cbn; split; split; intros; auto;
        try (destruct H; discriminate);
        try (destruct H as [H|[H H']]; try lra; destruct H; discriminate);
        try (right; split; [auto|lra]). }
    destruct (Rlt_dec h (m - 150)).
    { split; split; intros; auto; try (left; lra);
        try (destruct H; discriminate); destruct H as [H|[_ H]]; lra. }
    split; split; intros; auto; try (left; lra);
      try (destruct H; discriminate); destruct H as [H|[_ H]]; lra.
Qed.

Lemma env_get_action_rule m hs h a : 600 <= m ->
  envelope_rule m hs h a (snd (env_get_action m (env_run m hs) a h)).
Proof.
  intro Hm. unfold envelope_rule.
  destruct (env_run_spec m (hs ++ [h]) Hm) as [HL HH].
  rewrite <- HL, <- HH. rewrite env_run_snoc. clear HL HH.
  unfold env_get_action. rewrite env_transition_R.
  destruct (Rlt_dec h 150).
  { repeat split; cbn; intros; try reflexivity; lra. }
  destruct (Rlt_dec h 250).
  { repeat split; cbn; intros; try lra; [destruct a; reflexivity|].
    exfalso; apply H0; auto. }
  destruct (Rlt_dec h 300).
  { destruct (env_run m hs); repeat split; cbn; intros; try lra;
      try (destruct a; reflexivity);
      try (exfalso; apply H0; auto; fail);
      try (destruct H0 as [[?|?]|[?|?]]; discriminate); reflexivity. }
  destruct (Rlt_dec h (m - 300)).
  { repeat split; cbn; intros; try lra;
      try (destruct H0 as [[?|?]|[?|?]]; discriminate); reflexivity. }
  destruct (Rlt_dec h (m - 250)).
  { destruct (env_run m hs); repeat split; cbn; intros; try lra;
      try (destruct a; reflexivity);
      try (exfalso; apply H0; auto; fail);
      try (destruct H0 as [[?|?]|[?|?]]; discriminate); reflexivity. }
  destruct (Rlt_dec h (m - 150)).
  { repeat split; cbn; intros; try lra; [destruct a; reflexivity|].
    exfalso; apply H0; auto. }
  repeat split; cbn; intros; try lra; reflexivity.
Qed.

(* ------------------------------------------------------------------ *)
(** ** Power: the while loops *)

Lemma roll_days_fuel_spec fuel now v r :
  roll_days_fuel fuel now v = Some r -> next_occurrence v now r.
Proof.
  revert v; induction fuel as [|k IH]; cbn [roll_days_fuel]; intros v H;
    [discriminate|].
  destruct (Z.ltb_spec v now) as [Hlt|Hge].
  - apply IH in H. destruct H as (H1 & (j & Hj & E) & Hmin).
    unfold next_occurrence, us_per_day, day_us in *.
    split; [assumption|]. split.
    + exists (j + 1)%Z. split; [lia|]. lia.
    + intros i Hi Hn. specialize (Hmin (i - 1)%Z).
      assert (i <> 0)%Z by (intro; subst; lia). lia.
  - injection H; intros; subst. unfold next_occurrence, day_us. split; [lia|]. split.
    + exists 0%Z; lia.
    + intros; lia.
Qed.

Lemma roll_days_fuel_enough fuel now v :
  (now <= v + Z.of_nat fuel * us_per_day)%Z ->
  exists r, roll_days_fuel (S fuel) now v = Some r.
Proof.
  revert v; induction fuel as [|k IH]; intros v H.
  - cbn. destruct (Z.ltb_spec v now); [lia|]. eauto.
  - change (roll_days_fuel (S (S k)) now v) with
      (if Z.ltb v now then roll_days_fuel (S k) now (v + us_per_day)%Z else Some v).
    destruct (Z.ltb_spec v now); [|eauto].
    apply IH. unfold us_per_day in *. lia.
Qed.

(** The default of [roll_days] is never used: the Python loop terminates within
    the computed number of iterations, for any jump of the clock. *)
Lemma roll_days_never_out_of_fuel now v :
  exists r, roll_days_fuel (S (Z.to_nat ((now - v) / us_per_day + 1))) now v
            = Some r.
Proof.
  apply roll_days_fuel_enough.
  destruct (Z.le_gt_cases now v).
  - assert (0 <= Z.of_nat (Z.to_nat ((now - v) / us_per_day + 1)))%Z by lia.
    unfold us_per_day in *. lia.
  - rewrite Z2Nat.id.
    + pose proof (Z.mul_div_le (now - v) us_per_day ltac:(reflexivity)).
      pose proof (Z.mod_pos_bound (now - v) us_per_day ltac:(reflexivity)).
      pose proof (Z.div_mod (now - v) us_per_day ltac:(discriminate)).
      unfold us_per_day in *. lia.
    + pose proof (Z.div_pos (now - v) us_per_day ltac:(lia) ltac:(reflexivity)).
      lia.
Qed.

Lemma roll_days_next now v : next_occurrence v now (roll_days now v).
Proof.
  unfold roll_days. destruct (roll_days_never_out_of_fuel now v) as [r E].
  rewrite E. eapply roll_days_fuel_spec; eassumption.
Qed.

Lemma next_occurrence_fun v now a b :
  next_occurrence v now a -> next_occurrence v now b -> a = b.
Proof.
  intros (A1 & (k & Hk & Ea) & Amin) (B1 & (j & Hj & Eb) & Bmin).
  specialize (Amin j Hj). specialize (Bmin k Hk). lia.
Qed.

(** Rolling on from an already rolled value. *)
Lemma next_occurrence_trans v t1 a t2 b :
  (t1 <= t2)%Z -> next_occurrence v t1 a -> next_occurrence a t2 b ->
  next_occurrence v t2 b.
Proof.
  intros Ht (A1 & (k & Hk & Ea) & Amin) (B1 & (j & Hj & Eb) & Bmin).
  split; [assumption|]. split.
  - exists (k + j)%Z. subst a. lia.
  - intros i Hi Hn.
    destruct (Z.le_gt_cases k i) as [Hki|Hki].
    + specialize (Bmin (i - k)%Z ltac:(lia)). subst a. lia.
    + exfalso. specialize (Amin i Hi ltac:(lia)).
      unfold day_us in *. lia.
Qed.

Lemma roll_days_roll v t1 t2 :
  (t1 <= t2)%Z -> roll_days t2 (roll_days t1 v) = roll_days t2 v.
Proof.
  intro H. eapply next_occurrence_fun.
  - eapply next_occurrence_trans; [exact H| |]; apply roll_days_next.
  - apply roll_days_next.
Qed.

(* ------------------------------------------------------------------ *)
(** ** Power: the decision *)

Definition pow_step (s : pow_state) (p : power_reading) : pow_state :=
  fst (pow_get_action s DOWN (pr_now p) (pr_night_load p) (pr_charge p)
         (pr_capacity p)).

Definition pow_run (s0 : pow_state) (ps : list power_reading) : pow_state :=
  fold_left pow_step ps s0.

Lemma pow_run_snoc s0 hs h : pow_run s0 (hs ++ [h]) = pow_step (pow_run s0 hs) h.
Proof. unfold pow_run. rewrite fold_left_app. reflexivity. Qed.

Lemma is_day_roll sr ss now :
  is_day sr ss now <-> (roll_days now ss < roll_days now sr)%Z.
Proof.
  split.
  - intros (r & s & Hr & Hs & Hlt).
    rewrite (next_occurrence_fun _ _ _ _ (roll_days_next now ss) Hs).
    rewrite (next_occurrence_fun _ _ _ _ (roll_days_next now sr) Hr).
    assumption.
  - intro H. exists (roll_days now sr), (roll_days now ss).
    auto using roll_days_next.
Qed.

Lemma hours_R d : @timedelta_to_hours R Num_R d = IZR d / 1000000 / 3600.
Proof.
  unfold timedelta_to_hours, total_seconds, us_per_second. numR.
  replace (36000 / 10) with 3600 by lra. reflexivity.
Qed.

Lemma projected_roll sr p lim :
  projected_below sr p lim <->
  (pr_charge p - pr_night_load p *
     timedelta_to_hours (roll_days (pr_now p) sr - pr_now p)) / pr_capacity p
  < lim.
Proof.
  rewrite hours_R. split.
  - intros (r & Hr & H).
    rewrite (next_occurrence_fun _ _ _ _ (roll_days_next (pr_now p) sr) Hr).
    exact H.
  - intro H. exists (roll_days (pr_now p) sr). auto using roll_days_next.
Qed.

Lemma power_paused_snoc sr ss hist p :
  power_paused sr ss (hist ++ [p]) <->
  (pause_trigger sr ss p \/
   (power_paused sr ss hist /\ ~ resume_trigger sr ss p)).
Proof.
  split.
  - intros (b & q & af & E & Hq & Haf).
    destruct (exists_last (l:=q :: af)) as (af' & z & Ez); [discriminate|].
    rewrite Ez, app_assoc in E. apply app_inj_tail in E. destruct E as [E1 E2].
    subst z. destruct af' as [|q' af''].
    + cbn in Ez. injection Ez; intros; subst. left; assumption.
    + cbn in Ez. injection Ez; intros Eaf; intros; subst q' af.
      right. apply Forall_app in Haf. destruct Haf as [Haf Hr].
      split; [|inversion Hr; assumption].
      exists b, q, af''. auto.
  - intros [H|[(b & q & af & E & Hq & Haf) Hr]].
    + exists hist, p, []. auto.
    + exists b, q, (af ++ [p]). rewrite E, <- app_assoc. cbn.
      split; [reflexivity|]. split; [exact Hq|]. apply Forall_app; auto.
Qed.

Lemma power_paused_nil sr ss : ~ power_paused sr ss [].
Proof. intros (b & q & af & E & _). destruct b; discriminate. Qed.

(** Times of the readings never decrease. *)
Fixpoint monotone_from (t : Z) (ps : list power_reading) : Prop :=
  match ps with
  | [] => True
  | p :: ps' => (t <= pr_now p)%Z /\ monotone_from (pr_now p) ps'
  end.

Definition last_time (t : Z) (ps : list power_reading) : Z :=
  fold_left (fun _ p => pr_now p) ps t.

Lemma monotone_snoc t ps p :
  monotone_from t (ps ++ [p]) <->
  monotone_from t ps /\ (last_time t ps <= pr_now p)%Z.
Proof.
  revert t; induction ps as [|q ps IH]; intro t; cbn.
  - tauto.
  - rewrite IH. unfold last_time; cbn. tauto.
Qed.

Lemma last_time_snoc t ps p : last_time t (ps ++ [p]) = pr_now p.
Proof. unfold last_time. rewrite fold_left_app. reflexivity. Qed.


(** State after a history: the forecast instants are those computed directly
    from the construction-time forecast; the flag is the specified one. *)
Lemma pow_step_R s p :
  pow_step s p =
  let sr := roll_days (pr_now p) (pow_sunrise_h s) in
  let ss := roll_days (pr_now p) (pow_sunset s) in
  mkPow
    (if Z.ltb ss sr
     then pow_paused s && Rltb (pr_charge p / pr_capacity p) 0.05
     else pow_paused s ||
          Rltb ((pr_charge p - pr_night_load p *
                   timedelta_to_hours (sr - pr_now p)) / pr_capacity p) 0.025)
    sr ss.
Proof.
  unfold pow_step, pow_get_action. cbn zeta.
  replace (lit 5 100) with 0.05 by (unfold lit; cbn; lra).
  replace (lit 25 1000) with 0.025 by (unfold lit; cbn; lra).
  cbn [nltb nsub nmul ndiv Num_R].
  destruct (Z.ltb _ _).
  - destruct (pow_paused s); cbn [andb]; [|reflexivity].
    destruct (Rltb _ _); reflexivity.
  - destruct (pow_paused s); cbn [orb]; [reflexivity|].
    destruct (Rltb _ _); reflexivity.
Qed.

Lemma pow_run_spec sr ss t0 ps :
  monotone_from t0 ps ->
  let s := pow_run (mkPow false sr ss) ps in
  (pow_paused s = true <-> power_paused sr ss ps) /\
  (ps <> [] -> pow_sunrise_h s = roll_days (last_time t0 ps) sr /\
               pow_sunset s = roll_days (last_time t0 ps) ss) /\
  (ps = [] -> s = mkPow false sr ss).
Proof.
  cbn zeta. revert t0.
  induction ps as [|p ps IH] using rev_ind; intros t0 Hmono.
  - cbn. split; [split; [discriminate|]|].
    + intro H; apply power_paused_nil in H; contradiction.
    + split; [congruence|reflexivity].
  - apply monotone_snoc in Hmono. destruct Hmono as [Hmono Hlast].
    specialize (IH t0 Hmono). destruct IH as (IHp & IHr & IH0).
    rewrite pow_run_snoc, last_time_snoc, power_paused_snoc.
    set (s := pow_run (mkPow false sr ss) ps) in *.
    assert (HR : roll_days (pr_now p) (pow_sunrise_h s) = roll_days (pr_now p) sr
              /\ roll_days (pr_now p) (pow_sunset s) = roll_days (pr_now p) ss).
    { destruct ps as [|q qs].
      - rewrite (IH0 eq_refl). cbn. auto.
      - destruct (IHr ltac:(discriminate)) as [E1 E2]. rewrite E1, E2.
        split; apply roll_days_roll; assumption. }
    destruct HR as [HR1 HR2].
    rewrite pow_step_R. cbn zeta. rewrite HR1, HR2.
    cbn [pow_paused pow_sunrise_h pow_sunset].
    split; [|split; [auto|destruct ps; discriminate]].
    rewrite <- IHp.
    unfold pause_trigger, resume_trigger.
    rewrite !is_day_roll, projected_roll.
    destruct (Z.ltb_spec (roll_days (pr_now p) ss) (roll_days (pr_now p) sr)).
    + rewrite andb_true_iff, Rltb_iff.
      split.
      * intros [H1 H2]. right. split; [assumption|]. intros [_ H3]; auto.
      * intros [[H1 _]|[H1 H2]]; [contradiction|].
        split; [assumption|]. apply NNPP; intro; apply H2; auto.
    + rewrite orb_true_iff, Rltb_iff.
      split.
      * intros [H1|H1].
        -- right. split; [assumption|]. intros [? _]; lia.
        -- left. split; [lia|assumption].
      * intros [[_ H1]|[H1 _]]; auto.
Qed.

Lemma pow_get_action_snd (s : pow_state) a p :
  snd (pow_get_action s a (pr_now p) (pr_night_load p) (pr_charge p)
         (pr_capacity p)) =
  if pow_paused (pow_step s p) then no_descent a else a.
Proof.
  unfold pow_step, pow_get_action. cbn zeta.
  destruct (Z.ltb _ _).
  - destruct (pow_paused s) eqn:E; cbn [andb]; [|reflexivity].
    destruct (nltb _ _); cbn; rewrite ?E; destruct a; reflexivity.
  - destruct (pow_paused s); cbn [orb]; [destruct a; reflexivity|].
    destruct (nltb _ _); destruct a; reflexivity.
Qed.

Lemma pow_get_action_rule sr ss t0 ps p a :
  monotone_from t0 (ps ++ [p]) ->
  power_rule sr ss ps p a
    (snd (pow_get_action (pow_run (mkPow false sr ss) ps) a (pr_now p)
            (pr_night_load p) (pr_charge p) (pr_capacity p))).
Proof.
  intro H. unfold power_rule.
  destruct (pow_run_spec sr ss t0 _ H) as (Hp & _ & _).
  rewrite pow_run_snoc in Hp. rewrite <- Hp, pow_get_action_snd.
  destruct (pow_paused (pow_step _ _)); split; congruence.
Qed.
