(** Properties C45 (what the collectors report) and C46 (what they are told). *)
From Coq Require Import ZArith Reals List Bool Lia Lra String.
From Verif Require Import Model.Num Model.Agents Model.Checkpoints Model.Collectors Model.Training.
From Verif Require Import Spec.TrainingSpec.
From Verif Require Import Proofs.CollectorProofs Props.TrainingProps.
Import ListNotations.
Open Scope list_scope.
Open Scope Z_scope.

(** ** C46 *)
(** Told about a list of events, the collectors end as if each had been told on its
    own about the same events in the same order; and if one raises, so does the
    dispatcher. *)
Theorem C46_fan_out : forall evs cs cs',
  dispatched cs evs = Some cs' <-> Forall2 (fun c c' => told c evs = Some c') cs cs'.
Proof. exact dispatched_spec. Qed.

(** The first writer there is. *)
Theorem C46_summary_writer : forall cs w,
  get_summary_writer cs = Some w <->
  exists before c after, cs = before ++ c :: after /\
    Forall (fun c => summary_writer c = None) before /\ summary_writer c = Some w.
Proof.
  induction cs as [|c cs IH]; intro w; cbn [get_summary_writer].
  - split; [discriminate|]. intros (b & c & l & E & _). now destruct b.
  - destruct (summary_writer c) as [w'|] eqn:E.
    + split.
      * intro H. injection H as ->. exists [], c, cs. repeat split; [constructor|assumption].
      * intros (b & c1 & l & E1 & F & W). destruct b as [|x b]; cbn in E1; injection E1 as <- E1; [congruence|].
        inversion F; subst. congruence.
    + rewrite IH. split.
      * intros (b & c1 & l & -> & F & W). exists (c :: b), c1, l. repeat split; [constructor|]; assumption.
      * intros (b & c1 & l & E1 & F & W). destruct b as [|x b]; cbn in E1; injection E1 as <- E1; [congruence|].
        inversion F; subst. exists b, c1, l. repeat split; assumption.
Qed.

(** Over a whole training run, every collector is told about the start, every episode
    and every transition in it in the order in which they happen, and the end. *)
Theorem C46_training : forall G (A : trainable (g_obs G)) listdir base_dir num_actions num_iterations max
    render_period episodes constructors e a d tr e' a' cs' d',
  run_training_loop G A listdir base_dir num_actions num_iterations max render_period episodes
    constructors e a d = (tr, Some (e', a', cs', d')) ->
  exists a0 latest cs l,
    snd (reload_latest_checkpoint G A a d) = Some (a0, latest) /\
    let start := Z.max 0 (latest + 1) in
    make_collectors (Some base_dir) num_actions (start * episodes) constructors = Some cs /\
    training_episodes G (t_agent A) max e
      (ag_set_mode (t_agent A) (t_set_summary_writer A a0 (get_summary_writer cs)) TRAIN) l e' a' /\
    Z.of_nat (List.length l) = Z.max 0 (num_iterations - start) * Z.max 0 episodes /\
    Forall2 (fun c c' => told c (training_events max l) = Some c') cs cs'.
Proof.
  intros G A listdir bd na N max rp epi ctors e a d tr e' a' cs' d' E. unfold run_training_loop in E.
  destruct (reload_latest_checkpoint G A a d) as [tr0 [[a0 latest]|]]; [|discriminate].
  destruct (make_collectors _ _ _ _) as [cs|] eqn:Em; [|discriminate].
  destruct (dispatch cs Pre_training) as [cs1|] eqn:Ep; [|discriminate].
  destruct (run_iterations _ _ _ _ _ _ _ _ _ _ _ _) as [tr1 [[[[e2 a2] cs2] d2]|]] eqn:Ei; [|discriminate].
  destruct (dispatch cs2 End_training) as [cs3|] eqn:Ee; [|discriminate]. injection E as <- <- <- <- <-.
  apply iterations_spec in Ei. destruct Ei as (l & H & L & D).
  exists a0, latest, cs, l. split; [reflexivity|]. cbv zeta. rewrite Z.max_comm. split; [exact Em|]. split; [exact H|].
  split.
  - rewrite L, Nat2Z.inj_mul. f_equal; lia.
  - apply dispatched_spec. unfold training_events. cbn [dispatched]. rewrite Ep, dispatched_app, D. cbn. rewrite Ee. reflexivity.
Qed.

(** ** C45 *)
(** The transitions are reported to the collectors one by one; then the end. *)
Theorem C45_events : forall G (A : trainable (g_obs G)) max render_period e a cs e' a' cs',
  run_one_episode G A max render_period e a cs = Some (e', a', cs') ->
  exists ts chosen, training_episode G (t_agent A) max e a ts chosen e' a' /\
    Forall2 (fun c c' => told c (episode_events max ts chosen) = Some c') cs cs'.
Proof.
  intros G A max rp e a cs e' a' cs' E. apply episode_spec in E. destruct E as (ts & chosen & H & D).
  exists ts, chosen. split; [assumption|]. now apply dispatched_spec.
Qed.
(** The length that is reported is the number of transitions. *)
Lemma reported_length G A max e a ts chosen e' a' : 0 <= max ->
  training_episode G A max e a ts chosen e' a' ->
  (if last_terminal ts then Z.of_nat (List.length ts) else max) = Z.of_nat (List.length ts).
Proof. intros M (? & ? & ? & ? & ? & _ & _ & _ & [(-> & _)|(-> & ->)] & _); lia. Qed.

(** What the console collector reports after an episode: the reward is the sum over
    the transitions plus the last reward once more, and the shares of the actions are
    those of the actions executed and of the last action chosen. *)
Theorem C45_console : forall G A max e a ts chosen e' a' n c c',
  0 <= max -> training_episode G A max e a ts chosen e' a' ->
  Z.of_nat n = k_num_actions c -> 0 <= chosen < Z.of_nat n ->
  told (mkCollector console_class c) (episode_events max ts chosen) = Some c' ->
  exists s lines shares,
    c' = mkCollector console_class s /\ k_episode s = k_episode c + 1 /\
    Forall (fun line => exists s, line = Step_line s) lines /\
    k_log s = k_log c ++ lines ++
      [Episode_line (k_episode c) (sum (map x_reward ts) + last_reward ts) (Z.of_nat (List.length ts)) shares] /\
    List.length shares = n /\
    forall k, (k < n)%nat ->
      nth k shares 0%R = (INR (occurrences (Z.of_nat k) (map x_action ts ++ [chosen])) /
                          INR (List.length ts + 1))%R.
Proof.
  intros G A max e a ts chosen e' a' n c c' M H Hn Hc E. rewrite told_tell in E.
  destruct (tell console_class c _) as [s|] eqn:Et; [|discriminate]. injection E as <-.
  apply (console_episode n) in Et; [|assumption|assumption]. destruct Et as (He & lines & Hl & Hlog & _).
  rewrite (reported_length _ _ _ _ _ _ _ _ _ M H) in Hlog.
  exists s, lines, (CollectorProofs.shares n (map x_action ts ++ [chosen])).
  do 4 (split; [reflexivity || assumption|]). unfold CollectorProofs.shares, counted. split.
  - now rewrite !map_length, seq_length.
  - intros k Hk. rewrite map_map.
    match goal with |- nth k (map ?f _) _ = _ =>
      rewrite (nth_indep (map f (seq 0 n)) 0%R (f 0%nat)) by (now rewrite map_length, seq_length);
      rewrite (map_nth f (seq 0 n) 0%nat k) end.
    rewrite seq_nth by assumption. rewrite app_length, map_length. cbn [List.length].
    now rewrite <- !INR_IZR_INZ.
Qed.

(** What is pickled: the transitions in order, and the end of the episode. *)
Theorem C45_pickle : forall G A max e a ts chosen e' a' p c',
  0 <= max -> training_episode G A max e a ts chosen e' a' ->
  told (mkCollector pickle_class p) (episode_events max ts chosen) = Some c' ->
  exists s, c' = mkCollector pickle_class s /\ p_episode s = p_episode p + 1 /\
    (forall n l, In (n, l) (p_files s) <->
       n = p_episode p /\
         l = map (fun it => mkStatistics (Z.of_nat (fst it)) (x_action (snd it)) (x_reward (snd it)) (x_terminal (snd it)))
               (combine (seq 0 (List.length ts)) ts) ++
             [mkStatistics (Z.of_nat (List.length ts)) chosen (last_reward ts) (last_terminal ts)] \/
       n <> p_episode p /\ In (n, l) (p_files p)).
Proof.
  intros G A max e a ts chosen e' a' p c' M H E. rewrite told_tell in E.
  destruct (tell pickle_class p _) as [s|] eqn:Et; [|discriminate]. injection E as <-.
  unfold episode_events in Et. rewrite (reported_length _ _ _ _ _ _ _ _ _ M H) in Et.
  cbn [tell c_handle pickle_class pickle_handle] in Et. rewrite tell_app in Et.
  destruct (tell pickle_class _ (step_events 0 ts)) as [p1|] eqn:E1; [|discriminate].
  apply (pickle_steps ts 0 []) in E1; [|reflexivity]. subst p1. cbn in Et. injection Et as <-.
  exists (mkPickler (p_episode p + 1) (Some (flat_map (fun ev => match ev with Step s => [s] | _ => [] end) (step_events 0 ts) ++
    [mkStatistics (Z.of_nat (List.length ts)) chosen (last_reward ts) (last_terminal ts)]))
    ((p_episode p, flat_map (fun ev => match ev with Step s => [s] | _ => [] end) (step_events 0 ts) ++
    [mkStatistics (Z.of_nat (List.length ts)) chosen (last_reward ts) (last_terminal ts)]) ::
    filter (fun f => negb (fst f =? p_episode p)) (p_files p))).
  split; [reflexivity|]. split; [reflexivity|]. cbn [p_files].
  assert (Q : flat_map (fun ev => match ev with Step s => [s] | _ => [] end) (step_events 0 ts) =
     map (fun it => mkStatistics (Z.of_nat (fst it)) (x_action (snd it)) (x_reward (snd it)) (x_terminal (snd it)))
               (combine (seq 0 (List.length ts)) ts)).
  { clear. change 0 with (Z.of_nat 0). generalize 0%nat. induction ts as [|t ts IH]; intro i; [reflexivity|].
    cbn [step_events flat_map List.length seq combine map fst snd app]. f_equal.
    rewrite <- IH. do 2 f_equal. lia. }
  rewrite Q. intros n l. cbn [In]. rewrite filter_In. cbn [fst]. split.
  - intros [E|[I E]]; [injection E as <- <-; now left|]. right. split; [|assumption].
    apply negb_true_iff, Z.eqb_neq in E. assumption.
  - intros [[-> ->]|[N I]]; [now left|]. right. split; [assumption|]. now apply negb_true_iff, Z.eqb_neq.
Qed.

(** What goes to tensorboard. *)
Theorem C45_tensorboard : forall G A max e a ts chosen e' a' b c',
  0 <= max -> training_episode G A max e a ts chosen e' a' ->
  told (mkCollector board_class b) (episode_events max ts chosen) = Some c' ->
  exists s fine g,
    c' = mkCollector board_class s /\ b_episode s = b_episode b + 1 /\
    b_scalars s = b_scalars b ++ fine ++
      [(Episode_reward, (sum (map x_reward ts) + last_reward ts)%R, b_episode b);
       (Episode_length, INR (List.length ts), b_episode b)] /\
    Forall (fun s => fst (fst s) = Fine_grained_reward) fine /\
    b_global_step b = Some g /\ b_global_step s = Some (g + Z.of_nat (List.length ts) + 1).
Proof.
  intros G A max e a ts chosen e' a' b c' M H E. rewrite told_tell in E.
  destruct (tell board_class b _) as [s|] eqn:Et; [|discriminate]. injection E as <-.
  unfold episode_events in Et. rewrite (reported_length _ _ _ _ _ _ _ _ _ M H) in Et.
  cbn [tell c_handle board_class board_handle] in Et. rewrite tell_app in Et.
  destruct (tell board_class _ (step_events 0 ts)) as [b1|] eqn:E1; [|discriminate].
  destruct (b_global_step b) as [g|] eqn:Eg.
  - eapply board_steps in E1; [|reflexivity|reflexivity]. cbn [b_episode b_scalars b_fine] in E1.
    destruct E1 as (C1 & C2 & C3 & C4 & sc & C5 & C6).
    cbn [tell c_handle board_class board_handle] in Et. rewrite C1, C2 in Et. cbn [st_reward st_step] in Et.
    injection Et as <-.
    exists (mkBoard (b_episode b1 + 1) (b_fine b1) (b_frequency b1) (b_writer b1) (Some (g + Z.of_nat (List.length ts) + 1))
      (Some (0 + sum (map x_reward ts) + last_reward ts)%R)
      ((if b_fine b1 then b_scalars b1 ++ [(Fine_grained_reward, last_reward ts, g + Z.of_nat (List.length ts))] else b_scalars b1) ++
        [(Episode_reward, (0 + sum (map x_reward ts) + last_reward ts)%R, b_episode b1); (Episode_length, IZR (Z.of_nat (List.length ts)), b_episode b1)])).
    exists (sc ++ (if b_fine b1 then [(Fine_grained_reward, last_reward ts, g + Z.of_nat (List.length ts))] else [])), g.
    split; [reflexivity|]. cbn [b_episode b_scalars b_global_step]. rewrite C3. split; [reflexivity|]. split; [|split; [|split; reflexivity]].
    + rewrite C5, Rplus_0_l, <- INR_IZR_INZ. destruct (b_fine b1); rewrite ?app_nil_r, <- ?app_assoc; reflexivity.
    + apply Forall_app. split; [assumption|]. destruct (b_fine b1); repeat constructor.
  - exfalso. destruct ts as [|t ts]; cbn in E1; [injection E1 as <-; cbn in Et|]; discriminate.
Qed.

(** The reward reported should be the sum over the transitions; it is not, unless the
    last reward is 0; and the action the agent chose when the time was over counts
    although it was never executed. *)
Theorem C45_counted_once_refuted : forall G A max e a ts chosen e' a' n c c' b b',
  0 <= max -> training_episode G A max e a ts chosen e' a' -> last_reward ts <> 0%R ->
  Z.of_nat n = k_num_actions c -> 0 <= chosen < Z.of_nat n ->
  told (mkCollector console_class c) (episode_events max ts chosen) = Some c' ->
  told (mkCollector board_class b) (episode_events max ts chosen) = Some b' ->
  (exists s lines reward shares, c' = mkCollector console_class s /\
     k_log s = k_log c ++ lines ++ [Episode_line (k_episode c) reward (Z.of_nat (List.length ts)) shares] /\
     reward <> sum (map x_reward ts)) /\
  (exists s fine reward, b' = mkCollector board_class s /\
     b_scalars s = b_scalars b ++ fine ++
       [(Episode_reward, reward, b_episode b); (Episode_length, INR (List.length ts), b_episode b)] /\
     reward <> sum (map x_reward ts)).
Proof.
  intros G A max e a ts chosen e' a' n c c' b b' M H L Hn Hc E E'. split.
  - destruct (C45_console G A max e a ts chosen e' a' n c _ M H Hn Hc E) as (s & lines & sh & Es & _ & _ & Lg & _).
    exists s, lines, (sum (map x_reward ts) + last_reward ts)%R, sh. split; [exact Es|]. split; [exact Lg|]. intro Q. apply L. lra.
  - destruct (C45_tensorboard G A max e a ts chosen e' a' b _ M H E') as (s & fine & g & Es & _ & Sc & _).
    exists s, fine, (sum (map x_reward ts) + last_reward ts)%R. split; [exact Es|]. split; [exact Sc|]. intro Q. apply L. lra.
Qed.
Theorem C45_never_executed_refuted : forall G A max e a ts chosen e' a' n c c',
  0 <= max -> training_episode G A max e a ts chosen e' a' ->
  Z.of_nat n = k_num_actions c -> 0 <= chosen < Z.of_nat n -> ~ In chosen (map x_action ts) ->
  told (mkCollector console_class c) (episode_events max ts chosen) = Some c' ->
  exists s lines reward shares,
    c' = mkCollector console_class s /\
    k_log s = k_log c ++ lines ++ [Episode_line (k_episode c) reward (Z.of_nat (List.length ts)) shares] /\
    nth (Z.to_nat chosen) shares 0%R = (1 / INR (List.length ts + 1))%R.
Proof.
  intros G A max e a ts chosen e' a' n c c' M H Hn Hc N E.
  destruct (C45_console G A max e a ts chosen e' a' n c c' M H Hn Hc E) as (s & lines & shares & -> & _ & _ & L & _ & S).
  exists s, lines, (sum (map x_reward ts) + last_reward ts)%R, shares. split; [reflexivity|]. split; [assumption|].
  rewrite S by lia. rewrite Z2Nat.id by lia. unfold occurrences. rewrite count_occ_app.
  apply (count_occ_not_In Z.eq_dec) in N. rewrite N. cbn [count_occ]. destruct (Z.eq_dec chosen chosen); [reflexivity|congruence].
Qed.

(** Four transitions of the small environment, with the rewards 1: action 1 first, then
    action 0; the fifth choice, 0, is counted too, and the reward is 5. *)
Example C45_witness :
  exists e' a' cs',
    run_one_episode tiny_env tiny 4 10 tt 0
      [mkCollector console_class (mkConsole 3 7 false false 1 None 0 [] false [])] = Some (e', a', cs') /\
    exists s, cs' = [mkCollector console_class s] /\
      k_log s = [Episode_line 7 (0 + 1 + 1 + 1 + 1 + 1) 4 [(4 / 5)%R; (1 / 5)%R; (0 / 5)%R]].
Proof.
  do 3 eexists. split; [cbv -[Rplus Rdiv IZR]; reflexivity|]. eexists. split; [reflexivity|].
  cbv -[Rplus Rdiv IZR]. reflexivity.
Qed.

(** ** C66 *)
(** What an earlier process has pickled is not touched by a later one, whatever
    happens in it. *)
Theorem C66_pickles_kept : forall evs p c',
  told (mkCollector pickle_class p) evs = Some c' ->
  exists s, c' = mkCollector pickle_class s /\ p_episode p <= p_episode s /\
    forall n l, n < p_episode p -> In (n, l) (p_files s) <-> In (n, l) (p_files p).
Proof.
  intros evs p c' E. rewrite told_tell in E. destruct (tell pickle_class p evs) as [s|] eqn:Et; [|discriminate].
  injection E as <-. exists s. split; [reflexivity|].
  revert p Et. induction evs as [|ev evs IH]; intros p Et.
  - cbn in Et. injection Et as <-. split; [lia|reflexivity].
  - cbn [tell c_handle pickle_class] in Et. destruct (pickle_handle p ev) as [p1|] eqn:E1; [|discriminate].
    destruct (IH p1 Et) as [I1 I2]. clear IH Et.
    assert (K : p_episode p <= p_episode p1 /\ forall n l, n < p_episode p -> In (n, l) (p_files p1) <-> In (n, l) (p_files p)).
    { destruct ev; cbn in E1.
      - injection E1 as <-. split; [lia|reflexivity].
      - injection E1 as <-. split; [cbn; lia|reflexivity].
      - destruct (p_statistics p); [|discriminate]. injection E1 as <-. split; [cbn; lia|reflexivity].
      - destruct (p_statistics p); [|discriminate]. injection E1 as <-. split; [cbn; lia|]. intros n l' H. cbn [p_files In].
        rewrite filter_In. cbn [fst]. split.
        + intros [Q|[I _]]; [injection Q as <- _; lia|assumption].
        + intro I. right. split; [assumption|]. apply negb_true_iff, Z.eqb_neq. lia.
      - injection E1 as <-. split; [lia|reflexivity]. }
    destruct K as [K1 K2]. split; [lia|]. intros n l H. rewrite I2 by lia. now apply K2.
Qed.
(** The console's log file should keep what earlier processes wrote; it is emptied.
    And the steps on tensorboard start again at 0. *)
Theorem C66_console_log_refuted : forall c c',
  k_to_file c = true -> told (mkCollector console_class c) [Pre_training] = Some c' ->
  exists s, c' = mkCollector console_class s /\ k_file s = [].
Proof.
  intros c c' F E. cbn in E. unfold handle in E. cbn in E. rewrite F in E. injection E as <-.
  eexists. split; reflexivity.
Qed.
Theorem C66_tensorboard_steps_refuted : forall b c',
  told (mkCollector board_class b) [Pre_training] = Some c' ->
  exists s, c' = mkCollector board_class s /\ b_global_step s = Some 0.
Proof. intros b c' E. cbn in E. injection E as <-. eexists. split; reflexivity. Qed.

(** Which collectors a list of names makes: one per known name, in order, each
    starting at the given episode; names that are not known are ignored.  The
    console writes to a file exactly if asked to and given a directory; the other two
    need a directory. *)
Theorem C46_named_collectors : forall fine frequency save old files fine' frequency'
    base_dir num_actions episode names,
  let known := List.filter (fun name => (name =? "console") || (name =? "pickle") || (name =? "tensorboard"))%string names in
  let made := make_collectors base_dir num_actions episode
    (get_collector_data (make_console fine frequency save old) (make_pickle files)
       (make_board fine' frequency') names) in
  (made = None <-> base_dir = None /\ (In "pickle"%string names \/ In "tensorboard"%string names)) /\
  (forall cs, made = Some cs -> Forall2 (fun name c =>
    (name = "console"%string /\ exists k, c = mkCollector console_class k /\
       k_num_actions k = num_actions /\ k_episode k = episode /\ k_log k = [] /\ k_file k = old /\
       k_fine k = fine /\ k_frequency k = frequency /\
       (k_to_file k = true <-> save = true /\ base_dir <> None)) \/
    (name = "pickle"%string /\ base_dir <> None /\
       c = mkCollector pickle_class (mkPickler episode None files)) \/
    (name = "tensorboard"%string /\ exists dir b, base_dir = Some dir /\
       c = mkCollector board_class b /\ b_episode b = episode /\ b_scalars b = [] /\
       b_fine b = fine' /\ b_frequency b = frequency' /\
       summary_writer c = Some (dir ++ "/metrics/tensorboard")%string)) known cs).
Proof.
  intros fine frequency save old files fine' frequency' base_dir n ep names.
  induction names as [|name names IH].
  - cbn. split; [split; [discriminate|intros [_ [[]|[]]]]|]. intros cs [= <-]. constructor.
  - cbv zeta in IH |- *. unfold get_collector_data in *. cbn [flat_map List.filter].
    destruct IH as [IH1 IH2].
    set (made := make_collectors base_dir n ep (flat_map _ names)) in *.
    set (known := List.filter _ names) in *.
    destruct (String.eqb_spec name "console") as [->|N1].
    { cbn [orb app make_collectors make_console].
      fold made. split.
      - destruct made.
        + split; [discriminate|]. intros (B & [C|C]); cbn in C;
            (destruct C as [C|C]; [discriminate|]); assert (X : Some l = None) by (apply IH1; auto); discriminate.
        + split; [|reflexivity]. intros _. destruct (proj1 IH1 eq_refl) as (B & C).
          split; [exact B|]. destruct C; [left|right]; right; assumption.
      - intros cs. destruct made as [cs'|]; [|discriminate]. intros [= <-].
        constructor; [|apply IH2; reflexivity].
        left. split; [reflexivity|]. eexists. split; [reflexivity|]. cbn.
        repeat split; try reflexivity; destruct base_dir, save; try discriminate; try tauto;
          intros [? ?]; congruence. }
    destruct (String.eqb_spec name "pickle") as [->|N2].
    { cbn [orb app make_collectors make_pickle]. fold made. destruct base_dir as [dir|].
      - cbv iota. split.
        + destruct made.
          * split; [discriminate|]. intros (B & _); discriminate.
          * split; [|reflexivity]. intros _. destruct (proj1 IH1 eq_refl) as (B & _); discriminate.
        + intros cs. destruct made as [cs'|]; [|discriminate]. intros [= <-].
          constructor; [|apply IH2; reflexivity]. right; left. repeat split. discriminate.
      - split; [|discriminate]. split; [|reflexivity]. intros _. split; [reflexivity|]. left; left; reflexivity. }
    destruct (String.eqb_spec name "tensorboard") as [->|N3].
    { cbn [orb app make_collectors make_board]. fold made. destruct base_dir as [dir|].
      - cbv iota. split.
        + destruct made.
          * split; [discriminate|]. intros (B & _); discriminate.
          * split; [|reflexivity]. intros _. destruct (proj1 IH1 eq_refl) as (B & _); discriminate.
        + intros cs. destruct made as [cs'|]; [|discriminate]. intros [= <-].
          constructor; [|apply IH2; reflexivity]. right; right. split; [reflexivity|].
          exists dir. eexists. split; [reflexivity|]. split; [reflexivity|]. repeat split.
      - split; [|discriminate]. split; [|reflexivity]. intros _. split; [reflexivity|]. right; left; reflexivity. }
    cbn [orb app]. fold made. split; [|exact IH2]. rewrite IH1. cbn [In].
    split; intros (B & C); (split; [exact B|]); intuition congruence.
Qed.
Example C46_witness_names : exists cs,
  make_collectors (Some "/tmp/run"%string) 3 7
    (get_collector_data (make_console false 1 true []) (make_pickle []) (make_board false 1)
       ["console"%string; "unknown"%string; "tensorboard"%string]) = Some cs /\ List.length cs = 2%nat.
Proof. eexists. split; reflexivity. Qed.
Print Assumptions C46_named_collectors.
Print Assumptions C46_fan_out.
Print Assumptions C46_summary_writer.
Print Assumptions C46_training.
Print Assumptions C45_events.
Print Assumptions C45_console.
Print Assumptions C45_pickle.
Print Assumptions C45_tensorboard.
Print Assumptions C45_counted_once_refuted.
Print Assumptions C45_never_executed_refuted.
Print Assumptions C66_pickles_kept.
Print Assumptions C66_console_log_refuted.
Print Assumptions C66_tensorboard_steps_refuted.
