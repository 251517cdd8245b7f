(** The events of training, and what the collectors make of them. *)
From Coq Require Import ZArith Reals List Bool Lia Lra String.
From Verif Require Import Model.Num Model.Agents Model.Checkpoints Model.Collectors Model.Training.
From Verif Require Import Spec.TrainingSpec.
Import ListNotations.
Open Scope list_scope.
Open Scope Z_scope.

(** ** Dispatching *)
Lemma dispatch_spec cs ev : forall cs', dispatch cs ev = Some cs' <->
  Forall2 (fun c c' => handle c ev = Some c') cs cs'.
Proof.
  induction cs as [|c cs IH]; intro cs'; cbn [dispatch].
  - split; [intro E; injection E as <-; constructor|]. intro H. inversion H. reflexivity.
  - destruct (handle c ev) as [c1|] eqn:E; [destruct (dispatch cs ev) as [cs1|] eqn:E1|].
    + split; [intro H; injection H as <-; constructor; [assumption|now apply IH]|].
      intro H. inversion H as [|? c2 ? l2 H1 H2]; subst. apply IH in H2. congruence.
    + split; [discriminate|]. intro H. inversion H as [|? c2 ? l2 H1 H2]; subst. apply IH in H2. congruence.
    + split; [discriminate|]. intro H. inversion H; subst; congruence.
Qed.
Lemma dispatched_spec evs : forall cs cs', dispatched cs evs = Some cs' <->
  Forall2 (fun c c' => told c evs = Some c') cs cs'.
Proof.
  induction evs as [|ev evs IH]; intros cs cs'; cbn [dispatched told].
  - split.
    + intro E. injection E as <-. induction cs; constructor; auto.
    + intro H. f_equal. induction H as [|c c' l l' E _ IH]; [reflexivity|]. injection E as ->. now f_equal.
  - destruct (dispatch cs ev) as [cs1|] eqn:E.
    + apply dispatch_spec in E. rewrite IH. clear IH. revert cs'. induction E as [|c c1 l l1 E _ IH]; intro cs'.
      * split; intro H; inversion H; constructor.
      * split; intro H; inversion H as [|? c2 ? l2 H1 H2]; subst; constructor; try (now apply IH).
        -- now rewrite E.
        -- now rewrite E in H1.
    + split; [discriminate|]. intro H. exfalso.
      assert (exists cs1, dispatch cs ev = Some cs1) as (cs1 & E1); [|congruence].
      clear E IH. induction H as [|c c' l l' E _ (cs1 & IH)]; [exists []; reflexivity|]. cbn [dispatch].
      destruct (handle c ev); [|discriminate]. rewrite IH. eauto.
Qed.
Lemma dispatched_app evs evs' cs : dispatched cs (evs ++ evs') =
  match dispatched cs evs with Some cs => dispatched cs evs' | None => None end.
Proof.
  revert cs. induction evs as [|ev evs IH]; intro cs; [reflexivity|]. cbn [app dispatched].
  destruct (dispatch cs ev); [apply IH|reflexivity].
Qed.

(** ** The loop *)
Lemma last_cons {B} (x : B) l d : last (x :: l) d = last l x.
Proof.
  revert x d. induction l as [|y l IH]; intros x d; [reflexivity|].
  change (last (y :: l) d = last (y :: l) x). now rewrite !IH.
Qed.

Section Loop.
Context (G : gym_env) (A : trainable (g_obs G)).

Lemma loop_spec max rp n : forall i e a cs action r0 e' a' cs' action' r' terminal final,
  episode_loop G A n i max rp e a cs action r0 false = Some (e', a', cs', (action', r', terminal, final)) ->
  exists ts, transitions G (t_agent A) e a action ts e' a' action' /\
    dispatched cs (step_events i ts) = Some cs' /\
    r' = last (map x_reward ts) r0 /\ terminal = last (map x_terminal ts) false /\
    ((terminal = true /\ (List.length ts <= n)%nat /\ final = i + Z.of_nat (List.length ts)) \/
     (terminal = false /\ List.length ts = n /\ final = max)).
Proof.
  induction n as [|n IH]; intros i e a cs action r0 e' a' cs' action' r' terminal final E; cbn [episode_loop] in E.
  - injection E as <- <- <- <- <- <- <-. exists []. split; [constructor|]. do 3 (split; [reflexivity|]). right. auto.
  - destruct (g_step G e action) as [[e1 [[[o r] term] inf]]|] eqn:Es; [|discriminate].
    destruct (rp =? 0); [discriminate|].
    destruct (dispatch cs _) as [cs1|] eqn:Ed; [|discriminate]. destruct term.
    + injection E as <- <- <- <- <- <- <-. exists [mkTransition action r true]. split; [econstructor; eassumption|].
      split; [cbn; rewrite Ed; reflexivity|]. split; [reflexivity|]. split; [reflexivity|]. left. cbn. split; [reflexivity|]. lia.
    + destruct (ag_step (t_agent A) a r o) as [[a1 action1]|] eqn:Ea; [|discriminate].
      apply IH in E. destruct E as (ts & T & D & R & Tm & C). exists (mkTransition action r false :: ts).
      split; [econstructor; eassumption|]. split; [cbn; rewrite Ed; exact D|].
      cbn [map]. rewrite !last_cons. split; [assumption|]. split; [exact Tm|]. cbn [List.length].
      destruct C as [(C1 & C2 & C3)|(C1 & C2 & C3)]; [left|right]; repeat split; try assumption; lia.
Qed.

Lemma episode_spec max rp e a cs e' a' cs' :
  run_one_episode G A max rp e a cs = Some (e', a', cs') ->
  exists ts chosen, training_episode G (t_agent A) max e a ts chosen e' a' /\
    dispatched cs (episode_events max ts chosen) = Some cs'.
Proof.
  unfold run_one_episode. intro E.
  destruct (dispatch cs Begin_episode) as [cs1|] eqn:Eb; [|discriminate].
  destruct (g_reset G e) as [[e1 o]|] eqn:Er; [|discriminate].
  destruct (ag_begin_episode _ a o) as [[a1 action]|] eqn:Ea; [|discriminate].
  destruct (episode_loop _ _ _ _ _ _ _ _ _ _ _ _) as [[[[e2 a2] cs2] [[[action2 r] term] final]]|] eqn:El; [|discriminate].
  destruct (ag_end_episode _ a2 r term) as [a3|] eqn:Ee; [|discriminate].
  destruct (dispatch cs2 _) as [cs3|] eqn:Ed; [|discriminate]. injection E as <- <- <-.
  apply loop_spec in El. destruct El as (ts & T & D & R & Tm & C). exists ts, action2. split.
  - exists e1, o, a1, action, a2. split; [assumption|]. split; [assumption|]. split; [assumption|].
    unfold last_reward, last_terminal. rewrite <- Tm, <- R. split; [|assumption].
    destruct C as [(C1 & C2 & _)|(C1 & C2 & _)]; [left|right]; (split; [assumption|]); [|lia].
    destruct ts as [|t0 ts0]; [rewrite C1 in Tm; discriminate|]. cbn [List.length] in *. lia.
  - unfold episode_events. cbn [dispatched]. rewrite Eb, dispatched_app, D. cbn [dispatched].
    unfold last_terminal, last_reward. rewrite <- Tm, <- R.
    destruct C as [(-> & _ & ->)|(-> & _ & ->)]; try rewrite Z.add_0_l in Ed; rewrite Ed; reflexivity.
Qed.

Lemma training_episodes_app max e a l e1 a1 l' e2 a2 :
  training_episodes G (t_agent A) max e a l e1 a1 -> training_episodes G (t_agent A) max e1 a1 l' e2 a2 ->
  training_episodes G (t_agent A) max e a (l ++ l') e2 a2.
Proof. induction 1; intro H'; [exact H'|]. cbn. econstructor; eauto. Qed.

Lemma episodes_spec max rp n : forall e a cs e' a' cs',
  run_episodes G A n max rp e a cs = Some (e', a', cs') ->
  exists l, training_episodes G (t_agent A) max e a l e' a' /\ List.length l = n /\
    dispatched cs (flat_map (fun p => episode_events max (fst p) (snd p)) l) = Some cs'.
Proof.
  induction n as [|n IH]; intros e a cs e' a' cs' E; cbn [run_episodes] in E.
  - injection E as <- <- <-. exists []. repeat split; constructor.
  - destruct (run_one_episode _ _ _ _ _ _ _) as [[[e1 a1] cs1]|] eqn:E1; [|discriminate].
    apply episode_spec in E1. destruct E1 as (ts & chosen & H1 & D1).
    apply IH in E. destruct E as (l & H & L & D). exists ((ts, chosen) :: l).
    split; [econstructor; eassumption|]. split; [cbn; now f_equal|]. cbn [flat_map fst snd].
    rewrite dispatched_app, D1. exact D.
Qed.

Context (listdir : directory (t_bundle_type A) -> list string).
Lemma iterations_spec epi max rp n : forall k e a cs d tr e' a' cs' d',
  run_iterations G A listdir n k epi max rp e a cs d = (tr, Some (e', a', cs', d')) ->
  exists l, training_episodes G (t_agent A) max e a l e' a' /\ List.length l = (n * Z.to_nat epi)%nat /\
    dispatched cs (flat_map (fun p => episode_events max (fst p) (snd p)) l) = Some cs'.
Proof.
  induction n as [|n IH]; intros k e a cs d tr e' a' cs' d' E; cbn [run_iterations] in E.
  - injection E as <- <- <- <- <-. exists []. repeat split; constructor.
  - destruct (run_episodes _ _ _ _ _ _ _ _) as [[[e1 a1] cs1]|] eqn:E1; [|discriminate].
    destruct (save_checkpoint _ _ _ _ _ _) as [tr1 ok]. destruct ok; [|discriminate].
    destruct (run_iterations _ _ _ _ _ _ _ _ _ _ _ _) as [tr2 res] eqn:E2. injection E as <- ->.
    apply episodes_spec in E1. destruct E1 as (l1 & H1 & L1 & D1).
    apply IH in E2. destruct E2 as (l2 & H2 & L2 & D2). exists (l1 ++ l2).
    split; [eapply training_episodes_app; eassumption|]. split; [rewrite app_length; lia|].
    rewrite flat_map_app, dispatched_app, D1. exact D2.
Qed.
End Loop.

(** ** Counting *)
Definition counted (n : nat) (acts : list Z) : list Z :=
  map (fun k => Z.of_nat (occurrences (Z.of_nat k) acts)) (seq 0 n).
Lemma increment_seq f n : forall s i, (i < n)%nat -> increment (map f (seq s n)) i =
  Some (map (fun k => f k + if (k =? s + i)%nat then 1 else 0) (seq s n)).
Proof.
  induction n as [|n IH]; intros s i H; [lia|]. cbn [seq map increment]. destruct i as [|i].
  - f_equal. f_equal; [rewrite Nat.add_0_r, Nat.eqb_refl; reflexivity|].
    apply map_ext_in. intros k I. apply in_seq in I. destruct (Nat.eqb_spec k (s + 0)); lia.
  - rewrite IH by lia. f_equal. f_equal; [destruct (Nat.eqb_spec s (s + S i)); lia|].
    apply map_ext. intro k. replace (S s + i)%nat with (s + S i)%nat by lia. reflexivity.
Qed.
Lemma add_counted n acts a : 0 <= a < Z.of_nat n -> add_at (counted n acts) a = Some (counted n (acts ++ [a])).
Proof.
  intro H. unfold add_at, counted. rewrite map_length, seq_length.
  destruct (Z.leb_spec (- Z.of_nat n) a); [|lia]. destruct (Z.ltb_spec a (Z.of_nat n)); [|lia].
  destruct (Z.ltb_spec a 0); [lia|]. cbn [andb]. rewrite increment_seq by lia. f_equal. apply map_ext. intro k.
  unfold occurrences. rewrite count_occ_app. cbn [count_occ].
  destruct (Nat.eqb_spec k (0 + Z.to_nat a)), (Z.eq_dec a (Z.of_nat k)); lia.
Qed.
Lemma sum_indicator n a : forall s, fold_right Z.add 0 (map (fun k => if Z.eq_dec a (Z.of_nat k) then 1 else 0) (seq s n)) =
  if ((Z.of_nat s <=? a) && (a <? Z.of_nat (s + n)))%Z then 1 else 0.
Proof.
  induction n as [|n IH]; intro s; cbn [seq map fold_right].
  - destruct (Z.leb_spec (Z.of_nat s) a), (Z.ltb_spec a (Z.of_nat (s + 0))); cbn; lia.
  - rewrite IH. destruct (Z.eq_dec a (Z.of_nat s)), (Z.leb_spec (Z.of_nat s) a), (Z.leb_spec (Z.of_nat (S s)) a),
      (Z.ltb_spec a (Z.of_nat (S s + n))), (Z.ltb_spec a (Z.of_nat (s + S n))); cbn; lia.
Qed.
Lemma sum_counted n acts : Forall (fun a => 0 <= a < Z.of_nat n) acts ->
  fold_right Z.add 0 (counted n acts) = Z.of_nat (List.length acts).
Proof.
  induction 1 as [|a acts H _ IH].
  - unfold counted. cbn. generalize 0%nat. induction n as [|n IH]; intro s; [reflexivity|]. cbn. apply IH.
  - assert (E : forall l, fold_right Z.add 0 (map (fun k => Z.of_nat (occurrences (Z.of_nat k) (a :: acts))) l) =
       fold_right Z.add 0 (map (fun k => if Z.eq_dec a (Z.of_nat k) then 1 else 0) l) +
       fold_right Z.add 0 (map (fun k => Z.of_nat (occurrences (Z.of_nat k) acts)) l)).
    { induction l as [|k l IHl]; [reflexivity|]. cbn [map fold_right]. rewrite IHl. unfold occurrences. cbn [count_occ].
      destruct (Z.eq_dec a (Z.of_nat k)); lia. }
    unfold counted in *. rewrite E, IH, sum_indicator. cbn [List.length].
    destruct (Z.leb_spec (Z.of_nat 0) a), (Z.ltb_spec a (Z.of_nat (0 + n))); cbn [andb]; lia.
Qed.

(** ** The three collectors *)
Fixpoint tell (K : collector_class) (s : c_state K) (evs : list event) : option (c_state K) :=
  match evs with
  | [] => Some s
  | ev :: evs => match c_handle K s ev with Some s => tell K s evs | None => None end
  end.
Lemma told_tell K evs : forall s, told (mkCollector K s) evs =
  match tell K s evs with Some s => Some (mkCollector K s) | None => None end.
Proof.
  induction evs as [|ev evs IH]; intro s; [reflexivity|]. cbn [told tell]. unfold handle. cbn [c_class c_value].
  destruct (c_handle K s ev); [apply IH|reflexivity].
Qed.
Lemma tell_app K evs evs' : forall s, tell K s (evs ++ evs') =
  match tell K s evs with Some s => tell K s evs' | None => None end.
Proof.
  induction evs as [|ev evs IH]; intro s; [reflexivity|]. cbn [app tell]. destruct (c_handle K s ev); [apply IH|reflexivity].
Qed.

Definition is_step_line (l : console_line) : Prop := exists s, l = Step_line s.
Lemma put_line_spec c line c' : put_line c line = Some c' ->
  k_log c' = k_log c ++ [line] /\ k_file c' = (if k_to_file c then k_file c ++ [line] else k_file c) /\
  k_counts c' = k_counts c /\ k_reward c' = k_reward c /\ k_episode c' = k_episode c /\
  k_num_actions c' = k_num_actions c /\ k_to_file c' = k_to_file c /\
  (k_to_file c = true -> k_open c = true) /\ k_open c' = k_open c.
Proof.
  unfold put_line. cbn. destruct (k_to_file c); [destruct (k_open c); [|discriminate]|];
    intro E; injection E as <-; cbn; repeat split; auto; discriminate.
Qed.
Lemma console_steps n ts : forall i acts c c',
  k_counts c = Some (counted n acts) -> Z.of_nat n = k_num_actions c ->
  tell console_class c (step_events i ts) = Some c' ->
  Forall (fun t => 0 <= x_action t < Z.of_nat n) ts /\
  k_counts c' = Some (counted n (acts ++ map x_action ts)) /\
  k_reward c' = (k_reward c + sum (map x_reward ts))%R /\
  k_episode c' = k_episode c /\ k_num_actions c' = k_num_actions c /\ k_to_file c' = k_to_file c /\
  exists lines, Forall is_step_line lines /\ k_log c' = k_log c ++ lines /\
    k_file c' = (if k_to_file c then k_file c ++ lines else k_file c).
Proof.
  induction ts as [|t ts IH]; intros i acts c c' Hc Hn E.
  - cbn in E. injection E as <-. cbn [map]. rewrite app_nil_r. split; [constructor|]. split; [assumption|].
    split; [unfold sum; cbn; ring|]. do 3 (split; [reflexivity|]). exists []. split; [constructor|].
    rewrite !app_nil_r. split; [reflexivity|]. now destruct (k_to_file c).
  - cbn [step_events tell] in E. destruct (c_handle console_class c _) as [c1|] eqn:E1; [|discriminate].
    cbn [c_handle console_class] in E1. unfold console_handle in E1. rewrite Hc in E1. cbn [st_action st_reward] in E1.
    destruct (Z.ltb_spec (x_action t) 0) as [|A1]; [discriminate|].
    destruct (Z.leb_spec (k_num_actions c) (x_action t)) as [|A2]; [discriminate|]. cbn [orb] in E1.
    rewrite add_counted in E1 by lia. cbv zeta in E1.
    set (c0 := with_counts c (counted n (acts ++ [x_action t])) (k_reward c + x_reward t)) in *.
    assert (H1 : k_counts c1 = k_counts c0 /\ k_reward c1 = k_reward c0 /\ k_episode c1 = k_episode c0 /\
       k_num_actions c1 = k_num_actions c0 /\ k_to_file c1 = k_to_file c0 /\
       exists lines, Forall is_step_line lines /\ k_log c1 = k_log c0 ++ lines /\
         k_file c1 = (if k_to_file c0 then k_file c0 ++ lines else k_file c0)).
    { assert (Same : Some c0 = Some c1 -> k_counts c1 = k_counts c0 /\ k_reward c1 = k_reward c0 /\ k_episode c1 = k_episode c0 /\
       k_num_actions c1 = k_num_actions c0 /\ k_to_file c1 = k_to_file c0 /\
       exists lines, Forall is_step_line lines /\ k_log c1 = k_log c0 ++ lines /\
         k_file c1 = (if k_to_file c0 then k_file c0 ++ lines else k_file c0)).
      { intro Q. injection Q as <-. do 5 (split; [reflexivity|]). exists []. split; [constructor|].
        rewrite !app_nil_r. split; [reflexivity|]. now destruct (k_to_file c0). }
      destruct (k_fine c0); [|exact (Same E1)]. destruct (k_frequency c0 =? 0); [discriminate|].
      destruct (_ =? 0); [|exact (Same E1)]. apply put_line_spec in E1. destruct E1 as (B1 & B2 & B3 & B4 & B5 & B6 & B7 & _).
      do 5 (split; [assumption|]). exists [Step_line (mkStatistics i (x_action t) (x_reward t) (x_terminal t))].
      split; [constructor; [eexists; reflexivity|constructor]|]. split; assumption. }
    destruct H1 as (B1 & B2 & B3 & B4 & B5 & lines & B6 & B7 & B8).
    apply (IH (i + 1) (acts ++ [x_action t])) in E; [|now rewrite B1|now rewrite B4].
    destruct E as (C0 & C1 & C2 & C3 & C4 & C5 & lines' & C6 & C7 & C8).
    split; [constructor; [lia|assumption]|]. split; [rewrite C1; cbn [map]; now rewrite <- app_assoc|].
    split; [rewrite C2, B2; unfold c0, sum; cbn; ring|]. rewrite C3, C4, C5, B3, B4, B5. do 3 (split; [reflexivity|]).
    exists (lines ++ lines'). split; [apply Forall_app; auto|]. split.
    + rewrite C7, B7. unfold c0. cbn. now rewrite app_assoc.
    + rewrite C8, B5, B8. unfold c0. cbn. destruct (k_to_file c); [now rewrite app_assoc|reflexivity].
Qed.

(** The shares of the actions. *)
Definition shares (n : nat) (acts : list Z) : list R :=
  map (fun c => (IZR c / IZR (Z.of_nat (List.length acts)))%R) (counted n acts).
Lemma console_episode n max ts chosen c c' :
  Z.of_nat n = k_num_actions c -> 0 <= chosen < Z.of_nat n ->
  tell console_class c (episode_events max ts chosen) = Some c' ->
  k_episode c' = k_episode c + 1 /\
  exists lines, Forall is_step_line lines /\
    let line := Episode_line (k_episode c) (sum (map x_reward ts) + last_reward ts)
                  (if last_terminal ts then Z.of_nat (List.length ts) else max)
                  (shares n (map x_action ts ++ [chosen])) in
    k_log c' = k_log c ++ lines ++ [line] /\
    k_file c' = (if k_to_file c then k_file c ++ lines ++ [line] else k_file c).
Proof.
  intros Hn Hc E. unfold episode_events in E. cbn [tell] in E.
  cbn [c_handle console_class console_handle] in E. destruct (Z.ltb_spec (k_num_actions c) 0); [lia|].
  rewrite tell_app in E.
  assert (Z0 : repeat 0 (Z.to_nat (k_num_actions c)) = counted n []).
  { rewrite <- Hn, Nat2Z.id. unfold counted. clear. generalize 0%nat. induction n as [|n IH]; intro s; [reflexivity|].
    cbn. now rewrite <- IH. }
  rewrite Z0 in E. destruct (tell console_class _ (step_events 0 ts)) as [c1|] eqn:E1; [|discriminate].
  apply (console_steps n ts 0 []) in E1; [|reflexivity|exact Hn]. cbn [app] in E1.
  destruct E1 as (C0 & C1 & C2 & C3 & C4 & C5 & lines & C6 & C7 & C8).
  cbn [tell c_handle console_class] in E. destruct (console_handle c1 _) as [c2|] eqn:E2; [|discriminate].
  injection E as <-. cbn [console_handle] in E2. rewrite C1 in E2. cbn [st_action st_reward st_step] in E2.
  rewrite add_counted in E2 by lia. cbv zeta in E2. rewrite sum_counted in E2.
  2: { apply Forall_app. split; [|constructor; [lia|constructor]]. apply Forall_map. exact C0. }
  destruct (put_line _ _) as [c3|] eqn:E3; [|discriminate]. injection E2 as <-. cbn [k_episode k_log k_file].
  apply put_line_spec in E3. cbn [k_episode k_log k_file k_to_file k_reward with_counts] in E3.
  destruct E3 as (B1 & B2 & _ & _ & B5 & _).
  rewrite C3, C2 in *. cbn [k_episode k_reward k_log k_file k_to_file with_counts] in *.
  split; [now rewrite B5|]. exists lines. split; [assumption|]. cbv zeta. unfold shares.
  replace (sum (map x_reward ts) + last_reward ts)%R with (0 + sum (map x_reward ts) + last_reward ts)%R by ring.
  split.
  - rewrite B1, C7. now rewrite app_assoc.
  - rewrite B2, C5, C8. destruct (k_to_file c); [now rewrite app_assoc|reflexivity].
Qed.

Lemma pickle_steps ts : forall i l p p', p_statistics p = Some l ->
  tell pickle_class p (step_events i ts) = Some p' ->
  p' = mkPickler (p_episode p) (Some (l ++ flat_map (fun ev => match ev with Step s => [s] | _ => [] end) (step_events i ts))) (p_files p).
Proof.
  induction ts as [|t ts IH]; intros i l p p' H E.
  - cbn in E. injection E as <-. cbn. rewrite app_nil_r. destruct p; cbn in *. now subst.
  - cbn [step_events tell] in E. cbn [c_handle pickle_class pickle_handle] in E. rewrite H in E.
    apply (IH (i + 1) (l ++ [mkStatistics i (x_action t) (x_reward t) (x_terminal t)])) in E; [|reflexivity].
    rewrite E. cbn [p_episode p_files step_events flat_map]. now rewrite <- app_assoc.
Qed.

Lemma board_steps ts : forall i g r b b', b_global_step b = Some g -> b_reward b = Some r ->
  tell board_class b (step_events i ts) = Some b' ->
  b_global_step b' = Some (g + Z.of_nat (List.length ts)) /\ b_reward b' = Some (r + sum (map x_reward ts))%R /\
  b_episode b' = b_episode b /\ b_fine b' = b_fine b /\
  exists scalars, b_scalars b' = b_scalars b ++ scalars /\ Forall (fun s => fst (fst s) = Fine_grained_reward) scalars.
Proof.
  induction ts as [|t ts IH]; intros i g r b b' Hg Hr E.
  - cbn in E. injection E as <-. rewrite Hg, Hr. cbn. rewrite Z.add_0_r, Rplus_0_r. do 4 (split; [reflexivity|]).
    exists []. split; [now rewrite app_nil_r|constructor].
  - cbn [step_events tell] in E. cbn [c_handle board_class board_handle] in E. rewrite Hg, Hr in E.
    destruct (b_fine b && (b_frequency b =? 0)); [discriminate|]. cbv zeta in E.
    eapply IH in E; [|reflexivity|reflexivity]. cbn [b_episode b_fine b_scalars st_reward] in E.
    destruct E as (C1 & C2 & C3 & C4 & sc & C5 & C6). cbn [List.length map]. split; [rewrite C1; f_equal; lia|].
    split; [rewrite C2; f_equal; unfold sum; cbn; ring|]. split; [assumption|]. split; [assumption|].
    destruct (b_fine b && (g mod b_frequency b =? 0)).
    + eexists (_ :: sc). split; [rewrite C5, <- app_assoc; reflexivity|]. constructor; [reflexivity|assumption].
    + exists sc. auto.
Qed.
