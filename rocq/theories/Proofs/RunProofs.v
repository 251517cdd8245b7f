(** Whole training runs come to their end, and so do the packaged collectors. *)
From Coq Require Import ZArith Reals String List Bool Lia Sorting.Permutation.
From Verif Require Import Model.Num Model.Prng Model.Safety Model.Balloon Model.WindField Model.Atmosphere Model.Env Model.Agents
  Model.Checkpoints Model.Collectors Model.Training.
From Verif Require Import Spec.CompleteSpec Spec.CheckpointSpec Spec.TrainingSpec.
From Verif Require Import Proofs.CompleteProofs Proofs.TrainingProofs Props.TrainingProps.
Import ListNotations.
Open Scope list_scope.

(** ** A run, if its episodes come to their end *)
Section Run.
Context (P : prng) (noise4d : Z -> R -> R -> R -> R -> R) (F : forecaster P) (FC : feature_class P F).
Context (reward_fn : wind_field P F -> atmosphere -> R * R -> bstate R -> option R).
Notation gym := (balloon_gym P noise4d F FC reward_fn).
Notation env := (env P F FC).
Context (A : trainable (observation P F FC)) (made idle : ag_state (t_agent A) -> Prop).
Context (off on : list collector -> Prop) (base_dir : string) (ctors : list constructor).
Context (HA : starts_training A made idle) (HC : collecting base_dir ctors off on) (HB : checkpoints_work A).
Context (listdir : directory (t_bundle_type A) -> list string) (listing : forall d, Permutation (listdir d) (names d)).
Context (max rp : Z).
Hypothesis episodes : forall n (e : env) a cs, idle a -> off cs ->
  exists N e' a' cs', idle a' /\ off cs' /\ forall draws, (N <= draws)%nat ->
    run_episodes (gym draws) A n max rp e a cs = Some (e', a', cs').

Lemma iterations_complete epi : forall n k (e : env) a cs (d : directory (t_bundle_type A)) l, holds k l d -> idle a -> off cs ->
  exists N (tr : list (happening (t_bundle_type A) * directory (t_bundle_type A))) (e' : env) (a' : ag_state (t_agent A)) (cs' : list collector) (d' : directory (t_bundle_type A)), off cs' /\ forall draws, (N <= draws)%nat ->
    run_iterations (gym draws) A listdir n k epi max rp e a cs d = (tr, Some (e', a', cs', d')).
Proof.
  induction n as [|n IH]; intros k e a cs d l H Hi Ho.
  - exists 0%nat, [], e, a, cs, d. split; [exact Ho|]. reflexivity.
  - destruct (episodes (Z.to_nat epi) e a cs Hi Ho) as (N1 & e1 & a1 & cs1 & Hi1 & Ho1 & E1).
    destruct HB as (W1 & W2 & W3).
    destruct (save_goes (gym 0%nat) A listdir listing W3 W1 a1 k l d H) as (tr & l1 & Es & _ & H1 & Ne).
    assert (H1' : holds (k + 1) l1 (last_directory (gym 0%nat) A ((Ran k, d) :: tr) d))
      by (unfold last_directory in *; destruct tr; [congruence|exact H1]).
    destruct (IH (k + 1)%Z e1 a1 cs1 _ l1 H1' Hi1 Ho1) as (N2 & tr2 & e2 & a2 & cs2 & d2 & Ho2 & E2).
    exists (Nat.max N1 N2), (((Ran k, d) :: tr) ++ tr2), e2, a2, cs2, d2. split; [exact Ho2|]. intros draws Hd. cbn [run_iterations].
    rewrite E1 by lia. change (save_checkpoint (gym draws) A listdir a1 k d) with (save_checkpoint (gym 0%nat) A listdir a1 k d).
    rewrite Es. cbv beta iota zeta. change (last_directory (gym draws) A) with (last_directory (gym 0%nat) A).
    rewrite E2 by lia. reflexivity.
Qed.

Lemma run_completes num_iterations epi (e : env) a (d : directory (t_bundle_type A)) m l : holds m l d -> made a ->
  exists N (tr : list (happening (t_bundle_type A) * directory (t_bundle_type A))) (result : env * ag_state (t_agent A) * list collector * directory (t_bundle_type A)), forall draws, (N <= draws)%nat ->
    run_training_loop (gym draws) A listdir base_dir 3 num_iterations max rp epi ctors e a d = (tr, Some result).
Proof.
  intros H Hm. destruct HB as (W1 & W2 & W3). destruct HA as [A1 A2].
  destruct (reload_goes (gym 0%nat) A W2 a d m l H) as (tr & a1 & _ & Er).
  assert (Hm1 : made a1).
  { unfold reload_latest_checkpoint in Er. destruct (_ <? 0)%Z; [congruence|].
    destruct (lookup _ _) as [[b|]|]; [|congruence..]. destruct (W2 a (get_latest_checkpoint (names d)) b) as (a2 & ok & Eu).
    match type of Er with context [match ?u with _ => _ end] =>
      change u with (t_unbundle A a (get_latest_checkpoint (names d)) b) in Er end.
    rewrite Eu in Er. injection Er as _ <- _. exact (A1 _ _ _ _ _ Hm Eu). }
  destruct (collecting_made _ _ _ _ HC (Z.max (m - 1 + 1) 0 * epi)%Z) as (cs & cs1 & Ec & Ep & Ho).
  assert (M : Z.max (m - 1 + 1) 0 = m) by (destruct H; lia).
  destruct (iterations_complete epi (Z.to_nat (num_iterations - m)) m e _ cs1 d l H (A2 a1 (get_summary_writer cs) Hm1) Ho)
    as (N & tr2 & e2 & a2 & cs2 & d2 & Ho2 & E2).
  destruct (collecting_end _ _ _ _ HC cs2 Ho2) as (cs3 & E3).
  exists N, (tr ++ tr2), (e2, a2, cs3, d2). intros draws Hd. unfold run_training_loop.
  change (reload_latest_checkpoint (gym draws) A a d) with (reload_latest_checkpoint (gym 0%nat) A a d). rewrite Er.
  cbv beta iota zeta. rewrite Ec, Ep, M, E2, E3 by exact Hd. reflexivity.
Qed.

Lemma goes_draws draws1 draws2 m l tr m' l' : goes (gym draws1) A m l tr m' l' -> goes (gym draws2) A m l tr m' l'.
Proof.
  intro H. induction H as [m l|m l h d m1 l1 tr m2 l2 N Hh _ IH]; [exact (goes_nil (gym draws2) A m l)|].
  apply (goes_cons (gym draws2) A m l h d m1 l1 tr m2 l2); [|exact Hh|exact IH].
  destruct N; [apply (n_loaded (gym draws2) A); assumption|apply (n_ran (gym draws2) A)|apply (n_opened (gym draws2) A)|
    apply (n_written (gym draws2) A)|apply (n_removed (gym draws2) A)].
Qed.
(** Whatever happened in the directory before. *)
Lemma run_after_history draws0 (d0 : directory (t_bundle_type A)) l d num_iterations epi (e : env) a :
  (forall f, In f d0 -> foreign (fst f)) -> history (gym draws0) A listdir d0 l d -> made a ->
  exists N (tr : list (happening (t_bundle_type A) * directory (t_bundle_type A))) (result : env * ag_state (t_agent A) * list collector * directory (t_bundle_type A)),
    map fst (saved (l ++ map fst tr)) = first_iterations (Nat.max (List.length (saved l)) (Z.to_nat num_iterations)) /\
    forall draws, (N <= draws)%nat ->
      run_training_loop (gym draws) A listdir base_dir 3 num_iterations max rp epi ctors e a d = (tr, Some result).
Proof.
  intros Hf Hh Hm. pose proof HB as (W1 & W2 & W3).
  destruct (goes_history (gym draws0) A listdir listing W3 W1 W2 d0 l d Hf Hh) as (tr0 & m & b & <- & Go & H).
  destruct (run_completes num_iterations epi e a d m b H Hm) as (N & tr & result & E).
  destruct (run_goes (gym N) A listdir listing W3 W1 W2 base_dir 3%Z num_iterations max rp epi ctors e a d m b H)
    as (m1 & b1 & Go1 & Fin).
  rewrite (E N (le_n N)) in Go1, Fin. cbn [fst snd] in Go1, Fin. rewrite Fin in Go1 by discriminate. clear Fin m1.
  assert (M : (0 <= m)%Z) by apply H.
  exists N, tr, result. split; [|exact E].
  assert (Go2 : goes (gym N) A 0 None (tr0 ++ tr) (Z.max m num_iterations) b1) 
    by (apply (proj2 (goes_app (gym N) A 0%Z None tr0 tr _ b1)); exists m, b; split; [exact (goes_draws _ _ _ _ _ _ _ Go)|exact Go1]).
  destruct (goes_saved (gym N) A (tr0 ++ tr) 0 None _ _ Go2 ltac:(lia)) as (_ & S & _).
  destruct (goes_saved (gym draws0) A tr0 0 None _ _ Go ltac:(lia)) as (_ & S0 & _).
  assert (L0 : List.length (saved (map fst tr0)) = Z.to_nat m).
  { transitivity (List.length (map fst (saved (map fst tr0)))); [now rewrite map_length|]. etransitivity; [exact (f_equal _ S0)|].
    rewrite map_length, seq_length. f_equal. lia. }
  rewrite map_app in S. rewrite L0. replace (Nat.max (Z.to_nat m) (Z.to_nat num_iterations)) with (Z.to_nat (Z.max m num_iterations)) by lia.
  etransitivity; [exact S|]. apply first_iterations_eq. lia.
Qed.
End Run.

(** ** The packaged collectors *)
Lemma dispatch_all (Q Q' : collector -> Prop) ev :
  (forall c, Q c -> exists c', handle c ev = Some c' /\ Q' c') ->
  forall cs, Forall Q cs -> exists cs', dispatch cs ev = Some cs' /\ Forall Q' cs'.
Proof.
  intros H cs F. induction F as [|c cs Hc _ IH]; cbn [dispatch]; [exists []; auto|].
  destruct (H c Hc) as (c' & -> & Hc'). destruct IH as (cs' & -> & F'). exists (c' :: cs'). auto.
Qed.
Inductive fresh_collector : collector -> Prop :=
| fresh_console k : k_num_actions k = 3%Z -> (k_fine k = true -> k_frequency k <> 0%Z) -> fresh_collector (mkCollector console_class k)
| fresh_pickle p : fresh_collector (mkCollector pickle_class p)
| fresh_board b : (b_fine b = true -> b_frequency b <> 0%Z) -> fresh_collector (mkCollector board_class b).
Inductive off_collector : collector -> Prop :=
| off_console k : k_num_actions k = 3%Z -> (k_fine k = true -> k_frequency k <> 0%Z) -> (k_to_file k = true -> k_open k = true) ->
    off_collector (mkCollector console_class k)
| off_pickle p : off_collector (mkCollector pickle_class p)
| off_board b : (b_fine b = true -> b_frequency b <> 0%Z) -> b_global_step b <> None -> off_collector (mkCollector board_class b).
Inductive on_collector : collector -> Prop :=
| on_console k x y z : k_num_actions k = 3%Z -> (k_fine k = true -> k_frequency k <> 0%Z) -> (k_to_file k = true -> k_open k = true) ->
    k_counts k = Some [x; y; z] -> on_collector (mkCollector console_class k)
| on_pickle p : p_statistics p <> None -> on_collector (mkCollector pickle_class p)
| on_board b : (b_fine b = true -> b_frequency b <> 0%Z) -> b_global_step b <> None -> b_reward b <> None ->
    on_collector (mkCollector board_class b).

Lemma add_three x y z a : (0 <= a <= 2)%Z -> exists x' y' z', add_at [x; y; z] a = Some [x'; y'; z'].
Proof. intro H. assert (Q : a = 0%Z \/ a = 1%Z \/ a = 2%Z) by lia. destruct Q as [->|[->| ->]]; do 3 eexists; reflexivity. Qed.
Lemma put_opened k line : (k_to_file k = true -> k_open k = true) -> exists k', put_line k line = Some k' /\
  k_num_actions k' = k_num_actions k /\ k_fine k' = k_fine k /\ k_frequency k' = k_frequency k /\
  k_to_file k' = k_to_file k /\ k_open k' = k_open k /\ k_counts k' = k_counts k.
Proof.
  intro H. unfold put_line. cbn [k_to_file k_open]. destruct (k_to_file k) eqn:T.
  - rewrite (H eq_refl). eexists. split; [reflexivity|]. cbn. repeat split; auto.
  - eexists. split; [reflexivity|]. cbn. repeat split; auto.
Qed.

Lemma packaged_pre c : fresh_collector c -> exists c', handle c Pre_training = Some c' /\ off_collector c'.
Proof.
  intros [k H1 H2|p|b H1]; unfold handle; cbn; (eexists; split; [reflexivity|]).
  - destruct (k_to_file k) eqn:T; constructor; cbn; auto. congruence.
  - constructor.
  - constructor; cbn; [auto|discriminate].
Qed.
Lemma packaged_end c : off_collector c -> exists c', handle c End_training = Some c' /\ True.
Proof.
  intros [k H1 H2 H3|p|b H1 H2]; unfold handle; cbn; eauto.
  destruct (k_to_file k); eauto. rewrite H3 by reflexivity. eauto.
Qed.
Lemma packaged_begin c : off_collector c -> exists c', handle c Begin_episode = Some c' /\ on_collector c'.
Proof.
  intros [k H1 H2 H3|p|b H1 H2]; unfold handle; cbn; try rewrite H1; (eexists; split; [reflexivity|]).
  - apply (on_console _ 0 0 0); auto.
  - constructor; cbn; discriminate.
  - constructor; cbn; [auto|auto|discriminate].
Qed.
Lemma packaged_step s c : (0 <= st_action s <= 2)%Z -> on_collector c -> exists c', handle c (Step s) = Some c' /\ on_collector c'.
Proof.
  intros Hs [k x y z H1 H2 H3 H4|p H1|b H1 H2 H3]; unfold handle; cbn.
  - rewrite H4, H1. destruct (Z.ltb_spec (st_action s) 0), (Z.leb_spec 3 (st_action s)); [lia..|]. cbn [orb].
    destruct (add_three x y z _ Hs) as (x' & y' & z' & ->). destruct (k_fine k) eqn:Ef.
    + destruct (Z.eqb_spec (k_frequency k) 0) as [Q|_]; [now elim (H2 eq_refl)|]. destruct (_ =? 0)%Z.
      * match goal with |- context [put_line ?q ?w] => destruct (put_opened q w) as (k' & -> & P1 & P2 & P3 & P4 & P5 & P6); [exact H3|] end.
        eexists. split; [reflexivity|]. cbn in P1, P2, P3, P4, P5, P6.
        apply (on_console k' x' y' z'); rewrite ?P1, ?P2, ?P3, ?P4, ?P5; auto.
      * eexists. split; [reflexivity|]. apply (on_console _ x' y' z'); cbn; auto. 
    + eexists. split; [reflexivity|]. apply (on_console _ x' y' z'); cbn; auto. congruence.
  - destruct (p_statistics p); [|congruence]. eexists. split; [reflexivity|]. constructor. discriminate.
  - destruct (b_global_step b) as [g|]; [|congruence]. destruct (b_reward b) as [r|]; [|congruence].
    destruct (b_fine b) eqn:Ef; cbn [andb].
    + destruct (Z.eqb_spec (b_frequency b) 0) as [Q|_]; [now elim (H1 eq_refl)|].
      eexists. split; [reflexivity|]. constructor; cbn; [auto|discriminate..].
    + eexists. split; [reflexivity|]. constructor; cbn; [congruence|discriminate..].
Qed.
Lemma packaged_end_episode s c : (0 <= st_action s <= 2)%Z -> on_collector c ->
  exists c', handle c (End_episode s) = Some c' /\ off_collector c'.
Proof.
  intros Hs [k x y z H1 H2 H3 H4|p H1|b H1 H2 H3]; unfold handle; cbn.
  - rewrite H4. destruct (add_three x y z _ Hs) as (x' & y' & z' & ->).
    match goal with |- context [put_line ?q ?w] => destruct (put_opened q w) as (k' & -> & P1 & P2 & P3 & P4 & P5 & P6); [exact H3|] end.
    eexists. split; [reflexivity|]. cbn in P1, P2, P3, P4, P5. constructor; cbn; rewrite ?P1, ?P2, ?P3, ?P4, ?P5; auto.
  - destruct (p_statistics p); [|congruence]. eexists. split; [reflexivity|]. constructor.
  - destruct (b_global_step b) as [g|]; [|congruence]. destruct (b_reward b) as [r|]; [|congruence].
    eexists. split; [reflexivity|]. constructor; cbn; [auto|discriminate].
Qed.

Lemma packaged_made base_dir fine frequency save old files fine' frequency' episode collectors :
  (fine = true -> frequency <> 0%Z) -> (fine' = true -> frequency' <> 0%Z) ->
  exists cs, make_collectors (Some base_dir) 3 episode
    (get_collector_data (make_console fine frequency save old) (make_pickle files) (make_board fine' frequency') collectors) = Some cs /\
    Forall fresh_collector cs.
Proof.
  intros H H'. unfold get_collector_data. induction collectors as [|name collectors (cs & IH & Fa)]; cbn [flat_map]; [exists []; auto|].
  destruct (name =? "console")%string; [|destruct (name =? "pickle")%string; [|destruct (name =? "tensorboard")%string]];
    cbn [app make_collectors]; rewrite IH; cbn; eexists; (split; [reflexivity|]); try (constructor; [|exact Fa]); try exact Fa;
    constructor; cbn; auto.
Qed.
