(** Property C44: training over any history of crashes and restarts. *)
From Coq Require Import ZArith Reals List Bool Lia String Sorting.Permutation.
From Verif Require Import Model.Num Model.Agents Model.PyString Model.Checkpoints Model.Collectors Model.Training.
From Verif Require Import Spec.CheckpointSpec Spec.TrainingSpec.
From Verif Require Import Proofs.TrainingProofs.
Import ListNotations.
Open Scope list_scope.
Open Scope Z_scope.

Lemma first_iterations_eq m : 0 <= m ->
  map (fun i => 0 + Z.of_nat i) (seq 0 (Z.to_nat (m - 0))) = first_iterations (Z.to_nat m).
Proof. intro H. unfold first_iterations. rewrite Z.sub_0_r. apply map_ext. intro. lia. Qed.

(** From a directory without checkpoints, over any processes cut off anywhere but
    during a write: the iterations 0, 1, 2, .. are saved in this order, each once; an
    iteration is only run when exactly those before it have been saved; and what is
    loaded is what was saved last. *)
Theorem C44_no_gap_no_repeat : forall G (A : trainable (g_obs G)) listdir d0 l d,
  checkpoints_work A -> (forall d, Permutation (listdir d) (names d)) ->
  (forall f, In f d0 -> foreign (fst f)) ->
  history G A listdir d0 l d ->
  (exists m, map fst (saved l) = first_iterations m) /\
  (forall before k after, l = before ++ Ran k :: after ->
     0 <= k /\ map fst (saved before) = first_iterations (Z.to_nat k)) /\
  (forall before k b after, l = before ++ Loaded k b :: after ->
     exists earlier, saved before = earlier ++ [(k, b)]).
Proof.
  intros G A listdir d0 l d (W1 & W2 & W3) P F H.
  destruct (goes_history G A listdir P W3 W1 W2 d0 l d F H) as (tr & m & b & <- & Go & _).
  assert (Cut : forall before h after, map fst tr = before ++ h :: after ->
    exists tr0 d1 tr1, tr = tr0 ++ (h, d1) :: tr1 /\ map fst tr0 = before).
  { clear. induction tr as [|[h d] tr IH]; intros before h' after E; [now destruct before|].
    destruct before as [|x before]; cbn in E; injection E as E1 E.
    - subst. exists [], d, tr. split; reflexivity.
    - destruct (IH _ _ _ E) as (tr0 & d1 & tr1 & -> & E2). subst. exists ((x, d) :: tr0), d1, tr1. split; reflexivity. }
  split; [|split].
  - destruct (goes_saved G A tr 0 None m b Go ltac:(lia)) as (M & S & _).
    exists (Z.to_nat m). rewrite S. now apply first_iterations_eq.
  - intros before k after E. destruct (Cut _ _ _ E) as (tr0 & d1 & tr1 & -> & <-).
    apply goes_app in Go. destruct Go as (m1 & l1 & Go & Gr). inversion Gr as [|? ? ? ? ? ? ? ? ? N _ _]; subst.
    inversion N; subst. destruct (goes_saved G A tr0 0 None _ _ Go ltac:(lia)) as (M & S & _).
    split; [exact M|]. rewrite S. now apply first_iterations_eq.
  - intros before k bb after E. destruct (Cut _ _ _ E) as (tr0 & d1 & tr1 & -> & <-).
    apply goes_app in Go. destruct Go as (m1 & l1 & Go & Gr). inversion Gr as [|? ? ? ? ? ? ? ? ? N _ _]; subst.
    inversion N; subst. destruct (goes_saved G A tr0 0 None _ _ Go ltac:(lia)) as (M & S & L & K).
    destruct (saved (map fst tr0)) as [|y r] eqn:Es.
    + cbn in S. destruct (Z.to_nat (m2 - 0)) eqn:Q; [lia|discriminate].
    + destruct (@exists_last _ (y :: r)) as (e & [k' b'] & E'); [discriminate|]. rewrite E' in L, K |- *.
      exists e. rewrite map_app in L. cbn [map] in L. rewrite last_last in L. injection L as <-. now rewrite (K _ _ _ eq_refl).
Qed.

(** A process that ends normally has brought this up to its number of iterations. *)
Theorem C44_complete : forall G (A : trainable (g_obs G)) listdir d0 l d
    base_dir num_actions num_iterations max render_period episodes constructors e a tr result,
  checkpoints_work A -> (forall d, Permutation (listdir d) (names d)) ->
  (forall f, In f d0 -> foreign (fst f)) ->
  history G A listdir d0 l d ->
  run_training_loop G A listdir base_dir num_actions num_iterations max render_period episodes
    constructors e a d = (tr, Some result) ->
  exists m, num_iterations <= Z.of_nat m /\ map fst (saved (l ++ map fst tr)) = first_iterations m.
Proof.
  intros G A listdir d0 l d bd na N max rp epi ctors e a tr result (W1 & W2 & W3) P F H E.
  destruct (goes_history G A listdir P W3 W1 W2 d0 l d F H) as (tr0 & m & b & <- & Go & Hd).
  destruct (run_goes G A listdir P W3 W1 W2 bd na N max rp epi ctors e a d m b Hd) as (m1 & b1 & Go1 & Fin).
  rewrite E in Go1, Fin. cbn [fst snd] in Go1, Fin. rewrite Fin in Go1 by discriminate. clear Fin m1.
  assert (M : 0 <= m) by apply Hd.
  exists (Z.to_nat (Z.max m N)). split; [lia|].
  rewrite <- map_app. destruct (goes_saved G A (tr0 ++ tr) 0 None (Z.max m N) b1) as (M1 & S & _); [|lia|].
  - apply goes_app. eauto.
  - rewrite S. apply first_iterations_eq. lia.
Qed.

(** No process runs or saves an iteration beyond its limit. *)
Theorem C44_limit : forall G (A : trainable (g_obs G)) listdir
    base_dir num_actions num_iterations max render_period episodes constructors e a d k b,
  let tr := fst (run_training_loop G A listdir base_dir num_actions num_iterations max render_period
                   episodes constructors e a d) in
  In (Ran k) (map fst tr) \/ In (Written k b) (map fst tr) -> 0 <= k < num_iterations.
Proof.
  intros G A listdir bd na N max rp epi ctors e a d k b.
  assert (S : forall a j d s, In s (fst (save_checkpoint G A listdir a j d)) -> fst s = Ran k \/ fst s = Written k b -> k = j).
  { clear. intros a j d s. unfold save_checkpoint.
    destruct (t_bundle A a j) as [bundle|]; [|contradiction].
    set (tr := match bundle with Some _ => _ | None => _ end).
    assert (T : In s tr -> fst s = Ran k \/ fst s = Written k b -> k = j).
    { unfold tr. destruct bundle; [|contradiction]. intros [<-|[<-|[]]] [Q|Q]; try discriminate Q. now injection Q. }
    destruct (t_duration A); [|exact T].
    destruct (clean_up _ _ _ _) as [ds r]. cbn [fst]. intros I Q. apply in_app_or in I. destruct I as [I|I]; [auto|].
    apply in_map_iff in I. destruct I as (x & <- & _). destruct Q; discriminate. }
  assert (K : forall n j e a cs d s, In s (fst (run_iterations G A listdir n j epi max rp e a cs d)) ->
            fst s = Ran k \/ fst s = Written k b -> j <= k < j + Z.of_nat n).
  { clear e a d ctors. induction n as [|n IH]; intros j e a cs d s I Q; [contradiction|]. cbn [run_iterations] in I.
    destruct (run_episodes _ _ _ _ _ _ _ _) as [[[e1 a1] cs1]|]; [|contradiction].
    specialize (S a1 j d s). destruct (save_checkpoint G A listdir a1 j d) as [tr ok]. cbn [fst] in S.
    assert (T : In s ((Ran j, d) :: tr) -> k = j).
    { intros [<-|I']; [destruct Q as [Q|Q]; [now injection Q|discriminate]|auto]. }
    destruct ok; [|apply T in I; lia].
    match type of I with context [run_iterations G A listdir n (j + 1) epi max rp e1 a1 cs1 ?d1] =>
      specialize (IH (j + 1) e1 a1 cs1 d1 s);
      destruct (run_iterations G A listdir n (j + 1) epi max rp e1 a1 cs1 d1) as [tr' res] end. cbn [fst] in IH, I.
    apply in_app_or in I. destruct I as [I|I]; [apply T in I; lia|]. specialize (IH I Q). lia. }
  intros tr H.
  assert (Q : exists s, In s tr /\ (fst s = Ran k \/ fst s = Written k b)).
  { destruct H as [I|I]; apply in_map_iff in I; destruct I as (s & Es & I); eauto. }
  destruct Q as (s & I & Q). unfold tr, run_training_loop in I.
  assert (L : In s (fst (reload_latest_checkpoint G A a d)) -> False).
  { unfold reload_latest_checkpoint. destruct (_ <? 0); [contradiction|].
    destruct (lookup d _) as [[b0|]|]; try contradiction. destruct (t_unbundle _ _ _ _); try contradiction.
    intros [<-|[]]. destruct Q; discriminate. }
  destruct (reload_latest_checkpoint G A a d) as [tr0 [[a0 latest]|]]; cbn [fst] in *; [|destruct (L I)].
  destruct (make_collectors _ _ _ _) as [cs|]; [|destruct (L I)].
  destruct (dispatch cs Pre_training) as [cs1|]; [|destruct (L I)].
  match type of I with context [run_iterations G A listdir ?n ?j epi max rp e ?a2 cs1 d] =>
    specialize (K n j e a2 cs1 d s); 
    destruct (run_iterations G A listdir n j epi max rp e a2 cs1 d) as [tr' [[[[e2 a3] cs2] d2]|]] end; cbn [fst] in *.
  - destruct (dispatch cs2 End_training); cbn [fst] in I; (apply in_app_or in I; destruct I as [I|I]; [destruct (L I)|]);
      specialize (K I Q); lia.
  - apply in_app_or in I; destruct I as [I|I]; [destruct (L I)|]. specialize (K I Q); lia.
Qed.

(** A crash while a checkpoint is written should not prevent training from going on;
    it does: every later process ends with an exception before it does anything. *)
Theorem C44_torn_refuted : forall G (A : trainable (g_obs G)) listdir d0 l d
    base_dir num_actions num_iterations max render_period episodes constructors e a tr k d' rest,
  checkpoints_work A -> (forall d, Permutation (listdir d) (names d)) ->
  (forall f, In f d0 -> foreign (fst f)) ->
  history G A listdir d0 l d ->
  fst (run_training_loop G A listdir base_dir num_actions num_iterations max render_period episodes
         constructors e a d) = tr ++ (Opened k, d') :: rest ->
  forall base_dir num_actions num_iterations max render_period episodes constructors e a,
    run_training_loop G A listdir base_dir num_actions num_iterations max render_period episodes
      constructors e a d' = ([], None).
Proof.
  intros G A listdir d0 l d bd na N max rp epi ctors e a tr k d' rest (W1 & W2 & W3) P F H E.
  destruct (goes_history G A listdir P W3 W1 W2 d0 l d F H) as (tr0 & m & b & <- & Go & Hd).
  destruct (run_goes G A listdir P W3 W1 W2 bd na N max rp epi ctors e a d m b Hd) as (m1 & b1 & Go1 & _).
  rewrite E in Go1. apply goes_torn in Go1. destruct Go1 as (L & K & T).
  intros. unfold run_training_loop, reload_latest_checkpoint. rewrite L.
  destruct (Z.ltb_spec k 0); [lia|]. rewrite T. reflexivity.
Qed.

(** A checkpoint that cannot be restored should stop the training or be skipped; if
    unbundle raises a ValueError training starts again at iteration 0, and overwrites
    what has been saved. *)
Theorem C44_value_error_refuted : forall G (A : trainable (g_obs G)) listdir
    base_dir num_actions num_iterations max render_period episodes constructors e a d cs,
  (forall a k b, exists a', t_unbundle A a k b = Value_error a') ->
  (exists b, lookup d (checkpoint_name (get_latest_checkpoint (names d))) = Some (Some b)) ->
  0 < num_iterations ->
  make_collectors (Some base_dir) num_actions 0 constructors = Some cs ->
  dispatch cs Pre_training <> None ->
  (forall e a cs, run_one_episode G A max render_period e a cs <> None) ->
  exists tr, fst (run_training_loop G A listdir base_dir num_actions num_iterations max render_period episodes
                    constructors e a d) = (Ran 0, d) :: tr.
Proof.
  intros G A listdir bd na N max rp epi ctors e a d cs U (b & Lb) HN Mk Pre Ep.
  assert (exists a1, reload_latest_checkpoint G A a d = ([], Some (a1, -1))) as (a1 & Re).
  { unfold reload_latest_checkpoint. destruct (_ <? 0); [eauto|]. rewrite Lb.
    destruct (U a (get_latest_checkpoint (names d)) b) as (a' & ->). eauto. }
  unfold run_training_loop. rewrite Re.
  change (Z.max (-1 + 1) 0 * epi) with 0. rewrite Mk. destruct (dispatch cs Pre_training) as [cs1|]; [|congruence].
  change (Z.max (-1 + 1) 0) with 0. destruct (Z.to_nat (N - 0)) as [|n] eqn:En; [lia|].
  assert (Eps : forall n e a cs, run_episodes G A n max rp e a cs <> None).
  { induction n0 as [|n0 IH]; intros; [discriminate|]. cbn [run_episodes]. specialize (Ep e0 a0 cs0).
    destruct (run_one_episode _ _ _ _ _ _ _) as [[[? ?] ?]|]; [apply IH|congruence]. }
  cbn [run_iterations].
  match goal with |- context [run_episodes G A ?n ?x ?y ?e ?a ?c] => specialize (Eps n e a c);
    destruct (run_episodes G A n x y e a c) as [[[e2 a2] cs2]|]; [|congruence] end.
  destruct (save_checkpoint _ _ _ _ _ _) as [tr ok]. destruct ok; cbn [fst].
  - destruct (run_iterations _ _ _ _ _ _ _ _ _ _ _ _) as [tr' [[[[? ?] cs3] ?]|]]; cbn [fst app]; [|eexists; reflexivity].
    destruct (dispatch cs3 End_training); cbn [fst]; eexists; reflexivity.
  - eexists. reflexivity.
Qed.

(** A process should not go on from a checkpoint it has not restored; if unbundle
    answers False and leaves the agent as it was, training goes on with the iteration
    after the checkpoint, and what is saved for it is a new agent that has been trained
    in this one iteration only. *)
Theorem C44_not_restored_refuted : forall G (A : trainable (g_obs G)) listdir
    base_dir num_actions num_iterations max render_period episodes constructors e a d b cs cs0 e1 a1 cs1 b1,
  let latest := get_latest_checkpoint (names d) in
  0 <= latest -> latest + 1 < num_iterations ->
  lookup d (checkpoint_name latest) = Some (Some b) ->
  t_unbundle A a latest b = Unbundled a false ->
  make_collectors (Some base_dir) num_actions ((latest + 1) * episodes) constructors = Some cs ->
  dispatch cs Pre_training = Some cs0 ->
  run_episodes G A (Z.to_nat episodes) max render_period e
    (ag_set_mode (t_agent A) (t_set_summary_writer A a (get_summary_writer cs)) TRAIN) cs0 = Some (e1, a1, cs1) ->
  t_bundle A a1 (latest + 1) = Some (Some b1) ->
  exists tr, map fst (fst (run_training_loop G A listdir base_dir num_actions num_iterations max render_period
                             episodes constructors e a d))
    = Loaded latest b :: Ran (latest + 1) :: Opened (latest + 1) :: Written (latest + 1) b1 :: tr.
Proof.
  intros G A listdir bd na N max rp epi ctors e a d b cs cs0 e1 a1 cs1 b1 latest H0 HN Lb U Mk Pre Ep Bu.
  assert (reload_latest_checkpoint G A a d = ([(Loaded latest b, d)], Some (a, latest))) as Re.
  { unfold reload_latest_checkpoint. fold latest. destruct (Z.ltb_spec latest 0); [lia|].
    rewrite Lb, U. reflexivity. }
  unfold run_training_loop. rewrite Re. rewrite (Z.max_l (latest + 1) 0) by lia. rewrite Mk, Pre.
  destruct (Z.to_nat (N - (latest + 1))) as [|n] eqn:En; [lia|].
  cbn [run_iterations]. rewrite Ep.
  assert (exists t ok, save_checkpoint G A listdir a1 (latest + 1) d
            = ((Opened (latest + 1), write d (checkpoint_name (latest + 1)) None)
               :: (Written (latest + 1) b1, write d (checkpoint_name (latest + 1)) (Some b1)) :: t, ok)) as (t & ok & ->).
  { unfold save_checkpoint. rewrite Bu. destruct (t_duration A); [|eauto].
    destruct (clean_up _ _ _ _) as [ds raised]. eexists _, _. reflexivity. }
  destruct ok.
  - destruct (run_iterations _ _ _ _ _ _ _ _ _ _ _ _) as [tr' [[[[? ?] cs3] ?]|]]; [|eexists; reflexivity].
    destruct (dispatch cs3 End_training); eexists; reflexivity.
  - eexists. reflexivity.
Qed.

(** A small case: an environment with endless episodes, an agent whose state counts
    its steps, two processes of which the first crashes in its second iteration. *)
Definition tiny_env : gym_env := {|
  g_state := unit; g_obs := unit; g_seed e _ := Some e; g_reset e := Some (e, tt);
  g_step e _ := Some (e, (tt, 1%R, false, mkInfoDict None None None));
  g_balloon _ := None; g_radius _ := 0%R |}.
Definition tiny_agent : agent_class unit := {|
  ag_state := Z; ag_set_mode a _ := a; ag_begin_episode a _ := Some (a, 1);
  ag_step a _ _ := Some (a + 1, 0); ag_end_episode a _ _ := Some a |}.
Definition tiny : trainable (g_obs tiny_env) := {|
  t_agent := tiny_agent; t_bundle_type := Z; t_bundle a _ := Some (Some a);
  t_unbundle _ _ b := Unbundled b true; t_duration := Some 0; t_set_summary_writer a _ := a |}.
Definition tiny_run d := run_training_loop tiny_env tiny names "dir"%string 3 3 4 10 2 [] tt 0 d.

Lemma tiny_works : checkpoints_work tiny.
Proof.
  split; [|split].
  - intros a k. exists a. reflexivity.
  - intros a k b. exists b, true. reflexivity.
  - intros z E. injection E as <-. lia.
Qed.
Example C44_witness :
  let d0 := [("notes.txt"%string, None)] in
  exists l d, history tiny_env tiny names d0 l d /\
    l = [Ran 0; Opened 0; Written 0 8; Ran 1; Loaded 0 8; Ran 1; Opened 1; Written 1 16; Removed;
         Ran 2; Opened 2; Written 2 24; Removed] /\
    names d = [checkpoint_name 2; "notes.txt"%string] /\
    map fst (fst (tiny_run d0)) = [Ran 0; Opened 0; Written 0 8; Ran 1; Opened 1; Written 1 16; Removed;
         Ran 2; Opened 2; Written 2 24; Removed].
Proof.
  cbv zeta. do 2 eexists. split; [|split; [|split]].
  - eapply (one_process tiny_env tiny names _ _ _ "dir"%string 3 3 4 10 2 [] tt 0 _ []).
    + eapply (one_process tiny_env tiny names _ _ _ "dir"%string 3 3 4 10 2 [] tt 0
        (firstn 4 (fst (tiny_run [("notes.txt"%string, None)])))).
      * constructor.
      * symmetry. apply firstn_skipn.
      * intros tr0 k d' E. apply (f_equal (fun x => last (map fst x) Removed)) in E.
        rewrite map_app in E; cbn [map] in E; rewrite last_last in E. vm_compute in E. discriminate.
    + rewrite app_nil_r. reflexivity.
    + intros tr0 k d' E. apply (f_equal (fun x => last (map fst x) Removed)) in E.
      rewrite map_app in E; cbn [map] in E; rewrite last_last in E. vm_compute in E. discriminate.
  - vm_compute. reflexivity.
  - vm_compute. reflexivity.
  - vm_compute. reflexivity.
Qed.
(** The same agent, but with an unbundle that answers False: iteration 1 ends with an
    agent of 8 steps instead of 16. *)
Definition forgetful : trainable (g_obs tiny_env) := {|
  t_agent := tiny_agent; t_bundle_type := Z; t_bundle a _ := Some (Some a);
  t_unbundle a _ _ := Unbundled a false; t_duration := None; t_set_summary_writer a _ := a |}.
Example C44_not_restored_witness :
  exists tr, map fst (fst (run_training_loop tiny_env forgetful names "dir"%string 3 3 4 10 2 [] tt 0
                             [(checkpoint_name 0, Some 8)]))
    = Loaded 0 8 :: Ran 1 :: Opened 1 :: Written 1 8 :: tr.
Proof.
  refine (C44_not_restored_refuted tiny_env forgetful names "dir"%string 3 3 4 10 2 [] tt 0
    [(checkpoint_name 0, Some 8)] 8 [] [] tt 8 [] 8 _ _ _ _ _ _ _ _);
    vm_compute; first [reflexivity | discriminate].
Qed.
Print Assumptions C44_no_gap_no_repeat.
Print Assumptions C44_complete.
Print Assumptions C44_limit.
Print Assumptions C44_torn_refuted.
Print Assumptions C44_value_error_refuted.
Print Assumptions C44_not_restored_refuted.
