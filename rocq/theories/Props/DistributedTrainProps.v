(** Property C105: how long the distributed training runs. *)
From Coq Require Import ZArith Reals List Bool Lia.
From Verif Require Import Model.Agents Model.Acme Model.DistributedTrain Spec.AcmeSpec Props.AcmeProps.
Import ListNotations.
Open Scope Z_scope.

(** The sum of a list. *)
Definition total (l : list Z) : Z := fold_right Z.add 0 l.

Lemma total_app l m : total (l ++ m) = total l + total m.
Proof. unfold total. induction l; cbn in *; lia. Qed.

Lemma total_bound L l : (forall n, In n l -> 1 <= n <= L) -> Z.of_nat (length l) <= total l <= L * Z.of_nat (length l).
Proof.
  unfold total. induction l as [|a l IH]; intro H; cbn [length fold_right]; [lia|].
  pose proof (H a (or_introl eq_refl)). specialize (IH (fun n i => H n (or_intror i))). lia.
Qed.

Lemma total_full L l : (forall n, In n l -> n <= L) -> L * Z.of_nat (length l) <= total l -> forall n, In n l -> n = L.
Proof.
  unfold total. induction l as [|a l IH]; intros H T n; cbn [length fold_right] in *; [intros []|].
  pose proof (H a (or_introl eq_refl)) as Ha.
  assert (B : fold_right Z.add 0 l <= L * Z.of_nat (length l)).
  { clear -H. assert (K : forall n, In n l -> n <= L) by (intros; apply H; now right). clear H.
    induction l as [|b l IHl]; cbn [length fold_right]; [lia|]. pose proof (K b (or_introl eq_refl)).
    specialize (IHl (fun n i => K n (or_intror i))). lia. }
  intros [<-|I]; [lia|]. apply IH; [intros; apply H; now right|lia|exact I].
Qed.

Section Distributed.
Context (G : gym_env) (C : actor (g_obs G)) (learnt : nat -> nat -> ac_state C -> ac_state C).

(** An episode has a last step, and at most max_episode_length steps. *)
Lemma episode_length limit e c e' c' ts : 1 <= limit ->
  acme_episode G C limit e c = Some (e', c', ts) -> 1 <= Z.of_nat (length ts) <= limit.
Proof.
  intros L. unfold acme_episode. destruct (g_reset G e) as [[e1 o]|]; [|discriminate].
  destruct (ac_observe_first C c o) as [c1|]; [|discriminate]. intro H.
  assert (P : (0 < Z.to_nat limit)%nat) by lia.
  destruct (loop_ends G C (Z.to_nat limit) limit 0 e1 c1 o e' c' ts P ltac:(lia) H) as (_ & B & _). lia.
Qed.

Definition sound (L : Z) (r : running G C) : Prop :=
  r_steps r = total (r_lengths r) /\ (forall n, In n (r_lengths r) -> 1 <= n <= L).

Lemma finish_sound L i r r' : 1 <= L -> sound L r -> finish G C learnt L i r = Some r' ->
  sound L r' /\ exists n, r_lengths r' = r_lengths r ++ [n] /\ 1 <= n <= L.
Proof.
  intros P [S B]. unfold finish. destruct nth_error as [[e c]|]; [|discriminate].
  destruct acme_episode as [[[e' c'] ts]|] eqn:E; [|discriminate]. intro H. injection H as <-. cbn.
  pose proof (episode_length _ _ _ _ _ _ P E) as K. split; [split|].
  - cbn [r_steps r_lengths]. rewrite total_app, S. cbn. lia.
  - cbn [r_lengths]. intros n [I|[<-|[]]]%in_app_or; [auto|exact K].
  - eexists. split; [reflexivity|exact K].
Qed.

Lemma loop_sound N L events : forall r stopped r', 1 <= L -> sound L r ->
  distributed_loop G C learnt N L events r = Some (stopped, r') ->
  sound L r' /\ (stopped = true -> N * L <= r_steps r') /\ exists m, r_lengths r' = r_lengths r ++ m.
Proof.
  induction events as [|[i|] events IH]; intros r stopped r' P S; cbn [distributed_loop].
  - intro H. injection H as <- <-. split; [exact S|]. split; [discriminate|]. exists []. now rewrite app_nil_r.
  - destruct (finish G C learnt L i r) as [r1|] eqn:F; [|discriminate]. intro H.
    destruct (finish_sound _ _ _ _ P S F) as (S1 & n & E & _).
    destruct (IH _ _ _ P S1 H) as (S2 & D & m & Em). split; [exact S2|]. split; [exact D|].
    exists (n :: m). now rewrite Em, E, <- app_assoc.
  - unfold max_num_actor_steps. destruct (Z.leb_spec (N * L) (r_steps r)) as [Le|Gt]; intro H.
    + injection H as <- <-. split; [exact S|]. split; [intros _; exact Le|]. exists []. now rewrite app_nil_r.
    + exact (IH _ _ _ P S H).
Qed.

Lemma start_sound L actors : sound L (mkRunning actors 0 []).
Proof. split; [reflexivity|intros n []]. Qed.

(** Whatever the actors do and whenever the limiter looks, the program is not ended before
    num_episodes episodes have finished; every episode has between one and
    max_episode_length steps, and the counter is their sum. *)
Theorem C105_at_least : forall N L actors events stopped r, 1 <= L ->
  distributed_main G C learnt N L actors events = Some (stopped, r) ->
  (forall n, In n (r_lengths r) -> 1 <= n <= L) /\
  r_steps r = total (r_lengths r) /\
  (stopped = true -> N * L <= total (r_lengths r) /\ N <= Z.of_nat (length (r_lengths r))).
Proof.
  intros N L actors events stopped r P H.
  destruct (loop_sound _ _ _ _ _ _ P (start_sound L actors) H) as ((S & B) & D & _).
  split; [exact B|]. split; [exact S|]. intro T. specialize (D T). rewrite S in D. split; [exact D|].
  pose proof (total_bound L _ B). nia.
Qed.

(** When the limiter looks: it ends the program exactly if the finished episodes have
    num_episodes * max_episode_length steps or more; what would happen later does not. *)
Theorem C105_limiter : forall N L actors before after r, 1 <= L ->
  distributed_main G C learnt N L actors before = Some (false, r) ->
  (N * L <= total (r_lengths r) ->
   distributed_main G C learnt N L actors (before ++ LOOKS :: after) = Some (true, r)) /\
  (total (r_lengths r) < N * L ->
   distributed_main G C learnt N L actors (before ++ [LOOKS]) = Some (false, r)).
Proof.
  intros N L actors before after r P H. unfold distributed_main in *.
  pose proof (loop_sound _ _ _ _ _ _ P (start_sound L actors) H) as ((S & _) & _). rewrite <- S.
  assert (K : forall l r0, distributed_loop G C learnt N L before r0 = Some (false, r) ->
    distributed_loop G C learnt N L (before ++ l) r0 = distributed_loop G C learnt N L l r).
  { clear H S. intro l. induction before as [|[i|] b IH]; intro r0; cbn [distributed_loop app].
    - intro H. now injection H as ->.
    - destruct finish; [apply IH|discriminate].
    - destruct (_ <=? _); [discriminate|apply IH]. }
  rewrite !(K _ _ H). cbn [distributed_loop]. unfold max_num_actor_steps.
  destruct (Z.leb_spec (N * L) (r_steps r)); split; intro; try lia; reflexivity.
Qed.

Lemma replace_nth {A} i (a : A) : forall l j, nth_error (replace i a l) j =
  if Nat.eqb i j then (if Nat.ltb j (length l) then Some a else None) else nth_error l j.
Proof.
  induction i as [|i IH]; intros [|b l] [|j]; cbn; try reflexivity.
  - now destruct (Nat.eqb i j).
  - rewrite IH. reflexivity.
Qed.

(** Every actor has its own environment: an episode that an actor finishes is one that it
    flies from where its own last one left its environment and itself (changed by what it
    learnt), and no other actor notices. *)
Theorem C105_actors : forall N L actors before i r r',
  distributed_main G C learnt N L actors before = Some (false, r) ->
  distributed_main G C learnt N L actors (before ++ [FINISHES i]) = Some (false, r') ->
  length (r_actors r) = length actors /\
  (forall j, j <> i -> nth_error (r_actors r') j = nth_error (r_actors r) j) /\
  exists e c e' c' ts, nth_error (r_actors r) i = Some (e, c) /\
    acme_episode G C L e (learnt i (length (r_lengths r)) c) = Some (e', c', ts) /\
    nth_error (r_actors r') i = Some (e', c') /\
    r_lengths r' = r_lengths r ++ [Z.of_nat (length ts)].
Proof.
  intros N L actors before i r r' H H'. unfold distributed_main in *.
  assert (Lr : forall i a (l : list (g_state G * ac_state C)), length (replace i a l) = length l).
  { clear. induction i as [|i IH]; intros a [|b l]; cbn; [reflexivity..|now rewrite IH]. }
  assert (K : forall l r0, distributed_loop G C learnt N L before r0 = Some (false, r) ->
    distributed_loop G C learnt N L (before ++ l) r0 = distributed_loop G C learnt N L l r /\
    length (r_actors r) = length (r_actors r0)).
  { clear -Lr. intro l. induction before as [|[j|] b IH]; intro r0; cbn [distributed_loop app].
    - intro H. injection H as ->. now split.
    - destruct (finish G C learnt L j r0) as [r1|] eqn:F; [|discriminate]. intro H.
      destruct (IH _ H) as [A B]. split; [exact A|]. rewrite B. unfold finish in F.
      destruct nth_error as [[e c]|]; [|discriminate]. destruct acme_episode as [[[e' c'] ts]|]; [|discriminate].
      injection F as <-. apply Lr.
    - destruct (_ <=? _); [discriminate|apply IH]. }
  destruct (K [FINISHES i] _ H) as [E Len]. rewrite E in H'. cbn [distributed_loop] in H'.
  destruct (finish G C learnt L i r) as [r1|] eqn:F; [|discriminate]. injection H' as <-.
  split; [exact Len|]. unfold finish in F. destruct (nth_error (r_actors r) i) as [[e c]|] eqn:Ni; [|discriminate].
  destruct acme_episode as [[[e' c'] ts]|] eqn:Ep; [|discriminate]. injection F as <-. cbn [r_actors r_lengths]. split.
  - intros j D. rewrite replace_nth. now rewrite (proj2 (Nat.eqb_neq i j)) by congruence.
  - exists e, c, e', c', ts. split; [reflexivity|]. split; [exact Ep|]. split; [|reflexivity].
    rewrite replace_nth, Nat.eqb_refl.
    assert (Lt : (i < length (r_actors r))%nat) by (apply nth_error_Some; congruence).
    now rewrite (proj2 (Nat.ltb_lt _ _) Lt).
Qed.

(** A limiter that looks after every episode. *)
Definition watched (order : list nat) : list event := flat_map (fun i => [FINISHES i; LOOKS]) order.

Lemma watched_sound N L order : forall r stopped r', 1 <= L -> sound L r -> r_steps r < N * L ->
  distributed_loop G C learnt N L (watched order) r = Some (stopped, r') ->
  if stopped then exists l n, r_lengths r' = l ++ [n] /\ total l < N * L <= total (l ++ [n])
  else r_steps r' < N * L /\ length (r_lengths r') = (length (r_lengths r) + length order)%nat.
Proof.
  induction order as [|i order IH]; intros r stopped r' P S Lt.
  - intro H. injection H as <- <-. cbn. split; [exact Lt|lia].
  - cbn [watched flat_map app distributed_loop]. destruct (finish G C learnt L i r) as [r1|] eqn:F; [|discriminate].
    destruct (finish_sound _ _ _ _ P S F) as (S1 & n & E & _). unfold max_num_actor_steps.
    destruct (Z.leb_spec (N * L) (r_steps r1)) as [Le|Gt]; intro H.
    + injection H as <- <-. exists (r_lengths r), n. split; [exact E|].
      destruct S as [S _], S1 as [S1 _]. rewrite E in S1. rewrite <- S, <- S1. lia.
    + specialize (IH _ _ _ P S1 Gt H). destruct stopped; [exact IH|]. destruct IH as [A B]. split; [exact A|].
      rewrite B, E, app_length. cbn. lia.
Qed.

(** With a limiter that looks after every episode: the program ends at the first episode
    with which the steps reach num_episodes * max_episode_length.  Between num_episodes and
    num_episodes * max_episode_length episodes have then finished, and num_episodes exactly
    if each of them had max_episode_length steps.  It does end, once so many episodes
    have finished. *)
Theorem C105_watched : forall N L actors order stopped r, 1 <= N -> 1 <= L ->
  distributed_main G C learnt N L actors (watched order) = Some (stopped, r) ->
  (stopped = true ->
     (exists l n, r_lengths r = l ++ [n] /\ total l < N * L <= total (l ++ [n])) /\
     N <= Z.of_nat (length (r_lengths r)) <= N * L /\
     (Z.of_nat (length (r_lengths r)) = N <-> (forall n, In n (r_lengths r) -> n = L))) /\
  (stopped = false -> Z.of_nat (length order) < N * L).
Proof.
  intros N L actors order stopped r PN P H.
  destruct (C105_at_least _ _ _ _ _ _ P H) as (B & S & D).
  pose proof (watched_sound N L order _ _ _ P (start_sound L actors) ltac:(cbn; nia) H) as W.
  split; intros ->.
  - destruct W as (l & n & E & T). split; [now exists l, n|]. specialize (D eq_refl).
    assert (Bl : forall n, In n l -> 1 <= n <= L) by (intros; apply B; rewrite E; apply in_or_app; now left).
    pose proof (total_bound L l Bl) as Tl. split; [|split].
    + split; [apply D|]. rewrite E, app_length. cbn. lia.
    + intro Q. apply total_full; [intros m I; apply B in I; lia|]. rewrite Q. lia.
    + intro F.
      assert (Fl : total l = L * Z.of_nat (length l)).
      { assert (K : forall m, In m l -> m = L) by (intros; apply F; rewrite E; apply in_or_app; now left).
        clear -K. unfold total. induction l as [|a l IH]; cbn [fold_right length]; [lia|].
        rewrite (K a (or_introl eq_refl)), IH by (intros; apply K; now right). lia. }
      rewrite E, app_length in *. cbn [length] in *. rewrite total_app in T.
      assert (n = L) as -> by (apply F; rewrite ?E; apply in_or_app; right; now left). cbn in T. nia.
  - destruct W as [A Q]. pose proof (total_bound L _ B) as T. cbn in Q. rewrite S in A. rewrite Q in T. lia.
Qed.
End Distributed.

(** ** Environments whose episodes end after their first step, or never by themselves *)
Definition plain_env (ends : bool) : gym_env :=
  mkGymEnv Z Z (fun e _ => Some e) (fun e => Some (e, e))
    (fun e _ => Some (e + 1, (e + 1, 0%R, ends, mkInfoDict (Some ends) (Some false) (Some false))))
    (fun _ => None) (fun _ => 50000%R).
Definition plain_actor (ends : bool) : actor (g_obs (plain_env ends)) :=
  mkActor Z nat (fun c o => Some (c, 1)) (fun c o => Some c) (fun c a t => Some c) (fun c => Some (S c)).

Lemma short_episode L e c : 1 <= L -> exists e' c' t,
  acme_episode (plain_env true) (plain_actor true) L e c = Some (e', c', [t]).
Proof.
  intro P. unfold acme_episode, plain_env, plain_actor. cbn [g_reset ac_observe_first].
  destruct (Z.to_nat L) as [|f] eqn:E; [lia|]. cbn. repeat eexists.
Qed.

Lemma short_loop learnt N L k : forall e c l, 1 <= L -> N * L = Z.of_nat (length l) + Z.of_nat k -> (0 < k)%nat ->
  exists r, distributed_loop (plain_env true) (plain_actor true) learnt N L (watched (repeat O k))
    (mkRunning [(e, c)] (Z.of_nat (length l)) l) = Some (true, r) /\ Z.of_nat (length (r_lengths r)) = N * L.
Proof.
  induction k as [|k IH]; intros e c l P E K; [lia|].
  cbn [repeat watched flat_map app distributed_loop]. unfold finish. cbn [r_actors nth_error r_lengths r_steps].
  destruct (short_episode L e (learnt O (length l) c) P) as (e' & c' & t & ->).
  cbn [length replace r_steps]. unfold max_num_actor_steps. change (Z.of_nat 1) with 1.
  destruct k as [|k].
  - replace (N * L <=? _) with true by (symmetry; apply Z.leb_le; lia).
    eexists. split; [reflexivity|]. cbn [r_lengths]. rewrite app_length. cbn. lia.
  - replace (N * L <=? _) with false by (symmetry; apply Z.leb_gt; lia).
    replace (Z.of_nat (length l) + 1) with (Z.of_nat (length (l ++ [1]))) by (rewrite app_length; cbn; lia).
    assert (Q : N * L = Z.of_nat (length (l ++ [1])) + Z.of_nat (S k)) by (rewrite app_length; cbn [length]; lia).
    destruct (IH e' c' (l ++ [1]) P Q (Nat.lt_0_succ k)) as (r & H & D).
    exists r. split; [|exact D]. exact H.
Qed.

(** "Number of episodes to train for": the program should end when num_episodes episodes
    have finished.  It does not: for every setting with max_episode_length above one there
    is an environment, with one actor and a limiter that looks after every episode, in
    which max_episode_length times as many finish. *)
Theorem C105_number_of_episodes_refuted : forall N L, 1 <= N -> 2 <= L ->
  exists G C (learnt : nat -> nat -> ac_state C -> ac_state C) actors order r,
    length actors = 1%nat /\
    distributed_main G C learnt N L actors (watched order) = Some (true, r) /\
    Z.of_nat (length (r_lengths r)) = N * L /\ N < Z.of_nat (length (r_lengths r)).
Proof.
  intros N L PN P.
  destruct (short_loop (fun _ _ c => c) N L (Z.to_nat (N * L)) 0 O [] ltac:(lia) ltac:(cbn [length]; nia) ltac:(nia)) as (r & E & Q).
  exists (plain_env true), (plain_actor true), (fun _ _ c => c), [(0, O)], (repeat O (Z.to_nat (N * L))), r.
  split; [reflexivity|]. split; [exact E|]. split; [exact Q|]. rewrite Q. nia.
Qed.

(** Two actors, two episodes of three steps: the limiter looks too early, then not before
    a third episode has finished, and nothing happens after that.  With one that looks after every episode
    there are just two; if the episodes end after one step, six. *)
Example C105_witness :
  (exists r, distributed_main (plain_env false) (plain_actor false) (fun _ _ c => c) 2 3 [(0, O); (10, O)]
     [FINISHES 1; LOOKS; FINISHES 0; FINISHES 1; LOOKS; FINISHES 0] = Some (true, r) /\
     r_lengths r = [3; 3; 3] /\ r_actors r = [(3, 3%nat); (16, 6%nat)]) /\
  (exists r, distributed_main (plain_env false) (plain_actor false) (fun _ _ c => c) 2 3 [(0, O); (10, O)]
     (watched [1; 0; 1]%nat) = Some (true, r) /\ r_lengths r = [3; 3]) /\
  (exists r, distributed_main (plain_env true) (plain_actor true) (fun _ _ c => c) 2 3 [(0, O); (10, O)]
     (watched [1; 0; 1; 0; 0; 0; 1]%nat) = Some (true, r) /\ r_lengths r = [1; 1; 1; 1; 1; 1]).
Proof. split; [|split]; eexists; (split; [reflexivity|]); try (split; reflexivity); reflexivity. Qed.

Print Assumptions C105_at_least.
Print Assumptions C105_limiter.
Print Assumptions C105_actors.
Print Assumptions C105_watched.
Print Assumptions C105_number_of_episodes_refuted.
Print Assumptions C105_witness.
