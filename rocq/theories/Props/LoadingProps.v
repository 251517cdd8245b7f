(** Properties C58 (train/eval split), C60 (model loading), C61 (registries),
    C73 (the Perciatelli44 agent). *)
From Coq Require Import ZArith Reals List Bool String Lia Lra Permutation.
From Verif Require Import Model.Num Model.Loading.
From Verif Require Import Proofs.NumR.
Import ListNotations.
Open Scope string_scope.
Open Scope list_scope.

(** ** C58 *)
Section Reservoir.
Context {key field : Type} (split : key -> key * key) (permutation : key -> nat -> list nat).
(** Library contract of jax.random.permutation. *)
Context (permutes : forall k n, Permutation (permutation k n) (seq 0 n)).
Notation res := (reservoir (key := key) (field := field)).
Notation batch_of := (get_batch (field := field) split permutation).

(** The reservoirs reached by any sequence of requests. *)
Inductive reached (start : res) : res -> Prop :=
| reached_start : reached start start
| reached_batch r n : reached start r -> reached start (fst (batch_of r n)).

Lemma batch_same (r : res) n : dataset (fst (batch_of r n)) = dataset r /\
  eval_batch_size (fst (batch_of r n)) = eval_batch_size r.
Proof.
  unfold get_batch. destruct (split (rng r)) as [a b].
  destruct (_ <? _)%nat; [split; reflexivity|]. destruct (_ <? _)%nat; split; reflexivity.
Qed.
Lemma reached_same start r : reached start r -> dataset r = dataset start /\ eval_batch_size r = eval_batch_size start.
Proof.
  induction 1 as [|r n _ [IH1 IH2]]; [split; reflexivity|]. destruct (batch_same r n) as [-> ->]. split; assumption.
Qed.

Lemma pick_rows (d : list field) idx : (forall i, In i idx -> (i < List.length d)%nat) ->
  Forall2 (fun i f => nth_error d i = Some f) idx
    (flat_map (fun i => match nth_error d i with Some f => [f] | None => [] end) idx).
Proof.
  induction idx as [|i idx IH]; intro H; [constructor|]. cbn [flat_map].
  destruct (nth_error d i) as [f|] eqn:E.
  - constructor; [exact E|]. apply IH. intros j Hj. apply H. now right.
  - apply nth_error_None in E. specialize (H i (or_introl eq_refl)). lia.
Qed.

(** Whenever a batch is returned, it consists of the requested number of different rows
    of the dataset, none of them among the last [eval_batch_size] ones; it is returned
    if and only if there are enough of these. *)
Lemma batch_rows start r n : reached start r ->
  let total := List.length (dataset start) in let held := eval_batch_size start in
  (forall batch, snd (batch_of r n) = Returns batch ->
     exists idx, NoDup idx /\ List.length idx = n /\
       (forall i, In i idx -> (i + held < total)%nat) /\
       Forall2 (fun i f => nth_error (dataset start) i = Some f) idx batch) /\
  ((exists batch, snd (batch_of r n) = Returns batch) <-> (held + n <= total)%nat) /\
  (snd (batch_of r n) = Raises ValueError <-> (total < held + n)%nat).
Proof.
  intros Hr total held. destruct (reached_same _ _ Hr) as [Ed Ee].
  unfold get_batch. destruct (split (rng r)) as [a k]. rewrite Ed, Ee. fold total held.
  destruct (Nat.ltb_spec total held).
  { cbn [snd]. split; [discriminate|]. split; [|split; [lia|reflexivity]].
    split; [intros (? & ?); discriminate|lia]. }
  destruct (Nat.ltb_spec (total - held) n).
  { cbn [snd]. split; [discriminate|]. split; [|split; [lia|reflexivity]].
    split; [intros (? & ?); discriminate|lia]. }
  cbn [snd]. split; [|split].
  - intros batch [= <-]. pose proof (permutes k (total - held)) as P.
    set (perm := permutation k (total - held)) in *.
    assert (ND : NoDup perm) by (apply (Permutation_NoDup (Permutation_sym P)), seq_NoDup).
    assert (In' : forall i, In i perm -> (i < total - held)%nat).
    { intros i Hi. apply (Permutation_in _ P) in Hi. apply in_seq in Hi. lia. }
    assert (Len : List.length perm = (total - held)%nat) by (rewrite (Permutation_length P); apply seq_length).
    assert (Sub : forall i, In i (firstn n perm) -> In i perm).
    { intros i Hi. rewrite <- (firstn_skipn n perm). apply in_or_app. now left. }
    exists (firstn n perm). split.
    { rewrite <- (firstn_skipn n perm) in ND. clear -ND. induction (firstn n perm) as [|x l IH]; [constructor|].
      cbn [app] in ND. inversion_clear ND. constructor; [|apply IH; assumption].
      intro Hi. apply H. apply in_or_app. now left. }
    split; [rewrite firstn_length, Len; lia|].
    split; [intros i Hi; specialize (In' i (Sub i Hi)); lia|].
    apply pick_rows. intros i Hi. specialize (In' i (Sub i Hi)). unfold total in *. lia.
  - split; [lia|]. intros _. eexists. reflexivity.
  - split; [discriminate|lia].
Qed.

(** The evaluation batch, at any time: the last [eval_batch_size] rows. *)
Lemma eval_rows start r : reached start r ->
  let total := List.length (dataset start) in let held := eval_batch_size start in
  get_eval_batch r = get_eval_batch start /\
  ((0 < held <= total)%nat ->
     List.length (get_eval_batch r) = held /\
     forall j, (j < held)%nat -> nth_error (get_eval_batch r) j = nth_error (dataset start) (total - held + j)).
Proof.
  intros Hr total held. destruct (reached_same _ _ Hr) as [Ed Ee].
  assert (E : get_eval_batch r = get_eval_batch start) by (unfold get_eval_batch; rewrite Ed, Ee; reflexivity).
  split; [exact E|]. intro Hh. rewrite E. unfold get_eval_batch. fold total held.
  destruct (Nat.eqb_spec held 0); [lia|]. split; [rewrite skipn_length; fold total; lia|].
  intros j Hj. revert Hh. generalize (total - held)%nat as m. clear. intros m _.
  revert m. induction (dataset start) as [|x l IH]; intro m.
  - rewrite skipn_nil. destruct j, (m + _)%nat; reflexivity.
  - destruct m as [|m]; [reflexivity|]. cbn [skipn Nat.add nth_error]. apply IH.
Qed.
End Reservoir.

Theorem C58_training_batches : forall key field (split : key -> key * key) permutation,
  (forall k n, Permutation (permutation k n) (seq 0 n)) ->
  forall (start r : reservoir (key := key) (field := field)) n, reached split permutation start r ->
  let total := List.length (dataset start) in let held := eval_batch_size start in
  (forall batch, snd (get_batch split permutation r n) = Returns batch ->
     exists idx, NoDup idx /\ List.length idx = n /\
       (forall i, In i idx -> (i + held < total)%nat) /\
       Forall2 (fun i f => nth_error (dataset start) i = Some f) idx batch) /\
  ((exists batch, snd (get_batch split permutation r n) = Returns batch) <-> (held + n <= total)%nat) /\
  (snd (get_batch split permutation r n) = Raises ValueError <-> (total < held + n)%nat).
Proof. intros key field split perm H start r n. exact (batch_rows split perm H start r n). Qed.

Theorem C58_eval_batch : forall key field (split : key -> key * key) permutation
    (start r : reservoir (key := key) (field := field)), reached split permutation start r ->
  let total := List.length (dataset start) in let held := eval_batch_size start in
  get_eval_batch r = get_eval_batch start /\
  ((0 < held <= total)%nat ->
     List.length (get_eval_batch r) = held /\
     forall j, (j < held)%nat -> nth_error (get_eval_batch r) j = nth_error (dataset start) (total - held + j)).
Proof. intros key field split perm start r. exact (eval_rows split perm start r). Qed.

(** With no rows held out, the evaluation batch should be empty; it is the whole dataset,
    and so contains every row ever trained on. *)
Theorem C58_empty_eval_refuted : forall key field (d : list field) (k : key),
  get_eval_batch (mkReservoir d 0 k) = d.
Proof. reflexivity. Qed.

Example C58_witness :
  let split (k : nat) := (S k, k) in
  let permutation (k n : nat) := rev (seq 0 n) in
  (forall k n, Permutation (permutation k n) (seq 0 n)) /\
  let r := mkReservoir [10; 11; 12; 13; 14]%nat 2 7%nat in
  snd (get_batch split permutation r 2) = Returns [12; 11]%nat /\ get_eval_batch r = [13; 14]%nat /\
  snd (get_batch split permutation r 4) = Raises ValueError.
Proof.
  split; [intros; apply Permutation_sym, Permutation_rev|]. repeat split; reflexivity.
Qed.

(** ** C60 *)
(** The first place that exists, in the documented order. *)
Definition documented (path : option location) (packaged relative : location) : outcome (list Z) -> Prop :=
  fun r =>
    match path with
    | Some (Readable b) => r = Returns b
    | Some Absent => r = Raises ValueError
    | Some Broken => r = Raises OtherError
    | None =>
        match packaged, relative with
        | Readable b, _ => r = Returns b
        | Broken, _ => r = Raises OtherError
        | Absent, Readable b => r = Returns b
        | Absent, Broken => r = Raises OtherError
        | Absent, Absent => r = Raises RuntimeError
        end
    end.
Theorem C60_offlineskies22 : forall path packaged relative,
  documented path packaged relative (load_offlineskies22 path packaged relative).
Proof. intros [[b| |]|] [b'| |] [b''| |]; reflexivity. Qed.
Theorem C60_perciatelli44 : forall path packaged relative,
  path <> None \/ packaged <> Absent \/ relative <> Absent ->
  documented path packaged relative (load_perciatelli44 path packaged relative).
Proof. intros [[b| |]|] [b'| |] [b''| |] H; try reflexivity. exfalso. intuition congruence. Qed.
(** If it is nowhere, the documented RuntimeError is not the one raised. *)
Theorem C60_perciatelli44_refuted :
  load_perciatelli44 None Absent Absent = Raises TfNotFoundError /\
  ~ documented None Absent Absent (load_perciatelli44 None Absent Absent).
Proof. split; [reflexivity|discriminate]. Qed.

(** ** C61 *)
(** The agents of the documentation, with their classes and configuration files. *)
Definition documented_agent (name : string) (c : agent_class) (config : option string) : Prop :=
  (name = "random" /\ c = RandomAgent /\ config = None) \/
  (name = "mlp" /\ c = MLPAgent /\ config = Some "balloon_learning_environment/agents/configs/mlp.gin") \/
  (name = "dqn" /\ c = DQNAgent /\ config = Some "balloon_learning_environment/agents/configs/dqn.gin") \/
  (name = "perciatelli44" /\ c = Perciatelli44 /\ config = None) \/
  (name = "quantile" /\ c = QuantileAgent /\ config = Some "balloon_learning_environment/agents/configs/quantile.gin") \/
  (name = "finetune_perciatelli" /\ c = QuantileAgent /\
     config = Some "balloon_learning_environment/agents/configs/finetune_perciatelli.gin") \/
  (name = "station_seeker" /\ c = StationSeekerAgent /\ config = None) \/
  (name = "random_walk" /\ c = RandomWalkAgent /\ config = None).
Definition registered (acme : bool) (name : string) (c : agent_class) (config : option string) : Prop :=
  documented_agent name c config \/ acme = true /\ name = "acme_eval_agent" /\ c = AcmeEvalAgent /\ config = None.

Lemma lookup_registered acme name c g :
  lookup name (registry acme) = Some (c, g) <-> registered acme name c g.
Proof.
  unfold registry, registered, documented_agent, BASE_DIR. split.
  - destruct acme; cbn [app lookup];
    repeat match goal with
    | |- (if String.eqb name ?x then _ else _) = _ -> _ => destruct (String.eqb_spec name x) as [->|_]
    end; intros [= <- <-]; auto 30.
  - intros [H|(-> & -> & -> & ->)]; [|reflexivity].
    repeat destruct H as [H|H]; destruct H as (-> & -> & ->); reflexivity.
Qed.

Theorem C61_agents : forall acme name,
  (forall c, agent_constructor acme name = Returns c <-> exists config, registered acme name c config) /\
  (forall config, get_default_gin_config acme name = Returns config <-> exists c, registered acme name c config) /\
  (agent_constructor acme name = Raises ValueError <-> forall c config, ~ registered acme name c config) /\
  (get_default_gin_config acme name = Raises ValueError <-> forall c config, ~ registered acme name c config).
Proof.
  intros acme name. unfold agent_constructor, get_default_gin_config.
  pose proof (lookup_registered acme name) as L. destruct (lookup name (registry acme)) as [[c0 g0]|].
  - assert (R0 : registered acme name c0 g0) by (apply L; reflexivity).
    assert (U : forall c g, registered acme name c g -> c = c0 /\ g = g0) by (intros c g H; apply L in H; injection H; auto).
    repeat split; try discriminate.
    + intros [= <-]. eauto.
    + intros (g & H). apply U in H. destruct H as [-> _]. reflexivity.
    + intros [= <-]. eauto.
    + intros (c & H). apply U in H. destruct H as [_ ->]. reflexivity.
    + intro H. elim (H _ _ R0).
    + intro H. elim (H _ _ R0).
  - assert (N : forall c g, ~ registered acme name c g) by (intros c g H; apply L in H; discriminate).
    repeat split; try discriminate; try (intros _; exact N); try reflexivity.
    + intros (g & H). elim (N _ _ H).
    + intros (c & H). elim (N _ _ H).
Qed.

(** The gin files of an experiment: the agent's own one (given or default) first. *)
Theorem C61_gin_files : forall acme name given additional,
  (forall f, given = Some f -> gin_files acme name given additional = Returns (f :: additional)) /\
  (given = None -> forall c config, registered acme name c config ->
     gin_files acme name given additional =
     Returns (match config with Some f => f :: additional | None => additional end)) /\
  (given = None -> (forall c config, ~ registered acme name c config) ->
     gin_files acme name given additional = Raises ValueError).
Proof.
  intros acme name given additional. unfold gin_files, get_agent_gin_file. split; [|split].
  - intros f ->. reflexivity.
  - intros -> c g H. destruct (C61_agents acme name) as (_ & G & _ & _).
    rewrite (proj2 (G g)) by eauto. destruct g; reflexivity.
  - intros -> H. destruct (C61_agents acme name) as (_ & _ & _ & G). rewrite (proj2 G H). reflexivity.
Qed.

Theorem C61_wind_fields : forall name,
  (get_wind_field_factory name = Returns SimpleStaticWindField <-> name = "simple") /\
  (get_wind_field_factory name = Returns GenerativeWindField <-> name = "generative") /\
  (get_wind_field_factory name = Raises ValueError <-> name <> "simple" /\ name <> "generative").
Proof.
  intro name. unfold get_wind_field_factory.
  destruct (String.eqb_spec name "simple") as [->|N1]; [|destruct (String.eqb_spec name "generative") as [->|N2]];
    intuition (discriminate || congruence).
Qed.

(** Registering the environment any positive number of times: it is registered once,
    everything else is as before, and an earlier registration of the name is kept. *)
Lemma lookup_filter (l : env_specs) name id : name <> id ->
  lookup name (filter (fun s => negb (String.eqb (fst s) id)) l) = lookup name l.
Proof.
  intro N. induction l as [|[a b] l IH]; [reflexivity|]. cbn [filter lookup fst].
  destruct (String.eqb_spec a id) as [->|N']; cbn [negb].
  - destruct (String.eqb_spec name id); [contradiction|]. exact IH.
  - cbn [lookup]. destruct (String.eqb_spec name a); [reflexivity|exact IH].
Qed.
Theorem C61_registration : forall n (specs : env_specs),
  NoDup (map fst specs) ->
  let after := Nat.iter (S n) register_env specs in
  NoDup (map fst after) /\
  (lookup "BalloonLearningEnvironment-v0" specs = None ->
     lookup "BalloonLearningEnvironment-v0" after =
     Some "balloon_learning_environment.env.balloon_env:BalloonEnv") /\
  (forall e, lookup "BalloonLearningEnvironment-v0" specs = Some e -> after = specs) /\
  (forall name, name <> "BalloonLearningEnvironment-v0" -> lookup name after = lookup name specs) /\
  after = register_env specs.
Proof.
  intros n specs ND after.
  assert (Idem : forall l, register_env (register_env l) = register_env l).
  { intro l. unfold register_env at 2 3. destruct (lookup env_id l) eqn:E; [unfold register_env; rewrite E; reflexivity|].
    unfold register_env, register. cbn [lookup]. rewrite String.eqb_refl. reflexivity. }
  assert (E : after = register_env specs).
  { unfold after. induction n as [|n IH]; [reflexivity|].
    change (register_env (Nat.iter (S n) register_env specs) = register_env specs). rewrite IH. apply Idem. }
  rewrite E. unfold register_env. change env_id with "BalloonLearningEnvironment-v0".
  destruct (lookup "BalloonLearningEnvironment-v0" specs) as [e0|] eqn:L.
  - repeat split; try assumption; try discriminate; reflexivity.
  - split; [|split; [|split; [|split]]]; try discriminate; try reflexivity.
    + unfold register. cbn [map fst]. constructor.
      * intro Hi. apply in_map_iff in Hi. destruct Hi as ([a b] & Ha & Hf). apply filter_In in Hf. cbn in Ha. subst a.
        destruct Hf as [_ Hf]. cbn in Hf. discriminate.
      * clear -ND. induction specs as [|[a b] l IH]; [constructor|]. cbn [filter map fst] in *. inversion_clear ND.
        destruct (negb _); [|apply IH; assumption]. cbn [map fst]. constructor; [|apply IH; assumption].
        intro Hi. apply H. apply in_map_iff in Hi. destruct Hi as (x & <- & Hx). apply filter_In in Hx. apply in_map, Hx.
    + intros name Hn. unfold register. cbn [lookup]. destruct (String.eqb_spec name "BalloonLearningEnvironment-v0"); [contradiction|].
      apply lookup_filter. exact Hn.
Qed.
Example C61_witness : forall e, 
  Nat.iter 3 register_env [("CartPole-v1", e)] =
  [("BalloonLearningEnvironment-v0", "balloon_learning_environment.env.balloon_env:BalloonEnv"); ("CartPole-v1", e)].
Proof. reflexivity. Qed.

(** ** C73 *)
Open Scope R_scope.
Lemma argmax_from_spec l : forall best at_ i,
  let a := argmax_from best at_ i l in
  (a = at_ /\ (forall j, (j < List.length l)%nat -> nth j l 0 <= best)) \/
  (exists j, a = (i + j)%nat /\ (j < List.length l)%nat /\ best < nth j l 0 /\
     (forall j', (j' < List.length l)%nat -> nth j' l 0 <= nth j l 0) /\
     (forall j', (j' < j)%nat -> nth j' l 0 < nth j l 0)).
Proof.
  induction l as [|x l IH]; intros best at_ i; cbn [argmax_from].
  - left. split; [reflexivity|]. cbn. lia.
  - destruct (Rltb_spec best x) as [H|H].
    + right. destruct (IH x i (S i)) as [[-> A]|(j & -> & Hj & Hx & M & F)].
      * exists 0%nat. split; [lia|]. split; [cbn; lia|]. split; [exact H|]. split; [|lia].
        intros [|j'] Hj'; [cbn; lra|]. cbn [nth List.length] in *. apply A. lia.
      * exists (S j). cbn [nth List.length] in *. split; [lia|]. split; [lia|]. split; [lra|]. split.
        -- intros [|j'] Hj'; [lra|]. apply M. lia.
        -- intros [|j'] Hj'; [lra|]. apply F. lia.
    + destruct (IH best at_ (S i)) as [[-> A]|(j & -> & Hj & Hx & M & F)].
      * left. split; [reflexivity|]. intros [|j'] Hj'; [cbn; lra|]. cbn [nth List.length] in *. apply A. lia.
      * right. exists (S j). cbn [nth List.length] in *. split; [lia|]. split; [lia|]. split; [exact Hx|]. split.
        -- intros [|j'] Hj'; [lra|]. apply M. lia.
        -- intros [|j'] Hj'; [lra|]. apply F. lia.
Qed.

(** The agent is only built for three actions and observations of 1099 numbers, and
    then always takes the first of the actions its network values most. *)
Theorem C73_perciatelli44 :
  (forall actions shape, perciatelli44_accepts actions shape = Returns tt <-> actions = 3%Z /\ shape = [1099]%Z) /\
  (forall actions shape, perciatelli44_accepts actions shape <> Returns tt ->
     perciatelli44_accepts actions shape = Raises ValueError) /\
  (forall observation (q : observation -> list R) o, q o <> [] ->
     let a := perciatelli44_action q o in
     (a < List.length (q o))%nat /\
     (forall b, (b < List.length (q o))%nat -> nth b (q o) 0 <= nth a (q o) 0) /\
     (forall b, (b < a)%nat -> nth b (q o) 0 < nth a (q o) 0)).
Proof.
  split; [|split].
  - intros n s. unfold perciatelli44_accepts. destruct (Z.eqb_spec n 3); cbn [negb];
      [destruct (list_eq_dec _ _ _)|]; intuition (discriminate || congruence).
  - intros n s. unfold perciatelli44_accepts. destruct (Z.eqb_spec n 3); cbn [negb];
      [destruct (list_eq_dec _ _ _)|]; intuition (discriminate || congruence).
  - intros obs q o Hq. unfold perciatelli44_action, argmax. destruct (q o) as [|x l]; [contradiction|].
    destruct (argmax_from_spec l x 0 1) as [[-> A]|(j & -> & Hj & Hx & M & F)]; cbn [List.length].
    + split; [lia|]. split; [|lia]. intros [|b] Hb; cbn [nth]; [lra|]. apply A. lia.
    + cbn [Nat.add nth]. split; [lia|]. split.
      * intros [|b] Hb; [lra|]. apply M. lia.
      * intros [|b] Hb; [lra|]. apply F. lia.
Qed.
Example C73_witness : perciatelli44_action (fun _ : unit => [1; 5; 5]%R) tt = 1%nat.
Proof.
  unfold perciatelli44_action, argmax. cbn [argmax_from].
  rewrite Rltb_true by lra. rewrite Rltb_false by lra. reflexivity.
Qed.

Print Assumptions C58_training_batches.
Print Assumptions C58_eval_batch.
Print Assumptions C58_empty_eval_refuted.
Print Assumptions C60_offlineskies22.
Print Assumptions C60_perciatelli44.
Print Assumptions C60_perciatelli44_refuted.
Print Assumptions C61_agents.
Print Assumptions C61_gin_files.
Print Assumptions C61_wind_fields.
Print Assumptions C61_registration.
Print Assumptions C73_perciatelli44.
