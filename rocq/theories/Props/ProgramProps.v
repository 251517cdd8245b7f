(** Property C91: the programs that evaluate and train. *)
From Coq Require Import ZArith Reals Ascii String List Bool Lia DecimalString.
From Verif Require Import Model.Num Model.Agents Model.Eval Model.PyString Model.StrataSeeds Model.Programs.
From Verif Require Model.Loading Model.Suites Props.SuitesProps Props.LoadingProps Props.EvalProps Props.ShardProps Proofs.ExampleFlight.
From Verif Require Import Spec.SuitesSpec Spec.ProgramSpec Proofs.StringProofs Proofs.PathProofs.
Import ListNotations.
Import Loading (outcome, Returns, Raises).
Open Scope string_scope.

#[local] Opaque hardest hard mid easy easiest.

(** ** Suites *)
Lemma documented_name name l : documented name l ->
  exists r c, name = r ++ String c "" /\ c <> "/"%char /\ starts_with_slash name = false.
Proof.
  intro H. inversion H; subst; clear H.
  - exists "big_eva", "l"%char. repeat split. discriminate.
  - exists "medium_eva", "l"%char. repeat split. discriminate.
  - exists "small_eva", "l"%char. repeat split. discriminate.
  - exists "tiny_eva", "l"%char. repeat split. discriminate.
  - exists "micro_eva", "l"%char. repeat split. discriminate.
  - exists (name0 ++ "_strat"), "a"%char. split; [rewrite append_assoc; reflexivity|]. split; [discriminate|].
    destruct H0 as [[= <- _]|[[= <- _]|[[= <- _]|[[= <- _]|[[= <- _]|[]]]]]]; reflexivity.
  - exists "all_strat", "a"%char. repeat split. discriminate.
Qed.
Lemma same_entries {B} : forall l l' : list B, (forall i, nth_error l i = nth_error l' i) -> l = l'.
Proof.
  induction l as [|b l IH]; intros [|b' l'] H; [reflexivity|specialize (H 0%nat); discriminate..|].
  pose proof (H 0%nat) as H0. injection H0 as <-. f_equal. apply IH. intro i. apply (H (S i)).
Qed.
Lemma first_seeds_unique n l l' : first_seeds n l -> first_seeds n l' -> l = l'.
Proof.
  intros [H1 H2] [H1' H2']. apply same_entries. intro i. destruct (lt_dec i (List.length l)) as [L|L].
  - specialize (H2 (Z.of_nat i) ltac:(lia)). specialize (H2' (Z.of_nat i) ltac:(lia)).
    rewrite Nat2Z.id in H2, H2'. congruence.
  - rewrite (proj2 (nth_error_None l i)) by lia. rewrite (proj2 (nth_error_None l' i)) by lia. reflexivity.
Qed.

Lemma documented_unique name l l' : documented name l -> documented name l' -> l = l'.
Proof.
  intros H H'. inversion H; subst; clear H; inversion H'; subst; clear H';
    try reflexivity; try (eapply first_seeds_unique; eassumption);
    repeat match goal with I : In (_, _) STRATA_SEEDS |- _ =>
      destruct I as [[= <- <-]|[[= <- <-]|[[= <- <-]|[[= <- <-]|[[= <- <-]|[]]]]]] end;
    try discriminate; try reflexivity.
Qed.
Lemma suite_called_documented name s : suite_called name = Returns s -> documented name (seeds s) /\ max_episode_length s = 960%Z.
Proof.
  unfold suite_called. pose proof (SuitesProps.C53_documented [] name) as H.
  change (mem (history [])) with Suites.imported in H.
  destruct (Suites.get_eval_suite Suites.imported name) as [m [i|]]; [|discriminate].
  destruct H as (_ & l & sd & H1 & H2 & H3). rewrite (nth_error_nth _ _ _ H1), (nth_error_nth _ _ _ H2).
  intros [= <-]. auto.
Qed.
Lemma documented_called name l : documented name l -> suite_called name = Returns (mkSuite l 960).
Proof.
  intro D. unfold suite_called. pose proof (SuitesProps.C53_documented [] name) as H.
  change (mem (history [])) with Suites.imported in H.
  destruct (Suites.get_eval_suite Suites.imported name) as [m [i|]].
  - destruct H as (_ & l' & sd & H1 & H2 & H3). rewrite (nth_error_nth _ _ _ H1), (nth_error_nth _ _ _ H2).
    now rewrite (documented_unique _ _ _ D H3).
  - exfalso. apply H. unfold Suites.available_suites, Suites.suite_names.
    inversion D; subst; clear D; try (cbn; tauto).
    match goal with I : In (_, _) STRATA_SEEDS |- _ =>
      destruct I as [[= <- _]|[[= <- _]|[[= <- _]|[[= <- _]|[[= <- _]|[]]]]]] end; cbn; tauto.
Qed.

(** ** Paths *)
Lemma model_name_unique f n n' : model_name f n -> model_name f n' -> n = n'.
Proof. intros H H'. inversion H; inversion H'; subst; intuition congruence. Qed.
Lemma result_file_iff f : orderly f -> forall p, result_file f p <-> p = result_path f.
Proof.
  intros ((d & c & Ed & Hc) & (l & D) & N).
  destruct (documented_name _ _ D) as (r & c' & Er & Hc' & Hs).
  assert (B : exists n, model_name f n /\
    result_file_name (f_name_override f) (f_checkpoint_idx f) (f_agent f) (f_num_shards f) (f_shard_idx f) =
    (if (1 <? f_num_shards f)%Z then n ++ "_" ++ str_of_int (f_shard_idx f) else n) ++ ".json").
  { unfold result_file_name. destruct (f_name_override f) as [[|x y]|] eqn:Eo.
    - destruct (f_checkpoint_idx f) as [i|] eqn:Ei; eexists; (split; [|reflexivity]); [apply with_checkpoint|apply without_checkpoint]; auto.
    - exists (String x y). split; [apply overridden; [assumption|discriminate]|reflexivity].
    - destruct (f_checkpoint_idx f) as [i|] eqn:Ei; eexists; (split; [|reflexivity]); [apply with_checkpoint|apply without_checkpoint]; auto. }
  destruct B as (n & Hn & En). destruct (N n Hn) as [N1 N2].
  assert (P : result_path f = f_output_dir f ++ "/" ++ f_suite f ++ "/" ++
    (if (1 <? f_num_shards f)%Z then n ++ "_" ++ str_of_int (f_shard_idx f) else n) ++ ".json").
  { unfold result_path. rewrite En, Ed. rewrite (join_proper d c _ Hc Hs). rewrite Er.
    replace ((d ++ String c "") ++ "/" ++ r ++ String c' "") with (((d ++ String c "") ++ "/" ++ r) ++ String c' "")
      by now rewrite !append_assoc.
    rewrite join_proper; [now rewrite !append_assoc|exact Hc'|].
    destruct n as [|x n]; [contradiction|]. assert (x <> "/"%char) by (intros ->; apply N1; now exists n).
    destruct (1 <? f_num_shards f)%Z; cbn; now apply Ascii.eqb_neq. }
  intro p. rewrite P. split.
  - intros [m L Hm|m L Hm]; rewrite (model_name_unique _ _ _ Hm Hn).
    + destruct (Z.ltb_spec 1 (f_num_shards f)); [lia|reflexivity].
    + destruct (Z.ltb_spec 1 (f_num_shards f)); [|lia]. now rewrite !append_assoc.
  - intros ->. destruct (Z.ltb_spec 1 (f_num_shards f)); [rewrite !append_assoc; now constructor|].
    constructor; [lia|assumption].
Qed.

(** ** eval.py *)
Section EvalMain.
Context (acme : bool) (parse_gin : list string -> list string -> outcome unit).
Context (worlds : Loading.wind_field_class -> gym_env).
Context (make_env : forall w, Z -> outcome (g_state (worlds w))).
Context (agents : forall w, Loading.agent_class -> agent_class (g_obs (worlds w))).
Context (construct : forall w c, outcome (ag_state (agents w c))).
Context (load_checkpoint : forall w c, ag_state (agents w c) -> string -> Z -> outcome (ag_state (agents w c))).
Context (writable : string -> bool).
Notation eval_main := (eval_main acme parse_gin worlds make_env agents construct load_checkpoint writable).
Notation evaluates := (evaluates acme worlds make_env agents construct load_checkpoint).
Notation configured := (configured acme parse_gin).

(** The program returns exactly if its configuration is accepted, the evaluation it is
    asked for returns results and the file can be written; the results are then in that
    file.  If anything raises, no file was touched. *)
Theorem C91_eval : forall f now p, orderly f -> result_file f p ->
  (forall ws, eval_main f now = (ws, Returns tt) ->
     configured f /\ writable p = true /\
     exists rs, evaluates f now rs /\ ws = [(p, Unreadable); (p, Results rs)]) /\
  (forall rs, configured f -> evaluates f now rs -> writable p = true ->
     eval_main f now = ([(p, Unreadable); (p, Results rs)], Returns tt)) /\
  (forall ws e, eval_main f now = (ws, Raises e) -> ws = []).
Proof.
  intros f now p O Hp. apply (result_file_iff f O) in Hp. subst p.
  unfold Programs.eval_main. split; [|split].
  - intro ws. unfold bind_gin, bind.
    destruct (Loading.gin_files _ _ _ _) as [files|] eqn:E1; [|discriminate].
    destruct (parse_gin _ _) as [[]|] eqn:E2; [|discriminate].
    destruct (make_renderer _) as [[]|] eqn:E3; [|discriminate].
    destruct (Loading.get_wind_field_factory _) as [w|] eqn:E4; [|discriminate].
    destruct (make_env w now) as [env|] eqn:E5; [|discriminate].
    destruct (Loading.agent_constructor _ _) as [c|] eqn:E6; [|discriminate].
    destruct (construct w c) as [a|] eqn:E7; [|discriminate].
    destruct (maybe_load _ _ _ _ _ _ _) as [a1|] eqn:E8; [|discriminate].
    destruct (suite_called _) as [s|] eqn:E9; [|discriminate].
    destruct (eval_agent _ _ _ _ _ _ _) as [[[rs env'] a']|] eqn:E10; [|discriminate].
    unfold write_result. destruct (writable (result_path f)) eqn:E11; [|discriminate]. intros [= <-].
    split; [split; [eauto|]|split; [reflexivity|]].
    + unfold make_renderer in E3. destruct (f_renderer f) as [r|]; [|now left]. right.
      destruct (String.eqb_spec r "matplotlib"); [now subst|discriminate].
    + exists rs. split; [|reflexivity]. destruct (suite_called_documented _ _ E9) as [D M].
      exists w, c, env, a, a1, (seeds s), env', a'. split; [|repeat split; try assumption].
      * unfold Loading.get_wind_field_factory in E4. destruct (String.eqb_spec (f_wind_field f) "simple") as [->|_].
        -- injection E4 as <-. constructor.
        -- destruct (String.eqb_spec (f_wind_field f) "generative") as [->|_]; [|discriminate]. injection E4 as <-. constructor.
      * intros dir i Ed Ei. unfold maybe_load in E8. now rewrite Ed, Ei in E8.
      * intros [Q|Q]; unfold maybe_load in E8; rewrite Q in E8.
        -- now injection E8.
        -- destruct (f_checkpoint_dir f); now injection E8.
      * destruct s as [sd mx]. cbn [seeds max_episode_length] in *. subst mx. exact E10.
  - intros rs ((files & E1 & E2) & E3) (w & c & env & a & a1 & l & env' & a' & E4 & E6 & E5 & E7 & E8 & E8' & D & E10) E11.
    unfold bind_gin, bind. rewrite E1, E2.
    assert (make_renderer (f_renderer f) = Returns tt) as -> by (destruct E3 as [-> | ->]; reflexivity).
    assert (Loading.get_wind_field_factory (f_wind_field f) = Returns w) as -> by (destruct E4; reflexivity).
    rewrite E5, E6, E7.
    assert (maybe_load worlds agents load_checkpoint f w c a = Returns a1) as ->.
    { unfold maybe_load. destruct (f_checkpoint_dir f) as [dir|] eqn:Ed; [|now rewrite (E8' (or_introl eq_refl))].
      destruct (f_checkpoint_idx f) as [i|] eqn:Ei; [|now rewrite (E8' (or_intror eq_refl))]. now apply E8. }
    rewrite (documented_called _ _ D), E10. unfold write_result. now rewrite E11.
  - intros ws e. unfold bind_gin, bind, write_result.
    repeat match goal with |- context [match ?x with _ => _ end] => destruct x; try (intros [= <- _]; reflexivity); try discriminate end.
Qed.

(** *** Shards in processes of their own *)
Definition proj (p : string) (l : writes) : list file :=
  map snd (filter (fun w => String.eqb (fst w) p) l).
Lemma proj_app p l l' : proj p (l ++ l')%list = (proj p l ++ proj p l')%list.
Proof. unfold proj. now rewrite filter_app, map_app. Qed.
Lemma leaves_proj fs ws fs' : leaves fs ws fs' -> forall p, fs' p = last (proj p ws) (fs p).
Proof.
  induction 1 as [fs fs' H|fs p x ws fs1 fs' H1 H2 H IH]; intro q; [apply H|].
  rewrite IH. unfold proj. cbn [filter fst]. destruct (String.eqb_spec p q) as [<-|N].
  - cbn [map snd]. rewrite H1. fold (proj p ws). generalize (proj p ws). intro l.
    destruct l as [|y l]; [reflexivity|]. revert y. induction l as [|z l IHl]; intro y; [reflexivity|]. apply (IHl z).
  - rewrite H2 by congruence. reflexivity.
Qed.
Lemma same_place {B} (Q1 A : list (list B)) y l Q2 C : (Q1 ++ y :: Q2 = A ++ l :: C)%list -> y <> [] ->
  (forall q, In q A -> q = []) -> (forall q, In q C -> q = []) -> Q1 = A /\ y = l /\ Q2 = C.
Proof.
  revert A. induction Q1 as [|q Q1 IH]; intros [|a A] E Hy HA HC; cbn in E.
  - injection E as <- <-. auto.
  - injection E as <- E. destruct (Hy (HA y (or_introl eq_refl))).
  - injection E as <- E. exfalso. apply Hy, HC. rewrite <- E. apply in_elt.
  - injection E as <- E. destruct (IH A E Hy (fun q I => HA q (or_intror I)) HC) as (-> & -> & ->). auto.
Qed.
Lemma interleaved_proj p ls ws : interleaved ls ws -> forall A l C, map (proj p) ls = (A ++ l :: C)%list ->
  (forall q, In q A -> q = []) -> (forall q, In q C -> q = []) -> proj p ws = l.
Proof.
  induction 1 as [ls H|ls1 w l0 ls2 ws H IH]; intros A l C E HA HC.
  - assert (I : In l (map (proj p) ls)) by (rewrite E; apply in_elt). apply in_map_iff in I. destruct I as (x & <- & I).
    now rewrite (H x I).
  - rewrite map_app in E. cbn [map] in E. unfold proj at 2 in E. unfold proj. cbn [filter] in E |- *.
    destruct (String.eqb_spec (fst w) p) as [Q|Q].
    + cbn [map] in E |- *. destruct (same_place _ _ _ _ _ _ E ltac:(discriminate) HA HC) as (E1 & <- & E2).
      f_equal. apply (IH A (proj p l0) C); [|assumption..]. rewrite map_app. cbn [map]. now rewrite E1, E2.
    + apply (IH A l C); [|assumption..]. rewrite map_app. exact E.
Qed.
Lemma interleaved_none p ls ws : interleaved ls ws -> (forall l, In l ls -> proj p l = []) -> proj p ws = [].
Proof.
  induction 1 as [ls H|ls1 w l ls2 x H IH]; intro N; [reflexivity|].
  pose proof (N (w :: l) (in_elt _ _ _)) as Nw. unfold proj in Nw |- *. cbn [filter] in Nw |- *.
  destruct (String.eqb_spec (fst w) p) as [Q|Q]; [discriminate|]. apply IH. intros y I. apply in_app_or in I.
  destruct I as [I|[<-|I]]; [apply N, in_or_app; now left|exact Nw|apply N, in_or_app; right; now right].
Qed.
Lemma shard_orderly f i : orderly f -> orderly (for_shard f i).
Proof.
  intros (H1 & H2 & H3). split; [exact H1|]. split; [exact H2|]. intros n Hn. apply H3. destruct Hn as [n Q1 Q2|k Q1 Q2|Q1 Q2].
  - exact (overridden f n Q1 Q2).
  - exact (with_checkpoint f k Q1 Q2).
  - exact (without_checkpoint f Q1 Q2).
Qed.
Lemma shard_paths f i j : (1 < f_num_shards f)%Z -> orderly f ->
  result_path (for_shard f i) = result_path (for_shard f j) -> i = j.
Proof.
  intros Hn O E. pose proof (proj2 (result_file_iff _ (shard_orderly f i O) _) eq_refl) as Hi.
  pose proof (proj2 (result_file_iff _ (shard_orderly f j O) _) eq_refl) as Hj. rewrite E in Hi.
  inversion Hi as [n L M Q|n L M Q]; [cbn in L; lia|]. inversion Hj as [n' L' M' Q'|n' L' M' Q']; [cbn in L'; lia|].
  assert (n' = n) as ->.
  { apply (model_name_unique (for_shard f i)); [|exact M].
    destruct M' as [m Q1 Q2|k Q1 Q2|Q1 Q2];
      [exact (overridden (for_shard f i) m Q1 Q2)|exact (with_checkpoint (for_shard f i) k Q1 Q2)|exact (without_checkpoint (for_shard f i) Q1 Q2)]. }
  rewrite <- Q in Q'. cbn [f_output_dir f_suite f_shard_idx for_shard] in Q'.
  apply append_inj_l in Q'. injection Q' as Q'. apply append_inj_l in Q'. injection Q' as Q'.
  apply append_inj_l in Q'. injection Q' as Q'.
  symmetry. apply string_of_int_inj.
  apply (append_inj_r _ _ ".json"). exact Q'.
Qed.
Lemma main_writes f now : orderly f ->
  let '(ws, r) := eval_main f now in
  (r = Returns tt /\ exists rs, evaluates f now rs /\ ws = [(result_path f, Unreadable); (result_path f, Results rs)]) \/
  (r <> Returns tt /\ ws = []).
Proof.
  intro O. destruct (C91_eval f now (result_path f) O (proj2 (result_file_iff f O _) eq_refl)) as (H1 & _ & H3).
  destruct (eval_main f now) as [ws [[]|e]]; [left|right; split; [discriminate|now apply (H3 ws e)]].
  destruct (H1 ws eq_refl) as (_ & _ & rs & H). eauto.
Qed.
(** Evaluating the shards of a suite in processes of their own, which run at the same time
    in any order: in the end every shard's file holds the results of that shard, and no
    other file has changed.  At any moment before (or if processes die or raise), a shard's
    file is as it was before, or incomplete, or holds the results of that shard, and no
    other file has changed. *)
Theorem C91_shards : forall f shards now ws rest fs fs',
  orderly f -> (1 < f_num_shards f)%Z -> NoDup shards ->
  interleaved (map (fun i => fst (eval_main (for_shard f i) (now i))) shards) (ws ++ rest)%list ->
  leaves fs ws fs' ->
  (forall i p, In i shards -> result_file (for_shard f i) p ->
     (rest = [] -> snd (eval_main (for_shard f i) (now i)) = Returns tt ->
        exists rs, evaluates (for_shard f i) (now i) rs /\ fs' p = Results rs) /\
     (fs' p = fs p \/ fs' p = Unreadable \/
      exists rs, evaluates (for_shard f i) (now i) rs /\ fs' p = Results rs)) /\
  (forall p, (forall i, In i shards -> ~ result_file (for_shard f i) p) -> fs' p = fs p).
Proof.
  intros f shards now ws rest fs fs' O Hn ND IL LV.
  set (g i := fst (eval_main (for_shard f i) (now i))) in IL.
  assert (G : forall i p, p <> result_path (for_shard f i) -> proj p (g i) = []).
  { intros i p Np. unfold g. pose proof (main_writes (for_shard f i) (now i) (shard_orderly f i O)) as M.
    destruct (eval_main (for_shard f i) (now i)) as [w r]. cbn [fst].
    destruct M as [(_ & rs & _ & ->)|[_ ->]]; [|reflexivity]. unfold proj. cbn [filter fst].
    destruct (String.eqb_spec (result_path (for_shard f i)) p); [congruence|reflexivity]. }
  split.
  - intros i p I Hp. apply (result_file_iff _ (shard_orderly f i O)) in Hp. subst p.
    destruct (in_split _ _ I) as (A & C & ->).
    assert (K : forall j, In j (A ++ C)%list -> proj (result_path (for_shard f i)) (g j) = []).
    { intros j J. apply G. intro E. apply (shard_paths f i j Hn O) in E. subst j.
      apply NoDup_remove_2 in ND. contradiction. }
    assert (W : proj (result_path (for_shard f i)) (ws ++ rest)%list = proj (result_path (for_shard f i)) (g i)).
    { eapply (interleaved_proj _ _ _ IL (map (fun j => proj (result_path (for_shard f i)) (g j)) A) _
        (map (fun j => proj (result_path (for_shard f i)) (g j)) C)).
      - rewrite map_map, map_app. reflexivity.
      - intros q Q. apply in_map_iff in Q. destruct Q as (j & <- & J). apply K, in_or_app. now left.
      - intros q Q. apply in_map_iff in Q. destruct Q as (j & <- & J). apply K, in_or_app. now right. }
    rewrite proj_app in W. pose proof (leaves_proj _ _ _ LV (result_path (for_shard f i))) as L. rewrite L.
    unfold g in W. pose proof (main_writes (for_shard f i) (now i) (shard_orderly f i O)) as M.
    destruct (eval_main (for_shard f i) (now i)) as [w r]. cbn [fst snd] in *.
    destruct M as [(_ & rs & Ev & ->)|[NR ->]].
    + assert (PW : proj (result_path (for_shard f i)) [(result_path (for_shard f i), Unreadable); (result_path (for_shard f i), Results rs)]
                   = [Unreadable; Results rs]).
      { unfold proj. cbn [filter fst]. rewrite String.eqb_refl. reflexivity. }
      rewrite PW in W. split.
      * intros -> _. cbn [proj filter map] in W. rewrite app_nil_r in W. rewrite W. exists rs. auto.
      * destruct (proj (result_path (for_shard f i)) ws) as [|x [|y [|z l]]].
        -- now left.
        -- right. left. now injection W as ->.
        -- right. right. exists rs. injection W as -> -> _. auto.
        -- discriminate W.
    + split; [|left].
      * intros _ R. contradiction.
      * destruct (proj (result_path (for_shard f i)) ws); [reflexivity|discriminate W].
  - intros p Hp. rewrite (leaves_proj _ _ _ LV p).
    assert (E : proj p (ws ++ rest)%list = []).
    { apply (interleaved_none p _ _ IL). intros l I. apply in_map_iff in I. destruct I as (i & <- & I).
      apply (G i p). intros ->. apply (Hp i I). now apply result_file_iff; [apply shard_orderly|]. }
    rewrite proj_app in E. destruct (proj p ws); [reflexivity|discriminate].
Qed.
End EvalMain.

(** ** Names that do not tell evaluations apart *)
Definition unnumbered (f : eval_flags) : eval_flags :=
  mkEvalFlags (f_agent f) (f_suite f) (f_wind_field f) (f_agent_gin_file f) (f_gin_bindings f)
    (f_output_dir f) (f_num_shards f) (f_shard_idx f) (f_checkpoint_dir f) None (f_name_override f)
    (f_renderer f) (f_render_period f).
Definition numbered (f : eval_flags) (i : Z) : eval_flags :=
  mkEvalFlags (f_agent f) (f_suite f) (f_wind_field f) (f_agent_gin_file f) (f_gin_bindings f)
    (f_output_dir f) 1 0 (f_checkpoint_dir f) (Some i) (f_name_override f)
    (f_renderer f) (f_render_period f).
(** A file that is named after a checkpoint should hold the results of that checkpoint.  If
    the number is given without the directory, it holds those of the agent as constructed. *)
Theorem C91_unloaded_refuted : forall acme parse_gin worlds make_env agents construct load_checkpoint writable f now ws i,
  orderly f -> f_name_override f = None -> f_checkpoint_idx f = Some i -> f_checkpoint_dir f = None ->
  (f_num_shards f <= 1)%Z ->
  eval_main acme parse_gin worlds make_env agents construct load_checkpoint writable f now = (ws, Returns tt) ->
  exists rs,
    evaluates acme worlds make_env agents construct load_checkpoint (unnumbered f) now rs /\
    last ws (""%string, Missing) =
      (f_output_dir f ++ "/" ++ f_suite f ++ "/" ++ (f_agent f ++ "_" ++ NilZero.string_of_int (Z.to_int i)) ++ ".json", Results rs).
Proof.
  intros acme pg W me ag co lc wr f now ws i O E1 E2 E3 E4 H.
  pose proof (unsharded f _ E4 (with_checkpoint f i (or_introl E1) E2)) as Hp.
  destruct (C91_eval acme pg W me ag co lc wr f now _ O Hp) as (H1 & _ & _).
  destruct (H1 ws H) as (_ & _ & rs & (w & c & env & a & a1 & l & env' & a' & Q1 & Q2 & Q3 & Q4 & Q5 & Q6 & Q7 & Q8) & ->).
  exists rs. split; [|reflexivity]. assert (a1 = a) by (apply Q6; now left). subst a1.
  exists w, c, env, a, a, l, env', a'. repeat split; try assumption. discriminate.
Qed.
(** Evaluations of different things should be written to different files.  The shard i of
    an agent without checkpoint and the whole suite for checkpoint i are written to the
    same one. *)
Theorem C91_collision_refuted : forall f i,
  orderly f -> f_name_override f = None -> f_checkpoint_idx f = None -> (1 < f_num_shards f)%Z ->
  exists p, result_file (for_shard f i) p /\ result_file (numbered f i) p.
Proof.
  intros f i O E1 E2 E3. eexists. split.
  - apply sharded; [exact E3|]. apply without_checkpoint; [now left|exact E2].
  - pose proof (unsharded (numbered f i) _ ltac:(cbn; lia) (with_checkpoint (numbered f i) i (or_introl E1) eq_refl)) as H.
    cbn [f_output_dir f_suite f_agent f_shard_idx numbered for_shard] in *. rewrite !append_assoc in H. exact H.
Qed.

(** ** train.py *)
Lemma split_at_slash a a' x y : no_slash a -> no_slash a' -> a ++ String "/" x = a' ++ String "/" y -> a = a' /\ x = y.
Proof.
  revert a'. induction a as [|c a IH]; intros [|c' a'] H H' E; cbn in *.
  - now injection E as ->.
  - injection E as <- _. now destruct H'.
  - injection E as -> _. now destruct H.
  - injection E as <- E. destruct (IH a' (proj2 H) (proj2 H') E) as [-> ->]. auto.
Qed.
Lemma registered_plain acme a c : Loading.agent_constructor acme a = Returns c ->
  no_slash a /\ starts_with_slash a = false /\ exists r x, a = r ++ String x "" /\ x <> "/"%char.
Proof.
  unfold Loading.agent_constructor. intro H.
  assert (D : In a ["random"; "mlp"; "dqn"; "perciatelli44"; "quantile"; "finetune_perciatelli"; "station_seeker";
                    "random_walk"; "acme_eval_agent"]).
  { destruct (Loading.lookup a (Loading.registry acme)) as [[c0 g]|] eqn:E; [|discriminate].
    apply LoadingProps.lookup_registered in E. unfold LoadingProps.registered, LoadingProps.documented_agent in E.
    cbn [In]. intuition congruence. }
  clear H. cbn [In] in D.
  repeat destruct D as [<-|D]; try contradiction;
    (split; [cbn; repeat split; discriminate|split; [reflexivity|]]).
  - exists "rando", "m"%char. split; [reflexivity|discriminate].
  - exists "ml", "p"%char. split; [reflexivity|discriminate].
  - exists "dq", "n"%char. split; [reflexivity|discriminate].
  - exists "perciatelli4", "4"%char. split; [reflexivity|discriminate].
  - exists "quantil", "e"%char. split; [reflexivity|discriminate].
  - exists "finetune_perciatell", "i"%char. split; [reflexivity|discriminate].
  - exists "station_seeke", "r"%char. split; [reflexivity|discriminate].
  - exists "random_wal", "k"%char. split; [reflexivity|discriminate].
  - exists "acme_eval_agen", "t"%char. split; [reflexivity|discriminate].
Qed.
Lemma int_last n : exists r x, NilZero.string_of_int (Z.to_int n) = r ++ String x "" /\ x <> "/"%char.
Proof.
  pose proof (no_slash_int n) as H.
  assert (NE : NilZero.string_of_int (Z.to_int n) <> "").
  { unfold NilZero.string_of_int, NilZero.string_of_uint. destruct (Z.to_int n) as [u|u]; [destruct u|]; discriminate. }
  revert H NE. generalize (NilZero.string_of_int (Z.to_int n)). induction s as [|x s IH]; [easy|]. intros [H1 H2] _.
  destruct s as [|y s]; [exists "", x; auto|]. destruct (IH H2 ltac:(discriminate)) as (r & z & E & Hz).
  exists (String x r), z. rewrite E. auto.
Qed.
(** Runs of different agents, or with different numbers, never share a file of their run
    directories, base_dir/agent/number; the picture goes elsewhere. *)
Definition run_file (base agent : string) (n : Z) (name : string) : string :=
  base ++ "/" ++ agent ++ "/" ++ NilZero.string_of_int (Z.to_int n) ++ "/" ++ name.
Theorem C91_runs_apart : forall acme d x base agent agent' c c' n n' name name',
  base = d ++ String x "" -> x <> "/"%char ->
  Loading.agent_constructor acme agent = Returns c -> Loading.agent_constructor acme agent' = Returns c' ->
  ~ begins_with_slash name -> ~ begins_with_slash name' ->
  path_join (run_dir base agent n) name = run_file base agent n name /\
  (path_join (run_dir base agent n) name = path_join (run_dir base agent' n') name' ->
     agent = agent' /\ n = n' /\ name = name') /\
  image_save_path base agent n <> path_join (run_dir base agent' n') name.
Proof.
  intros acme d x base agent agent' c c' n n' name name' -> Hx Ha Ha' Hn Hn'.
  assert (NS : forall s, ~ begins_with_slash s -> starts_with_slash s = false).
  { intros [|y s] H; [reflexivity|]. cbn. apply Ascii.eqb_neq. intros ->. apply H. now exists s. }
  assert (F : forall a k f cl, Loading.agent_constructor acme a = Returns cl -> ~ begins_with_slash f ->
    path_join (run_dir (d ++ String x "") a k) f = run_file (d ++ String x "") a k f).
  { intros a k f cl Hcl Hf. destruct (registered_plain acme a cl Hcl) as (_ & S1 & r & y & Er & Hy).
    destruct (int_last k) as (r' & y' & Er' & Hy'). pose proof (no_slash_int k) as S2.
    unfold run_dir. rewrite (join_proper d x a Hx S1). rewrite Er.
    replace ((d ++ String x "") ++ "/" ++ r ++ String y "") with (((d ++ String x "") ++ "/" ++ r) ++ String y "")
      by now rewrite !append_assoc.
    rewrite join_proper; [|exact Hy|].
    2:{ apply NS. intros (q & E). unfold str_of_int in E. rewrite E in S2. now destruct S2. }
    unfold str_of_int. rewrite Er'.
    replace ((((d ++ String x "") ++ "/" ++ r) ++ String y "") ++ "/" ++ r' ++ String y' "")
      with (((((d ++ String x "") ++ "/" ++ r) ++ String y "") ++ "/" ++ r') ++ String y' "") by now rewrite !append_assoc.
    rewrite join_proper; [|exact Hy'|now apply NS].
    unfold run_file. rewrite Er'. now rewrite !append_assoc. }
  destruct (registered_plain acme agent c Ha) as (P1 & _). destruct (registered_plain acme agent' c' Ha') as (P2 & _).
  rewrite (F _ n name _ Ha Hn). rewrite (F _ n' name' _ Ha' Hn'), (F _ n' name _ Ha' Hn). split; [reflexivity|]. unfold run_file. split.
  - intro E. apply append_inj_l in E. injection E as E.
    destruct (split_at_slash _ _ _ _ P1 P2 E) as [-> E']. destruct (split_at_slash _ _ _ _ (no_slash_int n) (no_slash_int n') E') as [E1 ->].
    apply string_of_int_inj in E1. auto.
  - unfold image_save_path. rewrite join_proper; [|exact Hx|reflexivity]. intro E. apply append_inj_l in E. injection E as E.
    assert (N : no_slash "balloon_path.png") by (cbn; repeat split; discriminate).
    assert (K : forall a s, ~ no_slash (a ++ String "/" s)) by (induction a as [|z a IH]; cbn; [intros s []; congruence|intros s [_ Q]; exact (IH s Q)]).
    rewrite E in N. exact (K _ _ N).
Qed.
(** Different runs should leave different pictures; they all leave theirs in one place. *)
Theorem C91_picture_refuted : forall d x base agent agent' n n', base = d ++ String x "" -> x <> "/"%char ->
  image_save_path base agent n = base ++ "/balloon_path.png" /\
  image_save_path base agent' n' = image_save_path base agent n.
Proof.
  intros d x base agent agent' n n' -> Hx. split; [|reflexivity]. unfold image_save_path.
  now rewrite join_proper.
Qed.

(** ** The hypotheses are met: shards 0 and 1 of three of the tiny suite, for the demo
    environment and agent of EvalProps. *)
Definition example_flags : eval_flags :=
  mkEvalFlags "random_walk" "tiny_eval" "simple" None [] "/tmp/ble/eval" 3 1 None None None None 10.
Definition example_main :=
  eval_main false (fun _ _ => Returns tt) (fun _ => EvalProps.demo_gym (fun _ => ExampleFlight.demo_state)) (fun _ _ => Returns 0%Z)
    (fun _ _ => EvalProps.demo_agent) (fun _ _ => Returns tt) (fun _ _ a _ _ => Returns a) (fun _ => true).
Lemma demo_returns b zs : forall e : Z, exists rs e',
  eval_seeds (EvalProps.demo_gym b) EvalProps.demo_agent 10 true 960 zs e tt = Some (rs, e', tt).
Proof.
  induction zs as [|z zs IH]; intro e; [eexists _, _; reflexivity|]. cbn [eval_seeds].
  assert (H : exists r, eval_seed (EvalProps.demo_gym b) EvalProps.demo_agent 10 true 960 z e tt = Some (r, 3%Z, tt)).
  { eexists. lazy -[Rplus Rdiv IZR balloon_is_within_radius from_balloon_state]. reflexivity. }
  destruct H as (r & ->). destruct (IH 3%Z) as (rs & e' & ->). eexists _, _. reflexivity.
Qed.
Example C91_witness :
  orderly example_flags /\ (1 < f_num_shards example_flags)%Z /\ NoDup [0; 1]%Z /\
  result_file (for_shard example_flags 1) "/tmp/ble/eval/tiny_eval/random_walk_1.json" /\
  snd (example_main (for_shard example_flags 1) 0) = Returns tt /\
  Loading.agent_constructor false "random_walk" = Returns Loading.RandomWalkAgent.
Proof.
  split; [|split; [reflexivity|split; [|split; [|split; [|reflexivity]]]]].
  - split; [exists "/tmp/ble/eva", "l"%char; split; [reflexivity|discriminate]|].
    split; [exists (map Z.of_nat (seq 0 10)); apply doc_tiny; now apply SuitesProps.range_first|].
    intros n Hn. inversion Hn; subst; clear Hn; try discriminate. split; [|discriminate]. intros (r & E). discriminate.
  - repeat constructor; cbn; intuition discriminate.
  - apply (sharded (for_shard example_flags 1) "random_walk"); [reflexivity|]. apply without_checkpoint; [now left|reflexivity].
  - unfold example_main, Programs.eval_main. rewrite (documented_called (f_suite (for_shard example_flags 1)) (map Z.of_nat (seq 0 10))).
    + cbn [bind bind_gin Loading.gin_files Loading.get_agent_gin_file Loading.get_default_gin_config].
      unfold eval_agent. rewrite ShardProps.C40_episode_length. cbn [max_episode_length Z.ltb Z.compare].
      match goal with |- context [eval_seeds ?G ?A _ _ _ ?zs _ _] =>
        destruct (demo_returns (fun _ => ExampleFlight.demo_state) zs 0%Z) as (rs & e' & H) end.
      cbn. cbn in H. rewrite H. reflexivity.
    + apply doc_tiny. now apply SuitesProps.range_first.
Qed.
Print Assumptions C91_eval.
Print Assumptions C91_shards.
Print Assumptions C91_unloaded_refuted.
Print Assumptions C91_collision_refuted.
Print Assumptions C91_runs_apart.
Print Assumptions C91_picture_refuted.
