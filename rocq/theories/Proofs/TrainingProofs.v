(** Checkpoints over training histories: the invariant. *)
From Coq Require Import ZArith Reals List Bool Lia String Ascii Sorting.Permutation.
From Verif Require Import Model.Num Model.Agents Model.PyString Model.Checkpoints Model.Collectors Model.Training.
From Verif Require Import Spec.CheckpointSpec Spec.TrainingSpec.
From Verif Require Import Proofs.StringProofs Proofs.CheckpointProofs Props.CheckpointProps.
Import ListNotations.
Open Scope list_scope.
Open Scope Z_scope.

Lemma last_default {B} (l : list B) d d' : l <> [] -> last l d = last l d'.
Proof. induction l as [|x l IH]; [congruence|]. intros _. destruct l; [reflexivity|]. apply IH. discriminate. Qed.
Lemma last_app' {B} (l l' : list B) d : last (l ++ l') d = last l' (last l d).
Proof.
  induction l as [|x l IH]; [reflexivity|]. cbn [app]. destruct (l ++ l') eqn:E.
  - apply app_eq_nil in E. destruct E as [-> ->]. reflexivity.
  - change (last (x :: b :: l0) d) with (last (b :: l0) d). rewrite IH.
    destruct l as [|y l]; [|reflexivity]. cbn [app last] in *. subst l'.
    apply last_default. discriminate.
Qed.

Lemma last_some {B} (r : list B) : forall y, last (map Some (y :: r)) None = Some (last (y :: r) y).
Proof.
  induction r as [|x r IH]; intro y; [reflexivity|]. change (last (map Some (x :: r)) None = Some (last (x :: r) y)).
  rewrite IH. f_equal. apply last_default. discriminate.
Qed.

Section Directories.
Context {B : Type}.
Implicit Types d : directory B.
Lemma lookup_remove d name name' : name <> name' -> lookup (remove d name') name = lookup d name.
Proof.
  intro N. unfold lookup, remove. induction d as [|f d IH]; [reflexivity|]. cbn [filter find].
  destruct (String.eqb_spec (fst f) name') as [E|E]; cbn [negb].
  - destruct (String.eqb_spec (fst f) name) as [E'|E']; [congruence|]. exact IH.
  - cbn [find]. destruct (fst f =? name)%string; [reflexivity|exact IH].
Qed.
Lemma lookup_write d name c : lookup (write d name c) name = Some c.
Proof. unfold lookup, write. cbn. rewrite String.eqb_refl. reflexivity. Qed.
Lemma lookup_in d name c : lookup d name = Some c -> In (name, c) d.
Proof.
  unfold lookup. destruct (find _ d) as [f|] eqn:E; [|discriminate]. intro H. injection H as <-.
  apply find_some in E. destruct E as [I E]. apply String.eqb_eq in E. subst name. now destruct f.
Qed.

(** The directory when the first m iterations have been saved, the last with b. *)
Definition holds (m : Z) (last : option B) d : Prop :=
  0 <= m /\
  (forall f, In f d -> foreign (fst f) \/ exists k, k < m /\ is_checkpoint_of k (fst f)) /\
  (m = 0 \/ 0 < m /\ exists b, last = Some b /\ lookup d (checkpoint_name (m - 1)) = Some (Some b)).

Lemma checkpoint_of_nonneg k name : is_checkpoint_of k name -> 0 <= k.
Proof. intros (s & W & _). now apply written_nonneg in W. Qed.
Lemma checkpoint_of_name k : 0 <= k -> is_checkpoint_of k (checkpoint_name k).
Proof. intro H. now apply checkpoint_of_iff. Qed.
Lemma checkpoint_of_inj k k' name : is_checkpoint_of k name -> is_checkpoint_of k' name -> k = k'.
Proof.
  intros H H'. pose proof (checkpoint_of_nonneg _ _ H). pose proof (checkpoint_of_nonneg _ _ H').
  apply checkpoint_of_iff in H, H'; try assumption. apply C42_distinct; congruence.
Qed.
Lemma holds_files m b d : holds m b d ->
  forall f, In f d -> foreign (fst f) \/ exists k, is_checkpoint_of k (fst f).
Proof. intros (_ & F & _) f I. destruct (F f I) as [|(k & _ & C)]; eauto. Qed.

Lemma latest_of m ns : 0 <= m ->
  (forall name, In name ns -> foreign name \/ exists k, k < m /\ is_checkpoint_of k name) ->
  (0 < m -> In (checkpoint_name (m - 1)) ns) -> get_latest_checkpoint ns = m - 1.
Proof.
  intros M F L'.
  assert (Q : forall name, In name ns -> foreign name \/ exists n, is_checkpoint_of n name).
  { intros name I. destruct (F name I) as [|(k & _ & C)]; eauto. }
  destruct (C42_latest ns Q) as [(Max & name & I & C)|(N & E)].
  - destruct (F name I) as [H|(k & Hk & C')].
    + destruct H. destruct C as (s & _ & ->). eauto.
    + pose proof (checkpoint_of_inj _ _ _ C C') as Ek. pose proof (checkpoint_of_nonneg _ _ C').
      assert (m - 1 <= get_latest_checkpoint ns); [|lia].
      apply (Max _ _ (L' ltac:(lia))). apply checkpoint_of_name. lia.
  - rewrite E. destruct (Z.eq_dec m 0) as [->|]; [reflexivity|]. exfalso.
    apply (N (m - 1) _ (L' ltac:(lia))). apply checkpoint_of_name. lia.
Qed.
Lemma holds_names m b d : holds m b d ->
  forall name, In name (names d) -> foreign name \/ exists k, k < m /\ is_checkpoint_of k name.
Proof.
  intros (_ & F & _) name I. apply in_map_iff in I. destruct I as (f & <- & I). exact (F f I).
Qed.
Lemma holds_latest m b d : holds m b d -> get_latest_checkpoint (names d) = m - 1.
Proof.
  intro H. apply latest_of; [apply H|exact (holds_names _ _ _ H)|].
  intro P. destruct H as (_ & _ & [->|(_ & b' & _ & L)]); [lia|]. apply lookup_in in L. now apply (in_map fst) in L.
Qed.
Lemma torn_latest m b d c : holds m b d -> get_latest_checkpoint (names (write d (checkpoint_name m) c)) = m.
Proof.
  intro H. replace m with (m + 1 - 1) at 2 by lia. pose proof H as (M & _). apply latest_of; [lia| |].
  - intros name [<-|I].
    + right. exists m. split; [lia|]. cbn. now apply checkpoint_of_name.
    + apply in_map_iff in I. destruct I as (f & <- & I). apply in_remove in I. destruct I as [I _].
      destruct (holds_names _ _ _ H (fst f) (in_map fst _ _ I)) as [|(k & Hk & C)]; [auto|].
      right. exists k. split; [lia|assumption].
  - intros _. left. replace (m + 1 - 1) with m by lia. reflexivity.
Qed.

Lemma holds_write m l b d : holds m l d -> holds (m + 1) (Some b) (write d (checkpoint_name m) (Some b)).
Proof.
  intros (M & F & _). split; [lia|]. split.
  - intros f [<-|I].
    + right. exists m. split; [lia|]. cbn. now apply checkpoint_of_name.
    + apply in_remove in I. destruct I as [I _]. destruct (F f I) as [|(k & Hk & C)]; [auto|].
      right. exists k. split; [lia|assumption].
  - right. split; [lia|]. exists b. split; [reflexivity|]. replace (m + 1 - 1) with m by lia. apply lookup_write.
Qed.

Lemma holds_remove m l d name :
  holds m l d -> name <> checkpoint_name (m - 1) -> holds m l (remove d name).
Proof.
  intros (M & F & L) N. split; [assumption|]. split.
  - intros f I. apply in_remove in I. now apply F.
  - destruct L as [|(P & b & E & L)]; [now left|]. right. split; [assumption|]. exists b. split; [assumption|].
    rewrite lookup_remove by congruence. assumption.
Qed.

Lemma holds_clean_up m l duration listing : forall d, holds (m + 1) l d -> 0 <= m -> 0 <= duration ->
  (forall name, In name listing -> foreign name \/ exists k, is_checkpoint_of k name) ->
  snd (clean_up listing m duration d) = false /\
  forall d', In d' (fst (clean_up listing m duration d)) -> holds (m + 1) l d'.
Proof.
  induction listing as [|a rest IH]; intros d H M D L; [split; [reflexivity|contradiction]|]. cbn [clean_up].
  assert (L' : forall name, In name rest -> foreign name \/ exists k, is_checkpoint_of k name) by (intros; apply L; now right).
  destruct (is_checkpoint_name a) eqn:E; [|now apply IH].
  apply is_checkpoint_name_iff in E. destruct E as (mid & Ea & Lm & Nm). subst a.
  rewrite iteration_of_name by assumption.
  destruct (L _ (or_introl eq_refl)) as [Q|(k & s & W & Es)]; [destruct Q; eauto|].
  apply append_inj_l, append_inj_r in Es. subst s. rewrite (parse_int_written _ _ W).
  destruct (Z.ltb_spec k (m - duration)) as [Lt|Lt]; [|now apply IH].
  assert (H' : holds (m + 1) l (remove d ("checkpoint_" ++ mid ++ ".pkl")%string)).
  { apply holds_remove; [assumption|]. intro E. replace (m + 1 - 1) with m in E by lia.
    assert (C : is_checkpoint_of k ("checkpoint_" ++ mid ++ ".pkl")%string) by (exists mid; auto).
    rewrite E in C. pose proof (checkpoint_of_inj _ _ _ C (checkpoint_of_name m M)). lia. }
  specialize (IH _ H' M D L').
  destruct (clean_up rest m duration (remove d ("checkpoint_" ++ mid ++ ".pkl")%string)) as [ds r].
  cbn [fst snd] in *. destruct IH as [IH1 IH2]. split; [assumption|]. intros d' [<-|I]; auto.
Qed.
End Directories.

(** ** Traces *)
Section Traces.
Context (G : gym_env) (A : trainable (g_obs G)).
Local Notation B := (t_bundle_type A).
Context (listdir : directory B -> list string).
Hypothesis listing : forall d, Permutation (listdir d) (names d).
Hypothesis duration_ok : forall z, t_duration A = Some z -> 0 <= z.
Hypothesis bundles : forall a k, exists b, t_bundle A a k = Some (Some b).
Hypothesis unbundles : forall a k b, exists a' ok, t_unbundle A a k b = Unbundled a' ok.

(** How m and the last bundle go on. *)
Inductive next : Z -> option B -> happening B -> Z -> option B -> Prop :=
| n_loaded m b : 0 < m -> next m (Some b) (Loaded (m - 1) b) m (Some b)
| n_ran m l : next m l (Ran m) m l
| n_opened m l : next m l (Opened m) m l
| n_written m l b : next m l (Written m b) (m + 1) (Some b)
| n_removed m l : next m l Removed m l.
Inductive goes : Z -> option B -> trace G A -> Z -> option B -> Prop :=
| goes_nil m l : goes m l [] m l
| goes_cons m l h d m1 l1 tr m2 l2 :
    next m l h m1 l1 ->
    (match h with Opened k => exists d0, holds m l d0 /\ d = write d0 (checkpoint_name k) None | _ => holds m1 l1 d end) ->
    goes m1 l1 tr m2 l2 -> goes m l ((h, d) :: tr) m2 l2.

Lemma goes_app m l tr tr' m' l' :
  goes m l (tr ++ tr') m' l' <-> exists m1 l1, goes m l tr m1 l1 /\ goes m1 l1 tr' m' l'.
Proof.
  revert m l. induction tr as [|[h d] tr IH]; intros m l; cbn [app].
  - split; [intro H; exists m, l; split; [constructor|assumption]|]. intros (m1 & l1 & H & H'). inversion H; subst; assumption.
  - split.
    + intro H. inversion H as [|? ? ? ? m1 l1 ? ? ? N Hd Hr]; subst. apply IH in Hr. destruct Hr as (m2 & l2 & H1 & H2).
      exists m2, l2. split; [econstructor; eassumption|assumption].
    + intros (m1 & l1 & H & H'). inversion H as [|? ? ? ? m2 l2 ? ? ? N Hd Hr]; subst.
      econstructor; [eassumption|eassumption|]. apply IH. eauto.
Qed.

Lemma last_directory_app tr tr' d :
  last_directory G A (tr ++ tr') d = last_directory G A tr' (last_directory G A tr d).
Proof. unfold last_directory. rewrite map_app. apply last_app'. Qed.

Lemma goes_holds m l tr m' l' d : goes m l tr m' l' -> holds m l d ->
  (forall tr0 k d', tr <> tr0 ++ [(Opened k, d')]) -> holds m' l' (last_directory G A tr d).
Proof.
  intros H Hd N.
  destruct tr as [|x tr1]; [inversion H; subst; exact Hd|].
  destruct (@exists_last _ (x :: tr1)) as (tr0 & [h d'] & E); [discriminate|]. rewrite E in *. clear x tr1 E.
  apply goes_app in H. destruct H as (m1 & l1 & _ & H). inversion H as [|? ? ? ? m2 l2 ? ? ? Nx Hh Hr]; subst.
  inversion Hr; subst. rewrite last_directory_app. cbn.
  destruct h; try exact Hh. now destruct (N tr0 k d').
Qed.

Lemma save_goes a m l d : holds m l d ->
  exists tr l', save_checkpoint G A listdir a m d = (tr, true) /\ goes m l tr (m + 1) l' /\
    holds (m + 1) l' (last_directory G A tr d) /\ tr <> [].
Proof.
  intro H. destruct (bundles a m) as (b & E). unfold save_checkpoint. rewrite E.
  pose proof (holds_write m l b d H) as HW. pose proof H as (M & _).
  assert (G0 : goes m l [(Opened m, write d (checkpoint_name m) None);
                     (Written m b, write d (checkpoint_name m) (Some b))] (m + 1) (Some b)).
  { econstructor; [constructor|cbn; eauto|]. econstructor; [constructor|exact HW|constructor]. }
  destruct (t_duration A) as [dur|] eqn:Ed.
  - cbn [last_directory map snd last].
    set (d1 := write d (checkpoint_name m) (Some b)) in *.
    destruct (holds_clean_up m (Some b) dur (listdir d1) d1 HW M (duration_ok _ eq_refl)) as [R F].
    { intros name I. apply (Permutation_in _ (listing d1)), in_map_iff in I. destruct I as (f & <- & I).
      exact (holds_files _ _ _ HW f I). }
    destruct (clean_up (listdir d1) m dur d1) as [ds r]. cbn [fst snd] in R, F. subst r.
    change (last_directory G A
       [(Opened m, write d (checkpoint_name m) None);
        (Written m b, d1)] d) with d1 in *.
    eexists. exists (Some b). split; [reflexivity|].
    assert (G1 : goes (m + 1) (Some b) (map (fun d => (Removed, d)) ds) (m + 1) (Some b) /\
                 holds (m + 1) (Some b) (last_directory G A (map (fun d => (Removed, d)) ds) d1)).
    { clear G0. revert HW F. generalize d1. clear. induction ds as [|x ds IH]; intros d1 HW F.
      - split; [constructor|exact HW].
      - destruct (IH x (F x (or_introl eq_refl)) (fun y I => F y (or_intror I))) as [I1 I2]. cbn [map]. split.
        + econstructor; [constructor|apply F; now left|exact I1].
        + change (holds (m + 1) (Some b) (last_directory G A ([(Removed, x)] ++ map (fun d => (Removed, d)) ds) d1)).
          rewrite last_directory_app. exact I2. }
    split; [|split; [|discriminate]].
    + apply goes_app. eexists _, _. split; [exact G0|apply G1].
    + rewrite last_directory_app. apply G1.
  - eexists. exists (Some b). split; [reflexivity|]. split; [exact G0|]. split; [exact HW|discriminate].
Qed.

Lemma iterations_go n : forall k epi max rp e a cs d l, holds k l d ->
  exists m' l', goes k l (fst (run_iterations G A listdir n k epi max rp e a cs d)) m' l' /\
    (snd (run_iterations G A listdir n k epi max rp e a cs d) <> None -> m' = k + Z.of_nat n).
Proof.
  induction n as [|n IH]; intros k epi max rp e a cs d l H; cbn [run_iterations].
  - exists k, l. split; [apply goes_nil|]. intros _. lia.
  - destruct (run_episodes _ _ _ _ _ _ _ _) as [[[e1 a1] cs1]|]; [|exists k, l; split; [apply goes_nil|cbn; congruence]].
    destruct (save_goes a1 k l d H) as (tr & l1 & -> & G1 & H1 & Ne).
    assert (H1' : holds (k + 1) l1 (last_directory G A ((Ran k, d) :: tr) d))
      by (unfold last_directory in *; destruct tr; [congruence|exact H1]).
    cbv beta iota zeta.
    match goal with |- context [run_iterations G A listdir n (k + 1) epi max rp e1 a1 cs1 ?d1] =>
      destruct (IH (k + 1) epi max rp e1 a1 cs1 d1 l1 H1') as (m2 & l2 & G2 & F);
      destruct (run_iterations G A listdir n (k + 1) epi max rp e1 a1 cs1 d1) as [tr' res] end.
    cbn [fst snd] in *. exists m2, l2. split; [|intro Q; rewrite (F Q); lia].
    econstructor; [constructor|exact H|]. apply goes_app. eauto.
Qed.

Lemma reload_goes a d m l : holds m l d -> exists tr a', goes m l tr m l /\
  reload_latest_checkpoint G A a d = (tr, Some (a', m - 1)).
Proof.
  intro H. pose proof H as (M & _ & L). unfold reload_latest_checkpoint. rewrite (holds_latest _ _ _ H).
  cbv beta zeta. destruct (Z.ltb_spec (m - 1) 0) as [Q|Q].
  - exists [], a. split; [constructor|]. assert (m = 0) by lia. now subst.
  - destruct L as [->|(P & b & -> & ->)]; [lia|]. destruct (unbundles a (m - 1) b) as (a' & ok & ->).
    exists [(Loaded (m - 1) b, d)], a'. split; [|reflexivity].
    econstructor; [constructor; assumption|exact H|constructor].
Qed.
Lemma run_goes base_dir na N max rp epi ctors e a d m l : holds m l d ->
  exists m' l', goes m l (fst (run_training_loop G A listdir base_dir na N max rp epi ctors e a d)) m' l' /\
    (snd (run_training_loop G A listdir base_dir na N max rp epi ctors e a d) <> None -> m' = Z.max m N).
Proof.
  intro H. pose proof H as (M & _ & L). unfold run_training_loop.
  destruct (reload_goes a d m l H) as (tr & a' & G0 & ->). replace (Z.max (m - 1 + 1) 0) with m by lia.
  destruct (make_collectors _ _ _ _) as [cs|]; [|exists m, l; split; [exact G0|cbn; congruence]].
  destruct (dispatch cs Pre_training) as [cs1|]; [|exists m, l; split; [exact G0|cbn; congruence]].
  match goal with |- context [run_iterations G A listdir ?n m epi max rp e ?a2 cs1 d] =>
    destruct (iterations_go n m epi max rp e a2 cs1 d l H) as (m' & l' & G1 & F);
    destruct (run_iterations G A listdir n m epi max rp e a2 cs1 d) as [tr' [[[[e2 a3] cs2] d2]|]] end; cbn [fst snd] in *.
  - exists m', l'. destruct (dispatch cs2 End_training); cbn [fst snd]; (split; [apply goes_app; eauto|]).
    + intros _. rewrite F by discriminate. lia.
    + congruence.
  - exists m', l'. split; [apply goes_app; eauto|congruence].
Qed.

Lemma goes_history d0 l d : (forall f, In f d0 -> foreign (fst f)) -> history G A listdir d0 l d ->
  exists tr m b, map fst tr = l /\ goes 0 None tr m b /\ holds m b d.
Proof.
  intros F H. induction H as [|l d bd na N max rp epi ctors e a tr rest _ IH E No].
  - exists [], 0, None. split; [reflexivity|]. split; [constructor|]. split; [lia|]. split; [|now left].
    intros f I. left. now apply F.
  - destruct IH as (tr0 & m & b & <- & G0 & H0).
    destruct (run_goes bd na N max rp epi ctors e a d m b H0) as (m1 & b1 & G1 & _). rewrite E in G1.
    apply goes_app in G1. destruct G1 as (m2 & b2 & G1 & _).
    exists (tr0 ++ tr), m2, b2. split; [apply map_app|]. split; [apply goes_app; eauto|].
    now apply (goes_holds m b).
Qed.

(** A torn file. *)
Lemma goes_torn m l tr k d' rest m' l' : goes m l (tr ++ (Opened k, d') :: rest) m' l' ->
  get_latest_checkpoint (names d') = k /\ 0 <= k /\ lookup d' (checkpoint_name k) = Some None.
Proof.
  intros H. apply goes_app in H. destruct H as (m1 & l1 & _ & H).
  inversion H as [|? ? ? ? m2 l2 ? ? ? N Hx _]; subst. destruct Hx as (d0 & Hd & ->). inversion N; subst.
  split; [eapply torn_latest; eassumption|split; [apply Hd|apply lookup_write]].
Qed.

(** What this says about the list of happenings. *)
Lemma goes_saved tr : forall m l m' l', goes m l tr m' l' -> 0 <= m ->
  m <= m' /\ map fst (saved (map fst tr)) = map (fun i => m + Z.of_nat i) (seq 0 (Z.to_nat (m' - m))) /\
  (l' = match last (map Some (saved (map fst tr))) None with Some (_, b) => Some b | None => l end) /\
  (forall k b pre, saved (map fst tr) = pre ++ [(k, b)] -> k = m' - 1).
Proof.
  induction tr as [|[h d] tr IH]; intros m l m' l' H M.
  - inversion H; subst. rewrite Z.sub_diag. repeat split; try lia. intros k b pre E. now destruct pre.
  - inversion H as [|? ? ? ? m1 l1 ? ? ? N _ Hr]; subst.
    assert (M1 : 0 <= m1) by (inversion N; subst; lia).
    destruct (IH _ _ _ _ Hr M1) as (I1 & I2 & I3 & I4). clear IH.
    revert I3. inversion N; subst; intro I3; cbn [map fst saved]; try (repeat split; assumption).
    split; [lia|]. split; [|split].
    + cbn [map fst]. rewrite I2. replace (Z.to_nat (m' - m)) with (S (Z.to_nat (m' - (m + 1)))) by lia.
      cbn [seq map]. f_equal; [lia|]. rewrite <- seq_shift, map_map. apply map_ext. intro i. lia.
    + cbn [map]. destruct (saved (map fst tr)) as [|y r]; [exact I3|].
      change (last (Some (m, b) :: map Some (y :: r)) None) with (last (map Some (y :: r)) (@None (Z * B))).
      rewrite I3, last_some. reflexivity.
    + intros k b0 pre E. destruct pre as [|y pre].
      * cbn in E. injection E as <- <- E. rewrite E in I2. cbn in I2.
        destruct (Z.to_nat (m' - (m + 1))) eqn:Q; [lia|discriminate].
      * cbn in E. injection E as _ E. eauto.
Qed.
End Traces.
