(** Episodes that do not depend on what was done before. *)
From Coq Require Import ZArith Reals List Bool Lia.
From RecordUpdate Require Import RecordSet.
From Verif Require Import Model.Num Model.Prng Model.Safety Model.Balloon Model.WindField
  Model.Atmosphere Model.Env Model.Agents Model.Eval.
From Verif Require Import Spec.Episodes Spec.EvalSpec Proofs.EnvProofs.
Import ListNotations RecordSetNotations.

#[local] Opaque initialize_balloon Sampling.sample_time atmosphere_reset simulate_step world_of
  U_HARMONICS V_HARMONICS from_balloon_state balloon_is_within_radius.

Section Order.
Context (G : gym_env) (A : agent_class (g_obs G)) (rp : Z) (fp : bool).
(** [U]: environments in use; [E]: environments that cannot be told apart. *)
Context (U : g_state G -> Prop) (E : g_state G -> g_state G -> Prop).
Definition seeded_reset (e : g_state G) (z : Z) : option (g_state G * g_obs G) :=
  match g_seed G e z with None => None | Some e => g_reset G e end.
Context (E_reset : forall e e' z, U e -> U e' -> same_answer E (seeded_reset e z) (seeded_reset e' z)).
Context (E_step : forall e e' c, E e e' -> same_answer E (g_step G e c) (g_step G e' c)).
Context (E_balloon : forall e e', E e e' -> g_balloon G e = g_balloon G e' /\ g_radius G e = g_radius G e').
Context (U_reset : forall e z e' o, U e -> seeded_reset e z = Some (e', o) -> U e').
Context (U_step : forall e c e' o, U e -> g_step G e c = Some (e', o) -> U e').
Context (Rel : ag_state A -> ag_state A -> Prop).
Context (R_begin : forall a a' o, same_answer Rel (ag_begin_episode A a o) (ag_begin_episode A a' o)).
Context (R_step : forall a a' r o, Rel a a' -> same_answer Rel (ag_step A a r o) (ag_step A a' r o)).
Context (R_end : forall a a' r d, Rel a a' ->
  (ag_end_episode A a r d = None <-> ag_end_episode A a' r d = None)).

(** Locals that differ only in the objects. *)
Definition alike (l l' : locals G A) : Prop :=
  E (l_env G A l) (l_env G A l') /\ Rel (l_agent G A l) (l_agent G A l') /\
  l' = l <| l_env G A := l_env G A l' |> <| l_agent G A := l_agent G A l' |>.
Definition alike_opt (p q : option (locals G A)) : Prop :=
  match p, q with Some l, Some l' => alike l l' | None, None => True | _, _ => False end.

Lemma iteration_alike l l' : alike l l' -> alike_opt (iteration G A rp fp l) (iteration G A rp fp l').
Proof.
  intros (He & Ha & El). unfold iteration.
  assert (Eact : l_action G A l' = l_action G A l) by (rewrite El; reflexivity).
  rewrite Eact.
  pose proof (E_step _ _ (l_action G A l) He) as Hs. unfold same_answer in Hs.
  destruct (g_step G (l_env G A l) _) as [[e1 [[[o r] d] i]]|];
    destruct (g_step G (l_env G A l') _) as [[e1' ans']|]; try contradiction; [|exact I].
  destruct Hs as [He1 <-].
  pose proof (R_step _ _ r o Ha) as Hr. unfold same_answer in Hr.
  destruct (ag_step A (l_agent G A l) r o) as [[a1 act]|];
    destruct (ag_step A (l_agent G A l') r o) as [[a1' act']|]; try contradiction; [|exact I].
  destruct Hr as [Ha1 <-].
  destruct (E_balloon _ _ He1) as [-> ->].
  destruct (g_balloon G e1') as [b|]; [|exact I].
  destruct (rp =? 0)%Z; [exact I|].
  rewrite El. destruct l as [le la lact lr ld lt ls lf lc lo lb lz].
  destruct d; cbn; (split; [exact He1|split; [exact Ha1|reflexivity]]).
Qed.

Lemma loop_alike fuel max : forall l l', alike l l' ->
  alike_opt (loop G A rp fp fuel max l) (loop G A rp fp fuel max l').
Proof.
  induction fuel as [|fuel IH]; intros l l' H; cbn [loop]; [exact H|].
  assert (Ec : l_step_count G A l' = l_step_count G A l) by (destruct H as (_ & _ & ->); reflexivity).
  rewrite Ec. destruct (_ <? max)%Z; [|exact H].
  pose proof (iteration_alike _ _ H) as Hi.
  destruct (iteration G A rp fp l) as [l1|]; destruct (iteration G A rp fp l') as [l1'|];
    try contradiction; [|exact I].
  cbn [alike_opt] in Hi.
  assert (Ed : l_is_done G A l1' = l_is_done G A l1) by (destruct Hi as (_ & _ & ->); reflexivity).
  rewrite Ed. destruct (l_is_done G A l1); [exact Hi|]. now apply IH.
Qed.

Lemma loop_U fuel max : forall l l', U (l_env G A l) -> loop G A rp fp fuel max l = Some l' -> U (l_env G A l').
Proof.
  induction fuel as [|fuel IH]; intros l l' H E0; cbn [loop] in E0; [now injection E0 as <-|].
  destruct (_ <? max)%Z; [|now injection E0 as <-].
  destruct (iteration G A rp fp l) as [l1|] eqn:E1; [|discriminate].
  assert (U (l_env G A l1)).
  { unfold iteration in E1. destruct (g_step G (l_env G A l) _) as [[e1 [[[o r] d] i]]|] eqn:Es; [|discriminate].
    destruct (ag_step _ _ _ _) as [[a1 act]|]; [|discriminate].
    destruct (g_balloon G e1); [|discriminate]. destruct (rp =? 0)%Z; [discriminate|].
    injection E1 as <-. destruct d; cbn; eapply U_step; eauto. }
  destruct (l_is_done G A l1); [now injection E0 as <-|]. eapply IH; eauto.
Qed.

Lemma eval_seed_alike max z e a e' a' : U e -> U e' ->
  match eval_seed G A rp fp max z e a, eval_seed G A rp fp max z e' a' with
  | Some (r, e1, _), Some (r', e1', _) => r = r' /\ U e1 /\ U e1'
  | None, None => True
  | _, _ => False
  end.
Proof.
  intros He He'. unfold eval_seed.
  pose proof (E_reset e e' z He He') as H. unfold same_answer in H.
  pose proof (U_reset e z) as Ur. pose proof (U_reset e' z) as Ur'.
  unfold seeded_reset in H, Ur, Ur'.
  destruct (g_seed G e z) as [e0|]; destruct (g_seed G e' z) as [e0'|]; try exact I.
  2:{ destruct (g_reset G e0) as [[]|]; [contradiction|exact I]. }
  2:{ destruct (g_reset G e0') as [[]|]; [contradiction|exact I]. }
  destruct (g_reset G e0) as [[e1 o]|]; destruct (g_reset G e0') as [[e1' o']|]; try contradiction; [|exact I].
  destruct H as [He1 <-].
  specialize (Ur _ _ He eq_refl). specialize (Ur' _ _ He' eq_refl).
  pose proof (R_begin a a' o) as Hb. unfold same_answer in Hb.
  destruct (ag_begin_episode A a o) as [[a1 act]|]; destruct (ag_begin_episode A a' o) as [[a1' act']|];
    try contradiction; [|exact I].
  destruct Hb as [Ha1 <-].
  set (l0 := mkLocals G A e1 a1 act 0 false 0 0 [] 0 false false false).
  set (l0' := mkLocals G A e1' a1' act 0 false 0 0 [] 0 false false false).
  assert (HL : alike l0 l0') by (split; [exact He1|split; [exact Ha1|reflexivity]]).
  pose proof (loop_alike (Z.to_nat max) max _ _ HL) as Hl.
  pose proof (loop_U (Z.to_nat max) max l0) as Hu. pose proof (loop_U (Z.to_nat max) max l0') as Hu'.
  destruct (loop G A rp fp (Z.to_nat max) max l0) as [l|];
    destruct (loop G A rp fp (Z.to_nat max) max l0') as [l'|]; try contradiction; [|exact I].
  specialize (Hu _ Ur eq_refl). specialize (Hu' _ Ur' eq_refl).
  destruct Hl as (_ & Ha & El).
  assert (X : l_reward G A l' = l_reward G A l /\ l_is_done G A l' = l_is_done G A l) by (rewrite El; split; reflexivity).
  destruct X as [-> ->].
  pose proof (R_end _ _ (l_reward G A l) (l_is_done G A l) Ha) as He2.
  destruct (ag_end_episode A (l_agent G A l) _ _) as [a2|]; destruct (ag_end_episode A (l_agent G A l') _ _) as [a2'|].
  - split; [|split; assumption]. rewrite El. reflexivity.
  - destruct He2 as [_ He2]. discriminate (He2 eq_refl).
  - destruct He2 as [He2 _]. discriminate (He2 eq_refl).
  - exact I.
Qed.

(** The results of one seed after the other, each as if it were alone. *)
Definition alone max e a z : option eval_result :=
  match eval_seed G A rp fp max z e a with Some (r, _, _) => Some r | None => None end.
Fixpoint all_some {B} (l : list (option B)) : option (list B) :=
  match l with
  | [] => Some []
  | None :: _ => None
  | Some b :: l => match all_some l with Some bs => Some (b :: bs) | None => None end
  end.
Definition results {B C D} (p : option (B * C * D)) : option B :=
  match p with Some (b, _, _) => Some b | None => None end.

Lemma eval_seeds_alone max zs : forall e a e0 a0, U e -> U e0 ->
  results (eval_seeds G A rp fp max zs e a) = all_some (map (alone max e0 a0) zs).
Proof.
  induction zs as [|z zs IH]; intros e a e0 a0 He He0; cbn [eval_seeds map all_some]; [reflexivity|].
  unfold alone at 1. pose proof (eval_seed_alike max z e a e0 a0 He He0) as H.
  destruct (eval_seed G A rp fp max z e a) as [[[r e1] a1]|];
    destruct (eval_seed G A rp fp max z e0 a0) as [[[r0 e10] a10]|]; try contradiction; [|reflexivity].
  destruct H as (<- & He1 & _). specialize (IH e1 a1 e0 a0 He1 He0).
  destruct (eval_seeds G A rp fp max zs e1 a1) as [[[rs e2] a2]|]; cbn in *; rewrite <- IH; reflexivity.
Qed.
End Order.

Lemma all_some_app {B} (l l' : list (option B)) : all_some (l ++ l') =
  match all_some l, all_some l' with Some a, Some b => Some (a ++ b) | _, _ => None end.
Proof.
  induction l as [|[b|] l IH]; cbn; [destruct (all_some l'); reflexivity| |reflexivity].
  rewrite IH. destruct (all_some l), (all_some l'); reflexivity.
Qed.

(** ** BalloonEnv is such an environment *)
Section BalloonGym.
Context (P : prng) (noise4d : Z -> R -> R -> R -> R -> R) (F : forecaster P).
Context (FC : feature_class P F).
Context (reward_fn : wind_field P F -> atmosphere -> R * R -> bstate R -> option R).
Context (draws : nat) (radius : R).
Notation G := (balloon_gym P noise4d F FC reward_fn draws).
Definition in_use (e : g_state G) : Prop :=
  tables P F (a_wind P F FC (e_arena P F FC e)) /\ e_radius P F FC e = radius.
Definition apart (e e' : g_state G) : Prop :=
  same P F FC e e' /\ e_radius P F FC e = e_radius P F FC e'.

Lemma env_reset_radius (e : env P F FC) z :
  e_radius P F FC (fst (env_reset P noise4d F FC draws e z)) = e_radius P F FC e.
Proof.
  unfold env_reset. destruct z as [z|]; cbn -[arena_reset];
    destruct (arena_reset _ _ _ _ _ _ _) as [a [o|]]; reflexivity.
Qed.
Lemma env_step_radius (e : env P F FC) c :
  e_radius P F FC (fst (env_step P noise4d F FC reward_fn e c)) = e_radius P F FC e.
Proof.
  unfold env_step. destruct (command_of_int c) as [c'|]; [|reflexivity].
  destruct (arena_step _ _ _ _ _ _) as [b [o|]]; cbn; [|reflexivity].
  destruct (a_balloon P F FC b) as [[ce s]|]; [|reflexivity].
  destruct (reward_fn _ _ _ _); reflexivity.
Qed.
Lemma gym_seeded (e : env P F FC) z : seeded_reset G e z =
  match env_reset P noise4d F FC draws e (Some z) with
  | (e, Returned (o, _)) => Some (e, o)
  | (_, Env.Raised) => None
  end.
Proof. reflexivity. Qed.
Lemma gym_reset e e' z : in_use e -> in_use e' ->
  same_answer apart (seeded_reset G e z) (seeded_reset G e' z).
Proof.
  intros [T Hr] [T' Hr']. rewrite !gym_seeded.
  destruct (reset_forgets P noise4d F FC draws e e' z T T') as [Q S].
  pose proof (env_reset_radius e (Some z)) as R1. pose proof (env_reset_radius e' (Some z)) as R2.
  destruct (env_reset P noise4d F FC draws e (Some z)) as [e1 [[o i]|]];
    destruct (env_reset P noise4d F FC draws e' (Some z)) as [e1' [[o' i']|]]; cbn in *; try discriminate; [|exact I].
  injection Q as <- <-. split; [|reflexivity]. split; [apply S; discriminate|congruence].
Qed.
Lemma gym_step e e' c : apart e e' -> same_answer apart (g_step G e c) (g_step G e' c).
Proof.
  intros [S Hr]. cbn [g_step balloon_gym].
  destruct (call_same P noise4d F FC reward_fn draws e e' (Episodes.Step c) S) as [Q S1].
  pose proof (env_step_radius e c) as R1. pose proof (env_step_radius e' c) as R2.
  unfold Episodes.call in Q, S1.
  destruct (env_step P noise4d F FC reward_fn e c) as [e1 [[[[o r] d] i]|]];
    destruct (env_step P noise4d F FC reward_fn e' c) as [e1' [[[[o' r'] d'] i']|]];
    cbn [fst snd] in Q, S1, R1, R2; try discriminate; [|exact I].
  injection Q as <- <- <- <-. split; [|reflexivity]. split; [exact S1|]. cbn in *. congruence.
Qed.
Lemma gym_balloon e e' : apart e e' -> g_balloon G e = g_balloon G e' /\ g_radius G e = g_radius G e'.
Proof. intros [[_ H] Hr]. cbn. rewrite H. split; [reflexivity|exact Hr]. Qed.
Lemma gym_reset_U e z e' o : in_use e -> seeded_reset G e z = Some (e', o) -> in_use e'.
Proof.
  intros [T Hr]. rewrite gym_seeded. pose proof (env_reset_tables P noise4d F FC draws e (Some z) T) as T1.
  pose proof (env_reset_radius e (Some z)) as R1.
  destruct (env_reset P noise4d F FC draws e (Some z)) as [e1 [[o1 i]|]]; [|discriminate].
  intros [= <- _]. cbn in T1, R1. split; [exact T1|congruence].
Qed.
Lemma gym_step_U e c e' o : in_use e -> g_step G e c = Some (e', o) -> in_use e'.
Proof.
  intros [T Hr]. cbn [g_step balloon_gym].
  pose proof (env_step_wind P noise4d F FC reward_fn e c) as W. pose proof (env_step_radius e c) as R1.
  destruct (env_step P noise4d F FC reward_fn e c) as [e1 [[[[o1 r] d] i]|]]; [|discriminate].
  intros [= <- _]. cbn in W, R1. split; [|congruence]. unfold tables in *. rewrite W. exact T.
Qed.
End BalloonGym.
