(** Property C106: the agent that acts at random. *)
From Coq Require Import ZArith Reals List Bool Lia Lra.
From Verif Require Import Model.Num Model.Balloon Model.Agents Model.Eval Model.RandomAgent.
From Verif Require Import Proofs.NumR Proofs.ExampleFlight Props.EvalProps.
Import ListNotations.
Open Scope Z_scope.

(** The calls that can be made to an agent. *)
Inductive call (obs : Type) :=
| BEGIN (o : obs) | STEP (reward : R) (o : obs) | END (reward : R) (terminal : bool) | MODE (m : agent_mode).
Arguments BEGIN {obs}. Arguments STEP {obs}. Arguments END {obs}. Arguments MODE {obs}.

(** The actions that an agent answers to a sequence of calls, and its state after them. *)
Fixpoint answers {obs} (A : agent_class obs) (a : ag_state A) (calls : list (call obs))
  : option (ag_state A * list Z) :=
  match calls with
  | [] => Some (a, [])
  | c :: calls =>
      match c with
      | BEGIN o => match ag_begin_episode A a o with None => None | Some (a, x) =>
                     match answers A a calls with None => None | Some (a, l) => Some (a, x :: l) end end
      | STEP r o => match ag_step A a r o with None => None | Some (a, x) =>
                     match answers A a calls with None => None | Some (a, l) => Some (a, x :: l) end end
      | END r d => match ag_end_episode A a r d with None => None | Some a => answers A a calls end
      | MODE m => answers A (ag_set_mode A a m) calls
      end
  end.
(** Which calls ask for an action, and how many do. *)
Definition asks {obs} (c : call obs) : bool := match c with BEGIN _ | STEP _ _ => true | _ => false end.
Definition asked {obs} (calls : list (call obs)) : nat := length (filter asks calls).

(** The next numbers of numpy's generator below a bound, and its state after them. *)
Fixpoint draws (N : np_random) (bound : Z) (n : nat) (g : ng N) : list Z * ng N :=
  match n with
  | O => ([], g)
  | S n => let (l, g') := draws N bound n (fst (ng_randint N g bound)) in (snd (ng_randint N g bound) :: l, g')
  end.
(** What numpy promises. *)
Definition in_range (N : np_random) : Prop :=
  forall g bound, 0 < bound -> 0 <= snd (ng_randint N g bound) < bound.

Lemma draws_in_range N bound n : in_range N -> 0 < bound -> forall g a,
  In a (fst (draws N bound n g)) -> 0 <= a < bound.
Proof.
  intros R P. induction n as [|n IH]; intros g a; cbn [draws].
  - intros [].
  - specialize (IH (fst (ng_randint N g bound)) a). destruct draws as [l g']. cbn [fst] in *.
    intros [<-|I]; [now apply R|now apply IH].
Qed.

(** Whatever it is shown, told and rewarded with, and in whatever mode, the agent answers
    with the next numbers of numpy's generator, one for each action asked for: an action
    in the range, if there are actions at all.  It does not look at anything: the same
    number of questions gets the same answers. *)
Theorem C106_answers : forall N obs num_actions (g : ng N) (calls : list (call obs)), 0 < num_actions ->
  answers (random_agent N obs num_actions) g calls =
    Some (snd (draws N num_actions (asked calls) g), fst (draws N num_actions (asked calls) g)) /\
  (in_range N -> forall g' l, answers (random_agent N obs num_actions) g calls = Some (g', l) ->
     length l = asked calls /\ forall a, In a l -> 0 <= a < num_actions) /\
  (forall calls' : list (call obs), asked calls' = asked calls ->
     answers (random_agent N obs num_actions) g calls' = answers (random_agent N obs num_actions) g calls).
Proof.
  intros N obs num g calls P.
  assert (K : forall (calls : list (call obs)) (g : ng N), answers (random_agent N obs num) g calls =
    Some (snd (draws N num (asked calls) g), fst (draws N num (asked calls) g))).
  { clear g calls. assert (Z : (num <=? 0) = false) by (apply Z.leb_gt; lia).
    induction calls as [|[o|r o|r d|m] calls IH]; intro g; cbn; unfold random_begin_episode, random_step, random_end_episode, random_action;
      rewrite ?Z; [reflexivity| | |apply IH|apply IH];
      (destruct (ng_randint N g num) as [g1 x] eqn:E; cbn [fst snd] in *; rewrite (IH g1);
       unfold asked in *; cbn [length draws]; rewrite ?E; cbn [fst snd]; destruct draws; reflexivity). }
  split; [apply K|]. split.
  - intros R g' l H. rewrite K in H. injection H as <- <-. split.
    + clear. generalize (asked calls). intro n. revert g. induction n as [|n IH]; intro g; cbn [draws]; [reflexivity|].
      specialize (IH (fst (ng_randint N g num))). destruct draws. cbn in *. now rewrite IH.
    + intros a I. exact (draws_in_range N num _ R P _ _ I).
  - intros calls' E. rewrite !K, E. reflexivity.
Qed.

(** Without actions to choose from it raises when asked for one. *)
Theorem C106_raises : forall N obs num_actions (g : ng N) (calls : list (call obs)), num_actions <= 0 ->
  (answers (random_agent N obs num_actions) g calls = None <-> exists c, In c calls /\ asks c = true).
Proof.
  intros N obs num g calls P. assert (Z : (num <=? 0) = true) by (apply Z.leb_le; lia).
  revert g. induction calls as [|c calls IH]; intro g; cbn.
  - split; [discriminate|intros (c & [] & _)].
  - destruct c as [o|r o|r d|m]; cbn; unfold random_begin_episode, random_step, random_end_episode, random_action;
      rewrite ?Z.
    1,2: split; [intros _; eexists; split; [now left|reflexivity]|reflexivity].
    all: rewrite IH; split; [intros (c & I & H); exists c; now split; [right|]|].
    all: intros (c & [<-|I] & H); [discriminate|now exists c].
Qed.

(** ** Evaluations *)
Section Evaluation.
Context (N : np_random) (G : gym_env) (num_actions : Z) (render_period : Z) (flight_path : bool).
Let A := random_agent N (g_obs G) num_actions.

Lemma draws_add m n : forall g, snd (draws N num_actions (m + n) g) =
  snd (draws N num_actions n (snd (draws N num_actions m g))).
Proof.
  induction m as [|m IH]; intro g; [reflexivity|]. cbn [plus draws].
  specialize (IH (fst (ng_randint N g num_actions))).
  destruct (draws N num_actions (m + n)), (draws N num_actions m). exact IH.
Qed.

Lemma one_draw g g' a : random_action N num_actions g = Some (g', a) -> g' = snd (draws N num_actions 1 g).
Proof.
  unfold random_action. destruct (_ <=? 0); [discriminate|]. cbn. destruct ng_randint. intro H.
  now injection H as <- <-.
Qed.

Lemma iteration_draws l l' : iteration G A render_period flight_path l = Some l' ->
  l_agent G A l' = snd (draws N num_actions 1 (l_agent G A l)) /\ l_step_count G A l' = l_step_count G A l + 1.
Proof.
  unfold iteration. destruct g_step as [[e [[[o r] d] i]]|]; [|discriminate].
  change (ag_step A) with (random_step N (g_obs G) num_actions). unfold random_step.
  destruct (random_action N num_actions (l_agent G A l)) as [[g a]|] eqn:E; [|discriminate].
  apply one_draw in E. destruct g_balloon as [b|]; [|discriminate]. destruct (_ =? 0); [discriminate|].
  intro H. injection H as <-. destruct d; cbn; (split; [exact E|reflexivity]).
Qed.

Lemma loop_draws fuel max : forall l l', loop G A render_period flight_path fuel max l = Some l' ->
  exists n, l_agent G A l' = snd (draws N num_actions n (l_agent G A l)) /\
            l_step_count G A l' = l_step_count G A l + Z.of_nat n.
Proof.
  induction fuel as [|fuel IH]; intros l l'; cbn [loop].
  - intro H. injection H as <-. exists O. split; [reflexivity|cbn; lia].
  - destruct (_ <? max); [|intro H; injection H as <-; exists O; split; [reflexivity|cbn; lia]].
    destruct iteration as [l1|] eqn:E; [|discriminate]. destruct (iteration_draws _ _ E) as [D S].
    destruct (l_is_done G A l1).
    + intro H. injection H as <-. exists 1%nat. split; [exact D|rewrite S; reflexivity].
    + intro H. destruct (IH _ _ H) as (n & D' & S'). exists (1 + n)%nat. split; [now rewrite D', D, draws_add|lia].
Qed.

Lemma seed_draws max z e g r e' g' : eval_seed G A render_period flight_path max z e g = Some (r, e', g') ->
  0 <= r_final_timestep r /\ g' = snd (draws N num_actions (Z.to_nat (r_final_timestep r + 1)) g).
Proof.
  unfold eval_seed. destruct g_seed as [e1|]; [|discriminate]. destruct g_reset as [[e2 o]|]; [|discriminate].
  change (ag_begin_episode A) with (random_begin_episode N (g_obs G) num_actions). unfold random_begin_episode.
  destruct (random_action N num_actions g) as [[g1 a]|] eqn:E; [|discriminate]. apply one_draw in E.
  destruct loop as [l|] eqn:L; [|discriminate]. destruct (loop_draws _ _ _ _ L) as (n & D & S).
  cbn [ag_end_episode A random_agent]. unfold random_end_episode. intro H. injection H as <- <- <-.
  cbn [r_final_timestep l_agent l_step_count] in *. split; [lia|]. rewrite D, E, <- draws_add. do 2 f_equal. lia.
Qed.

(** An evaluation takes from numpy's generator exactly one number for each step of each
    flight, and one more for each flight; so what the agent does on a seed depends on how
    many steps the flights before it had. *)
Theorem C106_draws : forall (g g' : ng N) e e' s rs,
  eval_agent G A render_period flight_path g e s = Some (rs, e', g') ->
  g' = snd (draws N num_actions
              (Z.to_nat (fold_right Z.add 0 (map (fun r => r_final_timestep r + 1) rs))) g) /\
  length rs = length (seeds s).
Proof.
  intros g g' e e' s rs. unfold eval_agent. destruct (0 <? _); [|discriminate].
  change (ag_set_mode A g EVAL) with g. generalize (max_episode_length s) as max. intro max.
  enough (K : forall zs e (g : ng N) rs e' g', eval_seeds G A render_period flight_path max zs e g = Some (rs, e', g') ->
    g' = snd (draws N num_actions (Z.to_nat (fold_right Z.add 0 (map (fun r => r_final_timestep r + 1) rs))) g) /\
    length rs = length zs /\ 0 <= fold_right Z.add 0 (map (fun r => r_final_timestep r + 1) rs))
    by (intro H; destruct (K _ _ _ _ _ _ H) as (? & ? & _); now split).
  clear. induction zs as [|z zs IH]; intros e g rs e' g'; cbn [eval_seeds].
  - intro H. injection H as <- <- <-. repeat split. cbn. lia.
  - destruct eval_seed as [[[r e1] g1]|] eqn:E; [|discriminate]. destruct (seed_draws _ _ _ _ _ _ _ E) as [P D].
    destruct eval_seeds as [[[rs1 e2] g2]|] eqn:Es; [|discriminate]. intro H. injection H as <- <- <-.
    destruct (IH _ _ _ _ _ Es) as (D' & Le & P'). cbn [map fold_right length]. split; [|split; lia].
    rewrite D', D, <- draws_add. do 2 f_equal. lia.
Qed.
End Evaluation.

(** A generator that counts. *)
Definition counting_random : np_random := mkNpRandom Z (fun g bound => (g + 1, g mod bound)).

#[local] Opaque balloon_is_within_radius from_balloon_state.
Lemma demo_random (b : Z -> bstate R) (k : Z) :
  exists r1 r2 r3 r4,
    eval_agent (demo_gym b) (random_agent counting_random Z 3) 10 true 0 0 (mkSuite [k] 1) = Some ([r1], 1, 2) /\
    eval_agent (demo_gym b) (random_agent counting_random Z 3) 10 true 2 1 (mkSuite [k] 1) = Some ([r2], 1, 4) /\
    eval_agent (demo_gym b) (random_agent counting_random Z 3) 10 true 0 0 (mkSuite [7; k] 1) = Some ([r3; r4], 1, 4) /\
    r_cumulative_reward r1 = 0%R /\ r_cumulative_reward r2 = 2%R /\ r_cumulative_reward r4 = 2%R /\
    r_seed r1 = k /\ r_seed r2 = k /\ r_seed r4 = k /\ r_final_timestep r3 = 1.
Proof.
  eexists _, _, _, _.
  split; [lazy -[Rplus Rdiv IZR balloon_is_within_radius from_balloon_state]; reflexivity|].
  split; [lazy -[Rplus Rdiv IZR balloon_is_within_radius from_balloon_state]; reflexivity|].
  split; [lazy -[Rplus Rdiv IZR balloon_is_within_radius from_balloon_state]; reflexivity|].
  cbn [r_seed r_final_timestep r_cumulative_reward]. repeat split; lra.
Qed.

(** An evaluation of this agent should be repeatable, and the result on a seed not depend on
    the other seeds of the suite, as for the other agents (C64).  Neither holds:
    nothing seeds numpy's generator. *)
Theorem C106_repeatable_refuted :
  exists N, in_range N /\ exists G (g : ng N) (e : g_state G) s z rs e' g' rs' e'' g'' rs2 e3 g3,
    let evaluate g e seeds := eval_agent G (random_agent N (g_obs G) 3) 10 true g e (mkSuite seeds 1) in
    evaluate g e [s] = Some ([rs], e', g') /\
    evaluate g' e' [s] = Some ([rs'], e'', g'') /\
    evaluate g e [z; s] = Some (rs2, e3, g3) /\
    r_cumulative_reward rs' <> r_cumulative_reward rs /\
    (forall r, nth_error rs2 1 = Some r -> r_seed r = s /\ r_cumulative_reward r <> r_cumulative_reward rs).
Proof.
  exists counting_random. split; [intros g bound P; apply Z.mod_pos_bound; exact P|].
  destruct (demo_random (fun _ => demo_state) 5) as (r1 & r2 & r3 & r4 & E1 & E2 & E3 & R1 & R2 & R4 & S1 & S2 & S4 & _).
  exists (demo_gym (fun _ => demo_state)), 0, 0, 5, 7, r1, 1, 2, r2, 1, 4, [r3; r4], 1, 4. cbn zeta.
  split; [exact E1|]. split; [exact E2|]. split; [exact E3|]. split; [rewrite R1, R2; lra|].
  intros r H. injection H as <-. split; [exact S4|]. rewrite R1, R4. lra.
Qed.

Example C106_witness :
  answers (random_agent counting_random Z 3) 4 [MODE EVAL; BEGIN 8; STEP 1 9; STEP 0 8; END 0 true; BEGIN 1]
    = Some (8, [1; 2; 0; 1]) /\
  answers (random_agent counting_random Z 0) 4 [MODE TRAIN; END 0 true] = Some (4, []) /\
  answers (random_agent counting_random Z 0) 4 [MODE TRAIN; BEGIN 2] = None.
Proof. repeat split. Qed.

Print Assumptions C106_answers.
Print Assumptions C106_raises.
Print Assumptions C106_draws.
Print Assumptions C106_repeatable_refuted.
Print Assumptions C106_witness.
