(** Property C73: the Perciatelli44 agent as a whole. *)
From Coq Require Import ZArith Reals List Bool Lia Lra.
From Verif Require Import Model.Num Model.Loading Model.Agents Model.Perciatelli44.
From Verif Require Import Spec.ReplaySpec Spec.LearningSpec Spec.CompleteSpec Proofs.NumR.
From Verif Require Props.LoadingProps.
Import ListNotations.

(** It is built exactly for three actions and 1099 numbers, if its model can be read: the
    packaged one, or, if there is none, that of the source directory.  Unsuitable sizes are
    refused before the model is looked for. *)
Theorem C73_construction : forall actions shape packaged relative,
  (forall g, new_perciatelli44 actions shape packaged relative = Returns g <->
     actions = 3%Z /\ shape = [1099]%Z /\
     (packaged = Readable g \/ packaged = Absent /\ relative = Readable g)) /\
  (actions <> 3%Z \/ shape <> [1099]%Z -> new_perciatelli44 actions shape packaged relative = Raises ValueError).
Proof.
  intros actions shape packaged relative.
  unfold new_perciatelli44, perciatelli44_accepts, load_perciatelli44.
  destruct (Z.eqb_spec actions 3) as [->|Ha]; cbn [negb].
  2: { split; [|reflexivity]. intro g. split; [discriminate|]. intros (? & _). contradiction. }
  destruct (list_eq_dec Z.eq_dec shape [1099]%Z) as [->|Hs].
  2: { split; [|reflexivity]. intro g. split; [discriminate|]. intros (_ & ? & _). contradiction. }
  split; [|intros [H|H]; contradiction]. intro g.
  destruct packaged as [b| |], relative as [b'| |]; cbn;
    intuition (congruence || discriminate).
Qed.

Section Episodes.
Context (q : list Z -> list R -> list R).
Notation agent := (perciatelli44_agent q).

Lemma answer_44_spec g o : List.length o = 1099%nat -> q g o <> [] ->
  exists a, answer_44 q g o = Some (g, Z.of_nat a) /\
    first_best (List.length (q g o)) (fun k => nth k (q g o) 0%R) a.
Proof.
  intros L N. unfold answer_44. rewrite L, Nat.eqb_refl.
  exists (argmax (q g o)). split; [destruct (q g o); [contradiction|reflexivity]|].
  destruct LoadingProps.C73_perciatelli44 as (_ & _ & K). exact (K _ (q g) o N).
Qed.

(** In every episode, whatever came before, whatever the rewards and the mode: the agent
    answers every observation with the first of the actions that its network values most for
    that observation, and stays as it is.  It raises exactly on observations of another
    length. *)
Theorem C73_episode : forall g first inputs reward terminal mode,
  (forall o, List.length (q g o) = 3%nat) ->
  let g' := ag_set_mode agent g mode in
  let shown := first :: map snd inputs in
  match episode agent g' first inputs reward terminal with
  | None => exists o, In o shown /\ List.length o <> 1099%nat
  | Some (g'', actions) => g'' = g /\
      Forall2 (fun o action => exists a, action = Z.of_nat a /\ first_best 3 (fun k => nth k (q g o) 0%R) a) shown actions
  end.
Proof.
  intros g first inputs reward terminal mode H3. cbn [ag_set_mode perciatelli44_agent].
  unfold episode. cbn [ag_begin_episode ag_end_episode perciatelli44_agent].
  assert (N : forall o, q g o <> []) by (intros o E; specialize (H3 o); rewrite E in H3; discriminate).
  assert (One : forall o, List.length o <> 1099%nat -> answer_44 q g o = None).
  { intros o L. unfold answer_44. destruct (Nat.eqb_spec (List.length o) 1099); [contradiction|reflexivity]. }
  assert (St : match steps agent g inputs with
               | None => exists o, In o (map snd inputs) /\ List.length o <> 1099%nat
               | Some (g'', actions) => g'' = g /\
                   Forall2 (fun o action => exists a, action = Z.of_nat a /\ first_best 3 (fun k => nth k (q g o) 0%R) a)
                     (map snd inputs) actions
               end).
  { induction inputs as [|[r o] inputs IH]; cbn [steps map snd]; [split; [reflexivity|constructor]|].
    cbn [ag_step perciatelli44_agent]. destruct (Nat.eq_dec (List.length o) 1099) as [L|L].
    - destruct (answer_44_spec g o L (N o)) as (a & -> & B). rewrite H3 in B.
      destruct (steps agent g inputs) as [[g'' actions]|].
      + destruct IH as [-> F]. split; [reflexivity|]. constructor; [exists a; now split|exact F].
      + destruct IH as (o' & I & L'). exists o'. split; [now right|exact L'].
    - rewrite (One o L). exists o. split; [now left|exact L]. }
  destruct (Nat.eq_dec (List.length first) 1099) as [L|L].
  - destruct (answer_44_spec g first L (N first)) as (a & -> & B). rewrite H3 in B.
    destruct (steps agent g inputs) as [[g'' actions]|].
    + destruct St as [-> F]. split; [reflexivity|]. constructor; [exists a; now split|exact F].
    + destruct St as (o' & I & L'). exists o'. split; [now right|exact L'].
  - rewrite (One first L). exists first. split; [now left|exact L].
Qed.

(** So it answers every observation of the default length, and evaluations and episodes with
    it come to their end (C84). *)
Theorem C73_obliging : (forall g o, List.length (q g o) = 3%nat) ->
  obliging agent (fun o => List.length o = 1099%nat) (fun _ => True) (fun _ => True).
Proof.
  intro H3.
  assert (K : forall g o, List.length o = 1099%nat ->
            exists g' x, answer_44 q g o = Some (g', x) /\ True /\ (0 <= x <= 2)%Z).
  { intros g o L. destruct (answer_44_spec g o L) as (a & E & (B & _)).
    { intro E. specialize (H3 g o). rewrite E in H3. discriminate. }
    rewrite H3 in B. exists g, (Z.of_nat a). split; [exact E|]. split; [exact I|lia]. }
  split; cbn [perciatelli44_agent ag_state ag_begin_episode ag_step ag_end_episode]; intros.
  - now apply K.
  - now apply K.
  - eauto.
Qed.
End Episodes.

(** A network that prefers the last action to the others if the first number is positive. *)
Example C73_episode_witness :
  let net := fun (_ : list Z) o => [0; 1; 1 + nth 0 o 0]%R in
  (forall g o, List.length (net g o) = 3%nat) /\
  episode (perciatelli44_agent net) [7%Z] (repeat 1 1099)%R [(0, repeat 0 1099)]%R 0%R true = Some ([7%Z], [2; 1]%Z) /\
  episode (perciatelli44_agent net) [7%Z] (repeat 1 1098)%R [] 0%R true = None.
Proof.
  cbn zeta. split; [reflexivity|].
  assert (A : forall x, argmax [0; 1; 1 + x]%R = if Rltb 1 (1 + x) then 2%nat else 1%nat).
  { intro x. unfold argmax. cbn [argmax_from]. rewrite (Rltb_true 0 1) by lra. cbn [argmax_from]. reflexivity. }
  split.
  - unfold episode. cbn [steps perciatelli44_agent ag_begin_episode ag_step ag_end_episode].
    unfold answer_44. rewrite !repeat_length, Nat.eqb_refl. cbn [repeat nth].
    rewrite !A, Rltb_true, Rltb_false by lra. reflexivity.
  - unfold episode. cbn [perciatelli44_agent ag_begin_episode]. unfold answer_44. rewrite repeat_length. reflexivity.
Qed.

Print Assumptions C73_construction.
Print Assumptions C73_episode.
Print Assumptions C73_obliging.
