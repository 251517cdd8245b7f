(** Property C39, continued: the seeds of an arena. *)
From Coq Require Import ZArith Reals List.
From Verif Require Import Model.Num Model.Prng Model.Safety Model.Balloon Model.WindField Model.Atmosphere Model.Env.
From Verif Require Import Spec.ArenaSpec Proofs.EnvProofs.
Import ListNotations.

Section Arena.
Context (P : prng) (noise4d : Z -> R -> R -> R -> R -> R) (F : forecaster P).
Context (FC : feature_class P F) (draws : nat).
Notation arena := (arena P F FC).
Notation arena_reset_from := (arena_reset_from P noise4d F FC draws).
Notation tables a := (tables P F (a_wind P F FC a)).

Lemma reset_from_tables (a : arena) seed now : tables a -> tables (fst (arena_reset_from a seed now)).
Proof. apply arena_reset_tables. Qed.
Lemma arena_after_tables os : forall a : arena, tables a -> tables (arena_after P noise4d F FC draws a os).
Proof.
  induction os as [|o os IH]; intros a H; [exact H|]. cbn [arena_after]. apply IH.
  destruct o as [seed now|c]; [now apply reset_from_tables|]. cbn [arena_call]. now rewrite arena_step_wind.
Qed.
Lemma usable_arena_tables (a : arena) : usable_arena P noise4d F FC draws a -> tables a.
Proof.
  intros (seed & now & a0 & os & E & ->). apply arena_after_tables. unfold new_arena_from in E.
  match type of E with context [arena_reset_from ?b seed now] => pose proof (reset_from_tables b seed now ltac:(split; reflexivity)) as H;
    destruct (arena_reset_from b seed now) as [a1 [o|]] end; [|discriminate]. injection E as <-. exact H.
Qed.
Lemma same_key (a a' : arena) k os : usable_arena P noise4d F FC draws a -> usable_arena P noise4d F FC draws a' ->
  snd (arena_reset P noise4d F FC draws a k) = snd (arena_reset P noise4d F FC draws a' k) /\
  (snd (arena_reset P noise4d F FC draws a k) <> Raised ->
   arena_responses P noise4d F FC draws (fst (arena_reset P noise4d F FC draws a k)) os =
   arena_responses P noise4d F FC draws (fst (arena_reset P noise4d F FC draws a' k)) os).
Proof.
  intros H H'. destruct (arena_reset_forgets P noise4d F FC draws a a' k (usable_arena_tables a H) (usable_arena_tables a' H')) as [A B].
  split; [exact A|]. intro N. now rewrite (B N).
Qed.

(** Two arenas, whatever was done with them before and at whatever time, reset with the same
    int (or the same key) go on identically. *)
Theorem C39_arena : forall (a a' : arena) seed now now' os, seed <> Other_seed P ->
  usable_arena P noise4d F FC draws a -> usable_arena P noise4d F FC draws a' ->
  snd (arena_reset_from a seed now) = snd (arena_reset_from a' seed now') /\
  (snd (arena_reset_from a seed now) <> Raised ->
   arena_responses P noise4d F FC draws (fst (arena_reset_from a seed now)) os =
   arena_responses P noise4d F FC draws (fst (arena_reset_from a' seed now')) os).
Proof.
  intros a a' seed now now' os Hs H H'. unfold Env.arena_reset_from.
  assert (arena_key P seed now = arena_key P seed now') as -> by (destruct seed; [reflexivity|reflexivity|contradiction]).
  now apply same_key.
Qed.
(** An arena constructed with a seed goes on as one that was used and then reset with it. *)
Theorem C39_arena_constructor : forall seed now now' (a a' : arena) os, seed <> Other_seed P ->
  new_arena_from P noise4d F FC draws seed now = Some a -> usable_arena P noise4d F FC draws a' ->
  arena_responses P noise4d F FC draws a os =
  arena_responses P noise4d F FC draws (fst (arena_reset_from a' seed now')) os.
Proof.
  intros seed now now' a a' os Hs E H'. unfold new_arena_from in E.
  match type of E with context [arena_reset_from ?b seed now] => set (a0 := b) in E;
    pose proof (arena_reset_forgets P noise4d F FC draws a0 a' (arena_key P seed now) ltac:(split; reflexivity) (usable_arena_tables a' H')) as [A B] end.
  unfold Env.arena_reset_from in *.
  assert (arena_key P seed now' = arena_key P seed now) as -> by (destruct seed; [reflexivity|reflexivity|contradiction]).
  destruct (arena_reset P noise4d F FC draws a0 (arena_key P seed now)) as [a1 [o|]]; [|discriminate]. injection E as <-.
  cbn [fst snd] in B. now rewrite (B ltac:(discriminate)).
Qed.
(** A numpy integer should seed the arena as the int of the same value does; it is ignored,
    as None is: the episode is that of the system time. *)
Remark C39_numpy_seed : forall (a : arena) now now',
  arena_reset_from a (Other_seed P) now = arena_reset_from a (Int_seed P now) now'.
Proof. reflexivity. Qed.
End Arena.
Print Assumptions C39_arena.
Print Assumptions C39_arena_constructor.
