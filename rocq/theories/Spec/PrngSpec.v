(** Documented ranges of the random samplers. *)
From Coq Require Import ZArith Reals.
From Verif Require Import Model.Prng.

Record lawful (P : prng) : Prop := {
  choice_range : forall k n, (0 < n)%Z -> (0 <= choice P k n < n)%Z;
  uniform_range : forall k a b, (a < b)%R -> (a <= uniform P k a b < b)%R;
  uniforms_range : forall k n i, (0 <= uniforms P k n i < 1)%R;
  beta_range : forall k a b, (0 < a)%R -> (0 < b)%R -> (0 <= beta P k a b <= 1)%R;
  logit_normal_range : forall k, (0 <= logit_normal P k <= 1)%R;
  log_normal_range : forall k, (0 < log_normal P k)%R
}.

(** No two different derivations of a key by splitting give the same key. *)
Definition splits_injectively (P : prng) : Prop :=
  forall k k' n n' i i', (i < n)%nat -> (i' < n')%nat ->
    split P k n i = split P k' n' i' -> k = k' /\ n = n' /\ i = i'.
