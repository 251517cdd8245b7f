(** What the names of checkpoint files are.  Only used to *state* properties. *)
From Coq Require Import ZArith List Bool String Ascii.
Import ListNotations.
Open Scope string_scope.

(** The value of a string of decimal digits. *)
Definition digit_value (c : ascii) : Z := (Z.of_nat (nat_of_ascii c) - 48)%Z.
Fixpoint value_from (acc : Z) (s : string) : Z :=
  match s with "" => acc | String c r => value_from (10 * acc + digit_value c)%Z r end.
Fixpoint all_digits (s : string) : Prop :=
  match s with "" => True | String c r => (0 <= digit_value c <= 9)%Z /\ all_digits r end.
(** [s] is how the library writes the number n >= 0 of an iteration: at least five
    digits, no more zeros in front than needed for that. *)
Definition written (n : Z) (s : string) : Prop :=
  all_digits s /\ value_from 0 s = n /\ (5 <= String.length s)%nat /\
  (String.length s > 5 -> exists c r, s = String c r /\ (0 < digit_value c)%Z)%nat.

Definition is_checkpoint_of (n : Z) (name : string) : Prop :=
  exists s, written n s /\ name = "checkpoint_" ++ s ++ ".pkl".

(** Files whose name has nothing to do with checkpoints. *)
Definition foreign (name : string) : Prop := ~ exists s, name = "checkpoint_" ++ s ++ ".pkl".
