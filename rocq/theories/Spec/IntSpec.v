(** What Python's int(s) accepts and returns (ASCII strings), from the language
    reference.  Only used to *state* properties. *)
From Coq Require Import ZArith List Bool String Ascii.
From Verif Require Import Spec.CheckpointSpec.
Import ListNotations.
Open Scope string_scope.

Definition white : list ascii :=
  map ascii_of_nat [32; 9; 10; 11; 12; 13; 28; 29; 30; 31]%nat.
Fixpoint spaces (s : string) : Prop :=
  match s with "" => True | String c r => In c white /\ spaces r end.

(** The string without its underscores. *)
Fixpoint plain (s : string) : string :=
  match s with
  | "" => ""
  | String c r => if Ascii.eqb c "_" then plain r else String c (plain r)
  end.
(** Digits, with single underscores allowed between them. *)
Definition numeral (s : string) : Prop :=
  s <> "" /\ all_digits (plain s) /\
  (~ exists r, s = "_" ++ r) /\ (~ exists l, s = l ++ "_") /\ (~ exists l r, s = l ++ "__" ++ r).

(** int(s) == k: white space, a sign, digits, white space. *)
Definition int_of (s : string) (k : Z) : Prop :=
  exists before sign body after,
    s = before ++ sign ++ body ++ after /\ spaces before /\ spaces after /\ numeral body /\
    ((sign = "" \/ sign = "+") /\ k = value_from 0 (plain body) \/
     sign = "-" /\ k = (- value_from 0 (plain body))%Z).
