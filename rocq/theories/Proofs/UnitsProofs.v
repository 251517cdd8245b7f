(** Operators of units.py against dimensional analysis. *)
From Coq Require Import ZArith Reals Lra Bool.
From Verif Require Import Model.Num Model.Units Spec.Dimensions Proofs.NumR.
Open Scope R_scope.

Lemma add_si a b v : add a b = Val v ->
  exists x y d, si a = Some (x, d) /\ si b = Some (y, d) /\ si v = Some (x + y, d).
Proof.
  destruct a, b; cbn; try discriminate; injection 1; intro; subst;
    do 3 eexists; (split; [reflexivity|]); (split; [reflexivity|]); cbn;
    apply f_equal; apply pair_equal_spec; split; try reflexivity; unfold METERS_PER_FOOT; lra.
Qed.
Lemma sub_si a b v : sub a b = Val v ->
  exists x y d, si a = Some (x, d) /\ si b = Some (y, d) /\ si v = Some (x - y, d).
Proof.
  destruct a, b; cbn; try discriminate; injection 1; intro; subst;
    do 3 eexists; (split; [reflexivity|]); (split; [reflexivity|]); cbn;
    apply f_equal; apply pair_equal_spec; split; try reflexivity; unfold METERS_PER_FOOT; lra.
Qed.
Lemma mul_si a b v : mul a b = Val v ->
  exists x y d e, si a = Some (x, d) /\ si b = Some (y, e) /\
    si v = Some (x * y, dim_mul d e).
Proof.
  destruct a, b; cbn; try discriminate; injection 1; intro; subst;
    do 4 eexists; (split; [reflexivity|]); (split; [reflexivity|]); cbn;
    apply f_equal; apply pair_equal_spec; split; try reflexivity;
    unfold timedelta_to_hours, seconds_to_hours, total_seconds, METERS_PER_FOOT; lra.
Qed.
Lemma truediv_si a b v : truediv a b = Val v ->
  exists x y d e, si a = Some (x, d) /\ si b = Some (y, e) /\ y <> 0 /\
    si v = Some (x / y, dim_div d e).
Proof.
  destruct a, b; cbn; try discriminate; unfold pydiv, total_seconds;
    match goal with |- context [Reqb ?y 0] => destruct (Reqb_spec y 0) as [E|E] end;
    try discriminate; injection 1; intro; subst; clear H;
    do 4 eexists; (split; [reflexivity|]); (split; [reflexivity|]);
    (split; [first [exact E | intro Z; apply E; lra]|]); cbn;
    apply f_equal; apply pair_equal_spec; split; try reflexivity; unfold METERS_PER_FOOT, Rdiv in *; try (field; lra); lra.
Qed.

(** Which pairs of operands are accepted. *)
Lemma add_accepts a b : same_kind a b = true -> exists v, add a b = Val v.
Proof. destruct a, b; cbn; try discriminate; eauto. Qed.
Lemma add_rejects a b : is_quantity a || is_quantity b = true -> same_kind a b = false ->
  exists e, add a b = Raises e.
Proof. destruct a, b; cbn; try discriminate; eauto. Qed.
Lemma sub_accepts a b : same_kind a b = true -> exists v, sub a b = Val v.
Proof. destruct a, b; cbn; try discriminate; eauto. Qed.
Lemma sub_rejects a b : is_quantity a || is_quantity b = true -> same_kind a b = false ->
  exists e, sub a b = Raises e.
Proof. destruct a, b; cbn; try discriminate; eauto. Qed.

(** Comparisons. *)
Lemma gt_si a b t : gt a b = Truth t ->
  exists x y d, si a = Some (x, d) /\ si b = Some (y, d) /\ (t = true <-> x > y).
Proof.
  destruct a, b; cbn; try discriminate; injection 1; intro; subst;
    do 3 eexists; (split; [reflexivity|]); (split; [reflexivity|]);
    rewrite Rltb_iff; lra.
Qed.
Lemma lt_si a b t : lt a b = Truth t ->
  exists x y d, si a = Some (x, d) /\ si b = Some (y, d) /\ (t = true <-> x < y).
Proof.
  destruct a, b; cbn; try discriminate; injection 1; intro; subst;
    do 3 eexists; (split; [reflexivity|]); (split; [reflexivity|]);
    rewrite Rltb_iff; lra.
Qed.
Lemma ge_si a b t : ge a b = Truth t ->
  exists x y d, si a = Some (x, d) /\ si b = Some (y, d) /\ (t = true <-> x >= y).
Proof.
  destruct a, b; cbn; try discriminate; injection 1; intro; subst;
    do 3 eexists; (split; [reflexivity|]); (split; [reflexivity|]);
    rewrite Rleb_iff; lra.
Qed.
Lemma le_si a b t : le a b = Truth t ->
  exists x y d, si a = Some (x, d) /\ si b = Some (y, d) /\ (t = true <-> x <= y).
Proof.
  destruct a, b; cbn; try discriminate; injection 1; intro; subst;
    do 3 eexists; (split; [reflexivity|]); (split; [reflexivity|]);
    rewrite Rleb_iff; lra.
Qed.

Lemma eq_si a b t : eq a b = Truth t ->
  exists x y d, si a = Some (x, d) /\ si b = Some (y, d) /\
    match a with
    | Distance _ | Velocity _ => t = true <-> Rabs (x - y) < 1e-9
    | _ => t = true <-> x = y
    end.
Proof.
  destruct a, b; cbn; try discriminate; injection 1; intro; subst;
    do 3 eexists; (split; [reflexivity|]); (split; [reflexivity|]);
    rewrite ?Rltb_iff, ?Reqb_iff; try reflexivity; split; intro; lra.
Qed.
