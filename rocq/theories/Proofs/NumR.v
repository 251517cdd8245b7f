(** Reflection lemmas for the real-number instance. *)
From Coq Require Import ZArith Reals Lra Bool.
From Verif Require Import Model.Num.
Open Scope R_scope.

Lemma Rltb_spec x y : reflect (x < y) (Rltb x y).
Proof. unfold Rltb; destruct (Rlt_dec x y); constructor; auto. Qed.
Lemma Rleb_spec x y : reflect (x <= y) (Rleb x y).
Proof. unfold Rleb; destruct (Rle_dec x y); constructor; auto. Qed.
Lemma Reqb_spec x y : reflect (x = y) (Reqb x y).
Proof. unfold Reqb; destruct (Req_EM_T x y); constructor; auto. Qed.

Lemma Rltb_true x y : x < y -> Rltb x y = true.
Proof. intro H; destruct (Rltb_spec x y); [reflexivity|contradiction]. Qed.
Lemma Rltb_false x y : ~ x < y -> Rltb x y = false.
Proof. intro H; destruct (Rltb_spec x y); [contradiction|reflexivity]. Qed.
Lemma Rleb_true x y : x <= y -> Rleb x y = true.
Proof. intro H; destruct (Rleb_spec x y); [reflexivity|contradiction]. Qed.
Lemma Rleb_false x y : ~ x <= y -> Rleb x y = false.
Proof. intro H; destruct (Rleb_spec x y); [contradiction|reflexivity]. Qed.
Lemma Rltb_iff x y : Rltb x y = true <-> x < y.
Proof. destruct (Rltb_spec x y); split; intros; try discriminate; auto; contradiction. Qed.
Lemma Rleb_iff x y : Rleb x y = true <-> x <= y.
Proof. destruct (Rleb_spec x y); split; intros; try discriminate; auto; contradiction. Qed.
Lemma Reqb_iff x y : Reqb x y = true <-> x = y.
Proof. destruct (Reqb_spec x y); split; intros; try discriminate; auto; contradiction. Qed.

(** Turn the class projections at [Num_R] into real operations. *)
Ltac numR :=
  cbv [lit pymax pymin] in *;
  cbn [nofZ nadd nsub nmul ndiv nopp nabs nsqrt npow npi nltb nleb neqb Num_R] in *.

(** Case on every boolean real comparison in the goal / hypotheses. *)
Ltac rcase1 :=
  match goal with
  | |- context [Rltb ?a ?b] => destruct (Rltb_spec a b)
  | |- context [Rleb ?a ?b] => destruct (Rleb_spec a b)
  | |- context [Reqb ?a ?b] => destruct (Reqb_spec a b)
  | H : context [Rltb ?a ?b] |- _ => destruct (Rltb_spec a b)
  | H : context [Rleb ?a ?b] |- _ => destruct (Rleb_spec a b)
  | H : context [Reqb ?a ?b] |- _ => destruct (Reqb_spec a b)
  end.
Ltac rcases := repeat rcase1.

Lemma pymax_R a b : @pymax R Num_R a b = Rmax a b.
Proof.
  unfold pymax; cbn. unfold Rmax. destruct (Rltb_spec a b), (Rle_dec a b); lra.
Qed.
Lemma pymin_R a b : @pymin R Num_R a b = Rmin a b.
Proof.
  unfold pymin; cbn. unfold Rmin. destruct (Rltb_spec b a), (Rle_dec a b); lra.
Qed.
