(** Property theorems C22 and C23. *)
From Coq Require Import ZArith Reals Lra Bool.
From Verif Require Import Model.Num Model.Units Spec.Dimensions Proofs.NumR Proofs.UnitsProofs.
Open Scope R_scope.

(** ** C22: conversions and arithmetic *)
(** A quantity built from one unit reads back the same number in that unit, and
    the metric/imperial factors are the international ones. *)
Theorem C22_reads_back : forall x,
  prop_m (new_distance x 0 0 0 0) = Some x /\
  prop_meters (new_distance 0 x 0 0 0) = Some x /\
  prop_km (new_distance 0 0 x 0 0) = Some x /\
  prop_kilometers (new_distance 0 0 0 x 0) = Some x /\
  prop_feet (new_distance 0 0 0 0 x) = Some x /\
  prop_mps (new_velocity x 0 0 0) = Some x /\
  prop_meters_per_second (new_velocity 0 x 0 0) = Some x /\
  prop_kmph (new_velocity 0 0 x 0) = Some x /\
  prop_kilometers_per_hour (new_velocity 0 0 0 x) = Some x /\
  prop_watt_hours (new_energy x) = Some x /\
  prop_watts (new_power x) = Some x.
Proof.
  intro x. cbn. unfold METERS_PER_FOOT. repeat split; f_equal; lra.
Qed.
Print Assumptions C22_reads_back.

(** Every constructor adds up all its arguments, in SI units: 1 km = 1000 m,
    1 ft = 0.3048 m, 1 km/h = 1000 m / 3600 s, 1 Wh = 3600 J. *)
Theorem C22_constructors_si : forall a b c d e,
  si (new_distance a b c d e) = Some (a + b + 1000 * (c + d) + 0.3048 * e, (1, 0, 0)%Z) /\
  si (new_velocity a b c d) = Some (a + b + (c + d) * (1000 / 3600), (1, -1, 0)%Z) /\
  si (new_energy a) = Some (3600 * a, (0, 0, 1)%Z) /\
  si (new_power a) = Some (a, (0, -1, 1)%Z).
Proof.
  intros. cbn. unfold METERS_PER_FOOT. repeat split; f_equal; f_equal; lra.
Qed.
Print Assumptions C22_constructors_si.

(** Whatever value an arithmetic operator returns has the magnitude and the
    dimension physics prescribes. *)
Theorem C22_arithmetic_is_dimensional : forall a b v,
  (add a b = Val v -> exists x y d, si a = Some (x, d) /\ si b = Some (y, d) /\
     si v = Some (x + y, d)) /\
  (sub a b = Val v -> exists x y d, si a = Some (x, d) /\ si b = Some (y, d) /\
     si v = Some (x - y, d)) /\
  (mul a b = Val v -> exists x y d e, si a = Some (x, d) /\ si b = Some (y, e) /\
     si v = Some (x * y, dim_mul d e)) /\
  (truediv a b = Val v -> exists x y d e, si a = Some (x, d) /\ si b = Some (y, e) /\
     y <> 0 /\ si v = Some (x / y, dim_div d e)).
Proof.
  intros a b v.
  exact (conj (add_si a b v) (conj (sub_si a b v) (conj (mul_si a b v) (truediv_si a b v)))).
Qed.
Print Assumptions C22_arithmetic_is_dimensional.

(** Sums and differences are accepted exactly between quantities of one kind;
    anything else raises. *)
Theorem C22_sums_of_one_kind_only : forall a b,
  quantity a || quantity b = true ->
  (same_kind a b = true -> (exists v, add a b = Val v) /\ (exists v, sub a b = Val v)) /\
  (same_kind a b = false -> (exists e, add a b = Raises e) /\ (exists e, sub a b = Raises e)).
Proof.
  intros a b H. split; intro K.
  - exact (conj (add_accepts a b K) (sub_accepts a b K)).
  - exact (conj (add_rejects a b H K) (sub_rejects a b H K)).
Qed.
Print Assumptions C22_sums_of_one_kind_only.

(** The products and quotients the code base uses are accepted. *)
Theorem C22_products_accepted : forall x y us,
  mul (Distance x) (Number y) = Val (Distance (x * y)) /\
  mul (Number y) (Distance x) = Val (Distance (x * y)) /\
  mul (Velocity x) (Timedelta us) = Val (Distance (x * (IZR us / 1000000))) /\
  mul (Timedelta us) (Velocity x) = Val (Distance (x * (IZR us / 1000000))) /\
  mul (Power x) (Timedelta us) = Val (Energy (x * (IZR us / 3600000000))) /\
  mul (Timedelta us) (Power x) = Val (Energy (x * (IZR us / 3600000000))) /\
  mul (Energy x) (Number y) = Val (Energy (x * y)) /\
  mul (Number y) (Energy x) = Val (Energy (x * y)) /\
  (y <> 0 -> truediv (Distance x) (Number y) = Val (Distance (x / y)) /\
             truediv (Distance x) (Distance y) = Val (Number (x / y)) /\
             truediv (Velocity x) (Number y) = Val (Velocity (x / y)) /\
             truediv (Energy x) (Energy y) = Val (Number (x / y))) /\
  (us <> 0%Z -> truediv (Distance x) (Timedelta us) = Val (Velocity (x / (IZR us / 1000000)))).
Proof.
  intros x y us. cbn.
  unfold new_distance, new_energy, timedelta_to_hours, seconds_to_hours, total_seconds.
  split; [do 2 f_equal; ring|]. split; [do 2 f_equal; ring|].
  split; [do 2 f_equal; field|]. split; [do 2 f_equal; field|].
  split; [do 2 f_equal; field|]. split; [do 2 f_equal; field|].
  split; [reflexivity|]. split; [reflexivity|].
  split.
  - intro Hy. unfold pydiv. destruct (Reqb_spec y 0) as [E|_]; [contradiction|].
    unfold new_distance, new_velocity. repeat split; try reflexivity; do 2 f_equal; field; assumption.
  - intro Hus. assert (IZR us <> 0) by (apply not_0_IZR; assumption).
    unfold pydiv. destruct (Reqb_spec (IZR us / 1000000) 0) as [E|_]; [lra|].
    unfold new_velocity. do 2 f_equal. field. assumption.
Qed.
Print Assumptions C22_products_accepted.

(** No other product or quotient that involves a quantity is accepted: it raises,
    and so does division by zero. *)
Theorem C22_products_rejected : forall a b, quantity a || quantity b = true ->
  ((exists v, mul a b = Val v) <-> scaled a b || scaled b a = true) /\
  (scaled a b || scaled b a = false -> mul a b = Raises NotImplementedError) /\
  ((exists v, truediv a b = Val v) <->
     divisible a b = true /\ exists y d, si b = Some (y, d) /\ y <> 0) /\
  (divisible a b = false -> exists e, truediv a b = Raises e) /\
  (divisible a b = true -> (exists d, si b = Some (0, d)) ->
   truediv a b = Raises ZeroDivisionError).
Proof.
  intros a b H.
  assert (D : forall x y (k : R -> value), y <> 0 -> exists v, pydiv x y k = Val v).
  { intros x y k K. unfold pydiv. destruct (Reqb_spec y 0); [contradiction|eauto]. }
  assert (Z : forall x y (k : R -> value), y = 0 -> pydiv x y k = Raises ZeroDivisionError).
  { intros x y k K. unfold pydiv. destruct (Reqb_spec y 0); [reflexivity|contradiction]. }
  assert (I : forall x y (k : R -> value) v, pydiv x y k = Val v -> y <> 0).
  { intros x y k v. unfold pydiv. destruct (Reqb_spec y 0); [discriminate|auto]. }
  split; [|split; [|split; [|split]]].
  - destruct a, b; cbn in H |- *; try discriminate H; split;
      try (intros [v Hv]; discriminate Hv); try discriminate; eauto.
  - destruct a, b; cbn in H |- *; try discriminate H; congruence.
  - split.
    + intros [v Hv].
      destruct a, b; cbn in H, Hv |- *; try discriminate; split; try reflexivity;
        do 2 eexists; (split; [reflexivity|]); apply I in Hv;
        first [exact Hv | intro; apply Hv; lra].
    + intros (K & y & d & Hy & Hnz).
      destruct a, b; cbn in H, K, Hy |- *; try discriminate; apply D;
        injection Hy as Hy _; unfold total_seconds;
        first [congruence | intro; apply Hnz; lra].
  - destruct a, b; cbn in H |- *; try discriminate; eauto.
  - intros K [d Hd].
    destruct a, b; cbn in H, K, Hd |- *; try discriminate; apply Z;
      injection Hd as Hd _; unfold total_seconds; lra.
Qed.
Print Assumptions C22_products_rejected.

(** Distance to the station is the Euclidean norm; 111 km are one degree; an
    hour is 3600 s. *)
Theorem C22_derived_conversions : forall x y us,
  (0 <= relative_distance x y /\
   relative_distance x y * relative_distance x y = x * x + y * y) /\
  111000 * distance_to_degrees x = x /\
  3600000000 * timedelta_to_hours us = IZR us.
Proof.
  intros x y us. split; [split|split].
  - apply sqrt_pos.
  - apply sqrt_sqrt. pose proof (Rle_0_sqr x). pose proof (Rle_0_sqr y). unfold Rsqr in *. lra.
  - unfold distance_to_degrees. field.
  - unfold timedelta_to_hours, seconds_to_hours, total_seconds. field.
Qed.
Print Assumptions C22_derived_conversions.

Example C22_witness : mul (Power 200) (Timedelta 1800000000) = Val (Energy 100) /\
  add (Distance 5) (Timedelta 1) = Raises NotImplementedError /\
  truediv (Number 1) (Distance 2) = Raises TypeError.
Proof.
  cbn. unfold new_energy, timedelta_to_hours, seconds_to_hours, total_seconds.
  repeat split. do 2 f_equal. lra.
Qed.

(** ** C23: comparisons *)
(** When an order comparison answers, both operands have the same dimension and
    the answer is that of their SI magnitudes. *)
Theorem C23_order_is_that_of_si_values : forall a b t,
  (lt a b = Truth t -> exists x y d, si a = Some (x, d) /\ si b = Some (y, d) /\
     (t = true <-> x < y)) /\
  (gt a b = Truth t -> exists x y d, si a = Some (x, d) /\ si b = Some (y, d) /\
     (t = true <-> x > y)) /\
  (le a b = Truth t -> exists x y d, si a = Some (x, d) /\ si b = Some (y, d) /\
     (t = true <-> x <= y)) /\
  (ge a b = Truth t -> exists x y d, si a = Some (x, d) /\ si b = Some (y, d) /\
     (t = true <-> x >= y)).
Proof.
  intros a b t.
  exact (conj (lt_si a b t) (conj (gt_si a b t) (conj (le_si a b t) (ge_si a b t)))).
Qed.
Print Assumptions C23_order_is_that_of_si_values.

(** Distances have all four comparisons, energies too, powers only < and >,
    velocities none. *)
Theorem C23_which_comparisons_answer : forall x y,
  (exists t1 t2 t3 t4, lt (Distance x) (Distance y) = Truth t1 /\
     gt (Distance x) (Distance y) = Truth t2 /\ le (Distance x) (Distance y) = Truth t3 /\
     ge (Distance x) (Distance y) = Truth t4) /\
  (exists t1 t2 t3 t4, lt (Energy x) (Energy y) = Truth t1 /\
     gt (Energy x) (Energy y) = Truth t2 /\ le (Energy x) (Energy y) = Truth t3 /\
     ge (Energy x) (Energy y) = Truth t4) /\
  (exists t1 t2, lt (Power x) (Power y) = Truth t1 /\ gt (Power x) (Power y) = Truth t2 /\
     le (Power x) (Power y) = Raises TypeError /\ ge (Power x) (Power y) = Raises TypeError) /\
  (lt (Velocity x) (Velocity y) = Raises TypeError /\
   gt (Velocity x) (Velocity y) = Raises TypeError /\
   le (Velocity x) (Velocity y) = Raises TypeError /\
   ge (Velocity x) (Velocity y) = Raises TypeError).
Proof.
  intros x y. cbn.
  split; [do 4 eexists; repeat split|]. split; [do 4 eexists; repeat split|].
  split; [do 2 eexists; repeat split|]. repeat split.
Qed.
Print Assumptions C23_which_comparisons_answer.

(** Equality: exact for Energy and Power; within 1e-9 for Distance and
    Velocity; [!=] is its negation. *)
Theorem C23_equality_meaning : forall a b t, eq a b = Truth t ->
  ne a b = Truth (negb t) /\
  exists x y d, si a = Some (x, d) /\ si b = Some (y, d) /\
    match a with
    | Distance _ | Velocity _ => t = true <-> Rabs (x - y) < 1e-9
    | _ => t = true <-> x = y
    end.
Proof.
  intros a b t H. split; [unfold ne; rewrite H; reflexivity|exact (eq_si a b t H)].
Qed.
Print Assumptions C23_equality_meaning.

(** Equality is reflexive and symmetric; that of energies and powers is transitive. *)
Theorem C23_equality_laws : forall a b c,
  (quantity a = true -> eq a a = Truth true) /\
  (same_kind a b = true -> eq a b = eq b a) /\
  (forall x y, a = Energy x \/ a = Power x -> b = Energy y \/ b = Power y ->
   eq a b = Truth true -> eq b c = Truth true -> eq a c = Truth true).
Proof.
  intros a b c. split; [|split].
  - destruct a; cbn; try discriminate; intros _; f_equal; unfold Rminus; rewrite ?Rplus_opp_r, ?Rabs_R0;
      first [apply Rltb_true; lra | destruct (Reqb_spec wh wh); congruence
            | destruct (Reqb_spec w w); congruence].
  - destruct a, b; cbn; try discriminate; intros _; rewrite ?(Rabs_minus_sym m m0), ?(Rabs_minus_sym mps mps0);
      try reflexivity.
    + destruct (Reqb_spec wh wh0), (Reqb_spec wh0 wh); congruence.
    + destruct (Reqb_spec w w0), (Reqb_spec w0 w); congruence.
  - intros x y [-> | ->] [-> | ->]; cbn; try discriminate; destruct c; cbn; try discriminate.
    + destruct (Reqb_spec x y), (Reqb_spec y wh), (Reqb_spec x wh); congruence.
    + destruct (Reqb_spec x y), (Reqb_spec y w), (Reqb_spec x w); congruence.
Qed.
Print Assumptions C23_equality_laws.

(** Comparing a quantity with anything of another kind never answers: it raises,
    except that an energy on the greater side of >= or <= gets back an exception
    object (which is truthy). *)
Theorem C23_mixed_kinds : forall a b,
  quantity a || quantity b = true -> same_kind a b = false ->
  (exists e, eq a b = Raises e) /\ (exists e, ne a b = Raises e) /\
  (exists e, lt a b = Raises e) /\ (exists e, gt a b = Raises e) /\
  match a with
  | Energy _ => ge a b = ReturnsExn ValueError
  | _ => exists e, ge a b = Raises e
  end /\
  match a, b with
  | Distance _, _ => exists e, le a b = Raises e
  | _, Energy _ => le a b = ReturnsExn ValueError
  | _, _ => exists e, le a b = Raises e
  end.
Proof.
  intros a b; destruct a, b; cbn; intros; try discriminate;
    repeat split; try (eexists; reflexivity).
Qed.
Print Assumptions C23_mixed_kinds.

(** Which exception: a distance on the left always raises an AttributeError; the other
    quantities' own comparisons raise a ValueError. *)
Theorem C23_which_exception : forall x b,
  (same_kind (Distance x) b = false ->
   eq (Distance x) b = Raises AttributeError /\ ne (Distance x) b = Raises AttributeError /\
   lt (Distance x) b = Raises AttributeError /\ gt (Distance x) b = Raises AttributeError /\
   le (Distance x) b = Raises AttributeError /\ ge (Distance x) b = Raises AttributeError) /\
  (same_kind (Velocity x) b = false -> eq (Velocity x) b = Raises ValueError) /\
  (same_kind (Energy x) b = false -> eq (Energy x) b = Raises ValueError /\ gt (Energy x) b = Raises ValueError) /\
  (same_kind (Power x) b = false -> eq (Power x) b = Raises ValueError /\ gt (Power x) b = Raises ValueError).
Proof. intros x b. destruct b; cbn; repeat split; try discriminate. Qed.
Print Assumptions C23_which_exception.

(** The full claim fails: Distance and Velocity equality is not transitive. *)
Theorem C23_distance_equality_transitive_refuted :
  (exists a b c, eq (Distance a) (Distance b) = Truth true /\
    eq (Distance b) (Distance c) = Truth true /\ eq (Distance a) (Distance c) = Truth false /\
    lt (Distance a) (Distance b) = Truth true) /\
  (exists a b c, eq (Velocity a) (Velocity b) = Truth true /\
    eq (Velocity b) (Velocity c) = Truth true /\ eq (Velocity a) (Velocity c) = Truth false).
Proof.
  split; exists 0, 0.6e-9, 1.2e-9; cbn;
    rewrite !(Rltb_true (Rabs _)), (Rltb_false (Rabs (0 - 1.2e-9))) by
      (unfold Rabs; destruct Rcase_abs; lra);
    repeat split. rewrite Rltb_true by lra. reflexivity.
Qed.
Print Assumptions C23_distance_equality_transitive_refuted.

(** So comparing an energy with a number by >= does not raise, although > does. *)
Theorem C23_energy_ge_foreign_refuted : forall x y,
  ge (Energy x) (Number y) = ReturnsExn ValueError /\
  gt (Energy x) (Number y) = Raises ValueError.
Proof. intros. split; reflexivity. Qed.
Print Assumptions C23_energy_ge_foreign_refuted.

Example C23_witness : lt (Distance 1) (Distance 2) = Truth true /\
  gt (Power 3) (Power 2) = Truth true /\ le (Energy 3) (Energy 2) = Truth false.
Proof. cbn. rewrite !Rltb_true, Rleb_false by lra. repeat split. Qed.
