(** Superpressure and volume: balloon.py:552-609 over the reals. *)
From Coq Require Import ZArith Reals Lra Lia Psatz Bool.
From Verif Require Import Model.Num Model.Balloon Spec.Envelope Proofs.NumR.
Open Scope R_scope.

Lemma gas_constant_eq : @UNIVERSAL_GAS_CONSTANT R Num_R = gas_constant.
Proof. unfold UNIVERSAL_GAS_CONSTANT, gas_constant. numR. lra. Qed.

Definition sv (n1 n2 temp p v0 dv : R) :=
  calculate_superpressure_and_volume n1 n2 temp p v0 dv.

Lemma sv_law n1 n2 temp p v0 dv :
  0 < p -> 0 < v0 -> 0 < dv ->
  let '(V, sp) := calculate_superpressure_and_volume n1 n2 temp p v0 dv in
  envelope_law (n1 + n2) temp p v0 dv V sp.
Proof.
  intros Hp Hv Hd. unfold calculate_superpressure_and_volume.
  rewrite gas_constant_eq. numR.
  set (K := (n1 + n2) * gas_constant * temp).
  set (U := K / p).
  assert (HU : p * U = K) by (unfold U; field; lra).
  destruct (Rleb_spec U v0) as [Hle|Hgt].
  - left. repeat split; auto.
  - assert (Hu : v0 < U) by lra. clear Hgt.
    set (b := - (v0 - dv * p)). set (c := - (dv * U * p)).
    assert (Hc : c < 0). { unfold c. assert (0 < dv * U) by nra. nra. }
    set (D := b * b - 4 * c).
    assert (HD : 0 < D) by (unfold D; nra).
    set (q := sqrt D).
    assert (Hq : q * q = D) by (apply sqrt_sqrt; lra).
    assert (Hq0 : 0 < q) by (apply sqrt_lt_R0; assumption).
    set (V := 5 / 10 * (- b + q)).
    assert (Hroot : V * V + b * V + c = 0).
    { unfold V. replace (5/10 * (- b + q) * (5/10 * (- b + q)) + b * (5/10 * (- b + q)) + c)
        with ((q * q - b * b + 4 * c) / 4) by field.
      rewrite Hq. unfold D. field. }
    assert (HV : 0 < V).
    { unfold V. assert (b < q).
      { destruct (Rlt_dec b q) as [L|L]; [exact L|].
        exfalso. assert (q * q <= b * b) by nra. unfold D in Hq. lra. }
      lra. }
    assert (Hquad : (V - v0) * V = dv * p * (U - V)).
    { unfold b, c in Hroot. nra. }
    assert (HVU : v0 < V /\ V < U).
    { destruct (Rlt_dec v0 V) as [A|A].
      - split; [assumption|].
        assert (0 < (V - v0) * V) by (apply Rmult_lt_0_compat; lra).
        rewrite Hquad in H. assert (0 < dv * p) by nra. nra.
      - exfalso. assert ((V - v0) * V <= 0) by nra.
        assert (0 < dv * p) by nra. assert (0 < U - V) by lra. nra. }
    right. split; [tauto|].
    assert (Hsp : p * U / V - p = p * (U - V) / V) by (field; lra).
    split; [|split].
    + rewrite Hsp. apply Rmult_lt_0_compat; [nra|]. apply Rinv_0_lt_compat; lra.
    + rewrite Hsp. apply Rmult_eq_reg_r with V; [|lra].
      replace ((v0 + dv * (p * (U - V) / V)) * V) with (v0 * V + dv * p * (U - V))
        by (field; lra).
      rewrite <- Hquad. ring.
    + replace ((p + (p * U / V - p)) * V) with (p * U) by (field; lra). exact HU.
Qed.

Lemma envelope_law_unique n temp p v0 dv V sp V' sp' :
  0 < p -> 0 < v0 -> 0 < dv ->
  envelope_law n temp p v0 dv V sp -> envelope_law n temp p v0 dv V' sp' ->
  V = V' /\ sp = sp'.
Proof.
  intros Hp Hv Hd [ (A1 & A2 & A3) | (A1 & A2 & A3 & A4) ]
    [ (B1 & B2 & B3) | (B1 & B2 & B3 & B4) ].
  - split; [|lra]. apply Rmult_eq_reg_l with p; lra.
  - exfalso. assert (p * V <= p * v0) by nra. nra.
  - exfalso. assert (p * V' <= p * v0) by nra. nra.
  - assert (sp = sp').
    { destruct (Rtotal_order sp sp') as [L|[E|L]]; [|exact E|].
      - exfalso. assert (V < V') by nra. assert ((p + sp) * V < (p + sp') * V') by nra. lra.
      - exfalso. assert (V' < V) by nra. assert ((p + sp') * V' < (p + sp) * V) by nra. lra. }
    split; [subst; reflexivity|assumption].
Qed.

(** Superpressure is monotone in the amount of gas times temperature. *)
Lemma envelope_law_mono n temp n' temp' p v0 dv V sp V' sp' :
  0 < p -> 0 < v0 -> 0 < dv ->
  n * temp <= n' * temp' ->
  envelope_law n temp p v0 dv V sp -> envelope_law n' temp' p v0 dv V' sp' ->
  V <= V' /\ sp <= sp'.
Proof.
  intros Hp Hv Hd Hn.
  assert (HK : n * gas_constant * temp <= n' * gas_constant * temp').
  { unfold gas_constant. nra. }
  intros [ (A1 & A2 & A3) | (A1 & A2 & A3 & A4) ]
    [ (B1 & B2 & B3) | (B1 & B2 & B3 & B4) ].
  - split; [|lra]. apply Rmult_le_reg_l with p; lra.
  - split; lra.
  - exfalso. assert (p * V' <= p * v0) by nra. nra.
  - assert (sp <= sp').
    { destruct (Rle_dec sp sp') as [L|L]; [exact L|].
      exfalso. assert (V' < V) by nra. assert ((p + sp') * V' < (p + sp) * V) by nra. lra. }
    split; [nra|assumption].
Qed.

(** Continuity: superpressure is Lipschitz in the amount of gas (with constant
    R T / V0 per mol). *)
Lemma envelope_law_lipschitz n temp n' temp' p v0 dv V sp V' sp' :
  0 < p -> 0 < v0 -> 0 < dv ->
  n * temp <= n' * temp' ->
  envelope_law n temp p v0 dv V sp -> envelope_law n' temp' p v0 dv V' sp' ->
  sp' - sp <= gas_constant / v0 * (n' * temp' - n * temp).
Proof.
  intros Hp Hv Hd Hn L1 L2.
  assert (HK : 0 <= gas_constant * (n' * temp' - n * temp)).
  { unfold gas_constant. nra. }
  apply Rmult_le_reg_r with v0; [assumption|].
  replace (gas_constant / v0 * (n' * temp' - n * temp) * v0)
    with (gas_constant * (n' * temp' - n * temp)) by (field; lra).
  destruct (envelope_law_mono _ _ _ _ _ _ _ _ _ _ _ Hp Hv Hd Hn L1 L2) as [HV Hsp].
  assert (E1 : n * gas_constant * temp = gas_constant * (n * temp)) by ring.
  assert (E2 : n' * gas_constant * temp' = gas_constant * (n' * temp')) by ring.
  destruct L1 as [ (A1 & A2 & A3) | (A1 & A2 & A3 & A4) ];
    destruct L2 as [ (B1 & B2 & B3) | (B1 & B2 & B3 & B4) ]; try nra.
Qed.

(** Zero superpressure exactly when the gas does not overfill the envelope. *)
Lemma sv_zero_iff n1 n2 temp p v0 dv :
  0 < p -> 0 < v0 -> 0 < dv ->
  (snd (calculate_superpressure_and_volume n1 n2 temp p v0 dv) <= 0 <->
   (n1 + n2) * gas_constant * temp <= p * v0).
Proof.
  intros Hp Hv Hd. pose proof (sv_law n1 n2 temp p v0 dv Hp Hv Hd) as H.
  destruct (calculate_superpressure_and_volume n1 n2 temp p v0 dv) as [V sp]. cbn.
  destruct H as [ (A1 & A2 & A3) | (A1 & A2 & A3 & A4) ].
  - split; [intros _; rewrite <- A3; nra | intros _; lra].
  - split; [intro; lra|]. intro H. exfalso.
    assert (p * v0 < (p + sp) * V) by nra. lra.
Qed.

(** A simple upper bound used for concrete cases. *)
Lemma sv_bounds n1 n2 temp p v0 dv :
  0 < p -> 0 < v0 -> 0 < dv ->
  p * v0 < (n1 + n2) * gas_constant * temp ->
  let sp := snd (calculate_superpressure_and_volume n1 n2 temp p v0 dv) in
  0 < sp /\ sp < ((n1 + n2) * gas_constant * temp) / v0 - p.
Proof.
  intros Hp Hv Hd HK. pose proof (sv_law n1 n2 temp p v0 dv Hp Hv Hd) as H.
  destruct (calculate_superpressure_and_volume n1 n2 temp p v0 dv) as [V sp]. cbn.
  destruct H as [ (A1 & A2 & A3) | (A1 & A2 & A3 & A4) ].
  - exfalso. nra.
  - split; [assumption|]. apply Rmult_lt_reg_r with v0; [assumption|].
    replace ((((n1 + n2) * gas_constant * temp) / v0 - p) * v0)
      with ((n1 + n2) * gas_constant * temp - p * v0) by (field; lra).
    nra.
Qed.
