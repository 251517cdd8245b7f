(** Standard atmosphere: layers, inverses, monotonicity, hydrostatics. *)
From Coq Require Import Reals Lra Lia Psatz List Bool.
From Verif Require Import Model.Num Model.Atmosphere Proofs.NumR.
Import ListNotations.
Open Scope R_scope.

Lemma grav_pos : 0 < A_GRAVITY. Proof. unfold A_GRAVITY. lra. Qed.
Lemma gas_pos : 0 < A_GAS. Proof. unfold A_GAS. lra. Qed.

(** Pressure at [h] in the layer starting at (h0, t0, p0) with lapse rate l. *)
Definition layer_p (h0 l t0 p0 h : R) : R :=
  if Req_EM_T l 0 then p0 * exp (- (A_GRAVITY * (h - h0)) / (A_GAS * t0))
  else p0 * Rpower ((t0 + l * (h - h0)) / t0) (- A_GRAVITY / (A_GAS * l)).

Definition layer_h (h0 l t0 p0 p : R) : R :=
  if Req_EM_T l 0 then (- A_GAS * t0 / A_GRAVITY) * ln (p / p0) + h0
  else (Rpower (p / p0) (- A_GAS * l / A_GRAVITY) - 1) * t0 / l + h0.

Lemma layer_p_start h0 l t0 p0 : 0 < t0 -> layer_p h0 l t0 p0 h0 = p0.
Proof.
  intro Ht. unfold layer_p. destruct (Req_EM_T l 0).
  - replace (- (A_GRAVITY * (h0 - h0)) / (A_GAS * t0)) with 0
      by (pose proof gas_pos; field; lra).
    rewrite exp_0. ring.
  - replace ((t0 + l * (h0 - h0)) / t0) with 1 by (field; lra).
    unfold Rpower. rewrite ln_1, Rmult_0_r, exp_0. ring.
Qed.

Lemma layer_p_pos h0 l t0 p0 h : 0 < p0 -> 0 < layer_p h0 l t0 p0 h.
Proof.
  intro Hp. unfold layer_p. destruct (Req_EM_T l 0);
    (apply Rmult_lt_0_compat; [assumption|]); unfold Rpower; apply exp_pos.
Qed.

Lemma Rpower_decr_neg x y e : 0 < x -> x < y -> e < 0 -> Rpower y e < Rpower x e.
Proof.
  intros Hx Hxy He. unfold Rpower. apply exp_increasing.
  pose proof (ln_increasing x y Hx Hxy). nra.
Qed.
Lemma Rpower_incr_pos x y e : 0 < x -> x < y -> 0 < e -> Rpower x e < Rpower y e.
Proof.
  intros Hx Hxy He. unfold Rpower. apply exp_increasing.
  pose proof (ln_increasing x y Hx Hxy). nra.
Qed.

Lemma layer_p_decr h0 l t0 p0 h h' :
  0 < t0 -> 0 < p0 -> 0 < t0 + l * (h - h0) -> 0 < t0 + l * (h' - h0) ->
  h < h' -> layer_p h0 l t0 p0 h' < layer_p h0 l t0 p0 h.
Proof.
  intros Ht Hp Hth Hth' Hlt. pose proof grav_pos. pose proof gas_pos.
  unfold layer_p. destruct (Req_EM_T l 0) as [E|E].
  - apply Rmult_lt_compat_l; [assumption|]. apply exp_increasing.
    unfold Rdiv. apply Rmult_lt_compat_r.
    + apply Rinv_0_lt_compat. nra.
    + nra.
  - apply Rmult_lt_compat_l; [assumption|].
    assert (Hr : forall u, 0 < t0 + l * (u - h0) -> 0 < (t0 + l * (u - h0)) / t0).
    { intros u Hu. apply Rmult_lt_0_compat; [assumption|]. apply Rinv_0_lt_compat; assumption. }
    destruct (Rlt_dec 0 l) as [L|L].
    + apply Rpower_decr_neg; [apply Hr; assumption| |].
      * unfold Rdiv. apply Rmult_lt_compat_r; [apply Rinv_0_lt_compat; assumption|]. nra.
      * assert (0 < A_GRAVITY / (A_GAS * l)).
        { apply Rmult_lt_0_compat; [assumption|]. apply Rinv_0_lt_compat. nra. }
        replace (- A_GRAVITY / (A_GAS * l)) with (- (A_GRAVITY / (A_GAS * l))) by (field; lra).
        lra.
    + assert (l < 0) by lra.
      apply Rpower_incr_pos; [apply Hr; assumption| |].
      * unfold Rdiv. apply Rmult_lt_compat_r; [apply Rinv_0_lt_compat; assumption|]. nra.
      * replace (- A_GRAVITY / (A_GAS * l)) with (A_GRAVITY / (A_GAS * (- l))) by (field; lra).
        apply Rmult_lt_0_compat; [assumption|]. apply Rinv_0_lt_compat. nra.
Qed.

Lemma Rpower_Rpower_inv x e : 0 < x -> e <> 0 -> Rpower (Rpower x e) (/ e) = x.
Proof.
  intros Hx He. rewrite Rpower_mult. rewrite Rinv_r by assumption. apply Rpower_1. assumption.
Qed.

(** Height of a layer's own pressure. *)
Lemma layer_h_of_p h0 l t0 p0 h :
  0 < t0 -> 0 < p0 -> 0 < t0 + l * (h - h0) ->
  layer_h h0 l t0 p0 (layer_p h0 l t0 p0 h) = h.
Proof.
  intros Ht Hp Hth. pose proof grav_pos. pose proof gas_pos.
  unfold layer_h, layer_p. destruct (Req_EM_T l 0) as [E|E].
  - replace (p0 * exp (- (A_GRAVITY * (h - h0)) / (A_GAS * t0)) / p0)
      with (exp (- (A_GRAVITY * (h - h0)) / (A_GAS * t0))) by (field; lra).
    rewrite ln_exp. field. lra.
  - set (r := (t0 + l * (h - h0)) / t0).
    assert (Hr : 0 < r).
    { apply Rmult_lt_0_compat; [assumption|]. apply Rinv_0_lt_compat; assumption. }
    replace (p0 * Rpower r (- A_GRAVITY / (A_GAS * l)) / p0)
      with (Rpower r (- A_GRAVITY / (A_GAS * l))) by (field; lra).
    replace (- A_GAS * l / A_GRAVITY) with (/ (- A_GRAVITY / (A_GAS * l)))
      by (field; lra).
    rewrite Rpower_Rpower_inv; [|assumption|].
    + unfold r. field. lra.
    + unfold Rdiv. apply Rmult_integral_contrapositive_currified; [lra|].
      apply Rinv_neq_0_compat. apply Rmult_integral_contrapositive_currified; lra.
Qed.

(** Pressure of a layer's own height, and the temperature there. *)
Lemma layer_t_of_p h0 l t0 p0 p :
  0 < t0 -> 0 < p0 -> 0 < p ->
  0 < t0 + l * (layer_h h0 l t0 p0 p - h0).
Proof.
  intros Ht Hp Hpp. unfold layer_h. destruct (Req_EM_T l 0) as [E|E].
  - rewrite E. lra.
  - replace (t0 + l * ((Rpower (p / p0) (- A_GAS * l / A_GRAVITY) - 1) * t0 / l + h0 - h0))
      with (t0 * Rpower (p / p0) (- A_GAS * l / A_GRAVITY)) by (field; assumption).
    apply Rmult_lt_0_compat; [assumption|]. unfold Rpower. apply exp_pos.
Qed.

Lemma layer_p_of_h h0 l t0 p0 p :
  0 < t0 -> 0 < p0 -> 0 < p ->
  layer_p h0 l t0 p0 (layer_h h0 l t0 p0 p) = p.
Proof.
  intros Ht Hp Hpp. pose proof grav_pos. pose proof gas_pos.
  assert (Hq : 0 < p / p0).
  { apply Rmult_lt_0_compat; [assumption|]. apply Rinv_0_lt_compat; assumption. }
  unfold layer_p, layer_h. destruct (Req_EM_T l 0) as [E|E].
  - replace (- (A_GRAVITY * (- A_GAS * t0 / A_GRAVITY * ln (p / p0) + h0 - h0)) / (A_GAS * t0))
      with (ln (p / p0)) by (field; lra).
    rewrite exp_ln by assumption. field. lra.
  - replace ((t0 + l * ((Rpower (p / p0) (- A_GAS * l / A_GRAVITY) - 1) * t0 / l + h0 - h0)) / t0)
      with (Rpower (p / p0) (- A_GAS * l / A_GRAVITY)) by (field; lra).
    replace (- A_GRAVITY / (A_GAS * l)) with (/ (- A_GAS * l / A_GRAVITY)) by (field; lra).
    rewrite Rpower_Rpower_inv; [field; lra|assumption|].
    unfold Rdiv. apply Rmult_integral_contrapositive_currified.
    + apply Rmult_integral_contrapositive_currified; lra.
    + apply Rinv_neq_0_compat. lra.
Qed.

(** ** Stacks of layers *)
Inductive valid : list R -> list R -> list R -> list R -> Prop :=
| valid_end h t p : 0 < t -> 0 < p -> valid [h] [] [t] [p]
| valid_layer h0 h1 hs l ls t0 t1 ts p0 p1 ps :
    h0 < h1 -> 0 < t0 -> 0 < p0 -> t1 = t0 + l * (h1 - h0) ->
    p1 = layer_p h0 l t0 p0 h1 ->
    valid (h1 :: hs) ls (t1 :: ts) (p1 :: ps) ->
    valid (h0 :: h1 :: hs) (l :: ls) (t0 :: t1 :: ts) (p0 :: p1 :: ps).

Lemma valid_hd hs ls ts ps : valid hs ls ts ps -> 0 < hd 0 ts /\ 0 < hd 0 ps.
Proof. destruct 1; cbn; auto. Qed.

Lemma valid_last_p hs ls ts ps :
  valid hs ls ts ps -> 0 < last ps 0 /\ last ps 0 <= hd 0 ps.
Proof.
  induction 1 as [h t p Ht Hp|h0 h1 hs l ls t0 t1 ts p0 p1 ps Hh Ht Hp Et Ep Hv IH].
  - cbn. lra.
  - change (last (p0 :: p1 :: ps) 0) with (last (p1 :: ps) 0). cbn [hd] in *.
    destruct IH as [I1 I2]. split; [assumption|].
    pose proof (valid_hd _ _ _ _ Hv) as [V1 V2]. cbn in V1, V2.
    assert (p1 < p0).
    { rewrite Ep. rewrite <- (layer_p_start h0 l t0 p0 Ht) at 2.
      apply layer_p_decr; auto; [|rewrite <- Et; assumption].
      replace (t0 + l * (h0 - h0)) with t0 by ring. assumption. }
    lra.
Qed.

Lemma layer_code h0 l t0 p0 h :
  (if Reqb l 0
   then pressure_for_constant_temperature (h - h0) (t0 + l * (h - h0)) p0
   else pressure_for_linear_temperature ((t0 + l * (h - h0)) / t0) l p0)
  = layer_p h0 l t0 p0 h.
Proof.
  unfold layer_p, pressure_for_constant_temperature, pressure_for_linear_temperature.
  destruct (Reqb_spec l 0) as [E|E], (Req_EM_T l 0) as [E'|E']; try contradiction.
  - rewrite E. replace (t0 + 0 * (h - h0)) with t0 by ring. reflexivity.
  - reflexivity.
Qed.

Lemma layer_code_h h0 l t0 p0 p :
  (if Reqb l 0
   then (- A_GAS * t0 / A_GRAVITY) * ln (p / p0) + h0
   else (Rpower (p / p0) (- A_GAS * l / A_GRAVITY) - 1) * t0 / l + h0)
  = layer_h h0 l t0 p0 p.
Proof.
  unfold layer_h.
  destruct (Reqb_spec l 0) as [E|E], (Req_EM_T l 0) as [E'|E']; try contradiction; reflexivity.
Qed.

(** Temperature inside a layer is positive. *)
Lemma layer_t_pos h0 h1 l t0 h :
  0 < t0 -> 0 < t0 + l * (h1 - h0) -> h0 <= h <= h1 -> h0 < h1 ->
  0 < t0 + l * (h - h0).
Proof.
  intros H0 H1 [Ha Hb] Hlt.
  destruct (Rle_dec 0 l) as [L|L].
  - assert (0 <= l * (h - h0)) by (apply Rmult_le_pos; lra). lra.
  - assert (l * (h1 - h0) <= l * (h - h0)) by nra. lra.
Qed.

(** One turn of each loop. *)
Lemma height_turn h0 h1 hs l ls t0 ts p0 ps h :
  at_height_loop (h0 :: h1 :: hs) (l :: ls) (t0 :: ts) (p0 :: ps) h =
  if Rltb h h1 then (t0 + l * (h - h0), layer_p h0 l t0 p0 h)
  else at_height_loop (h1 :: hs) ls ts ps h.
Proof. rewrite <- layer_code. reflexivity. Qed.

Lemma pressure_turn h0 hs l ls t0 ts p0 p1 ps p :
  at_pressure_loop (h0 :: hs) (l :: ls) (t0 :: ts) (p0 :: p1 :: ps) p =
  if Rltb p1 p then (layer_h h0 l t0 p0 p, t0 + l * (layer_h h0 l t0 p0 p - h0))
  else at_pressure_loop hs ls ts (p1 :: ps) p.
Proof. rewrite <- layer_code_h. reflexivity. Qed.

Lemma valid_heights hs ls ts ps : valid hs ls ts ps -> hd 0 hs <= last hs 0.
Proof.
  induction 1 as [h t p Ht Hp|h0 h1 hs l ls t0 t1 ts p0 p1 ps Hh Ht Hp Et Ep Hv IH].
  - cbn. lra.
  - change (last (h0 :: h1 :: hs) 0) with (last (h1 :: hs) 0). cbn [hd] in *. lra.
Qed.

Lemma layer_step_down h0 h1 l t0 t1 p0 p1 :
  h0 < h1 -> 0 < t0 -> 0 < t1 -> 0 < p0 -> t1 = t0 + l * (h1 - h0) ->
  p1 = layer_p h0 l t0 p0 h1 -> p1 < p0.
Proof.
  intros Hh Ht Ht1 Hp Et Ep.
  rewrite Ep. rewrite <- (layer_p_start h0 l t0 p0 Ht) at 2.
  apply layer_p_decr; auto; [|rewrite <- Et; assumption].
  replace (t0 + l * (h0 - h0)) with t0 by ring. assumption.
Qed.

(** Going up then down. *)
Lemma height_pressure hs ls ts ps h :
  valid hs ls ts ps -> hd 0 hs <= h < last hs 0 ->
  let '(t, p) := at_height_loop hs ls ts ps h in
  0 < t /\ last ps 0 < p <= hd 0 ps /\ at_pressure_loop hs ls ts ps p = (h, t).
Proof.
  induction 1 as [h9 t p Ht Hp|h0 h1 hs l ls t0 t1 ts p0 p1 ps Hh Ht Hp Et Ep Hv IH].
  - cbn. lra.
  - change (last (h0 :: h1 :: hs) 0) with (last (h1 :: hs) 0).
    change (last (p0 :: p1 :: ps) 0) with (last (p1 :: ps) 0).
    cbn [hd]. intros [Ha Hb].
    pose proof (valid_hd _ _ _ _ Hv) as [V1 V2]. cbn in V1, V2.
    pose proof (valid_last_p _ _ _ _ Hv) as [L1 L2]. cbn [hd] in L2.
    pose proof (layer_step_down _ _ _ _ _ _ _ Hh Ht V1 Hp Et Ep) as Hp10.
    rewrite height_turn. destruct (Rltb_spec h h1) as [Hlt|Hge].
    + assert (Htp : 0 < t0 + l * (h - h0)).
      { apply layer_t_pos with h1; auto; [rewrite <- Et; assumption|lra]. }
      assert (Hbound : p1 < layer_p h0 l t0 p0 h <= p0).
      { split.
        - rewrite Ep. apply layer_p_decr; auto. rewrite <- Et; assumption.
        - destruct (Req_EM_T h h0) as [->|N].
          + rewrite layer_p_start by assumption. lra.
          + left. rewrite <- (layer_p_start h0 l t0 p0 Ht) at 2.
            apply layer_p_decr; auto; [|lra].
            replace (t0 + l * (h0 - h0)) with t0 by ring. assumption. }
      split; [assumption|]. split; [lra|].
      rewrite pressure_turn. rewrite Rltb_true by lra.
      rewrite layer_h_of_p by assumption. reflexivity.
    + assert (Hin : hd 0 (h1 :: hs) <= h < last (h1 :: hs) 0) by (cbn [hd]; lra).
      specialize (IH Hin).
      destruct (at_height_loop (h1 :: hs) ls (t1 :: ts) (p1 :: ps) h) as [t p] eqn:E.
      destruct IH as (I1 & I2 & I3). cbn [hd] in I2.
      split; [assumption|]. split; [lra|].
      rewrite pressure_turn. rewrite Rltb_false by lra. exact I3.
Qed.

(** Going down then up. *)
Lemma pressure_height hs ls ts ps p :
  valid hs ls ts ps -> last ps 0 < p <= hd 0 ps ->
  let '(h, t) := at_pressure_loop hs ls ts ps p in
  0 < t /\ hd 0 hs <= h < last hs 0 /\ at_height_loop hs ls ts ps h = (t, p).
Proof.
  induction 1 as [h9 t p9 Ht Hp|h0 h1 hs l ls t0 t1 ts p0 p1 ps Hh Ht Hp Et Ep Hv IH].
  - cbn. lra.
  - change (last (h0 :: h1 :: hs) 0) with (last (h1 :: hs) 0).
    change (last (p0 :: p1 :: ps) 0) with (last (p1 :: ps) 0).
    cbn [hd]. intros [Ha Hb].
    pose proof (valid_hd _ _ _ _ Hv) as [V1 V2]. cbn in V1, V2.
    pose proof (valid_last_p _ _ _ _ Hv) as [L1 L2]. cbn [hd] in L2.
    pose proof (valid_heights _ _ _ _ Hv) as Hlasth. cbn [hd] in Hlasth.
    rewrite pressure_turn. destruct (Rltb_spec p1 p) as [Hlt|Hge].
    + set (h := layer_h h0 l t0 p0 p).
      assert (Hpos : 0 < p) by lra.
      assert (Htp : 0 < t0 + l * (h - h0)) by (apply layer_t_of_p; assumption).
      assert (Hph : layer_p h0 l t0 p0 h = p) by (apply layer_p_of_h; assumption).
      assert (Hrange : h0 <= h < h1).
      { split.
        - destruct (Rle_dec h0 h) as [|N]; [assumption|]. exfalso.
          assert (layer_p h0 l t0 p0 h0 < layer_p h0 l t0 p0 h).
          { apply layer_p_decr; auto; [|lra].
            replace (t0 + l * (h0 - h0)) with t0 by ring. assumption. }
          rewrite layer_p_start in H by assumption. lra.
        - destruct (Rlt_dec h h1) as [|N]; [assumption|]. exfalso.
          destruct (Req_EM_T h h1) as [E|E].
          + rewrite E in Hph. lra.
          + assert (layer_p h0 l t0 p0 h < layer_p h0 l t0 p0 h1).
            { apply layer_p_decr; auto; [rewrite <- Et; assumption|lra]. }
            lra. }
      split; [assumption|]. split; [lra|].
      rewrite height_turn. rewrite Rltb_true by lra.
      rewrite Hph. reflexivity.
    + assert (Hin : last (p1 :: ps) 0 < p <= hd 0 (p1 :: ps)) by (cbn [hd]; lra).
      specialize (IH Hin).
      destruct (at_pressure_loop (h1 :: hs) ls (t1 :: ts) (p1 :: ps) p) as [h t] eqn:E.
      destruct IH as (I1 & I2 & I3). cbn [hd] in I2.
      split; [assumption|]. split; [lra|].
      rewrite height_turn. rewrite Rltb_false by lra. exact I3.
Qed.

(** Higher is thinner. *)
Lemma loop_decr hs ls ts ps h h' :
  valid hs ls ts ps -> hd 0 hs <= h -> h < h' -> h' < last hs 0 ->
  snd (at_height_loop hs ls ts ps h') < snd (at_height_loop hs ls ts ps h).
Proof.
  induction 1 as [h9 t p9 Ht Hp|h0 h1 hs l ls t0 t1 ts p0 p1 ps Hh Ht Hp Et Ep Hv IH].
  - cbn. lra.
  - change (last (h0 :: h1 :: hs) 0) with (last (h1 :: hs) 0).
    cbn [hd] in *. intros Ha Hb Hc.
    pose proof (valid_hd _ _ _ _ Hv) as [V1 V2]. cbn in V1, V2.
    assert (Htp : forall u, h0 <= u <= h1 -> 0 < t0 + l * (u - h0)).
    { intros u Hu. apply layer_t_pos with h1; auto. rewrite <- Et; assumption. }
    rewrite !height_turn. destruct (Rltb_spec h h1) as [H1|H1], (Rltb_spec h' h1) as [H2|H2].
    + cbn [snd]. apply layer_p_decr; auto; apply Htp; lra.
    + assert (Hin : hd 0 (h1 :: hs) <= h' < last (h1 :: hs) 0) by (cbn [hd]; lra).
      pose proof (height_pressure _ _ _ _ h' Hv Hin) as Hq.
      destruct (at_height_loop (h1 :: hs) ls (t1 :: ts) (p1 :: ps) h') as [t p].
      destruct Hq as (_ & Hq & _). cbn [hd snd] in *.
      assert (p1 < layer_p h0 l t0 p0 h).
      { rewrite Ep. apply layer_p_decr; auto. apply Htp; lra. rewrite <- Et; assumption. }
      lra.
    + lra.
    + apply IH; lra.
Qed.

(** ** Hydrostatics *)
Lemma layer_p_deriv h0 l t0 p0 h :
  0 < t0 -> 0 < t0 + l * (h - h0) ->
  derivable_pt_lim (layer_p h0 l t0 p0) h
    (- (layer_p h0 l t0 p0 h / (A_GAS * (t0 + l * (h - h0)))) * A_GRAVITY).
Proof.
  intros Ht Hth. pose proof grav_pos. pose proof gas_pos.
  unfold layer_p. destruct (Req_EM_T l 0) as [E|E].
  - assert (D : derivable_pt_lim
       (mult_real_fct p0 (comp exp (fun x => - (A_GRAVITY * (x - h0)) / (A_GAS * t0)))) h
       (p0 * (exp (- (A_GRAVITY * (h - h0)) / (A_GAS * t0)) * (- A_GRAVITY / (A_GAS * t0))))).
    { apply derivable_pt_lim_scal. apply derivable_pt_lim_comp.
      - assert (D0 : derivable_pt_lim
          (mult_real_fct (- A_GRAVITY / (A_GAS * t0)) (id - fct_cte h0)%F) h
          ((- A_GRAVITY / (A_GAS * t0)) * (1 - 0))).
        { apply derivable_pt_lim_scal. apply derivable_pt_lim_minus.
          apply derivable_pt_lim_id. apply derivable_pt_lim_const. }
        replace (- A_GRAVITY / (A_GAS * t0)) with ((- A_GRAVITY / (A_GAS * t0)) * (1 - 0)) by ring.
        eapply derivable_pt_lim_ext; [|exact D0].
        intro x. unfold mult_real_fct, minus_fct, id, fct_cte. field. lra.
      - apply derivable_pt_lim_exp. }
    match goal with |- derivable_pt_lim _ _ ?v =>
      replace v with (p0 * (exp (- (A_GRAVITY * (h - h0)) / (A_GAS * t0)) * (- A_GRAVITY / (A_GAS * t0)))) end.
    + exact D.
    + rewrite E. replace (t0 + 0 * (h - h0)) with t0 by ring. field. lra.
  - set (e := - A_GRAVITY / (A_GAS * l)).
    set (r := fun x => (t0 + l * (x - h0)) / t0).
    assert (Hr : 0 < r h).
    { apply Rmult_lt_0_compat; [assumption|]. apply Rinv_0_lt_compat; assumption. }
    assert (Dr : derivable_pt_lim r h (l / t0)).
    { assert (D0 : derivable_pt_lim
          (fct_cte 1 + mult_real_fct (l / t0) (id - fct_cte h0))%F h (0 + (l / t0) * (1 - 0))).
      { apply derivable_pt_lim_plus. apply derivable_pt_lim_const.
        apply derivable_pt_lim_scal. apply derivable_pt_lim_minus.
        apply derivable_pt_lim_id. apply derivable_pt_lim_const. }
      replace (l / t0) with (0 + (l / t0) * (1 - 0)) by ring.
      eapply derivable_pt_lim_ext; [|exact D0].
      intro x. unfold mult_real_fct, minus_fct, plus_fct, id, fct_cte, r. field. lra. }
    assert (D : derivable_pt_lim
       (mult_real_fct p0 (comp exp (mult_real_fct e (comp ln r)))) h
       (p0 * (exp (e * ln (r h)) * (e * (/ (r h) * (l / t0)))))).
    { apply derivable_pt_lim_scal. apply derivable_pt_lim_comp; [|apply derivable_pt_lim_exp].
      apply derivable_pt_lim_scal. apply derivable_pt_lim_comp; [exact Dr|].
      apply derivable_pt_lim_ln. exact Hr. }
    match goal with |- derivable_pt_lim _ _ ?v =>
      replace v with (p0 * (exp (e * ln (r h)) * (e * (/ (r h) * (l / t0))))) end.
    + exact D.
    + unfold Rpower. fold (r h). unfold e, r. field. repeat split; lra.
Qed.

(** Gluing two functions with the same value and slope at a point. *)
Lemma derive_glue f f1 f2 x l d :
  0 < d -> (forall u, x - d < u < x -> f u = f1 u) -> (forall u, x <= u < x + d -> f u = f2 u) ->
  f1 x = f2 x -> derivable_pt_lim f1 x l -> derivable_pt_lim f2 x l ->
  derivable_pt_lim f x l.
Proof.
  intros Hd H1 H2 Hx D1 D2 eps Heps.
  destruct (D1 eps Heps) as [d1 P1]. destruct (D2 eps Heps) as [d2 P2].
  assert (Hm : 0 < Rmin d (Rmin d1 d2)).
  { repeat apply Rmin_pos; try apply cond_pos; assumption. }
  exists (mkposreal _ Hm). intros u Hu Hlt. cbn in Hlt.
  pose proof (Rmin_l d (Rmin d1 d2)). pose proof (Rmin_r d (Rmin d1 d2)).
  pose proof (Rmin_l d1 d2). pose proof (Rmin_r d1 d2).
  assert (Hfx : f x = f2 x) by (apply H2; lra).
  destruct (Rlt_dec u 0) as [N|N].
  - rewrite Rabs_left in Hlt by assumption.
    rewrite (H1 (x + u)) by lra. rewrite Hfx, <- Hx. apply P1; [assumption|].
    rewrite Rabs_left by assumption. lra.
  - assert (0 < u) by lra. rewrite Rabs_right in Hlt by lra.
    rewrite (H2 (x + u)) by lra. rewrite Hfx. apply P2; [assumption|].
    rewrite Rabs_right by lra. lra.
Qed.

Lemma derive_local f g x l d :
  0 < d -> (forall u, x - d < u < x + d -> f u = g u) ->
  derivable_pt_lim g x l -> derivable_pt_lim f x l.
Proof.
  intros Hd H D. apply (derive_glue f g g x l d); auto; intros; apply H; lra.
Qed.

Lemma loop_hydrostatic hs ls ts ps h :
  valid hs ls ts ps -> hd 0 hs < h < last hs 0 ->
  derivable_pt_lim (fun x => snd (at_height_loop hs ls ts ps x)) h
    (- (snd (at_height_loop hs ls ts ps h) /
        (A_GAS * fst (at_height_loop hs ls ts ps h))) * A_GRAVITY).
Proof.
  induction 1 as [h9 t p9 Ht Hp|h0 h1 hs l ls t0 t1 ts p0 p1 ps Hh Ht Hp Et Ep Hv IH].
  - cbn. lra.
  - change (last (h0 :: h1 :: hs) 0) with (last (h1 :: hs) 0).
    cbn [hd] in *. intros [Ha Hb].
    pose proof (valid_hd _ _ _ _ Hv) as [V1 V2]. cbn in V1, V2.
    assert (Htp : forall u, h0 <= u <= h1 -> 0 < t0 + l * (u - h0)).
    { intros u Hu. apply layer_t_pos with h1; auto. rewrite <- Et; assumption. }
    rewrite height_turn.
    destruct (Rltb_spec h h1) as [H1|H1].
    + cbn [fst snd].
      apply derive_local with (g := layer_p h0 l t0 p0) (d := Rmin (h - h0) (h1 - h)).
      * apply Rmin_pos; lra.
      * intros u Hu. pose proof (Rmin_r (h - h0) (h1 - h)).
        rewrite height_turn, Rltb_true by lra. reflexivity.
      * apply layer_p_deriv; auto. apply Htp; lra.
    + destruct (Req_EM_T h h1) as [E|E].
      * subst h. inversion Hv as [|? h2' hs' l0 ls' ? t2 ts' ? p2 ps' Hh2 Ht2 Hp2 Et2 Ep2 Hv2]; subst;
          [cbn in Hb; lra|].
        set (t1 := t0 + l * (h1 - h0)) in *. set (p1 := layer_p h0 l t0 p0 h1) in *.
        rewrite height_turn, Rltb_true by assumption. cbn [fst snd].
        replace (t1 + l0 * (h1 - h1)) with t1 by ring.
        rewrite layer_p_start by assumption.
        apply derive_glue with (f1 := layer_p h0 l t0 p0) (f2 := layer_p h1 l0 t1 p1)
          (d := Rmin (h1 - h0) (h2' - h1)).
        -- apply Rmin_pos; lra.
        -- intros u Hu. rewrite height_turn, Rltb_true by lra. reflexivity.
        -- intros u Hu. pose proof (Rmin_r (h1 - h0) (h2' - h1)).
           rewrite height_turn, Rltb_false by lra.
           rewrite height_turn, Rltb_true by lra. reflexivity.
        -- rewrite layer_p_start by assumption. reflexivity.
        -- unfold p1, t1. apply layer_p_deriv; auto.
        -- pose proof (layer_p_deriv h1 l0 t1 p1 h1 V1) as D.
           replace (t1 + l0 * (h1 - h1)) with t1 in D by ring.
           rewrite layer_p_start in D by assumption. apply D. assumption.
      * apply derive_local with (g := fun x => snd (at_height_loop (h1 :: hs) ls (t1 :: ts) (p1 :: ps) x))
          (d := h - h1).
        -- lra.
        -- intros u Hu. rewrite height_turn, Rltb_false by lra. reflexivity.
        -- apply IH. lra.
Qed.

(** Temperature profile. *)
Fixpoint gains (hs ls : list R) (h : R) : R :=
  match hs, ls with
  | h0 :: ((h1 :: _) as hs'), l :: ls' => l * (Rmin h h1 - Rmin h h0) + gains hs' ls' h
  | _, _ => 0
  end.

Lemma gains_below hs ls ts ps h :
  valid hs ls ts ps -> h <= hd 0 hs -> gains hs ls h = 0.
Proof.
  induction 1 as [h9 t p9 Ht Hp|h0 h1 hs l ls t0 t1 ts p0 p1 ps Hh Ht Hp Et Ep Hv IH].
  - reflexivity.
  - cbn [hd] in *. intro Hle. change (gains (h0 :: h1 :: hs) (l :: ls) h)
      with (l * (Rmin h h1 - Rmin h h0) + gains (h1 :: hs) ls h).
    rewrite IH by lra. rewrite !Rmin_left by lra. ring.
Qed.

Lemma loop_temperature hs ls ts ps h :
  valid hs ls ts ps -> hd 0 hs <= h < last hs 0 ->
  fst (at_height_loop hs ls ts ps h) = hd 0 ts + gains hs ls h.
Proof.
  induction 1 as [h9 t p9 Ht Hp|h0 h1 hs l ls t0 t1 ts p0 p1 ps Hh Ht Hp Et Ep Hv IH].
  - cbn. lra.
  - change (last (h0 :: h1 :: hs) 0) with (last (h1 :: hs) 0).
    cbn [hd] in *. intros [Ha Hb]. rewrite height_turn.
    change (gains (h0 :: h1 :: hs) (l :: ls) h)
      with (l * (Rmin h h1 - Rmin h h0) + gains (h1 :: hs) ls h).
    destruct (Rltb_spec h h1) as [H1|H1].
    + cbn [fst]. rewrite (gains_below _ _ _ _ h Hv) by (cbn [hd]; lra).
      rewrite Rmin_left, Rmin_right by lra. ring.
    + rewrite IH by lra. rewrite !Rmin_right by lra. rewrite Et. ring.
Qed.

(** ** The atmospheres of the environment *)
Lemma builders_valid hs ls t p :
  length hs = S (length ls) ->
  (forall i, (i < length ls)%nat -> nth i hs 0 < nth (S i) hs 0) ->
  Forall (fun x => 0 < x) (temperature_transitions t hs ls) -> 0 < p ->
  valid hs ls (temperature_transitions t hs ls)
    (pressure_transitions p hs ls (temperature_transitions t hs ls)).
Proof.
  revert hs t p. induction ls as [|l ls IH]; intros hs t p Hlen Hs Ht Hp.
  - destruct hs as [|h0 [|h1 hs]]; cbn in Hlen; try discriminate.
    cbn in *. inversion Ht; subst. constructor; assumption.
  - destruct hs as [|h0 [|h1 hs]]; cbn in Hlen; try discriminate.
    change (temperature_transitions t (h0 :: h1 :: hs) (l :: ls)) with
      (t :: temperature_transitions (t + l * (h1 - h0)) (h1 :: hs) ls) in *.
    set (t1 := t + l * (h1 - h0)) in *.
    inversion Ht as [|? ? Ht0 Htl]; subst.
    assert (Hhd : exists ts, temperature_transitions t1 (h1 :: hs) ls = t1 :: ts).
    { destruct hs, ls; cbn; eexists; reflexivity. }
    destruct Hhd as [ts Ets].
    assert (Hp1 : 0 < layer_p h0 l t p h1) by (apply layer_p_pos; assumption).
    specialize (IH (h1 :: hs) t1 (layer_p h0 l t p h1)).
    assert (Epress : pressure_transitions p (h0 :: h1 :: hs) (l :: ls) (t :: t1 :: ts) =
      p :: pressure_transitions (layer_p h0 l t p h1) (h1 :: hs) ls (t1 :: ts)).
    { rewrite <- layer_code. unfold t1. reflexivity. }
    rewrite Ets in *. rewrite Epress.
    assert (Hphd : exists ps, pressure_transitions (layer_p h0 l t p h1) (h1 :: hs) ls (t1 :: ts)
                     = layer_p h0 l t p h1 :: ps).
    { destruct hs, ls, ts; cbn; eexists; reflexivity. }
    destruct Hphd as [ps Eps]. rewrite Eps in *.
    constructor; auto.
    + apply (Hs 0%nat). cbn. lia.
    + apply IH; [cbn in *; lia| |inversion Ht; assumption|assumption].
      intros i Hi. apply (Hs (S i)). cbn. lia.
Qed.

Lemma reset_valid alpha : 0 <= alpha <= 1 ->
  valid HEIGHT_TRANSITIONS (lapse_rates (atmosphere_reset alpha))
    (temp_transitions (atmosphere_reset alpha)) (press_transitions (atmosphere_reset alpha)).
Proof.
  intro Ha. unfold atmosphere_reset. cbn [lapse_rates temp_transitions press_transitions].
  apply builders_valid.
  - reflexivity.
  - intros i Hi. unfold mix_lapse_rates in Hi. cbn [combine LAPSE_RATES_LOW LAPSE_RATES_HIGH map length] in Hi.
    do 7 (destruct i as [|i]; [cbn [nth HEIGHT_TRANSITIONS]; lra|]). lia.
  - unfold mix_lapse_rates, LAPSE_RATES_LOW, LAPSE_RATES_HIGH, HEIGHT_TRANSITIONS.
    cbn [combine map fst snd temperature_transitions].
    repeat (apply Forall_cons; [lra|]). apply Forall_nil.
  - lra.
Qed.

(** ** The public functions *)
Section Public.
  Variable alpha : R.
  Hypothesis Ha : 0 <= alpha <= 1.
  Let a := atmosphere_reset alpha.
  Let Hv := reset_valid alpha Ha.

  Lemma hd_press : hd 0 (press_transitions a) = 108870.8213.
  Proof. reflexivity. Qed.

  Lemma at_height_range h : at_height a h <> None <-> -610 <= h < 85000.
  Proof.
    unfold at_height. cbn [hd last HEIGHT_TRANSITIONS].
    fold HEIGHT_TRANSITIONS.
    destruct (at_height_loop HEIGHT_TRANSITIONS (lapse_rates a) (temp_transitions a)
      (press_transitions a) h) as [t p].
    destruct (Rleb_spec (-610) h), (Rltb_spec h 85000); cbn [negb];
      split; try congruence; try lra; intros; congruence.
  Qed.

  Lemma at_height_some h v : at_height a h = Some v ->
    -610 <= h < 85000 /\ v_height v = h /\
    at_height_loop HEIGHT_TRANSITIONS (lapse_rates a) (temp_transitions a)
      (press_transitions a) h = (v_temperature v, v_pressure v) /\
    v_density v = v_pressure v / (A_GAS * v_temperature v).
  Proof.
    unfold at_height. cbn [hd last HEIGHT_TRANSITIONS].
    destruct (Rleb_spec (-610) h), (Rltb_spec h 85000); cbn [negb]; try discriminate.
    fold HEIGHT_TRANSITIONS.
    destruct (at_height_loop _ _ _ _ h) as [t p].
    injection 1; intros; subst. cbn. repeat split; auto; lra.
  Qed.

  Lemma at_height_make h t p : -610 <= h < 85000 ->
    at_height_loop HEIGHT_TRANSITIONS (lapse_rates a) (temp_transitions a)
      (press_transitions a) h = (t, p) ->
    at_height a h = Some (mkV h t p (p / (A_GAS * t))).
  Proof.
    intros Hh E. unfold at_height. cbn [hd last HEIGHT_TRANSITIONS].
    rewrite Rleb_true, Rltb_true by lra. cbn [negb]. fold HEIGHT_TRANSITIONS.
    rewrite E. reflexivity.
  Qed.

  Lemma at_pressure_some p v : at_pressure a p = Some v ->
    last (press_transitions a) 0 < p <= 108870.8213 /\ v_pressure v = p /\
    at_pressure_loop HEIGHT_TRANSITIONS (lapse_rates a) (temp_transitions a)
      (press_transitions a) p = (v_height v, v_temperature v) /\
    v_density v = v_pressure v / (A_GAS * v_temperature v).
  Proof.
    unfold at_pressure. rewrite hd_press.
    destruct (Rltb_spec (last (press_transitions a) 0) p), (Rleb_spec p 108870.8213);
      cbn [negb]; try discriminate.
    destruct (at_pressure_loop _ _ _ _ p) as [h t].
    injection 1; intros; subst. cbn. repeat split; auto; lra.
  Qed.

  Lemma at_pressure_make p h t : last (press_transitions a) 0 < p <= 108870.8213 ->
    at_pressure_loop HEIGHT_TRANSITIONS (lapse_rates a) (temp_transitions a)
      (press_transitions a) p = (h, t) ->
    at_pressure a p = Some (mkV h t p (p / (A_GAS * t))).
  Proof.
    intros Hh E. unfold at_pressure. rewrite hd_press.
    rewrite Rltb_true, Rleb_true by lra. cbn [negb]. rewrite E. reflexivity.
  Qed.

  Lemma round_trip_height h v : at_height a h = Some v ->
    at_pressure a (v_pressure v) = Some v.
  Proof.
    intro H. destruct (at_height_some _ _ H) as (Hh & Eh & El & Ed).
    pose proof (height_pressure _ _ _ _ h Hv) as P. fold a in P.
    rewrite El in P. cbn [hd] in P.
    destruct P as (Pt & Pp & Pi); [cbn [hd last HEIGHT_TRANSITIONS]; lra|].
    rewrite hd_press in Pp.
    rewrite (at_pressure_make _ _ _ Pp Pi). destruct v; cbn in *. subst. reflexivity.
  Qed.

  Lemma round_trip_pressure p v : at_pressure a p = Some v ->
    at_height a (v_height v) = Some v.
  Proof.
    intro H. destruct (at_pressure_some _ _ H) as (Hp & Ep & El & Ed).
    pose proof (pressure_height _ _ _ _ p Hv) as P. fold a in P.
    rewrite El in P. rewrite hd_press in P.
    destruct (P Hp) as (Pt & Ph & Pi).
    rewrite (at_height_make (v_height v) (v_temperature v) p).
    - destruct v; cbn in *. subst. reflexivity.
    - cbn [hd last HEIGHT_TRANSITIONS] in Ph. lra.
    - exact Pi.
  Qed.

  (** The lowest pressure is that of the top of the last layer: every lookup in
      range stays strictly above it, and everything above it is in range. *)
  Lemma at_pressure_range p :
    at_pressure a p <> None <-> exists h v, at_height a h = Some v /\ v_pressure v = p.
  Proof.
    split.
    - intro N. destruct (at_pressure a p) as [v|] eqn:E; [|congruence].
      exists (v_height v), v. split; [apply (round_trip_pressure p); assumption|].
      apply at_pressure_some in E. apply E.
    - intros (h & v & H & <-). rewrite (round_trip_height _ _ H). discriminate.
  Qed.

  Lemma strictly_decreasing h h' v v' :
    at_height a h = Some v -> at_height a h' = Some v' -> h < h' ->
    v_pressure v' < v_pressure v.
  Proof.
    intros H H' Hlt.
    destruct (at_height_some _ _ H) as (Hh & _ & El & _).
    destruct (at_height_some _ _ H') as (Hh' & _ & El' & _).
    pose proof (loop_decr _ _ _ _ h h' Hv) as P. fold a in P.
    rewrite El, El' in P. cbn [snd hd last HEIGHT_TRANSITIONS] in P. apply P; lra.
  Qed.

  Lemma antitone_lookup p q v v' :
    at_pressure a p = Some v -> at_pressure a q = Some v' -> p < q ->
    v_height v' < v_height v.
  Proof.
    intros H H' Hlt.
    pose proof (round_trip_pressure _ _ H) as R1.
    pose proof (round_trip_pressure _ _ H') as R2.
    destruct (at_pressure_some _ _ H) as (_ & E1 & _).
    destruct (at_pressure_some _ _ H') as (_ & E2 & _).
    destruct (Rtotal_order (v_height v') (v_height v)) as [L|[L|L]]; [assumption| |].
    - rewrite L in R2. rewrite R1 in R2. injection R2; intro; subst. lra.
    - pose proof (strictly_decreasing _ _ _ _ R1 R2). lra.
  Qed.

  Lemma positive h v : at_height a h = Some v ->
    0 < v_temperature v /\ 0 < v_pressure v <= 108870.8213 /\ 0 < v_density v.
  Proof.
    intro H. destruct (at_height_some _ _ H) as (Hh & Eh & El & Ed).
    pose proof (height_pressure _ _ _ _ h Hv) as P. fold a in P.
    rewrite El in P.
    destruct P as (Pt & Pp & _); [cbn [hd last HEIGHT_TRANSITIONS]; lra|].
    rewrite hd_press in Pp.
    pose proof (valid_last_p _ _ _ _ Hv) as [L _]. fold a in L.
    split; [assumption|]. split; [lra|]. rewrite Ed. pose proof gas_pos.
    apply Rmult_lt_0_compat; [lra|]. apply Rinv_0_lt_compat. nra.
  Qed.
End Public.

(** The gains of the model's table are those of the specification. *)
From Verif Require Import Spec.AtmosphereSpec.

Lemma gains_profile alpha h :
  300 + gains HEIGHT_TRANSITIONS (lapse_rates (atmosphere_reset alpha)) h
  = temperature_profile alpha h.
Proof.
  unfold temperature_profile, layers, atmosphere_reset, mix_lapse_rates,
    LAPSE_RATES_LOW, LAPSE_RATES_HIGH, HEIGHT_TRANSITIONS.
  cbn [combine map fst snd lapse_rates gains fold_right].
  unfold gained. ring.
Qed.

Lemma at_height_temperature alpha h v : 0 <= alpha <= 1 ->
  at_height (atmosphere_reset alpha) h = Some v ->
  v_temperature v = temperature_profile alpha h.
Proof.
  intros Ha H. destruct (at_height_some alpha _ _ H) as (Hh & _ & El & _).
  pose proof (loop_temperature _ _ _ _ h (reset_valid alpha Ha)) as P.
  rewrite El in P. rewrite <- gains_profile. apply P.
  cbn [hd last HEIGHT_TRANSITIONS]. lra.
Qed.

Lemma Rabs_bounds x b : Rabs x <= b -> - b <= x <= b.
Proof. unfold Rabs. destruct (Rcase_abs x); lra. Qed.

Lemma gained_lipschitz alpha h h' b t lo hi :
  0 <= alpha <= 1 -> b <= t -> Rabs lo <= 0.007 -> Rabs hi <= 0.007 -> h <= h' ->
  Rabs (gained alpha h' (b, t, lo, hi) - gained alpha h (b, t, lo, hi))
  <= 0.007 * (Rmax b (Rmin h' t) - Rmax b (Rmin h t)).
Proof.
  intros Ha Hbt Hlo Hhi Hle. unfold gained.
  set (l := lo + alpha * (hi - lo)).
  assert (Hl : -0.007 <= l <= 0.007).
  { unfold l. apply Rabs_bounds in Hlo, Hhi. 
    replace (lo + alpha * (hi - lo)) with ((1 - alpha) * lo + alpha * hi) by ring.
    split; nra. }
  assert (Hd : 0 <= Rmax b (Rmin h' t) - Rmax b (Rmin h t)
    /\ (Rmin h' t - Rmin h' b) - (Rmin h t - Rmin h b)
       = Rmax b (Rmin h' t) - Rmax b (Rmin h t)).
  { unfold Rmax, Rmin. repeat destruct Rle_dec; lra. }
  destruct Hd as [Hd He]. set (d := Rmax b (Rmin h' t) - Rmax b (Rmin h t)) in *.
  replace (l * (Rmin h' t - Rmin h' b) - l * (Rmin h t - Rmin h b))
    with (l * d) by (rewrite <- He; ring).
  apply Rabs_le. split; nra.
Qed.

Lemma telescope b t x y : b <= t -> x <= y ->
  Rmax b (Rmin y t) - Rmax b (Rmin x t) =
  (Rmin y t - Rmin y b) - (Rmin x t - Rmin x b).
Proof. intros. unfold Rmax, Rmin. repeat destruct Rle_dec; lra. Qed.

Lemma profile_lipschitz_le alpha h h' : 0 <= alpha <= 1 -> h <= h' ->
  Rabs (temperature_profile alpha h' - temperature_profile alpha h) <= 0.007 * (h' - h).
Proof.
  intros Ha Hle. unfold temperature_profile, layers. cbn [map fold_right].
  pose proof (fun b t lo hi H1 H2 H3 => gained_lipschitz alpha h h' b t lo hi Ha H1 H2 H3 Hle) as G.
  pose proof (G (-610) 17000 (-0.007) (-0.0058)) as G1.
  pose proof (G 17000 21000 0.006 0.005) as G2.
  pose proof (G 21000 32000 0.001 0.001) as G3.
  pose proof (G 32000 47000 0.0028 0.0028) as G4.
  pose proof (G 47000 51000 0 0) as G5.
  pose proof (G 51000 71000 (-0.0028) (-0.0028)) as G6.
  pose proof (G 71000 85000 (-0.002) (-0.002)) as G7.
  clear G.
  rewrite telescope in G1, G2, G3, G4, G5, G6, G7 by lra.
  assert (B : forall x, -0.007 <= x <= 0.007 -> Rabs x <= 0.007).
  { intros x Hx. apply Rabs_le. lra. }
  specialize (G1 ltac:(lra) ltac:(apply B; lra) ltac:(apply B; lra)).
  specialize (G2 ltac:(lra) ltac:(apply B; lra) ltac:(apply B; lra)).
  specialize (G3 ltac:(lra) ltac:(apply B; lra) ltac:(apply B; lra)).
  specialize (G4 ltac:(lra) ltac:(apply B; lra) ltac:(apply B; lra)).
  specialize (G5 ltac:(lra) ltac:(apply B; lra) ltac:(apply B; lra)).
  specialize (G6 ltac:(lra) ltac:(apply B; lra) ltac:(apply B; lra)).
  specialize (G7 ltac:(lra) ltac:(apply B; lra) ltac:(apply B; lra)).
  apply Rabs_bounds in G1, G2, G3, G4, G5, G6, G7.
  assert (Hends : (Rmin h' 85000 - Rmin h' (-610)) - (Rmin h 85000 - Rmin h (-610)) <= h' - h).
  { unfold Rmin. repeat destruct Rle_dec; lra. }
  apply Rabs_le. split; lra.
Qed.

Lemma profile_lipschitz alpha h h' : 0 <= alpha <= 1 ->
  Rabs (temperature_profile alpha h' - temperature_profile alpha h) <= 0.007 * Rabs (h' - h).
Proof.
  intro Ha. destruct (Rle_dec h h') as [L|L].
  - rewrite (Rabs_right (h' - h)) by lra. apply profile_lipschitz_le; assumption.
  - rewrite (Rabs_left (h' - h)) by lra. rewrite Rabs_minus_sym.
    replace (- (h' - h)) with (h - h') by ring. apply profile_lipschitz_le; [assumption|lra].
Qed.

(** Pressure as a function of height, 0 outside the range. *)
Definition pressure_at (a : atmosphere) (h : R) : R :=
  match at_height a h with Some v => v_pressure v | None => 0 end.

Lemma pressure_hydrostatic alpha h : 0 <= alpha <= 1 -> -610 < h < 85000 ->
  hydrostatic_at (pressure_at (atmosphere_reset alpha)) (temperature_profile alpha) h.
Proof.
  intros Ha Hh. set (a := atmosphere_reset alpha).
  assert (Ep : forall x, -610 <= x < 85000 ->
    pressure_at a x = snd (at_height_loop HEIGHT_TRANSITIONS (lapse_rates a)
      (temp_transitions a) (press_transitions a) x)).
  { intros x Hx. unfold pressure_at.
    destruct (at_height_loop HEIGHT_TRANSITIONS (lapse_rates a) (temp_transitions a)
      (press_transitions a) x) as [t p] eqn:E.
    unfold a in *. rewrite (at_height_make alpha x t p Hx E). reflexivity. }
  assert (Et : temperature_profile alpha h = fst (at_height_loop HEIGHT_TRANSITIONS
    (lapse_rates a) (temp_transitions a) (press_transitions a) h)).
  { destruct (at_height_loop HEIGHT_TRANSITIONS (lapse_rates a) (temp_transitions a)
      (press_transitions a) h) as [t p] eqn:E. cbn [fst].
    assert (Hh' : -610 <= h < 85000) by lra.
    pose proof (at_height_make alpha h t p Hh' E) as H.
    rewrite <- (at_height_temperature _ _ _ Ha H). reflexivity. }
  unfold hydrostatic_at. rewrite Et, Ep by lra.
  apply derive_local with (g := fun x => snd (at_height_loop HEIGHT_TRANSITIONS (lapse_rates a)
      (temp_transitions a) (press_transitions a) x)) (d := Rmin (h + 610) (85000 - h)).
  - apply Rmin_pos; lra.
  - intros u Hu. apply Ep.
    pose proof (Rmin_l (h + 610) (85000 - h)). pose proof (Rmin_r (h + 610) (85000 - h)). lra.
  - apply (loop_hydrostatic _ _ _ _ h (reset_valid alpha Ha)).
    cbn [hd last HEIGHT_TRANSITIONS]. exact Hh.
Qed.

Lemma loop_start hs ls ts ps : valid hs ls ts ps -> hd 0 hs < last hs 0 ->
  snd (at_height_loop hs ls ts ps (hd 0 hs)) = hd 0 ps.
Proof.
  destruct 1 as [h9 t p9 Ht Hp|h0 h1 hs l ls t0 t1 ts p0 p1 ps Hh Ht Hp Et Ep Hv].
  - cbn. lra.
  - intros _. cbn [hd]. rewrite height_turn, Rltb_true by assumption. cbn [snd].
    apply layer_p_start. assumption.
Qed.

Lemma bottom alpha : 0 <= alpha <= 1 ->
  pressure_at (atmosphere_reset alpha) (-610) = 108870.8213 /\ temperature_profile alpha (-610) = 300.
Proof.
  intro Ha. split.
  - unfold pressure_at.
    pose proof (reset_valid alpha Ha) as Hv.
    destruct (at_height_loop HEIGHT_TRANSITIONS (lapse_rates (atmosphere_reset alpha))
      (temp_transitions (atmosphere_reset alpha)) (press_transitions (atmosphere_reset alpha)) (-610))
      as [t p] eqn:E.
    assert (Hr : -610 <= -610 < 85000) by lra.
    rewrite (at_height_make alpha _ t p Hr E). cbn [v_pressure].
    pose proof (loop_start _ _ _ _ Hv) as B. rewrite hd_press in B.
    cbn [hd last HEIGHT_TRANSITIONS] in B. fold HEIGHT_TRANSITIONS in B.
    rewrite E in B. apply B. lra.
  - unfold temperature_profile, layers, gained. cbn [map fold_right].
    rewrite !(Rmin_left (-610)) by lra. ring.
Qed.
