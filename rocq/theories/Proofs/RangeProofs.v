(** The search for the ends of the pressure range. *)
From Coq Require Import ZArith Reals Lra Lia Psatz List Bool Sorted.
From Verif Require Import Model.Num Model.Safety Model.Balloon Model.Atmosphere Model.WindField
  Model.StableInit Model.PressureRange Spec.RangeSpec Proofs.NumR.
Import ListNotations.
Open Scope R_scope.

Section Search.
Context (f : R -> option R) (lo hi : R).
Notation safe := (safe f lo hi).
Notation unsafe := (unsafe f lo hi).
Notation threshold := (threshold f lo hi).
Notation range_end := (range_end f lo hi).
Notation no_range_end := (no_range_end f lo hi).

Lemma crossing x1 y1 x2 y2 y : x1 < x2 -> y1 <> y2 -> (y1 <= y <= y2 \/ y2 <= y <= y1) ->
  exists r, compute_x_crossing x1 y1 x2 y2 y = Some r /\ x1 <= r <= x2 /\
    r = x1 + (y - y1) / (y2 - y1) * (x2 - x1) /\
    0 <= (y - y1) / (y2 - y1) <= 1.
Proof.
  intros Hx Hy H. unfold compute_x_crossing. rewrite pymin_R, pymax_R.
  assert (A : 0 <= (y - y1) / (y2 - y1) <= 1).
  { destruct (Rlt_dec y1 y2) as [L|L].
    - split; [apply Rmult_le_pos; [lra|]; left; apply Rinv_0_lt_compat; lra|].
      apply (Rmult_le_reg_r (y2 - y1)); [lra|]. unfold Rdiv. rewrite Rmult_assoc, Rinv_l by lra. lra.
    - replace ((y - y1) / (y2 - y1)) with ((y1 - y) / (y1 - y2)) by (field; lra).
      split; [apply Rmult_le_pos; [lra|]; left; apply Rinv_0_lt_compat; lra|].
      apply (Rmult_le_reg_r (y1 - y2)); [lra|]. unfold Rdiv. rewrite Rmult_assoc, Rinv_l by lra. lra. }
  set (al := (y - y1) / (y2 - y1)) in *.
  rewrite (Rltb_false y), (Rltb_false (Rmax y1 y2)), Rleb_false; cbn [orb].
  2: lra.
  2:{ unfold Rmax. destruct (Rle_dec y1 y2); lra. }
  2:{ unfold Rmin. destruct (Rle_dec y1 y2); lra. }
  destruct (Reqb_spec y1 y2); [contradiction|].
  eexists. split; [reflexivity|]. rewrite Rabs_right by lra.
  split; [nra|]. split; [lra|]. exact A.
Qed.

Lemma safe_not_unsafe p : safe p -> unsafe p -> False.
Proof. intros (a & Ea & Ha) (b & Eb & Hb). rewrite Ea in Eb. injection Eb as <-. auto. Qed.

(** The crossing computed for an unsafe and a safe sample. *)
Lemma threshold_up p sp q sq : f p = Some sp -> f q = Some sq -> p < q ->
  ~ (lo <= sp <= hi) -> lo <= sq <= hi ->
  exists r, compute_safe_pressure p sp q sq lo hi = Some r /\ threshold p q r.
Proof.
  intros Ep Eq Hpq U S. unfold compute_safe_pressure.
  rewrite Rleb_false by lra. destruct (Reqb_spec sp sq) as [E|E]; [exfalso; lra|].
  destruct (Rlt_dec sp lo) as [L|L].
  - rewrite (Rltb_true sp lo), (Rleb_true lo sq) by lra. cbn [andb orb].
    destruct (crossing p sp q sq lo Hpq E ltac:(lra)) as (r & Er & Hr & Fr & A).
    exists r. split; [exact Er|]. exists sp, sq. split; [exact Ep|]. split; [exact Eq|].
    assert (0 < (lo - sp) / (sq - sp)) by (apply Rmult_lt_0_compat; [lra|]; apply Rinv_0_lt_compat; lra).
    split; [left; nra|]. left. split; [exact L|]. unfold on_line. rewrite Fr. field. lra.
  - assert (G : hi < sp) by (destruct (Rlt_dec hi sp); [assumption|]; elim U; lra).
    rewrite (Rltb_false sp lo), (Rltb_false sq lo), andb_false_r, (Rltb_true hi sp), (Rleb_true sq hi) by lra.
    cbn [andb orb].
    destruct (crossing p sp q sq hi Hpq E ltac:(lra)) as (r & Er & Hr & Fr & A).
    exists r. split; [exact Er|]. exists sp, sq. split; [exact Ep|]. split; [exact Eq|].
    assert (0 < (hi - sp) / (sq - sp)).
    { replace ((hi - sp) / (sq - sp)) with ((sp - hi) / (sp - sq)) by (field; lra).
      apply Rmult_lt_0_compat; [lra|]; apply Rinv_0_lt_compat; lra. }
    split; [left; nra|]. right. split; [exact G|]. unfold on_line. rewrite Fr. field. lra.
Qed.
Lemma threshold_down p sp q sq : f p = Some sp -> f q = Some sq -> q < p ->
  ~ (lo <= sp <= hi) -> lo <= sq <= hi ->
  exists r, compute_safe_pressure q sq p sp lo hi = Some r /\ threshold p q r.
Proof.
  intros Ep Eq Hpq U S. unfold compute_safe_pressure.
  rewrite Rleb_false by lra. destruct (Reqb_spec sq sp) as [E|E]; [exfalso; lra|].
  destruct (Rlt_dec sp lo) as [L|L].
  - rewrite (Rltb_false sq lo), (Rltb_true sp lo), (Rleb_true lo sq) by lra. cbn [andb orb].
    destruct (crossing q sq p sp lo Hpq E ltac:(lra)) as (r & Er & Hr & Fr & A).
    exists r. split; [exact Er|]. exists sp, sq. split; [exact Ep|]. split; [exact Eq|].
    assert ((lo - sq) / (sp - sq) < 1).
    { replace ((lo - sq) / (sp - sq)) with ((sq - lo) / (sq - sp)) by (field; lra).
      apply (Rmult_lt_reg_r (sq - sp)); [lra|]. unfold Rdiv. rewrite Rmult_assoc, Rinv_l by lra. lra. }
    split; [right; nra|]. left. split; [exact L|]. unfold on_line. rewrite Fr. field. lra.
  - assert (G : hi < sp) by (destruct (Rlt_dec hi sp); [assumption|]; elim U; lra).
    rewrite (Rltb_false sq lo), (Rltb_false sp lo), andb_false_r, (Rltb_false hi sq), (Rltb_true hi sp), (Rleb_true sq hi) by lra.
    cbn [andb orb].
    destruct (crossing q sq p sp hi Hpq E ltac:(lra)) as (r & Er & Hr & Fr & A).
    exists r. split; [exact Er|]. exists sp, sq. split; [exact Ep|]. split; [exact Eq|].
    assert ((hi - sq) / (sp - sq) < 1).
    { apply (Rmult_lt_reg_r (sp - sq)); [lra|]. unfold Rdiv. rewrite Rmult_assoc, Rinv_l by lra. lra. }
    split; [right; nra|]. right. split; [exact G|]. unfold on_line. rewrite Fr. field. lra.
Qed.

(** ** The loop *)
Definition before_in (d : search_direction) (a b : R) : Prop :=
  match d with dir_max => a < b | dir_min => b < a end.
Definition plausible (d : search_direction) (start p : R) : bool :=
  match d with dir_max => Rleb start p | dir_min => Rleb p start end.

Lemma loop_filter d column start : forall last,
  search_loop f column start last lo hi d =
  search_loop f (filter (plausible d start) column) start last lo hi d.
Proof.
  induction column as [|p column IH]; intro last; [reflexivity|]. cbn [filter search_loop].
  assert (K : match d with dir_min => Rltb start p | dir_max => Rltb p start end = negb (plausible d start p)).
  { destruct d; cbn [plausible];
      [destruct (Rltb_spec start p), (Rleb_spec p start)|destruct (Rltb_spec p start), (Rleb_spec start p)];
      reflexivity || (exfalso; lra). }
  rewrite K. destruct (plausible d start p) eqn:Pp; cbn [negb]; [|apply IH].
  cbn [search_loop]. rewrite K, ?Pp. cbn [negb]. destruct (f p) as [sp|]; [|reflexivity].
  destruct (_ || _); [apply IH|reflexivity].
Qed.

Lemma last_shift (q p : R) l : last (q :: l) p = last l q.
Proof.
  revert q p. induction l as [|a l IH]; intros q p; [reflexivity|].
  change (last (q :: a :: l) p) with (last (a :: l) p). rewrite !IH. reflexivity.
Qed.
Lemma loop_spec d levels start : Forall (fun p => plausible d start p = true) levels ->
  forall p sp, f p = Some sp -> ~ (lo <= sp <= hi) ->
  StronglySorted (before_in d) levels ->
  Forall (fun q => q = p \/ before_in d p q) levels ->
  match search_loop f levels start (p, sp) lo hi d with
  | Some r => exists before q after, levels = before ++ q :: after /\ Forall unsafe before /\
      safe q /\ threshold (last before p) q r
  | None => Forall unsafe levels \/
      exists before q after, levels = before ++ q :: after /\ Forall unsafe before /\ f q = None
  end.
Proof.
  induction 1 as [|q levels Pl Hl IH]; intros p sp Ep Up Srt Bey; cbn [search_loop]; [left; constructor|].
  assert (K : match d with dir_min => Rltb start q | dir_max => Rltb q start end = false).
  { destruct d; cbn [plausible] in Pl; apply Rltb_false;
      [destruct (Rleb_spec q start)|destruct (Rleb_spec start q)]; lra || discriminate. }
  rewrite K. inversion_clear Srt as [|? ? Srt' Hd]. inversion_clear Bey as [|? ? Hq Bey'].
  destruct (f q) as [sq|] eqn:Eq.
  2:{ right. exists [], q, levels. split; [reflexivity|]. split; [constructor|first [exact Eq|reflexivity]]. }
  destruct (Rltb hi sq || Rltb sq lo) eqn:Uq.
  - assert (Us : ~ (lo <= sq <= hi)).
    { intros [A B]. destruct (Rltb_spec hi sq), (Rltb_spec sq lo); discriminate || lra. }
    specialize (IH q sq Eq Us Srt').
    assert (Bq : Forall (fun q0 => q0 = q \/ before_in d q q0) levels).
    { eapply Forall_impl; [|exact Hd]. cbn. intros; right; assumption. }
    specialize (IH Bq). assert (Uq' : unsafe q) by (exists sq; auto).
    destruct (search_loop f levels start (q, sq) lo hi d) as [r|].
    + destruct IH as (before & q' & after & -> & Hb & Sq' & Th).
      exists (q :: before), q', after. split; [reflexivity|]. split; [constructor; assumption|]. split; [exact Sq'|].
      rewrite last_shift. exact Th.
    + destruct IH as [IH|(before & q' & after & -> & Hb & N)]; [left; constructor; assumption|].
      right. exists (q :: before), q', after. split; [reflexivity|]. split; [constructor; assumption|exact N].
  - assert (Ss : lo <= sq <= hi) by (destruct (Rltb_spec hi sq), (Rltb_spec sq lo); cbn in Uq; lra || discriminate).
    assert (B : before_in d p q).
    { destruct Hq as [->|B]; [|exact B]. rewrite Ep in Eq. injection Eq as <-. contradiction. }
    cbn [fst snd]. assert (Sq : safe q) by (exists sq; auto).
    destruct d; cbn [before_in] in B.
    + destruct (threshold_down p sp q sq Ep Eq B Up Ss) as (r & -> & Th).
      exists [], q, levels. split; [reflexivity|]. split; [constructor|]. split; [exact Sq|exact Th].
    + destruct (threshold_up p sp q sq Ep Eq B Up Ss) as (r & -> & Th).
      exists [], q, levels. split; [reflexivity|]. split; [constructor|]. split; [exact Sq|exact Th].
Qed.

(** ** The specification determines the result *)
Lemma split_unique (Q : R -> Prop) before q after before' q' after' :
  before ++ q :: after = before' ++ q' :: after' ->
  Forall Q before -> Forall Q before' -> ~ Q q -> ~ Q q' -> before = before' /\ q = q'.
Proof.
  intros E F. revert before' E. induction F as [|b before Hb F IH]; intros [|b' before'] E F' Nq Nq'; cbn in E.
  - injection E as -> _. auto.
  - injection E as -> _. inversion_clear F'. contradiction.
  - injection E as -> _. contradiction.
  - injection E as -> E. inversion_clear F'. destruct (IH before' E) as [-> ->]; auto.
Qed.
Lemma threshold_unique p q r r' : safe q -> threshold p q r -> threshold p q r' -> r = r'.
Proof.
  intros (s & Es & Hs) (sp & sq & Ep & Eq & B & T) (sp' & sq' & Ep' & Eq' & B' & T').
  rewrite Es in Eq, Eq'. injection Eq as <-. injection Eq' as <-.
  rewrite Ep in Ep'. injection Ep' as <-.
  assert (L : on_line p sp q s r = on_line p sp q s r') by (destruct T as [[? T]|[? T]], T' as [[? T']|[? T']]; lra).
  assert (N : p <> q) by lra. assert (M : s - sp <> 0) by lra.
  unfold on_line in L. apply Rplus_eq_reg_l, Rmult_eq_reg_r in L; [|exact M].
  unfold Rdiv in L. apply Rmult_eq_reg_r in L; [lra|]. apply Rinv_neq_0_compat. lra.
Qed.
Lemma range_end_unique start levels r r' : range_end start levels r -> range_end start levels r' -> r = r'.
Proof.
  intros [[S ->]|[U (b & q & a & E & Fb & Sq & T)]] [[S' ->]|[U' (b' & q' & a' & E' & Fb' & Sq' & T')]].
  - reflexivity.
  - elim (safe_not_unsafe _ S U').
  - elim (safe_not_unsafe _ S' U).
  - rewrite E in E'. destruct (split_unique unsafe _ _ _ _ _ _ E' Fb Fb') as [<- <-].
    + exact (safe_not_unsafe _ Sq).
    + exact (safe_not_unsafe _ Sq').
    + exact (threshold_unique _ _ _ _ Sq T T').
Qed.
Lemma range_end_or_not start levels r : range_end start levels r -> no_range_end start levels -> False.
Proof.
  intros [[S ->]|[U (b & q & a & E & Fb & Sq & T)]] [N|[U' H]].
  - destruct S as (s & Es & _). congruence.
  - exact (safe_not_unsafe _ S U').
  - destruct U as (s & Es & _). congruence.
  - destruct H as [H|(b' & q' & a' & E' & Fb' & N)].
    + rewrite E in H. apply Forall_app in H. destruct H as [_ H]. inversion_clear H as [|? ? H1 H2].
      exact (safe_not_unsafe _ Sq H1).
    + rewrite E in E'. destruct (split_unique unsafe _ _ _ _ _ _ E' Fb Fb') as [<- <-].
      * exact (safe_not_unsafe _ Sq).
      * intros (s & Es & _). congruence.
      * destruct Sq as (s & Es & _). congruence.
Qed.

Lemma filter_sorted (Q : R -> R -> Prop) (t : R -> bool) l : StronglySorted Q l -> StronglySorted Q (filter t l).
Proof.
  induction 1 as [|p l Srt IH Hd]; [constructor|]. cbn [filter].
  destruct (t p); [|exact IH]. constructor; [exact IH|].
  apply Forall_forall. intros q Hq. apply filter_In in Hq. rewrite Forall_forall in Hd. apply Hd, Hq.
Qed.
Lemma search_spec d column start :
  StronglySorted (before_in d) (match d with dir_min => rev column | dir_max => column end) ->
  let levels := filter (plausible d start) (match d with dir_min => rev column | dir_max => column end) in
  match search_for_safe_pressure f column start lo hi d with
  | Some r => range_end start levels r
  | None => no_range_end start levels
  end.
Proof.
  intros Srt levels. unfold search_for_safe_pressure.
  destruct (f start) as [sp|] eqn:Es; [|left; exact Es].
  destruct (Rleb lo sp && Rleb sp hi) eqn:C.
  - left. split; [|reflexivity]. exists sp. split; [exact Es|].
    destruct (Rleb_spec lo sp), (Rleb_spec sp hi); lra || discriminate.
  - assert (U : ~ (lo <= sp <= hi)).
    { intros [A B]. rewrite (Rleb_true lo sp A), (Rleb_true sp hi B) in C. discriminate. }
    rewrite loop_filter. fold levels.
    pose proof (loop_spec d levels start) as H.
    assert (Pl : Forall (fun p => plausible d start p = true) levels)
      by (apply Forall_forall; intros p Hp; apply filter_In in Hp; apply Hp).
    specialize (H Pl start sp Es U).
    assert (Us : unsafe start) by (exists sp; auto).
    assert (S1 : StronglySorted (before_in d) levels)
      by (apply filter_sorted; exact Srt).
    assert (B : Forall (fun q => q = start \/ before_in d start q) levels).
    { eapply Forall_impl; [|exact Pl]. cbn. intros q Hq.
      destruct d; cbn [plausible before_in] in *;
        [destruct (Rleb_spec q start) as [L|]|destruct (Rleb_spec start q) as [L|]]; try discriminate; lra. }
    specialize (H S1 B). destruct (search_loop _ _ _ _ _ _ _); right; auto.
Qed.
End Search.

(** ** The table of levels *)
From Verif Require Import Spec.WindSpec Proofs.AtmosphereProofs Proofs.InterpProofs Props.SamplingProps Model.Sampling.

Lemma layer_ratio_decr h0 l t0 p0 h h' :
  0 < t0 -> 0 < p0 -> 0 < t0 + l * (h - h0) -> 0 < t0 + l * (h' - h0) ->
  - (A_GRAVITY / A_GAS) < l -> h < h' ->
  layer_p h0 l t0 p0 h' / (t0 + l * (h' - h0)) < layer_p h0 l t0 p0 h / (t0 + l * (h - h0)).
Proof.
  intros Ht Hp Hth Hth' Hl Hlt. pose proof grav_pos as G. pose proof gas_pos as A.
  pose proof (layer_p_pos h0 l t0 p0 h Hp) as Q. pose proof (layer_p_pos h0 l t0 p0 h' Hp) as Q'.
  pose proof (layer_p_decr h0 l t0 p0 h h' Ht Hp Hth Hth' Hlt) as D.
  destruct (Rle_dec 0 l) as [L|L].
  - assert (t0 + l * (h - h0) <= t0 + l * (h' - h0)) by nra.
    apply Rlt_le_trans with (layer_p h0 l t0 p0 h / (t0 + l * (h' - h0))).
    + apply Rmult_lt_compat_r; [apply Rinv_0_lt_compat; lra|exact D].
    + apply Rmult_le_compat_l; [lra|]. apply Rinv_le_contravar; lra.
  - (* temperature decreases, but more slowly than pressure *)
    clear D. unfold layer_p in *. destruct (Req_EM_T l 0) as [E|E]; [exfalso; lra|].
    set (T := t0 + l * (h - h0)) in *. set (T' := t0 + l * (h' - h0)) in *.
    assert (HT : T' < T) by (unfold T, T'; nra).
    set (e := - A_GRAVITY / (A_GAS * l)) in *.
    assert (He : 1 < e).
    { unfold e. replace (- A_GRAVITY / (A_GAS * l)) with ((A_GRAVITY / A_GAS) / (- l)) by (field; lra).
      apply (Rmult_lt_reg_r (- l)); [lra|]. unfold Rdiv at 1. rewrite Rmult_assoc, Rinv_l by lra. lra. }
    assert (W : forall u, 0 < u -> Rpower (u / t0) e = u / t0 * Rpower (u / t0) (e - 1)).
    { intros u Hu. assert (0 < u / t0) by (apply Rdiv_lt_0_compat; lra).
      rewrite <- (Rpower_1 (u / t0)) at 2 by assumption. rewrite <- Rpower_plus. f_equal. lra. }
    rewrite (W T Hth), (W T' Hth').
    replace (p0 * (T' / t0 * Rpower (T' / t0) (e - 1)) / T') with (p0 / t0 * Rpower (T' / t0) (e - 1)) by (field; lra).
    replace (p0 * (T / t0 * Rpower (T / t0) (e - 1)) / T) with (p0 / t0 * Rpower (T / t0) (e - 1)) by (field; lra).
    apply Rmult_lt_compat_l; [apply Rdiv_lt_0_compat; lra|].
    apply Rpower_incr_pos; [apply Rdiv_lt_0_compat; lra| |lra].
    apply Rmult_lt_compat_r; [apply Rinv_0_lt_compat; lra|exact HT].
Qed.

Lemma loop_ratio_decr hs ls ts ps h h' :
  valid hs ls ts ps -> Forall (fun l => - (A_GRAVITY / A_GAS) < l) ls ->
  hd 0 hs <= h -> h < h' -> h' < last hs 0 ->
  let ratio h := snd (at_height_loop hs ls ts ps h) / fst (at_height_loop hs ls ts ps h) in
  ratio h' < ratio h.
Proof.
  intros V F Ha Hb Hc. cbv zeta. revert h h' F Ha Hb Hc.
  induction V as [h9 t p9 Ht Hp|h0 h1 hs l ls t0 t1 ts p0 p1 ps Hh Ht Hp Et Ep Hv IH].
  - intros h h' _. cbn. lra.
  - intros h h' F. inversion_clear F as [|? ? Hl F'].
    change (last (h0 :: h1 :: hs) 0) with (last (h1 :: hs) 0).
    cbn [hd] in *. intros Ha Hb Hc.
    pose proof (valid_hd _ _ _ _ Hv) as [V1 V2]. cbn in V1, V2.
    assert (Htp : forall u, h0 <= u <= h1 -> 0 < t0 + l * (u - h0)).
    { intros u Hu. apply layer_t_pos with h1; auto. rewrite <- Et; assumption. }
    rewrite !height_turn. destruct (Rltb_spec h h1) as [H1|H1], (Rltb_spec h' h1) as [H2|H2].
    + cbn [fst snd]. apply layer_ratio_decr; auto; apply Htp; lra.
    + cbn [fst snd]. pose proof (layer_ratio_decr h0 l t0 p0 h h1 Ht Hp (Htp h ltac:(lra)) (Htp h1 ltac:(lra)) Hl H1) as K.
      rewrite <- Ep, <- Et in K.
      eapply Rle_lt_trans; [|exact K].
      assert (R1 : h1 < last (h1 :: hs) 0 -> 
         snd (at_height_loop (h1 :: hs) ls (t1 :: ts) (p1 :: ps) h1) /
         fst (at_height_loop (h1 :: hs) ls (t1 :: ts) (p1 :: ps) h1) = p1 / t1).
      { intro L. inversion Hv as [|? h2' hs' l0 ls' ? t2 ts' ? p2 ps' Hh2 Ht2 Hp2 Et2 Ep2 Hv2]; [subst; cbn in L; lra|].
        rewrite height_turn, Rltb_true by assumption. cbn [fst snd].
        rewrite layer_p_start by assumption. replace (t1 + l0 * (h1 - h1)) with t1 by ring. reflexivity. }
      destruct (Req_EM_T h' h1) as [->|N]; [rewrite R1; lra|].
      rewrite <- R1 by lra. left. apply IH; [exact F'|lra..].
    + lra.
    + apply IH; [exact F'|lra..].
Qed.

Lemma ratio_increases alpha p q v v' : 0 <= alpha <= 1 ->
  Atmosphere.at_pressure (atmosphere_reset alpha) p = Some v ->
  Atmosphere.at_pressure (atmosphere_reset alpha) q = Some v' -> p < q ->
  v_pressure v / v_temperature v < v_pressure v' / v_temperature v'.
Proof.
  intros Ha E E' Hpq. pose proof (antitone_lookup alpha Ha _ _ _ _ E E' Hpq) as Hh.
  pose proof (round_trip_pressure alpha Ha _ _ E) as H. pose proof (round_trip_pressure alpha Ha _ _ E') as H'.
  destruct (at_height_some alpha _ _ H) as (B & _ & El & _).
  destruct (at_height_some alpha _ _ H') as (B' & _ & El' & _).
  pose proof (loop_ratio_decr _ _ _ _ (v_height v') (v_height v) (reset_valid alpha Ha)) as D.
  cbv beta zeta in D. rewrite El, El' in D. cbn [fst snd] in D. apply D; try (cbn [hd last HEIGHT_TRANSITIONS]; lra).
  unfold atmosphere_reset, mix_lapse_rates, LAPSE_RATES_LOW, LAPSE_RATES_HIGH. cbn [lapse_rates combine map fst snd].
  assert (G : 0.03 < A_GRAVITY / A_GAS).
  { apply (Rmult_lt_reg_r A_GAS); [exact gas_pos|]. unfold Rdiv. rewrite Rmult_assoc, Rinv_l by (pose proof gas_pos; lra).
    unfold A_GRAVITY, A_GAS. lra. }
  repeat (apply Forall_cons; [lra|]). apply Forall_nil.
Qed.

Lemma level_lookup alpha p vf : 0 <= alpha <= 1 ->
  at_height (atmosphere_reset alpha) MIN_ALTITUDE_M = Some vf ->
  1000 <= p <= v_pressure vf -> exists v, Atmosphere.at_pressure (atmosphere_reset alpha) p = Some v.
Proof.
  intros Ha Ef Hp. destruct (top_pressure alpha Ha) as (vt & Et & Ht).
  pose proof (round_trip_height alpha Ha _ _ Et) as Rt.
  pose proof (at_pressure_some alpha _ _ Rt) as (Rt1 & _).
  pose proof (round_trip_height alpha Ha _ _ Ef) as Rf.
  pose proof (at_pressure_some alpha _ _ Rf) as (Rf1 & _).
  destruct (Atmosphere.at_pressure_loop HEIGHT_TRANSITIONS (lapse_rates (atmosphere_reset alpha))
     (temp_transitions (atmosphere_reset alpha)) (press_transitions (atmosphere_reset alpha)) p) as [h t] eqn:E.
  eexists. apply (at_pressure_make alpha p h t); [lra|exact E].
Qed.

(** ** The interpolated top *)
Lemma interp_spec xs ys x : (2 <= length xs)%nat -> increasing (fun i => nth i xs 0) (length xs) ->
  interpolates (length xs) (fun i => nth i xs 0) (fun i => nth i ys 0) x (interp1d_extrapolate xs ys x).
Proof.
  intros L I. set (g := fun i => nth i xs 0) in *. unfold interp1d_extrapolate. fold g.
  destruct (searchsorted_spec g (length xs) x I (length xs) ltac:(lia)) as [B C].
  set (j := searchsorted g (length xs) x) in *.
  set (h := Nat.min (Nat.max j 1) (length xs - 1)).
  exists (h - 1)%nat. replace (S (h - 1)) with h by (unfold h; lia).
  split; [unfold h; lia|]. split; [|split].
  - destruct (Nat.eq_dec (h - 1) 0); [left; assumption|right]. apply C; unfold h in *; lia.
  - destruct (Nat.eq_dec (S h) (length xs)); [left; assumption|right].
    apply Rnot_lt_le. intro H. apply C in H; unfold h in *; lia.
  - unfold on_line. fold g. change (nth h xs 0) with (g h). change (nth (h - 1) xs 0) with (g (h - 1)%nat).
    assert (g (h - 1)%nat < g h) by (apply (increasing_lt g (length xs)); [exact I|unfold h; lia..]).
    field. lra.
Qed.
Lemma all_some_map {A B} (k : A -> option B) (l : list A) : (forall a, In a l -> exists b, k a = Some b) ->
  exists r, all_some (map k l) = Some r /\ Forall2 (fun a b => k a = Some b) l r.
Proof.
  induction l as [|a l IH]; intro H; [exists []; split; [reflexivity|constructor]|].
  destruct (H a (or_introl eq_refl)) as (b & E).
  destruct IH as (r & Er & F); [intros; apply H; right; assumption|].
  exists (b :: r). cbn [map all_some]. rewrite E, Er. split; [reflexivity|constructor; assumption].
Qed.
