(** The sunrise and the sunset that the search answers are never exactly a day apart,
    at any supported latitude. *)
From Coq Require Import ZArith Reals Lra Lia Psatz Bool.
From Verif Require Import Model.Num Model.Solar Model.SolarSearch Proofs.NumR Proofs.SolarProofs
  Proofs.CalendarProofs Proofs.SolarSearchProofs Proofs.RealSun Spec.SunSpec.
Open Scope R_scope.

(** ** The apparent elevation increases, finely *)
Lemma refraction_loss_fine a b : -90 <= a -> a < b -> b <= 85 -> ~ (a <= -0.575 < b) ->
  atmospheric_refraction a - atmospheric_refraction b <= 1700 * (b - a).
Proof.
  intros Ha Hab Hb Hn. destruct (Rle_dec a (-0.575)) as [La|La].
  - assert (Lb : b <= -0.575) by lra.
    rewrite (refraction_below b Lb). destruct (Req_dec a (-90)) as [->|Na].
    + assert (Z : atmospheric_refraction (-90) = 0).
      { rewrite refraction_below by lra. replace (radians (-90)) with (- (PI / 2)) by (unfold radians; lra).
        unfold tan. rewrite cos_neg, cos_PI2. unfold Rdiv. rewrite Rinv_0, Rmult_0_r, Rinv_0. lra. }
      pose proof (refraction_low b ltac:(lra)). lra.
    + rewrite (refraction_below a La). pose proof (refraction_low_mono a b ltac:(lra) ltac:(lra) Lb). lra.
  - destruct (Rle_dec b 5) as [L5|L5].
    + rewrite (refraction_mid a), (refraction_mid b) by lra. pose proof (poly_slope a b). lra.
    + destruct (Rle_dec a 5) as [A5|A5].
      * rewrite (refraction_mid a) by lra. pose proof (refraction_above_5 b ltac:(lra)).
        pose proof (poly_slope a 5 ltac:(lra) ltac:(lra) ltac:(lra)) as Q.
        unfold refraction_poly at 2 in Q. lra.
      * rewrite (refraction_high a), (refraction_high b) by lra.
        destruct (cot_slope a b) as (A & B & C & D); try lra.
        pose proof (refraction_cot_slope _ _ A B C) as [_ S]. lra.
Qed.
Lemma refraction_loss_jump a b : -90 <= a -> a < b -> b <= 85 ->
  atmospheric_refraction a - atmospheric_refraction b <= 1 + 1700 * (b - a).
Proof.
  intros Ha Hab Hb. destruct (Rle_dec (-89) a) as [L|L]; [exact (refraction_loss a b L Hab Hb)|].
  destruct (Rle_dec b (-89)) as [Lb|Lb].
  - pose proof (refraction_loss_fine a b Ha Hab Hb ltac:(lra)). lra.
  - pose proof (refraction_loss_fine a (-89) Ha ltac:(lra) ltac:(lra) ltac:(lra)).
    pose proof (refraction_loss (-89) b ltac:(lra) ltac:(lra) Hb). lra.
Qed.
Lemma apparent_fine a b : -90 <= a -> a < b -> b <= 85 -> (a <= -0.575 < b -> a + 0.0006 <= b) ->
  apparent a < apparent b.
Proof.
  intros Ha Hab Hb Hj. unfold apparent.
  destruct (Rle_dec a (-0.575)) as [L|L]; [destruct (Rlt_dec (-0.575) b) as [L'|L']|].
  - pose proof (refraction_loss_jump a b Ha Hab Hb). specialize (Hj (conj L L')). lra.
  - pose proof (refraction_loss_fine a b Ha Hab Hb ltac:(lra)). lra.
  - pose proof (refraction_loss_fine a b Ha Hab Hb ltac:(lra)). lra.
Qed.
Lemma refraction_85 : atmospheric_refraction 85 <= 60.
Proof.
  rewrite refraction_high by lra. pose proof PI_precise.
  destruct (cot_slope 45 85) as (A & B & C & D); try lra.
  assert (T : tan (radians 45) = 1).
  { replace (radians 45) with (PI / 4) by (unfold radians; lra). apply tan_PI4. }
  rewrite T, Rinv_1 in *. set (w := / tan (radians 85)) in *. clearbody w.
  pose proof (refraction_cot_slope 1 w A B ltac:(lra)) as [S _]. unfold refraction_cot in S at 1. lra.
Qed.
Lemma apparent_order a b : -90 <= a -> a + 0.04 <= b -> b <= 90 -> apparent a < apparent b.
Proof.
  intros Ha Hab Hb. destruct (Rle_dec b 85) as [L|L].
  - apply apparent_fine; lra.
  - assert (Eb : atmospheric_refraction b = 0).
    { unfold atmospheric_refraction. destruct (Rltb_spec 85 b); [reflexivity|lra]. }
    unfold apparent. rewrite Eb. destruct (Rle_dec a 85) as [La|La].
    + assert (Q : atmospheric_refraction a <= 61 + 1700 * (85 - a)).
      { pose proof refraction_85. destruct (Req_dec a 85) as [->|N]; [lra|].
        pose proof (refraction_loss_jump a 85 Ha ltac:(lra) ltac:(lra)). lra. }
      lra.
    + assert (Ea : atmospheric_refraction a = 0).
      { unfold atmospheric_refraction. destruct (Rltb_spec 85 a); [reflexivity|lra]. }
      lra.
Qed.

(** ** What a bisection that ends at an end has compared, on every scale *)
Section Chains.
Local Open Scope Z_scope.
Ltac Zify.zify_post_hook ::= Z.to_euclidean_division_equations.
Context {T : Type} {N : Num T}.
Lemma chain_low (obj : Z -> T) K : 1 <= K -> forall fuel high, K <= high ->
  chosen obj (search_loop fuel obj 0 high) 0 ->
  exists x, K <= x < 2 * K /\ x <= high /\ nltb (obj 0) (obj x) = true.
Proof.
  intro HK. induction fuel as [|f IH]; intros high Hh H.
  - destruct (search_ends obj 0 0 high 0 ltac:(lia) H) as (_ & A & _). cbn [search_loop] in H.
    destruct (Z.gtb_spec high (0 + 1)); [destruct H|]. exists high. split; [lia|]. split; [lia|auto].
  - pose proof (search_ends obj (S f) 0 high 0 ltac:(lia) H) as (_ & A & _). specialize (A eq_refl).
    destruct (Z.lt_ge_cases high (2 * K)) as [L|L]; [exists high; split; [lia|]; split; [lia|exact A]|].
    cbn [search_loop] in H. destruct (Z.gtb_spec high (0 + 1)) as [G|G]; [|lia].
    rewrite A in H. edestruct IH as (x & B & C & D); [|exact H|]; [lia|].
    exists x. split; [exact B|]. split; [lia|exact D].
Qed.
Lemma chain_high (obj : Z -> T) K high : 1 <= K -> forall fuel low, K <= high - low ->
  chosen obj (search_loop fuel obj low high) high ->
  exists x, K <= x < 2 * K /\ x <= high - low /\ nltb (obj (high - x)) (obj high) = false.
Proof.
  intro HK. induction fuel as [|f IH]; intros low Hh H.
  - destruct (search_ends obj O low high high ltac:(lia) H) as (_ & _ & A). cbn [search_loop] in H.
    destruct (Z.gtb_spec high (low + 1)); [destruct H|]. exists (high - low).
    split; [lia|]. split; [lia|]. replace (high - (high - low)) with low by lia. auto.
  - pose proof (search_ends obj (S f) low high high ltac:(lia) H) as (_ & _ & A). specialize (A eq_refl).
    destruct (Z.lt_ge_cases (high - low) (2 * K)) as [L|L].
    + exists (high - low). split; [lia|]. split; [lia|]. replace (high - (high - low)) with low by lia. exact A.
    + cbn [search_loop] in H. destruct (Z.gtb_spec high (low + 1)) as [G|G]; [|lia].
      rewrite A in H. edestruct IH as (x & B & C & D); [|exact H|]; [lia|].
      exists x. split; [exact B|]. split; [lia|exact D].
Qed.
(** A search of [n] steps. *)
Lemma find_chain el a b tg d n time e : 0 < d -> 1 <= n -> b - a = n * d ->
  let tr := match tg with Minimum => fun v => v | Maximum => fun v => nopp v
            | Elevation x => fun v => nabs (nsub v x) end in
  find_solar_elevation (T:=T) el a b tg d = Some (time, e) ->
  exists i, 0 <= i <= n /\ time = a + d * i /\
  (2 <= n -> i < n / 2 -> nltb (tr (el a)) (tr (el b)) = true) /\
  (i = n -> nltb (tr (el a)) (tr (el b)) = false) /\
  (forall K, 1 <= K <= n -> i = 0 ->
     exists x, K <= x < 2 * K /\ x <= n /\ nltb (tr (el a)) (tr (el (a + d * x))) = true) /\
  (forall K, 1 <= K <= n -> i = n ->
     exists x, K <= x < 2 * K /\ x <= n /\ nltb (tr (el (b - d * x))) (tr (el b)) = false).
Proof.
  intros Hd Hn Hab tr. unfold find_solar_elevation. fold tr. clearbody tr. unfold binary_search.
  replace (Z.quot (b - a) d) with n by (rewrite Hab, Z.quot_mul by lia; reflexivity).
  cbv zeta.
  destruct (Z.ltb_spec b a); [nia|].
  destruct (Z.eqb_spec d 0); [lia|]. destruct (Z.leb_spec n 0); [lia|].
  set (obj := fun idx => tr (el (a + d * idx))).
  assert (E0 : obj 0 = tr (el a)) by (unfold obj; f_equal; f_equal; lia).
  assert (E1 : obj n = tr (el b)) by (unfold obj; f_equal; f_equal; lia).
  pose proof (search_ends obj (Z.to_nat n) 0 n) as S0.
  pose proof (fun K HK => chain_low obj K HK (Z.to_nat n) n) as CL.
  pose proof (fun K HK => chain_high obj K n HK (Z.to_nat n) 0) as CH.
  assert (HALF : forall i, chosen obj (search_loop (Z.to_nat n) obj 0 n) i -> 2 <= n -> i < n / 2 ->
    nltb (obj 0) (obj n) = true).
  { intros i Hi H2 Hlt. destruct (Z.to_nat n) as [|f] eqn:En; [lia|]. cbn [search_loop] in Hi.
    destruct (Z.gtb_spec n (0 + 1)); [|lia]. destruct (nltb (obj 0) (obj n)); [reflexivity|exfalso].
    pose proof (search_ends obj f ((0 + n) / 2) n i ltac:(lia) Hi). lia. }
  destruct (search_loop (Z.to_nat n) obj 0 n) as [[l h]|]; [|discriminate].
  intro E. injection E as E _. set (i := if nltb (obj l) (obj h) then l else h) in *.
  specialize (S0 i ltac:(lia) eq_refl). specialize (HALF i eq_refl).
  exists i. split; [lia|]. split; [symmetry; exact E|]. rewrite E0, E1 in *.
  split; [exact HALF|]. split; [tauto|]. split.
  - intros K HK Zi. destruct (CL K ltac:(lia) ltac:(lia)) as (x & A & B & C).
    { cbn [chosen]. fold i. lia. }
    exists x. split; [exact A|]. split; [exact B|]. exact C.
  - intros K HK Zi. destruct (CH K ltac:(lia) ltac:(lia)) as (x & A & B & C).
    { cbn [chosen]. fold i. lia. }
    exists x. split; [exact A|]. split; [lia|]. unfold obj in C at 1.
    replace (a + d * (n - x)) with (b - d * x) in C by lia. exact C.
Qed.
End Chains.

(** ** The circle of the day *)
Lemma circle lat lng t : in_years t -> 0.5 <= cos lat ->
  let S := sin lat * sin_decl (julian_century t) in
  let B := cos lat * cos_decl (julian_century t) in
  0.456 <= B <= 1 /\ -0.3552 <= S <= 0.3552 /\ S + B <= 1 /\
  sin_elevation lat lng t = S - B * cos (turn lng t) /\
  (forall k, (0 <= k)%Z -> in_years (t + k * 1000000) ->
     Rabs (sin_elevation lat lng (t + k * 1000000) - (S - B * cos (turn lng t + 2 * PI * (IZR k / 86400))))
     <= 490 * (IZR k / (86400 * 36525))).
Proof.
  intros Ht Hl S B. destruct (day_circle lat lng t Ht Hl) as (HB & _ & E). fold S B in HB, E.
  split; [exact HB|]. split; [|split; [|split; [exact E|]]].
  - destruct (julian_century_value _ Ht) as (_ & J). destruct BL_sin_decl as [A _]. specialize (A _ J).
    pose proof (sin2_cos2 lat) as P. unfold Rsqr in P.
    assert (Q : Rabs (sin lat) <= 0.8661) by (apply Rabs_le; split; nra).
    assert (Rabs S <= 0.3552).
    { unfold S. rewrite Rabs_mult. pose proof (Rabs_pos (sin lat)).
      pose proof (Rabs_pos (sin_decl (julian_century t))). nra. }
    apply Rabs_le_inv in H. lra.
  - unfold S, B. destruct (sin_decl_ok (julian_century t)) as [<- <-].
    rewrite Rplus_comm, <- cos_minus. apply COS_bound.
  - intros k Hk Ht'. exact (sin_elevation_later lat lng t k Hk Ht Ht').
Qed.

(** Half of [x] steps of three minutes, [22 <= x <= 43], as an angle. *)
Definition half_steps (x : Z) : R := PI * (IZR x * 180 / 86400).
Lemma sin_lower3 y : 0 <= y <= 1 -> y - y * y * y / 6 <= sin y.
Proof.
  intro H. pose proof PI_precise. pose proof (pre_sin_bound y 0 ltac:(lra) ltac:(lra)) as [S1 _].
  cbv -[Rplus Rmult Rinv Rdiv Ropp IZR Rle Rlt PI sin] in S1. lra.
Qed.
Lemma half_22 x : (22 <= x < 44)%Z ->
  0.143 <= sin (half_steps x) <= 0.2779 /\ 0.96 <= cos (half_steps x) <= 1.
Proof.
  intros [H1 H2]. assert (H2' : (x <= 43)%Z) by lia. apply IZR_le in H1, H2'. pose proof PI_precise.
  assert (Y : 0.1439 <= half_steps x <= 0.2815) by (unfold half_steps; nra).
  set (y := half_steps x) in *. clearbody y.
  pose proof (sin_lower3 y ltac:(lra)). pose proof (sin_lt_x y ltac:(lra)). pose proof (cos_lower y).
  pose proof (COS_bound y). assert (y * y <= 0.0793) by nra. assert (y * y * y <= 0.0793 * y) by nra.
  split; [|lra]. split.
  2:{ pose proof (pre_sin_bound y 0 ltac:(lra) ltac:(lra)) as [_ S2].
      cbv -[Rplus Rmult Rinv Rdiv Ropp IZR Rle Rlt PI sin] in S2.
      assert (0 <= 0.2815 - y) by lra. assert (0 <= y * y * y) by nra.
      assert (Q3 : 0.0223 - 0.2377 * (0.2815 - y) <= y * y * y) by nra.
      assert (Q5 : y * y * y * y * y <= 0.0793 * 0.0793 * y) by nra.
      lra. }
  assert (y * y * (y - 0.1439) >= 0) by nra.
  assert (y - y * y * y / 6 >= 0.143); [|lra].
  assert (y * y * y <= 0.00298 + 0.25 * (y - 0.1439)) by nra. lra.
Qed.
Lemma half_8 x : (8 <= x < 16)%Z ->
  0.0522 <= sin (half_steps x) <= 0.0982 /\ 0.995 <= cos (half_steps x) <= 1.
Proof.
  intros [H1 H2]. assert (H2' : (x <= 15)%Z) by lia. apply IZR_le in H1, H2'. pose proof PI_precise.
  assert (Y : 0.05235 <= half_steps x <= 0.09819) by (unfold half_steps; nra).
  set (y := half_steps x) in *. clearbody y.
  pose proof (sin_lower3 y ltac:(lra)). pose proof (sin_lt_x y ltac:(lra)). pose proof (cos_lower y).
  pose proof (COS_bound y). assert (y * y <= 0.00965) by nra.
  split; [|lra]. split; [|lra].
  assert (y * y * y <= 0.00965 * y) by nra.
  lra.
Qed.

(** ** One second *)
Lemma second_reals S B co si s1 c1 c c' :
  0.456 <= B <= 1 -> -0.3552 <= S <= 0.3552 -> co * co + si * si = 1 ->
  0.00007 <= s1 <= 0.00008 -> 1 - 0.0000001 <= c1 <= 1 -> c = S - B * co ->
  Rabs (c' - (S - B * (co * c1 - si * s1))) <= 0.000000156 ->
  Rabs (c' - c) <= 0.0001 /\
  (0.02 <= si -> c + 0.0000002 <= c' /\ (-0.0103 <= c <= 0.0002 -> c + 0.000011 <= c')) /\
  (si <= -0.02 -> c' + 0.0000002 <= c /\ (-0.0103 <= c <= 0.0002 -> c' + 0.000011 <= c)).
Proof.
  intros HB HS P Hs Hc E D. apply Rabs_le_inv in D.
  assert (Bco : -1 <= co <= 1) by nra. assert (Bsi : -1 <= si <= 1) by nra.
  assert (E1 : -0.0000001 <= co * (1 - c1) <= 0.0000001) by nra.
  assert (F : c' - c = (c' - (S - B * (co * c1 - si * s1))) + B * (co * (1 - c1) + si * s1))
    by (rewrite E; ring).
  set (dd := c' - (S - B * (co * c1 - si * s1))) in *. clearbody dd.
  set (e1 := co * (1 - c1)) in *. clearbody e1.
  assert (E2 : -0.00008 <= si * s1 <= 0.00008) by nra.
  assert (G : forall v, -1 <= v <= 1 -> -0.0103 <= c <= 0.0002 -> co * co + v * v = 1 -> 0 <= v -> 0.59 <= v).
  { intros v Hv Hc0 Pv Pos. assert (B * co = S - c) by (rewrite E; ring).
    assert (-0.3655 <= B * co <= 0.3655) by lra.
    assert (-0.8016 <= co <= 0.8016) by nra. nra. }
  split; [|split].
  - rewrite F. apply Rabs_le. assert (-0.000081 <= B * (e1 + si * s1) <= 0.000081) by nra. lra.
  - intro Hsi. split; [|intro Hc0; specialize (G si Bsi Hc0 P ltac:(lra))].
    + assert (0.0000014 <= si * s1) by nra. assert (0.456 * 0.0000013 <= B * (e1 + si * s1)) by nra. lra.
    + assert (0.59 * 0.00007 <= si * s1) by nra. assert (0.456 * 0.0000411 <= B * (e1 + si * s1)) by nra. lra.
  - intro Hsi. split; [|intro Hc0; specialize (G (- si) ltac:(lra) Hc0 ltac:(lra) ltac:(lra))].
    + assert (si * s1 <= -0.0000014) by nra. assert (B * (e1 + si * s1) <= - (0.456 * 0.0000013)) by nra. lra.
    + assert (si * s1 <= - (0.59 * 0.00007)) by nra. assert (B * (e1 + si * s1) <= - (0.456 * 0.0000411)) by nra. lra.
Qed.
Lemma arc_break c : -1 <= c <= 1 -> (arc c <= -0.575 -> c <= 0) /\ (-0.575 < arc c -> -0.0101 <= c).
Proof.
  intro H. destruct (arc_facts c H) as (A & R1 & S1). pose proof PI_precise. split; intro L.
  - rewrite <- S1. pose proof (sin_deg_mono (arc c) 0 ltac:(lra) ltac:(lra) ltac:(lra)) as M.
    replace (radians 0) with 0 in M by (unfold radians; lra). rewrite sin_0 in M. exact M.
  - rewrite <- S1. pose proof (sin_deg_mono (-0.575) (arc c) ltac:(lra) ltac:(lra) ltac:(lra)) as M.
    pose proof (sin_small_le (radians (-0.575))) as Q. apply Rabs_le_inv in Q.
    rewrite (Rabs_left (radians (-0.575))) in Q by (unfold radians; lra).
    assert (radians (-0.575) >= -0.0101) by (unfold radians; lra).
    lra.
Qed.
Lemma one_second_later lat lng t : in_years t -> in_years (t + 1000000) -> 0.5 <= cos lat ->
  let c := sin_elevation lat lng t in let c' := sin_elevation lat lng (t + 1000000) in
  Rabs (c' - c) <= 0.0001 /\
  (0.02 <= sin (turn lng t) -> arc c' <= 85 -> elevation lat lng t < elevation lat lng (t + 1000000)) /\
  (sin (turn lng t) <= -0.02 -> arc c <= 85 -> elevation lat lng (t + 1000000) < elevation lat lng t).
Proof.
  intros Ht Ht' Hl c c'. destruct (circle lat lng t Ht Hl) as (HB & HS & _ & E & D).
  specialize (D 1%Z ltac:(lia) Ht'). change (1 * 1000000)%Z with 1000000%Z in D.
  change (2 * PI * (IZR 1 / 86400)) with one_second in D. rewrite cos_plus in D.
  destruct one_second_facts as (S1 & C1).
  rewrite !elevation_value by (unfold in_years in *; lia).
  pose proof (sin_elevation_range lat lng t) as R1.
  pose proof (sin_elevation_range lat lng (t + 1000000)) as R2. fold c in E, R1 |- *. fold c' in D, R2 |- *.
  pose proof (sin2_cos2 (turn lng t)) as P. unfold Rsqr in P.
  destruct (second_reals _ _ (cos (turn lng t)) (sin (turn lng t)) _ _ c c' HB HS ltac:(lra) S1 C1 E
    ltac:(eapply Rle_trans; [exact D|lra])) as (G0 & G1 & G2).
  clearbody c c'. clear D E. split; [exact G0|]. apply Rabs_le_inv in G0.
  destruct (arc_facts c R1) as (A1 & _). destruct (arc_facts c' R2) as (A2 & _).
  destruct (arc_break c R1) as [K1 K2]. destruct (arc_break c' R2) as [K1' K2'].
  split; intros Hs H85.
  - destruct (G1 Hs) as [U V]. pose proof (arc_spread c c' 0.0000002 R1 R2 ltac:(lra) U).
    apply apparent_fine; try lra. intros [X Y]. specialize (K1 X). specialize (K2' Y).
    pose proof (arc_spread c c' 0.000011 R1 R2 ltac:(lra) ltac:(lra)). lra.
  - destruct (G2 Hs) as [U V]. pose proof (arc_spread c' c 0.0000002 R2 R1 ltac:(lra) U).
    apply apparent_fine; try lra. intros [X Y]. specialize (K1' X). specialize (K2 Y).
    pose proof (arc_spread c' c 0.000011 R2 R1 ltac:(lra) ltac:(lra)). lra.
Qed.

(** ** At noon: the search for the sunset cannot stop at once *)
Lemma noon_reals S B th s k x c cT cx cn :
  (* the searched turn is [th]; [s], [k] are the sine and cosine of half of the steps *)
  0.456 <= B <= 1 -> -0.3552 <= S <= 0.3552 -> 0.143 <= s <= 0.2779 -> 0.96 <= k <= 1 -> s * s + k * k = 1 ->
  s = sin x -> k = cos x -> c = S - B * cos th ->
  Rabs (cT - c) <= 0.0135 -> Rabs (cn - (S + B * cos th)) <= 0.0135 ->
  Rabs (cx - (S - B * cos (th - 2 * x))) <= 0.0135 ->
  cn <= cT + 0.0205 -> cx <= cT + 0.0205 -> -0.55 <= sin th /\ cos th <= 0.0522.
Proof.
  intros HB HS Hs Hk P Es Ek E D1 D2 D3 L1 L2.
  apply Rabs_le_inv in D1, D2, D3.
  assert (F : cos (th - 2 * x) - cos th = 2 * s * (sin th * k - cos th * s)).
  { replace (th - 2 * x) with (th - x - x) by ring. rewrite (cos_minus (th - x)), cos_minus, sin_minus, <- Es, <- Ek.
    assert (cos th * (k * k + s * s - 1) = 0) by (replace (k * k + s * s - 1) with 0 by lra; ring).
    replace ((cos th * k + sin th * s) * k + (sin th * k - cos th * s) * s - cos th)
      with (cos th * (k * k + s * s - 1) - 2 * cos th * (s * s) + 2 * (sin th * s * k)) by ring.
    rewrite H. ring. }
  pose proof (sin2_cos2 th) as Pt. unfold Rsqr in Pt.
  set (co := cos th) in *. set (si := sin th) in *. set (cm := cos (th - 2 * x)) in *. clearbody co si cm.
  split; [|nra].
  assert (G : - 0.1042 <= cm - co) by nra.
  apply Rnot_lt_le. intro L.
  assert (Bco : -1 <= co) by nra.
  assert (- co * s <= s) by nra.
  assert (si * k <= -0.528) by nra.
  assert (Q : 2 * s * (si * k - co * s) <= 2 * s * (-0.528 + s)) by nra.
  assert (0 <= (s - 0.143) * (0.2779 - s)) by (apply Rmult_le_pos; lra). rewrite <- F in Q. clear F.
  assert (2 * s * (-0.528 + s) = -1.056 * s + 2 * (s * s)) by lra. lra.
Qed.

Lemma noon_after S B th s k x c cx :
  0.456 <= B <= 1 -> -0.3552 <= S <= 0.3552 -> 0.143 <= s <= 0.2779 -> 0.96 <= k <= 1 -> s * s + k * k = 1 ->
  s = sin x -> k = cos x -> c = S - B * cos th ->
  Rabs (cx - (S - B * cos (th + 2 * x))) <= 0.0013 ->
  -0.55 <= sin th -> cos th <= 0.0522 ->
  sin th <= 0.02 \/ sin th <= 0.112 /\ cos th <= -0.99 ->
  cos th <= -0.83 /\ cx + 0.0024 <= c /\ 0.0256 <= c /\ -0.169 <= cx.
Proof.
  intros HB HS Hs Hk P Es Ek E D Hsi Hco Hup. apply Rabs_le_inv in D.
  assert (F : cos (th + 2 * x) = cos th * (1 - 2 * (s * s)) - sin th * (2 * (s * k))).
  { rewrite cos_plus, cos_2a_sin, sin_2a, <- Es, <- Ek. ring. }
  rewrite F in D. clear F. pose proof (sin2_cos2 th) as Pt. unfold Rsqr in Pt.
  set (co := cos th) in *. set (si := sin th) in *. clearbody co si.
  assert (Hc : co <= -0.835) by (destruct Hup; nra).
  assert (s2 : s * s <= 0.07723) by nra.
  assert (s2' : 0.0204 <= s * s) by nra.
  assert (sk : 0 <= s * k <= 0.267).
  { split; [nra|]. assert ((s * k) * (s * k) = (s * s) * (1 - s * s)) by (replace (1 - s * s) with (k * k) by lra; ring).
    assert (0 <= s * k) by nra. nra. }
  split; [lra|].
  assert (C1 : co * (1 - 2 * (s * s)) <= -0.7060) by nra.
  assert (C2 : - si * (2 * (s * k)) <= 0.2937) by nra.
  split; [|split; [nra|]].
  - assert (G : c - (S - B * (co * (1 - 2 * (s * s)) - si * (2 * (s * k)))) = 2 * s * B * (- co * s - si * k))
      by (rewrite E; ring).
    assert (M : 0.0296 <= - co * s - si * k).
    { destruct Hup as [U|[U V]]; nra. }
    assert (0.0038 <= 2 * s * B * (- co * s - si * k)).
    { assert (0.1304 <= 2 * s * B) by nra. nra. }
    lra.
  - assert (B * (co * (1 - 2 * (s * s)) - si * (2 * (s * k))) <= -0.1879) by nra. lra.
Qed.
Lemma arc_above_85 c : -1 <= c <= 1 -> 85 < arc c -> 0.9961 <= c.
Proof.
  intros H L. destruct (arc_facts c H) as (A & R1 & S1). pose proof PI_precise. rewrite <- S1.
  eapply Rle_trans; [|apply (sin_deg_mono 85 (arc c)); lra].
  replace (radians 85) with (PI / 2 - radians 5) by (unfold radians; lra).
  rewrite sin_shift. pose proof (cos_lower (radians 5)).
  assert (X : 0 < radians 5 <= 0.087278) by (unfold radians; lra). nra.
Qed.
Lemma arc_lower c : -1 <= c <= 1 -> -0.169 <= c -> -9.75 <= arc c.
Proof.
  intros H L. destruct (arc_facts c H) as (A & R1 & S1). pose proof PI_precise.
  apply Rnot_lt_le. intro G. pose proof (sin_deg_mono (arc c) (-9.75) ltac:(lra) ltac:(lra) ltac:(lra)) as M.
  rewrite S1 in M. replace (radians (-9.75)) with (- radians 9.75) in M by (unfold radians; lra).
  rewrite sin_neg in M.
  assert (X : 0.17013 <= radians 9.75 <= 0.1702) by (unfold radians; lra).
  set (y := radians 9.75) in *. clearbody y. pose proof (sin_lower3 y ltac:(lra)).
  assert (y * y * y <= 0.00494) by nra. lra.
Qed.
Lemma arc_zero : arc 0 = 0.
Proof. unfold arc. rewrite acos_0. unfold degrees. field. apply PI_neq0. Qed.

Lemma noon_apart lat lng t x x' :
  in_years t -> in_years (t + 86400 * 1000000) -> 0.5 <= cos lat ->
  (22 <= x < 44)%Z -> (22 <= x' < 44)%Z ->
  let el := elevation lat lng in
  el (t + 1000000)%Z < el t ->
  el (t + 43200 * 1000000)%Z <= el (t + 86400 * 1000000)%Z ->
  el (t + (86400 - 180 * x) * 1000000)%Z <= el (t + 86400 * 1000000)%Z ->
  el (t + 43200 * 1000000)%Z < el t /\
  Rabs (el (t + (180 * x') * 1000000)%Z - -4.242) <= Rabs (el t - -4.242).
Proof.
  intros Ht HT Hl Hx Hx' el G1 G2 G3. unfold el in *. clear el.
  assert (Y : forall k, (0 <= k <= 86400)%Z -> in_years (t + k * 1000000)) by (unfold in_years in *; lia).
  destruct (circle lat lng t Ht Hl) as (HB & HS & HSB & E & D).
  set (S := sin lat * sin_decl (julian_century t)) in *. set (B := cos lat * cos_decl (julian_century t)) in *.
  set (th := turn lng t) in *.
  destruct (half_22 x Hx) as (Hs & Hk). destruct (half_22 x' Hx') as (Hs' & Hk').
  assert (D' : forall k, (0 <= k <= 86400)%Z -> Rabs (sin_elevation lat lng (t + k * 1000000)
     - (S - B * cos (th + 2 * PI * (IZR k / 86400)))) <= 0.0135).
  { intros k Hk0. eapply Rle_trans; [apply D; [lia|apply Y, Hk0]|]. destruct Hk0 as [_ Hk0].
    apply IZR_le in Hk0. lra. }
  assert (P1 : forall k, (0 <= k)%Z -> in_years k -> -1 <= sin_elevation lat lng k <= 1)
    by (intros; apply sin_elevation_range).
  pose proof (D' 86400%Z ltac:(lia)) as DT. pose proof (D' 43200%Z ltac:(lia)) as DN.
  pose proof (D' (86400 - 180 * x)%Z ltac:(lia)) as DX.
  replace (th + 2 * PI * (86400 / 86400)) with (th + 2 * PI) in DT by lra.
  replace (th + 2 * PI * (43200 / 86400)) with (th + PI) in DN by lra.
  rewrite neg_cos in DN. rewrite (cos_plus th (2 * PI)), cos_2PI, sin_2PI in DT.
  replace (cos th * 1 - sin th * 0) with (cos th) in DT by ring. rewrite <- E in DT.
  assert (EX : cos (th + 2 * PI * (IZR (86400 - 180 * x) / 86400)) = cos (th - 2 * half_steps x)).
  { replace (th + 2 * PI * (IZR (86400 - 180 * x) / 86400)) with ((th - 2 * half_steps x) + 2 * PI).
    - rewrite cos_plus, cos_2PI, sin_2PI. ring.
    - unfold half_steps. rewrite minus_IZR, mult_IZR. lra. }
  rewrite EX in DX. clear EX.
  assert (DN' : Rabs (sin_elevation lat lng (t + 43200 * 1000000) - (S + B * cos th)) <= 0.0135).
  { eapply Rle_trans; [|exact DN]. right. f_equal. ring. }
  pose proof G2 as L1; apply elevation_order in L1; [|unfold in_years in *; lia|unfold in_years in *; lia].
  pose proof G3 as L2; apply elevation_order in L2; [|unfold in_years in *; lia|unfold in_years in *; lia].
  pose proof (sin2_cos2 (half_steps x)) as Px. pose proof (sin2_cos2 (half_steps x')) as Px'. unfold Rsqr in Px, Px'.
  destruct (noon_reals S B th _ _ (half_steps x) _ _ _ _ HB HS Hs Hk Px eq_refl eq_refl E DT DN' DX L1 L2)
    as [Hsi Hco].
  (* the second after *)
  destruct (one_second_later lat lng t Ht ltac:(unfold in_years in *; lia) Hl) as (O0 & O1 & _).
  fold th in O1.
  assert (Hup : sin th <= 0.02 \/ sin th <= 0.112 /\ cos th <= -0.99).
  { destruct (Rle_dec (sin th) 0.02) as [L|L]; [left; exact L|right].
    destruct (Rle_dec (arc (sin_elevation lat lng (t + 1000000))) 85) as [L'|L'].
    - specialize (O1 ltac:(lra) L'). lra.
    - pose proof (arc_above_85 _ (sin_elevation_range lat lng (t + 1000000)) ltac:(lra)) as Q.
      apply Rabs_le_inv in O0. assert (Q' : 0.996 <= S - B * cos th) by lra.
      pose proof (sin2_cos2 th) as Pt. unfold Rsqr in Pt.
      set (co := cos th) in *. set (si := sin th) in *. clearbody co si S B.
      assert (-1 <= co <= 1) by nra. assert (0.64 <= B) by nra.
      assert (B * (1 + co) <= 0.004) by lra. assert (1 + co <= 0.00626) by nra.
      split; [|lra]. assert (si * si <= 0.01252) by nra. nra. }
  (* the steps after *)
  assert (D2 : Rabs (sin_elevation lat lng (t + 180 * x' * 1000000)
     - (S - B * cos (th + 2 * half_steps x'))) <= 0.0013).
  { pose proof (D (180 * x')%Z ltac:(lia) (Y (180 * x')%Z ltac:(lia))) as Q.
    replace (2 * PI * (IZR (180 * x') / 86400)) with (2 * half_steps x') in Q
      by (unfold half_steps; rewrite mult_IZR; lra).
    eapply Rle_trans; [exact Q|]. assert (Hx'' : (180 * x' <= 7740)%Z) by lia. apply IZR_le in Hx''. lra. }
  destruct (noon_after S B th _ _ (half_steps x') _ _ HB HS Hs' Hk' Px' eq_refl eq_refl E D2 Hsi Hco Hup)
    as (Hlow & A1 & A2 & A3).
  split.
  - apply Rnot_le_lt. intro G.
    pose proof G as L3; apply elevation_order in L3; [|unfold in_years in *; lia|unfold in_years in *; lia].
    rewrite E in L3. apply Rabs_le_inv in DN'. clearbody S B th. nra.
  - rewrite !elevation_value by (unfold in_years in *; lia).
    pose proof (sin_elevation_range lat lng t) as R1.
    pose proof (sin_elevation_range lat lng (t + 180 * x' * 1000000)) as R2.
    set (c := sin_elevation lat lng t) in *. set (cx := sin_elevation lat lng (t + 180 * x' * 1000000)) in *.
    clearbody c cx. destruct (arc_facts c R1) as (Q1 & _). destruct (arc_facts cx R2) as (Q2 & _).
    pose proof (arc_spread cx c 0.0024 R2 R1 ltac:(lra) ltac:(lra)).
    pose proof (arc_spread 0 c 0.0256 ltac:(lra) R1 ltac:(lra) ltac:(lra)) as Q3. rewrite arc_zero in Q3.
    pose proof (arc_lower cx R2 A3) as Q4.
    pose proof (apparent_order (arc cx) (arc c) ltac:(lra) ltac:(lra) ltac:(lra)) as Q5.
    pose proof (refraction_range _ Q1). pose proof (refraction_range _ Q2).
    rewrite (Rabs_right (apparent (arc c) - -4.242)) by (unfold apparent; lra).
    apply Rabs_le. unfold apparent in *. lra.
Qed.

(** ** At midnight: the search for the sunrise cannot stop at once *)
Lemma refraction_below_break a : -90 <= a <= -0.575 -> atmospheric_refraction a <= 2070.3.
Proof.
  intro H. rewrite refraction_below by lra. destruct (Req_dec a (-90)) as [->|N].
  - replace (radians (-90)) with (- (PI / 2)) by (unfold radians; lra).
    unfold tan. rewrite cos_neg, cos_PI2. unfold Rdiv. rewrite Rinv_0, Rmult_0_r, Rinv_0. lra.
  - apply refraction_at_break. lra.
Qed.
Lemma midnight_before S B th th1 s k y :
  (* [th1] is the turn of the compared time, [2 y] the angle of the steps *)
  0.456 <= B <= 1 -> 0.0522 <= s <= 0.0982 -> 0.995 <= k <= 1 -> s = sin y -> k = cos y ->
  (S - B * cos (th1 + 2 * y)) <= (S - B * cos th1) + 0.00044 ->
  Rabs (th1 + y - (th - y + 2 * PI)) <= 0.00274 -> sin th <= 0.111.
Proof.
  intros HB Hs Hk Es Ek L D.
  assert (F : cos th1 - cos (th1 + 2 * y) = 2 * sin (th1 + y) * s).
  { replace th1 with (th1 + y - y) at 1 by ring. replace (th1 + 2 * y) with (th1 + y + y) by ring.
    rewrite cos_minus, (cos_plus (th1 + y)), <- Es. ring. }
  pose proof (sin_lip (th1 + y) (th - y + 2 * PI)) as Q.
  rewrite (sin_plus (th - y)), sin_2PI, cos_2PI in Q.
  replace (sin (th - y) * 1 + cos (th - y) * 0) with (sin (th - y)) in Q by ring.
  assert (Q' : Rabs (sin (th1 + y) - sin (th - y)) <= 0.00274) by lra. apply Rabs_le_inv in Q'.
  rewrite sin_minus, <- Es, <- Ek in Q'. pose proof (COS_bound th). pose proof (SIN_bound th).
  set (z := sin (th1 + y)) in *. set (si := sin th) in *. set (co := cos th) in *.
  set (w := cos th1) in *. set (w' := cos (th1 + 2 * y)) in *. clearbody z si co w w'. clear Q D.
  assert (G : B * (2 * z * s) <= 0.00044) by (rewrite <- F; lra).
  assert (Z : z <= 0.00925).
  { apply Rnot_lt_le. intro Z. assert (0.00925 * 0.0522 <= z * s) by nra. nra. }
  assert (si * k <= 0.012 + 0.0982) by nra. nra.
Qed.
Lemma midnight_after S B th s k x c cx :
  0.456 <= B <= 1 -> -0.3552 <= S <= 0.3552 -> 0.0522 <= s <= 0.0982 -> 0.995 <= k <= 1 ->
  s = sin x -> k = cos x -> c = S - B * cos th ->
  Rabs (cx - (S - B * cos (th + 2 * x))) <= 0.00042 ->
  -0.02 <= sin th <= 0.111 -> -0.0522 <= cos th ->
  0.99 <= cos th /\ c + 0.001 <= cx /\ c <= -0.0979 /\ cx <= -0.0787.
Proof.
  intros HB HS Hs Hk Es Ek E D Hsi Hco. apply Rabs_le_inv in D.
  assert (F : cos (th + 2 * x) = cos th * (1 - 2 * (s * s)) - sin th * (2 * (s * k))).
  { rewrite cos_plus, cos_2a_sin, sin_2a, <- Es, <- Ek. ring. }
  rewrite F in D. clear F. pose proof (sin2_cos2 th) as Pt. unfold Rsqr in Pt.
  set (co := cos th) in *. set (si := sin th) in *. clearbody co si.
  assert (Hc : 0.9937 <= co) by nra.
  assert (s2 : 0.0027 <= s * s <= 0.00965) by nra.
  assert (sk : 0 <= s * k <= 0.0982) by nra.
  split; [lra|].
  assert (C1 : 0.9745 <= co * (1 - 2 * (s * s))) by nra.
  assert (C2 : si * (2 * (s * k)) <= 0.0219) by nra.
  split; [|split; [nra|]].
  - assert (G : S - B * (co * (1 - 2 * (s * s)) - si * (2 * (s * k))) - c = 2 * s * B * (co * s + si * k))
      by (rewrite E; ring).
    assert (M : 0.0318 <= co * s + si * k) by nra.
    assert (0.0476 <= 2 * s * B) by nra.
    assert (0.0015 <= 2 * s * B * (co * s + si * k)) by nra.
    lra.
  - assert (0.9526 * B <= B * (co * (1 - 2 * (s * s)) - si * (2 * (s * k)))) by nra. lra.
Qed.

Lemma midnight_apart lat lng t x x' :
  in_years t -> in_years (t + 86400 * 1000000) -> 0.5 <= cos lat ->
  (8 <= x < 16)%Z -> (8 <= x' < 16)%Z ->
  let el := elevation lat lng in
  el t <= el (t + 1000000)%Z ->
  el (t + 86400 * 1000000)%Z <= el (t + 43200 * 1000000)%Z ->
  el (t + 86400 * 1000000)%Z <= el (t + (86400 - 180 * x) * 1000000)%Z ->
  el t < el (t + 43200 * 1000000)%Z /\
  Rabs (el (t + (180 * x') * 1000000)%Z - -4.242) <= Rabs (el t - -4.242).
Proof.
  intros Ht HT Hl Hx Hx' el G1 G2 G3. unfold el in *. clear el.
  assert (Y : forall k, (0 <= k <= 86400)%Z -> in_years (t + k * 1000000)) by (unfold in_years in *; lia).
  destruct (circle lat lng t Ht Hl) as (HB & HS & HSB & E & D).
  set (S := sin lat * sin_decl (julian_century t)) in *. set (B := cos lat * cos_decl (julian_century t)) in *.
  set (th := turn lng t) in *.
  destruct (half_8 x Hx) as (Hs & Hk). destruct (half_8 x' Hx') as (Hs' & Hk').
  assert (D' : forall k, (0 <= k <= 86400)%Z -> Rabs (sin_elevation lat lng (t + k * 1000000)
     - (S - B * cos (th + 2 * PI * (IZR k / 86400)))) <= 0.0135).
  { intros k Hk0. eapply Rle_trans; [apply D; [lia|apply Y, Hk0]|]. destruct Hk0 as [_ Hk0].
    apply IZR_le in Hk0. lra. }
  pose proof (D' 86400%Z ltac:(lia)) as DT. pose proof (D' 43200%Z ltac:(lia)) as DN.
  replace (th + 2 * PI * (86400 / 86400)) with (th + 2 * PI) in DT by lra.
  replace (th + 2 * PI * (43200 / 86400)) with (th + PI) in DN by lra.
  rewrite neg_cos in DN. rewrite (cos_plus th (2 * PI)), cos_2PI, sin_2PI in DT.
  replace (cos th * 1 - sin th * 0) with (cos th) in DT by ring. rewrite <- E in DT.
  assert (DN' : Rabs (sin_elevation lat lng (t + 43200 * 1000000) - (S + B * cos th)) <= 0.0135).
  { eapply Rle_trans; [|exact DN]. right. f_equal. ring. }
  pose proof G2 as L1; apply elevation_order in L1; [|unfold in_years in *; lia|unfold in_years in *; lia].
  apply Rabs_le_inv in DT, DN'.
  assert (Hco : -0.0522 <= cos th) by (clearbody S B; nra).
  assert (Hc0 : sin_elevation lat lng t <= 0.41).
  { rewrite E. pose proof (COS_bound th). clearbody S B. nra. }
  (* the second after *)
  destruct (one_second_later lat lng t Ht ltac:(unfold in_years in *; lia) Hl) as (_ & _ & O2).
  fold th in O2.
  assert (B85 : forall u, -1 <= sin_elevation lat lng u <= 1 -> sin_elevation lat lng u <= 0.9 ->
    arc (sin_elevation lat lng u) <= 85).
  { intros u Hu1 Hu. apply Rnot_lt_le. intro L. pose proof (arc_above_85 _ Hu1 L). lra. }
  assert (Hlow : -0.02 <= sin th).
  { apply Rnot_lt_le. intro L. specialize (O2 ltac:(lra) ltac:(apply B85; [apply sin_elevation_range|lra])). lra. }
  (* the steps before the end *)
  assert (Hhigh : sin th <= 0.111).
  { set (t1 := (t + (86400 - 180 * x) * 1000000)%Z) in *.
    assert (I1 : in_years t1) by (apply Y; lia).
    assert (ET : (t + 86400 * 1000000 = t1 + 180 * x * 1000000)%Z) by (unfold t1; lia).
    destruct (circle lat lng t1 I1 Hl) as (HB1 & HS1 & _ & E1 & D1).
    specialize (D1 (180 * x)%Z ltac:(lia) ltac:(rewrite <- ET; exact HT)). rewrite <- ET in D1.
    replace (2 * PI * (IZR (180 * x) / 86400)) with (2 * half_steps x) in D1
      by (unfold half_steps; rewrite mult_IZR; lra).
    assert (Fine : sin_elevation lat lng (t + 86400 * 1000000) <= sin_elevation lat lng t1 + 0.000011).
    { apply Rnot_lt_le. intro L. rewrite !elevation_value in G3 by (unfold in_years in *; lia).
      pose proof (sin_elevation_range lat lng t1) as R1.
      pose proof (sin_elevation_range lat lng (t + 86400 * 1000000)) as R2.
      pose proof (B85 _ R2 ltac:(lra)) as U.
      destruct (arc_facts _ R1) as (Q1 & _).
      pose proof (arc_spread _ _ 0.000011 R1 R2 ltac:(lra) ltac:(left; exact L)) as V.
      pose proof (apparent_fine (arc (sin_elevation lat lng t1)) (arc (sin_elevation lat lng (t + 86400 * 1000000)))
        (proj1 Q1) ltac:(lra) U ltac:(lra)). lra. }
    assert (Hd : 490 * (IZR (180 * x) / (86400 * 36525)) <= 0.00042).
    { assert (Hx'' : (180 * x <= 2700)%Z) by lia. apply IZR_le in Hx''. lra. }
    apply (midnight_before (sin lat * sin_decl (julian_century t1)) (cos lat * cos_decl (julian_century t1))
             th (turn lng t1) _ _ (half_steps x) HB1 Hs Hk eq_refl eq_refl).
    - rewrite <- E1. apply Rabs_le_inv in D1. lra.
    - destruct (julian_century_value _ Ht) as (J0 & J1). destruct (julian_century_value _ I1) as (J0' & J1').
      destruct BL_eot as [_ L3]. specialize (L3 _ _ J1' J1).
      assert (Es : (t1 / 1000000 = t / 1000000 + (86400 - 180 * x))%Z)
        by (unfold t1; rewrite Z.div_add by lia; reflexivity).
      assert (Ed : Rabs (julian_century t1 - julian_century t) <= 1 / 36525).
      { rewrite J0, J0', Es, plus_IZR, minus_IZR, mult_IZR. destruct Hx as [Hx1 Hx2].
        apply IZR_le in Hx1. apply IZR_lt in Hx2. apply Rabs_le. lra. }
      replace (turn lng t1 + half_steps x - (th - half_steps x + 2 * PI))
        with (eot4 (julian_century t1) - eot4 (julian_century t)).
      + lra.
      + unfold th, turn, half_steps. rewrite Es, plus_IZR, minus_IZR, mult_IZR. lra. }
  (* the steps after *)
  assert (D2 : Rabs (sin_elevation lat lng (t + 180 * x' * 1000000)
     - (S - B * cos (th + 2 * half_steps x'))) <= 0.00042).
  { pose proof (D (180 * x')%Z ltac:(lia) (Y (180 * x')%Z ltac:(lia))) as Q.
    replace (2 * PI * (IZR (180 * x') / 86400)) with (2 * half_steps x') in Q
      by (unfold half_steps; rewrite mult_IZR; lra).
    eapply Rle_trans; [exact Q|]. assert (Hx'' : (180 * x' <= 2700)%Z) by lia. apply IZR_le in Hx''. lra. }
  destruct (midnight_after S B th _ _ (half_steps x') _ _ HB HS Hs' Hk' eq_refl eq_refl E D2
    (conj Hlow Hhigh) Hco) as (Hnear & A1 & A2 & A3).
  split.
  - apply Rnot_le_lt. intro G.
    pose proof G as L3; apply elevation_order in L3; [|unfold in_years in *; lia|unfold in_years in *; lia].
    rewrite E in L3. clearbody S B th. nra.
  - rewrite !elevation_value by (unfold in_years in *; lia).
    pose proof (sin_elevation_range lat lng t) as R1.
    pose proof (sin_elevation_range lat lng (t + 180 * x' * 1000000)) as R2.
    set (c := sin_elevation lat lng t) in *. set (cx := sin_elevation lat lng (t + 180 * x' * 1000000)) in *.
    clearbody c cx. destruct (arc_facts c R1) as (Q1 & _). destruct (arc_facts cx R2) as (Q2 & _).
    pose proof (arc_spread c cx 0.001 R1 R2 ltac:(lra) ltac:(lra)).
    pose proof (arc_spread c 0 0.0979 R1 ltac:(lra) ltac:(lra) ltac:(lra)) as Q3.
    pose proof (arc_spread cx 0 0.0787 R2 ltac:(lra) ltac:(lra) ltac:(lra)) as Q4. rewrite arc_zero in Q3, Q4.
    pose proof (apparent_order (arc c) (arc cx) ltac:(lra) ltac:(lra) ltac:(lra)) as Q5.
    pose proof (refraction_below_break (arc c) ltac:(lra)). pose proof (refraction_below_break (arc cx) ltac:(lra)).
    rewrite (Rabs_left (apparent (arc c) - -4.242)) by (unfold apparent; lra).
    apply Rabs_le. unfold apparent in *. lra.
Qed.

(** ** The two answers *)
Local Open Scope Z_scope.
Ltac Zify.zify_post_hook ::= Z.to_euclidean_division_equations.
Lemma sun_apart lat lng t r s :
  0 <= t -> t + one_day < 47541 * us_per_day -> (0.5 <= cos lat)%R ->
  get_next_sunrise_sunset true (-4.242)%R (elevation lat lng) t 180000000 = Some (r, s) ->
  Z.abs (r - s) <> one_day.
Proof.
  intros Ht HT Hl E Habs.
  destruct (sunrise_sunset_window _ _ _ _ _ _ _ E) as (_ & Hr & Hs).
  assert (I0 : in_years t) by (unfold in_years, one_day, us_per_day in *; lia).
  assert (I1 : in_years (t + 86400 * 1000000)) by (unfold in_years, one_day, us_per_day in *; lia).
  unfold get_next_sunrise_sunset in E. cbn [negb] in E.
  unfold get_next_solar_noon, get_next_solar_midnight in E.
  change hours24 with one_day in E. change hours12 with half_day in E.
  set (el := elevation lat lng) in *.
  destruct (is_solar_afternoon el t) eqn:Ea.
  - destruct (find_solar_elevation el (t + half_day) (t + one_day) Maximum 180000000) as [[n en]|] eqn:En; [|discriminate].
    destruct (find_solar_elevation el t (t + half_day) Minimum 180000000) as [[m em]|] eqn:Em; [|discriminate].
    destruct (find_solar_elevation el m n _ 180000000) as [[r0 e0]|] eqn:Er; [|discriminate].
    destruct (find_solar_elevation el (n - one_day) m _ 180000000) as [[s0 e1]|] eqn:Es; [|discriminate].
    injection E as Er0 Es0.
    destruct (find_chain el (t + half_day) (t + one_day) Maximum 180000000 240 n en
      ltac:(lia) ltac:(lia) ltac:(unfold half_day, one_day; lia) En) as (i & Bi & Ei & _ & U & _ & C).
    destruct (find_chain el t (t + half_day) Minimum 180000000 240 m em
      ltac:(lia) ltac:(lia) ltac:(unfold half_day, one_day; lia) Em) as (i' & Bi' & Ei' & V & _).
    destruct (find_in_window _ _ _ _ _ _ _ Er) as (_ & Wr). destruct (find_in_window _ _ _ _ _ _ _ Es) as (_ & Ws).
    assert (X : s0 = t /\ n = t + one_day).
    { destruct (Z.ltb_spec r0 t); destruct (Z.ltb_spec s0 t); unfold half_day, one_day in *; lia. }
    destruct X as [-> Xn]. assert (Zi : i = 240) by (unfold half_day, one_day in *; lia).
    specialize (U Zi). destruct (C 22 ltac:(lia) Zi) as (x & Hx & _ & Cx).
    cbn [nopp Num_R] in U, Cx. apply nltb_false_R in U, Cx.
    apply nltb_true_R in Ea. unfold second1 in Ea.
    assert (ET : t + one_day = t + 86400 * 1000000) by (unfold one_day; lia).
    assert (EX : t + one_day - 180000000 * x = t + (86400 - 180 * x) * 1000000) by (unfold one_day; lia).
    rewrite EX in Cx. rewrite ET in U, Cx. change half_day with (43200 * 1000000) in U.
    pose proof (fun x' Hx' => noon_apart lat lng t x x' I0 I1 Hl ltac:(lia) Hx' Ea
      ltac:(fold el; lra) ltac:(fold el; lra)) as Q. cbv zeta in Q. fold el in Q.
    assert (Big : 120 <= i').
    { destruct (Z.le_gt_cases 120 i') as [L|L]; [exact L|exfalso].
      specialize (V ltac:(lia) ltac:(change (240 / 2) with 120; exact L)). apply nltb_true_R in V.
      destruct (Q 22 ltac:(lia)) as [Q1 _]. change half_day with (43200 * 1000000) in V. lra. }
    replace (n - one_day) with t in Es by lia.
    destruct (find_chain el t m (Elevation (-4.242)%R) 180000000 i' t e1 ltac:(lia) ltac:(lia) ltac:(lia) Es)
      as (i1 & Bi1 & Ei1 & _ & _ & W & _).
    destruct (W 22 ltac:(lia) ltac:(lia)) as (x' & Hx' & _ & Lx).
    destruct (Q x' ltac:(lia)) as [_ Q2]. apply nltb_true_R in Lx. cbn [nabs nsub Num_R] in Lx.
    replace (t + 180000000 * x') with (t + 180 * x' * 1000000) in Lx by lia. lra.
  - destruct (find_solar_elevation el t (t + half_day) Maximum 180000000) as [[n en]|] eqn:En; [|discriminate].
    destruct (find_solar_elevation el (t + half_day) (t + one_day) Minimum 180000000) as [[m em]|] eqn:Em; [|discriminate].
    destruct (find_solar_elevation el (m - one_day) n _ 180000000) as [[r0 e0]|] eqn:Er; [|discriminate].
    destruct (find_solar_elevation el n m _ 180000000) as [[s0 e1]|] eqn:Es; [|discriminate].
    injection E as Er0 Es0.
    destruct (find_chain el (t + half_day) (t + one_day) Minimum 180000000 240 m em
      ltac:(lia) ltac:(lia) ltac:(unfold half_day, one_day; lia) Em) as (i & Bi & Ei & _ & U & _ & C).
    destruct (find_chain el t (t + half_day) Maximum 180000000 240 n en
      ltac:(lia) ltac:(lia) ltac:(unfold half_day, one_day; lia) En) as (i' & Bi' & Ei' & V & _).
    destruct (find_in_window _ _ _ _ _ _ _ Er) as (_ & Wr). destruct (find_in_window _ _ _ _ _ _ _ Es) as (_ & Ws).
    assert (X : r0 = t /\ m = t + one_day).
    { destruct (Z.ltb_spec r0 t); destruct (Z.ltb_spec s0 t); unfold half_day, one_day in *; lia. }
    destruct X as [-> Xn]. assert (Zi : i = 240) by (unfold half_day, one_day in *; lia).
    specialize (U Zi). destruct (C 8 ltac:(lia) Zi) as (x & Hx & _ & Cx).
    apply nltb_false_R in U, Cx.
    apply nltb_false_R in Ea. unfold second1 in Ea.
    assert (ET : t + one_day = t + 86400 * 1000000) by (unfold one_day; lia).
    assert (EX : t + one_day - 180000000 * x = t + (86400 - 180 * x) * 1000000) by (unfold one_day; lia).
    rewrite EX in Cx. rewrite ET in U, Cx. change half_day with (43200 * 1000000) in U.
    pose proof (fun x' Hx' => midnight_apart lat lng t x x' I0 I1 Hl ltac:(lia) Hx' Ea
      ltac:(fold el; lra) ltac:(fold el; lra)) as Q. cbv zeta in Q. fold el in Q.
    assert (Big : 120 <= i').
    { destruct (Z.le_gt_cases 120 i') as [L|L]; [exact L|exfalso].
      specialize (V ltac:(lia) ltac:(change (240 / 2) with 120; exact L)). apply nltb_true_R in V.
      cbn [nopp Num_R] in V.
      destruct (Q 8 ltac:(lia)) as [Q1 _]. change half_day with (43200 * 1000000) in V. lra. }
    replace (m - one_day) with t in Er by lia.
    destruct (find_chain el t n (Elevation (-4.242)%R) 180000000 i' t e0 ltac:(lia) ltac:(lia) ltac:(lia) Er)
      as (i1 & Bi1 & Ei1 & _ & _ & W & _).
    destruct (W 8 ltac:(lia) ltac:(lia)) as (x' & Hx' & _ & Lx).
    destruct (Q x' ltac:(lia)) as [_ Q2]. apply nltb_true_R in Lx. cbn [nabs nsub Num_R] in Lx.
    replace (t + 180000000 * x') with (t + 180 * x' * 1000000) in Lx by lia. lra.
Qed.
