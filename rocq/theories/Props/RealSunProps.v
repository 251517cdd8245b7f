(** Property C74: the sunrise/sunset search on the sun of solar.py. *)
From Coq Require Import ZArith Reals Lra Lia Bool.
From Verif Require Import Model.Num Model.Solar Model.SolarSearch Model.Env Spec.SunSpec
  Proofs.NumR Proofs.SolarProofs Proofs.SolarSearchProofs Proofs.RealSun.
Open Scope R_scope.

Lemma supported_latitude lat : Rabs (degrees lat) < 60 -> 0.5 <= cos lat.
Proof.
  intro H. assert (L : Rabs lat <= PI / 3).
  { replace lat with (radians (degrees lat)) by apply radians_degrees.
    unfold radians. pose proof PI_bounds.
    replace (degrees lat * PI / 180) with (degrees lat * (PI / 180)) by lra.
    rewrite Rabs_mult, (Rabs_right (PI / 180)) by lra. nra. }
  replace 0.5 with (1 / 2) by lra. rewrite <- cos_PI3.
  assert (E : cos lat = cos (Rabs lat)).
  { unfold Rabs. destruct (Rcase_abs lat); [now rewrite cos_neg|reflexivity]. }
  rewrite E. pose proof PI_bounds. apply cos_decr_1; try lra; pose proof (Rabs_pos lat); lra.
Qed.

(** Whatever the position at a supported latitude and the time of the years 1970 to
    2099 (in microseconds; 47541 days after 1970 it is 2 March 2100), and whatever
    resolution that divides six hours, the search answers, with a sunrise and a
    sunset of the next 24 hours.  At other latitudes it raises. *)
Theorem C74_search_answers : forall (lat lng : R) (now d : Z),
  (0 <= now)%Z -> (now + 86400000000 < 47541 * 86400000000)%Z ->
  (0 < d)%Z -> (21600000000 mod d = 0)%Z ->
  let search := get_next_sunrise_sunset (Rltb (Rabs (degrees lat)) 60) Solar.MIN_SOLAR_EL_DEG
                  (fun t => fst (fst (solar_calculator lat lng t))) now d in
  (Rabs (degrees lat) < 60 ->
     exists sunrise sunset, search = Some (sunrise, sunset) /\
       (now <= sunrise <= now + 86400000000)%Z /\ (now <= sunset <= now + 86400000000)%Z) /\
  (60 <= Rabs (degrees lat) -> search = None).
Proof.
  intros lat lng now d H0 H1 Hd Hm search. split.
  - intro Hl. unfold search. rewrite (proj2 (Rltb_iff _ _) Hl).
    destruct (real_sunrise_sunset lat lng Solar.MIN_SOLAR_EL_DEG now d (21600000000 / d)) as (r & s & E);
      try assumption.
    + now apply supported_latitude.
    + unfold half_day. pose proof (Z.div_mod 21600000000 d ltac:(lia)). lia.
    + exists r, s. split; [exact E|]. apply sunrise_sunset_window in E. exact (proj2 E).
  - intro Hl. unfold search. destruct (Rltb_spec (Rabs (degrees lat)) 60); [lra|reflexivity].
Qed.
Print Assumptions C74_search_answers.

(** So the number of steps to the sunrise is always defined there. *)
Theorem C74_steps_to_sunrise : forall (lat lng : R) (now d : Z),
  (0 <= now)%Z -> (now + 86400000000 < 47541 * 86400000000)%Z ->
  (0 < d)%Z -> (21600000000 mod d = 0)%Z -> Rabs (degrees lat) < 60 ->
  exists k, calculate_steps_to_sunrise (Rltb (Rabs (degrees lat)) 60) Solar.MIN_SOLAR_EL_DEG
              (fun t => fst (fst (solar_calculator lat lng t))) now d = Some k /\
    (0 <= k <= 86400000000 / d)%Z.
Proof.
  intros lat lng now d H0 H1 Hd Hm Hl.
  destruct (proj1 (C74_search_answers lat lng now d H0 H1 Hd Hm) Hl) as (r & s & E & Wr & _).
  unfold calculate_steps_to_sunrise.
  destruct (nleb _ _).
  { exists 0%Z. split; [reflexivity|]. split; [lia|]. apply Z.div_pos; lia. }
  rewrite E. eexists. split; [reflexivity|].
  assert (Hq : (86400000000 = 86400000000 / d * d)%Z).
  { pose proof (Z.div_mod 21600000000 d ltac:(lia)).
    replace 86400000000%Z with (4 * (21600000000 / d) * d)%Z at 2 by lia.
    rewrite Z.div_mul by lia. lia. }
  set (q := (86400000000 / d)%Z) in *. clearbody q.
  pose proof (Z.div_mod (- (r - now)) d ltac:(lia)) as D.
  pose proof (Z.mod_pos_bound (- (r - now)) d Hd) as B.
  set (x := (- (r - now) / d)%Z) in *. set (y := (- (r - now) mod d)%Z) in *. clearbody x y. nia.
Qed.
Print Assumptions C74_steps_to_sunrise.

(** The search of the balloon and of the features: every three minutes, over the
    equator, at the start of 2011. *)
Example C74_example : exists sunrise sunset,
  get_next_sunrise_sunset true Solar.MIN_SOLAR_EL_DEG
    (fun t => fst (fst (solar_calculator 0 0 t))) (1293840000 * 1000000) SEARCH_TIME_DELTA
  = Some (sunrise, sunset).
Proof.
  destruct (proj1 (C74_search_answers 0 0 (1293840000 * 1000000) SEARCH_TIME_DELTA
    ltac:(lia) ltac:(lia) ltac:(reflexivity) ltac:(reflexivity))) as (r & s & E & _).
  - unfold degrees. rewrite Rabs_right; lra.
  - exists r, s. rewrite <- E. f_equal. symmetry. apply Rltb_iff. unfold degrees. rewrite Rabs_right; lra.
Qed.
