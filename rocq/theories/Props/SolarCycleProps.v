(** Property C68, continued: the normalised solar time exists at every supported
    latitude, and nowhere else. *)
From Coq Require Import ZArith Reals Lra Lia.
From Verif Require Import Model.Num Model.Geometry Model.Solar Model.SolarSearch Model.Balloon Model.Env Model.Features
  Proofs.NumR Proofs.SolarProofs Proofs.RealSun Proofs.SunApart Props.RealSunProps Props.FeatureProps.
Open Scope R_scope.

(** Times are microseconds since 1970; day 47541 is in the year 2100. *)
Theorem C68_always_answers : forall (lat lng : R) (now : Z),
  (0 <= now)%Z -> (now + 86400000000 < 47541 * 86400000000)%Z ->
  (Rabs (degrees lat) < 60 -> exists t, compute_sunrise_time lat lng now = Some t /\ 0 <= t <= 2 * PI) /\
  (60 <= Rabs (degrees lat) -> compute_sunrise_time lat lng now = None).
Proof.
  intros lat lng now H0 H1.
  pose proof (C74_search_answers lat lng now SEARCH_TIME_DELTA H0 H1 ltac:(reflexivity) ltac:(reflexivity)) as [A B].
  split; intro Hl.
  - destruct (A Hl) as (r & s & E & _ & _).
    assert (E' := E). replace Solar.MIN_SOLAR_EL_DEG with (-4.242) in E' by (unfold Solar.MIN_SOLAR_EL_DEG; lra).
    assert (D : Z.abs (r - s) <> (24 * 3600 * 1000000)%Z).
    { assert (E2 := E'). rewrite (proj2 (Rltb_iff _ _) Hl) in E2.
      exact (sun_apart lat lng now r s H0 H1 (supported_latitude lat Hl) E2). }
    pose proof (C68_fails_only lat lng now r s E' D) as N.
    destruct (compute_sunrise_time lat lng now) as [t|] eqn:Et; [|congruence].
    exists t. split; [reflexivity|].
    destruct (C68_solar_cycle lat lng now t Et) as (? & ? & _ & _ & _ & T & _). exact T.
  - unfold compute_sunrise_time.
    change (compute_solar_angle lat lng) with (fun t => fst (fst (solar_calculator lat lng t))).
    rewrite (B Hl). reflexivity.
Qed.
Print Assumptions C68_always_answers.

(** On the equator at the start of 2011. *)
Example C68_equator_answers :
  exists t, compute_sunrise_time 0 0 (1293840000 * 1000000) = Some t /\ 0 <= t <= 2 * PI.
Proof.
  apply (C68_always_answers 0 0 (1293840000 * 1000000)); try lia.
  unfold degrees. rewrite Rabs_right; lra.
Qed.
