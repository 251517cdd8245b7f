(** What a wind belief with a Gaussian prior should say (C94), independent of the model.
    Errors of the forecast have, a priori, mean zero and at two places the covariance
    12.96 exp(-d), where d is their distance in units of 357 km, 326 Pa and 9.6 h.
    Measurements carry an independent noise of variance 0.05. *)
From Coq Require Import Reals List.
Import ListNotations.
Open Scope R_scope.

(** A place: two coordinates in metres, a pressure in pascals, a time in seconds. *)
Record place := at_place { east : R; north : R; pressure_at : R; seconds_at : R }.

Definition separation (a b : place) : R :=
  sqrt (((east a - east b) / 357000) ^ 2 + ((north a - north b) / 357000) ^ 2 +
        ((pressure_at a - pressure_at b) / 326) ^ 2 + ((seconds_at a - seconds_at b) / (9.6 * 3600)) ^ 2).
Definition covariance (a b : place) : R := 3.6 ^ 2 * exp (- separation a b).

Definition sum_over {A} (l : list A) (f : A -> R) : R := fold_right Rplus 0 (map f l).

(** A linear estimate: measured places with the weight of the value measured there. *)
Definition weighting := list (place * R).

(** The expected squared error of the estimate  sum_i w_i (error_i + noise_i)  of the
    error at [x]. *)
Definition expected_error (x : place) (ws : weighting) : R :=
  covariance x x
  - 2 * sum_over ws (fun p => snd p * covariance (fst p) x)
  + sum_over ws (fun p => sum_over ws (fun q => snd p * snd q * covariance (fst p) (fst q)))
  + 0.05 * sum_over ws (fun p => snd p * snd p).
(** The value of the estimate on given measurements. *)
Definition estimate (ws ys : list R) : R := sum_over (combine ws ys) (fun p => fst p * snd p).
