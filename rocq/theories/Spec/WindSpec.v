(** What a wind query means, independently of how it is computed. *)
From Coq Require Import ZArith Reals List.
Import ListNotations.
Open Scope R_scope.

(** [c] is the point of [lo, hi] nearest to [x]. *)
Definition nearest (lo hi x c : R) : Prop :=
  lo <= c <= hi /\ forall d, lo <= d <= hi -> Rabs (x - c) <= Rabs (x - d).

(** [r] is the time [t] reflected into [0, H]: forwards, then backwards, then
    forwards again, ... *)
Definition reflected (H t r : R) : Prop :=
  0 <= r <= H /\ exists k : Z, r = t - 2 * IZR k * H \/ r = 2 * IZR k * H - t.

(** Linear interpolation of [f] on the [n] grid points [g]. *)
Definition is_lerp (g : nat -> R) (n : nat) (f : nat -> R) (x v : R) : Prop :=
  exists i, (S i < n)%nat /\ g i <= x <= g (S i) /\
    v = f i + (f (S i) - f i) * ((x - g i) / (g (S i) - g i)).

(** Interpolation along four axes, one after the other. *)
Definition is_lerp4 (g1 g2 g3 g4 : nat -> R) (n1 n2 n3 n4 : nat)
    (f : nat -> nat -> nat -> nat -> R) (x y p t v : R) : Prop :=
  exists (at_t : nat -> nat -> nat -> R) (at_pt : nat -> nat -> R) (at_ypt : nat -> R),
    (forall i j k, is_lerp g4 n4 (f i j k) t (at_t i j k)) /\
    (forall i j, is_lerp g3 n3 (at_t i j) p (at_pt i j)) /\
    (forall i, is_lerp g2 n2 (at_pt i) y (at_ypt i)) /\
    is_lerp g1 n1 at_ypt x v.

Definition increasing (g : nat -> R) (n : nat) : Prop :=
  forall i, (S i < n)%nat -> g i < g (S i).

(** Weighted mixture of values, scaled so that the squares of the effective
    coefficients add up to 1 / (sum of the weights). *)
Definition sum (l : list R) : R := fold_right Rplus 0 l.
Definition weighted (ws ns : list R) : R := sum (map (fun wn => fst wn * snd wn) (combine ws ns)).
Definition mixture (ws ns : list R) : R :=
  weighted ws ns / sum ws * sqrt (sum ws / sum (map (fun w => w * w) ws)).

(** The documented spectrum of the wind noise: for each mode its share, and its
    length scales in x and y (km), pressure (Pa) and time (h). *)
Record mode := mkMode { share : R; scale_x : R; scale_y : R; scale_p : R; scale_t : R }.
Definition u_modes : list mode :=
  [ mkMode 0.1445 702.269 2116.987 2587.802 245;
    mkMode 0.2766 1483.570 752.124 646.208 16.39;
    mkMode 0.2627 276.810 147.040 587.702 3.836;
    mkMode 0.2137 10214.525 1512.216 965.629 41.780;
    mkMode 0.1025 181.286 420.942 8500 245 ].
Definition v_modes : list mode :=
  [ mkMode 0.2716 1974.228 2028.814 713.697 26.435;
    mkMode 0.2684 699.738 541.845 632.116 9.530;
    mkMode 0.2348 217.750 196.522 686.825 3.546;
    mkMode 0.1186 47.500 43.048 66.553 8.424;
    mkMode 0.1066 3663.291 232.023 7499.741 225 ].

(** A mode's noise: one simplex-noise function (chosen by [seed]) shifted by four
    offsets, at a place in metres, pascals and hours; its standard deviation is
    sqrt 1.02 when that of simplex noise is sqrt 0.0569. *)
Definition mode_noise (simplex : Z -> R -> R -> R -> R -> R) (m : mode) (seed : Z)
    (shift : nat -> R) (x y p h : R) : R :=
  sqrt (1.02 / 0.0569) *
  simplex seed (x / (1000 * scale_x m) + shift 0%nat) (y / (1000 * scale_y m) + shift 1%nat)
               (p / scale_p m + shift 2%nat) (h / scale_t m + shift 3%nat).
(** The noise of a component whose mode number i has seed and shifts [gen i]. *)
Definition modes_noise simplex (ms : list mode) (gen : nat -> Z * (nat -> R)) (x y p h : R) : R :=
  mixture (map share ms)
    (map (fun i => mode_noise simplex (nth i ms (mkMode 0 1 1 1 1)) (fst (gen i)) (snd (gen i)) x y p h)
       (seq 0 (length ms))).
