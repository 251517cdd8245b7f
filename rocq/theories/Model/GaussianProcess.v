(** The regressor of env/wind_gp.py (paths relative to
    /repo/balloon_learning_environment/): scikit-learn's GaussianProcessRegressor with
    the kernel, the noise and the absent optimizer that WindGP gives it, over the reals.
    Library behaviour throughout: kernels.Matern with nu = 0.5, ConstantKernel product,
    GaussianProcessRegressor.fit (Cholesky factor of the kernel matrix plus alpha on the
    diagonal, then two triangular solves) and predict with return_std.
    Vectors are kept with their last entry first, so that the rows of the factor come
    out in the order in which the factorisation uses them.
    Simplified: no rounding; the negative variances that sklearn clips to zero with a
    warning are clipped here, too. *)
From Coq Require Import ZArith Reals List Bool.
From Verif Require Import Model.Num Model.WindGP.
Import ListNotations.
Open Scope R_scope.

(** _DISTANCE_SCALING: wind_gp.py:33. *)
Definition DISTANCE_SCALING : R := 357000.
(** _PRESSURE_SCALING: wind_gp.py:34. *)
Definition PRESSURE_SCALING : R := 326.
(** _TIME_SCALING: wind_gp.py:35. *)
Definition TIME_SCALING : R := 34560.
(** _SIGMA_NOISE_SQUARED: wind_gp.py:38, the alpha of the regressor (77). *)
Definition SIGMA_NOISE_SQUARED : R := 0.05.

(** The row divided by length_scale: wind_gp.py:70-71, and in Matern.__call__. *)
Definition scaled (l : loc) : list R :=
  [lx l / DISTANCE_SCALING; ly l / DISTANCE_SCALING; lp l / PRESSURE_SCALING; lt l / TIME_SCALING].

(** cdist(X, Y, metric='euclidean') for two rows, in Matern.__call__ (wind_gp.py:72-73). *)
Definition euclidean (a b : list R) : R :=
  sqrt (fold_right Rplus 0 (map (fun p => (fst p - snd p) * (fst p - snd p)) (combine a b))).

(** self.kernel: wind_gp.py:72-73; Matern with nu = 0.5 is exp(-distance). *)
Definition kernel (a b : loc) : R := SIGMA_EXP_SQUARED * exp (- euclidean (scaled a) (scaled b)).

(** np.dot of two vectors (used by fit and predict: wind_gp.py:186, 190). *)
Fixpoint dot (a b : list R) : R :=
  match a, b with
  | p :: a', q :: b' => p * q + dot a' b'
  | _, _ => 0
  end.

(** A row of the factor: the entries before the diagonal, and the diagonal one. *)
Definition row : Type := list R * R.

(** solve_triangular(L, b, lower=True), as in cho_solve and predict (wind_gp.py:186, 190). *)
Fixpoint solve_lower (L : list row) (b : list R) : list R :=
  match L, b with
  | (l, d) :: L', b0 :: b' => let z := solve_lower L' b' in ((b0 - dot l z) / d) :: z
  | _, _ => []
  end.

(** b - c * l, the elimination step of the solve with the transposed factor (cho_solve:
    wind_gp.py:186). *)
Fixpoint subtract (b : list R) (c : R) (l : list R) : list R :=
  match b, l with
  | p :: b', q :: l' => (p - c * q) :: subtract b' c l'
  | _, _ => b
  end.
(** solve_triangular(L.T, b), the second half of cho_solve (wind_gp.py:186). *)
Fixpoint solve_upper (L : list row) (b : list R) : list R :=
  match L, b with
  | (l, d) :: L', b0 :: b' => let a := b0 / d in a :: solve_upper L' (subtract b' a l)
  | _, _ => []
  end.

(** cholesky(K, lower=True) of K = kernel(X) with alpha added to the diagonal, in fit
    (wind_gp.py:186); a pivot that is not positive raises LinAlgError. *)
Fixpoint cholesky (xs : list loc) : option (list row) :=
  match xs with
  | [] => Some []
  | x :: xs' =>
      match cholesky xs' with
      | None => None
      | Some L =>
          let l := solve_lower L (map (kernel x) xs') in
          let pivot := kernel x x + SIGMA_NOISE_SQUARED - dot l l in
          if Rleb pivot 0 then None else Some ((l, sqrt pivot) :: L)
      end
  end.

(** X_train_, L_ and the two columns of alpha_ after fit (wind_gp.py:186). *)
Record fitted := mkFitted {
  X_train : list loc;
  L_ : list row;
  alpha_u : list R;
  alpha_v : list R
}.

(** fit: wind_gp.py:186; an empty array is refused by the input check (ValueError). *)
Definition gp_fit (data : list (loc * (R * R))) : option fitted :=
  match data with
  | [] => None
  | _ =>
      let stored := rev data in
      let xs := map fst stored in
      match cholesky xs with
      | None => None
      | Some L =>
          let solve ys := solve_upper L (solve_lower L ys) in
          Some (mkFitted xs L (solve (map (fun m => fst (snd m)) stored))
                              (solve (map (fun m => snd (snd m)) stored)))
      end
  end.

(** predict(X, return_std=True) for one row: wind_gp.py:190.  The kernel's diag is the
    constant; both targets get the same deviation. *)
Definition gp_predict (m : fitted) (r : loc) : (R * R) * (R * R) :=
  let k := map (kernel r) (X_train m) in
  let V := solve_lower (L_ m) k in
  let var := SIGMA_EXP_SQUARED - dot V V in
  let std := sqrt (if Rltb var 0 then 0 else var) in
  ((dot k (alpha_u m), dot k (alpha_v m)), (std, std)).

(** self.model: wind_gp.py:75-79. *)
Definition matern_regressor : regressor := mkGp fitted gp_fit gp_predict.
