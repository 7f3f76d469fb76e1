(** ModelKalman: /repo/src/gauss_newton.hpp, class template Kalman for Params = 5 (the only size for
    which its indices 0..4 exist). Simplification: doubles are elements of an arbitrary real closed
    field (no rounding, no NaN); debug output is not modelled. The vectors obs, sv, w have (at
    least) nsats elements, as the code requires. *)
From mathcomp Require Import all_ssreflect all_algebra.
Set Implicit Arguments.
Unset Strict Implicit.
Unset Printing Implicit Defensive.
Import GRing.Theory Num.Theory.
Local Open Scope ring_scope.

Section Kalman.
Variable R : rcfType.

(** gauss_newton.hpp:29-31: the arguments of one call of update: nsats, obs, sv (x, y, z, clock), dt, w *)
Record epoch := Epoch {
  ep_n : nat; ep_obs : 'cV[R]_ep_n; ep_sv : 'M[R]_(ep_n, 4); ep_dt : R; ep_w : option 'cV[R]_ep_n }.

(** members state_, P_ (unspecified before the first update), coef, update_idx
    (gauss_newton.hpp:206-214); H_, F_ and the pointers are set anew by each update *)
Record kalman := Kal { k_state : 'cV[R]_5; k_P : 'M[R]_5; k_coef : R; k_idx : nat }.

(** gauss_newton.hpp:38-66, 136-183: the constant indices of vectors and matrices *)
Definition c5 (k : nat) : 'I_5 := inord k.
Definition c4 (k : nat) : 'I_4 := inord k.

(** gauss_newton.hpp:15-22, the constructor; P_ is left as it is *)
Definition kalman_init (s : 'cV[R]_5) (P : 'M[R]_5) (c : R) : kalman := Kal s P c 0.

(** gauss_newton.hpp:92-104 initialize_F and line 38, F_(3,4) = dt *)
Definition F_mx (dt : R) : 'M[R]_5 :=
  \matrix_(i, j) (if i == j then 1 else if (i == c5 3) && (j == c5 4) then dt else 0).

(** gauss_newton.hpp:111-131 initialize_P *)
Definition P_init : 'M[R]_5 :=
  \matrix_(i, j) (if i == j then (if i == c5 4 then 30%:R else 50%:R * 50%:R) else 0).

(** gauss_newton.hpp:63-66, what is added to P_ *)
Definition dec4 (n : nat) : R := n%:R / (100%:R * 100%:R).
Definition Q_mx : 'M[R]_5 :=
  \matrix_(i, j) (if (i == c5 3) && (j == c5 3) then dec4 114
             else if (i == c5 3) && (j == c5 4) then dec4 19
             else if (i == c5 4) && (j == c5 3) then dec4 19
             else if (i == c5 4) && (j == c5 4) then dec4 39 else 0).

(** sqrt((xs-xr)^2 + ...), gauss_newton.hpp:144-145, 175-176 *)
Definition sqdist n (sv : 'M[R]_(n, 4)) (s : 'cV[R]_5) (i : 'I_n) : R :=
  (sv i (c4 0) - s (c5 0) 0) * (sv i (c4 0) - s (c5 0) 0) +
  (sv i (c4 1) - s (c5 1) 0) * (sv i (c4 1) - s (c5 1) 0) +
  (sv i (c4 2) - s (c5 2) 0) * (sv i (c4 2) - s (c5 2) 0).
Definition range n (sv : 'M[R]_(n, 4)) (s : 'cV[R]_5) (i : 'I_n) : R := Num.sqrt (sqdist sv s i).

(** gauss_newton.hpp:133-149 compute_pseudorange_vector *)
Definition pseudoranges n (sv : 'M[R]_(n, 4)) (s : 'cV[R]_5) : 'cV[R]_n :=
  \col_i (range sv s i + s (c5 3) 0).

(** gauss_newton.hpp:156: 299792458 *)
Definition clight : R := (299%:R * 1000%:R + 792%:R) * 1000%:R + 458%:R.

(** gauss_newton.hpp:151-162 measurement_vector *)
Definition measurements n (obs : 'cV[R]_n) (sv : 'M[R]_(n, 4)) (coef : R) : 'cV[R]_n :=
  \col_i (obs i 0 + sv i (c4 3) * clight * coef).

(** gauss_newton.hpp:166-184 evaluate_jacobian *)
Definition jacobian n (sv : 'M[R]_(n, 4)) (s : 'cV[R]_5) (coef : R) : 'M[R]_(n, 5) :=
  \matrix_(i, j)
    (if j == c5 0 then - coef * (sv i (c4 0) - s (c5 0) 0) / range sv s i
     else if j == c5 1 then - coef * (sv i (c4 1) - s (c5 1) 0) / range sv s i
     else if j == c5 2 then - coef * (sv i (c4 2) - s (c5 2) 0) / range sv s i
     else if j == c5 3 then 1 * coef else 0 * coef).

(** gauss_newton.hpp:69-73 residual covariance *)
Definition weight n (w : option 'cV[R]_n) : 'M[R]_n :=
  match w with
  | Some v => diag_mx (\row_i (100%:R + v i 0))
  | None => 0
  end.
Definition resid_cov n (H : 'M[R]_(n, 5)) (P : 'M[R]_5) (w : option 'cV[R]_n) : 'M[R]_n :=
  H *m P *m H^T + weight w.

(** gauss_newton.hpp:77 filter gain *)
Definition gain n (H : 'M[R]_(n, 5)) (P : 'M[R]_5) (S : 'M[R]_n) : 'M[R]_(5, n) := P *m H^T *m invmx S.

(** predicted state and covariance, gauss_newton.hpp:38-40 and 58-66 *)
Definition pred_state (k : kalman) (e : epoch) : 'cV[R]_5 := F_mx (ep_dt e) *m k_state k.
Definition pred_P (k : kalman) (e : epoch) : 'M[R]_5 :=
  let P := if k_idx k == 0%N then P_init else k_P k in
  F_mx (ep_dt e) *m P *m (F_mx (ep_dt e))^T + Q_mx.

(** gauss_newton.hpp:29-89 update. None: the result is not a number or unspecified: a satellite is at
    the predicted position (division by zero in the Jacobian), or the residual covariance is
    singular (Eigen's inverse() of it is unspecified) *)
Definition update (k : kalman) (e : epoch) : option kalman :=
  let s := pred_state k e in
  let v := measurements (ep_obs e) (ep_sv e) (k_coef k) - pseudoranges (ep_sv e) s in
  let H := jacobian (ep_sv e) s (k_coef k) in
  let P := pred_P k e in
  let S := resid_cov H P (ep_w e) in
  if (S \in unitmx) && [forall i, range (ep_sv e) s i != 0] then
    let W := gain H P S in
    Some (Kal (s + W *m v) (P - W *m S *m W^T) (k_coef k) (k_idx k).+1)
  else None.

(** gauss_newton.hpp:29-89, called any number of times *)
Fixpoint updates (k : kalman) (es : seq epoch) : option kalman :=
  match es with
  | [::] => Some k
  | e :: r => match update k e with Some k' => updates k' r | None => None end
  end.

End Kalman.
