(** ModelFloat3: what Kalman<5>::update computes per satellite, /repo/src/gauss_newton.hpp:133-184, in machine doubles,
    like ModelFloat (same simplifications: finite numbers, each operation rounded on its own, no -0). The linear algebra of
    Eigen is not modelled in doubles (its order of operations is not in /repo). *)
From Coq Require Import ZArith QArith List.
From Verif Require Import B64 ModelFloat.
Local Open Scope Q_scope.

(** the satellite of index i and the state: their doubles by index (gauss_newton.hpp:30-31, 206, 212) *)
Definition sats := nat -> nat -> Q.

(** sqrt((xs-xr)^2 + ...), gauss_newton.hpp:144-145, 175-176 *)
Definition range_d (m : libm) (st sv : nat -> Q) : Q :=
  let dx := fsub (sv 0%nat) (st 0%nat) in let dy := fsub (sv 1%nat) (st 1%nat) in let dz := fsub (sv 2%nat) (st 2%nat) in
  m_sqrt m (fadd (fadd (fmul dx dx) (fmul dy dy)) (fmul dz dz)).

(** gauss_newton.hpp:133-149 compute_pseudorange_vector *)
Definition pseudoranges_d (m : libm) (n : nat) (st : nat -> Q) (sv : sats) : list Q :=
  map (fun i => fadd (range_d m st (sv i)) (st 3%nat)) (seq 0 n).

(** gauss_newton.hpp:151-162 measurement_vector; [apply_sat_clock] *)
Definition measurements_d (apply_sat_clock : bool) (n : nat) (obs : nat -> Q) (sv : sats) (coef : Q) : list Q :=
  if apply_sat_clock then map (fun i => fadd (obs i) (fmul (fmul (sv i 3%nat) 299792458) coef)) (seq 0 n)
  else map (fun i => obs i) (seq 0 n).

(** gauss_newton.hpp:46-51 v = measurement_vector(); v -= p *)
Definition residuals_d (m : libm) (n : nat) (obs : nat -> Q) (st : nat -> Q) (sv : sats) (coef : Q) : list Q :=
  map (fun p => fsub (fst p) (snd p)) (combine (measurements_d true n obs sv coef) (pseudoranges_d m n st sv)).

(** gauss_newton.hpp:166-184 evaluate_jacobian: the rows of H_ *)
Definition jacobian_d (m : libm) (n : nat) (st : nat -> Q) (sv : sats) (coef : Q) : list (list Q) :=
  map (fun i =>
    let r := range_d m st (sv i) in
    (fdiv (fmul (- coef) (fsub (sv i 0%nat) (st 0%nat))) r ::
     fdiv (fmul (- coef) (fsub (sv i 1%nat) (st 1%nat))) r ::
     fdiv (fmul (- coef) (fsub (sv i 2%nat) (st 2%nat))) r ::
     fmul 1 coef :: fmul 0 coef :: nil)) (seq 0 n).
