(** SpecKalman: notions of linear algebra for C52 and C72-C77 *)
From mathcomp Require Import all_ssreflect all_algebra.
Set Implicit Arguments.
Unset Strict Implicit.
Unset Printing Implicit Defensive.
Local Open Scope ring_scope.
Section Spec.
Variable R : rcfType.
(** x M x^T for a row vector *)
Definition quad n (M : 'M[R]_n) (x : 'rV[R]_n) : R := (x *m M *m x^T) 0 0.
Definition sym_mx n (M : 'M[R]_n) : Prop := M^T = M.
Definition psd n (M : 'M[R]_n) : Prop := forall x, 0 <= quad M x.
Definition posdef n (M : 'M[R]_n) : Prop := forall x, x != 0 -> 0 < quad M x.
(** [A] is at most [B] (variance of every linear combination) *)
Definition below n (A B : 'M[R]_n) : Prop := forall x, quad A x <= quad B x.
(** covariance of the estimate with any gain K, measurement noise V *)
Definition with_gain n (P : 'M[R]_5) (H : 'M[R]_(n, 5)) (V : 'M[R]_n) (K : 'M[R]_(5, n)) : 'M[R]_5 :=
  (1%:M - K *m H) *m P *m (1%:M - K *m H)^T + K *m V *m K^T.
End Spec.
