(** RingAux: polynomial identities for ProofKalman, over any commutative ring *)
From Coq Require Import Ring Ring_theory.
Section Abs.
Variables (T : Type) (z o : T) (add mul sub : T -> T -> T) (opp : T -> T).
Hypothesis th : ring_theory z o add mul sub opp (@eq T).
Add Ring Tr : th.
Local Notation "a + b" := (add a b).
Local Notation "a * b" := (mul a b).
Local Notation "a - b" := (sub a b).
Lemma lagrange u0 u1 u2 d0 d1 d2 :
  (u0 * u0 + u1 * u1 + u2 * u2) * (d0 * d0 + d1 * d1 + d2 * d2) =
  (u0 * d0 + u1 * d1 + u2 * d2) * (u0 * d0 + u1 * d1 + u2 * d2) +
  ((u0 * d1 - u1 * d0) * (u0 * d1 - u1 * d0) + (u0 * d2 - u2 * d0) * (u0 * d2 - u2 * d0) + (u1 * d2 - u2 * d1) * (u1 * d2 - u2 * d1)).
Proof. ring. Qed.
Lemma moved u0 u1 u2 d0 d1 d2 :
  (u0 - d0) * (u0 - d0) + (u1 - d1) * (u1 - d1) + (u2 - d2) * (u2 - d2) =
  (u0 * u0 + u1 * u1 + u2 * u2) - (o + o) * (u0 * d0 + u1 * d1 + u2 * d2) + (d0 * d0 + d1 * d1 + d2 * d2).
Proof. ring. Qed.
(** with r^2 = A, r'^2 = A - 2 U + D *)
Lemma cs_gap A U D : A * (A - (o + o) * U + D) - (A - U) * (A - U) = A * D - U * U.
Proof. ring. Qed.
Lemma sq_gap r r' : r * r + r' * r' - (o + o) * (r * r') = (r - r') * (r - r').
Proof. ring. Qed.
Lemma hi_eq A U D x : D - (x - A + U) * (o + o) = A + (A - (o + o) * U + D) - (o + o) * x.
Proof. ring. Qed.
Lemma lo_eq A U x : x - A + U = x - (A - U).
Proof. ring. Qed.
End Abs.
