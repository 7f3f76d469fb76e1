(** B64: rounding to IEEE-754 binary64 (double) and binary32 (float), to nearest, ties to even.
    Models no file of /repo; trusted model of the machine's double arithmetic (see DESIGN.md).  SpecB64
    says what it has to be, ProofB64 proves that it is. *)
From Coq Require Import ZArith QArith Qabs Qround Qpower.
Local Open Scope Z_scope.

(** floor of log2 of n/d, n and d positive *)
Definition qlog2 (n d : Z) : Z :=
  let k := Z.log2 n - Z.log2 d in
  if Qle_bool (2 ^ k)%Q (n # Z.to_pos d) then k else k - 1.

(** the exponent of the last bit of a significand of [p] bits, at least [emin] *)
Definition fexp (p emin : Z) (q : Q) : Z := Z.max (qlog2 (Z.abs (Qnum q)) (QDen q) - (p - 1)) emin.

(** nearest integer, ties to even *)
Definition rne (t : Q) : Z :=
  let f := Qfloor t in
  match Qcompare (t - inject_Z f) (1 # 2) with
  | Lt => f
  | Gt => f + 1
  | Eq => if Z.even f then f else f + 1
  end.

(** the rounded value, in lowest terms; the exponent has no upper limit here *)
Definition fround (p emin : Z) (q : Q) : Q :=
  if Qnum q =? 0 then 0%Q
  else let e := fexp p emin q in Qred (inject_Z (rne (q * 2 ^ (- e))%Q) * 2 ^ e).

(** double and float *)
Definition b64 : Q -> Q := fround 53 (-1074).
Definition b32 : Q -> Q := fround 24 (-149).

Global Arguments b64 : simpl never.
Global Arguments b32 : simpl never.
