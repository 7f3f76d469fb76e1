(** SpecB64: the doubles and floats, and what it means to be the one nearest to a number. Nothing of the model. *)
From Coq Require Import ZArith QArith Qabs Qpower.
Local Open Scope Q_scope.

(** IEEE-754 numbers with significands of [p] bits and exponents from [emin], without an upper limit *)
Definition fmt (p emin : Z) (x : Q) : Prop :=
  exists m e : Z, (Z.abs m < 2 ^ p)%Z /\ (emin <= e)%Z /\ x == inject_Z m * 2 ^ e.
Definition double : Q -> Prop := fmt 53 (-1074).
Definition float : Q -> Prop := fmt 24 (-149).

(** to nearest, ties to even: the last bit of the significand is 0 when another one is as near *)
Definition nearest (p emin : Z) (q x : Q) : Prop :=
  fmt p emin x /\
  (forall y, fmt p emin y -> Qabs (x - q) <= Qabs (y - q)) /\
  exists m e : Z, x == inject_Z m * 2 ^ e /\ (emin <= e)%Z /\
    ((2 ^ (p - 1) <= Z.abs m <= 2 ^ p)%Z \/ (e = emin /\ Z.abs m <= 2 ^ p)%Z) /\
    forall y, fmt p emin y -> ~ y == x -> Qabs (y - q) == Qabs (x - q) -> Z.even m = true.
Definition nearest_double : Q -> Q -> Prop := nearest 53 (-1074).
Definition nearest_float : Q -> Q -> Prop := nearest 24 (-149).
