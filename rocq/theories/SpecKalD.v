(** SpecKalD: a receiver on or near the Earth and the satellites it tracks, for C110. Nothing of the model. *)
From Coq Require Import ZArith QArith Qabs Reals Qreals.
From Verif Require Import SpecB64.
Local Open Scope R_scope.

(** the geometric distance, over the reals *)
Definition distance (p s : nat -> Q) : R :=
  sqrt ((Q2R (s 0%nat) - Q2R (p 0%nat)) ^ 2 + (Q2R (s 1%nat) - Q2R (p 1%nat)) ^ 2 + (Q2R (s 2%nat) - Q2R (p 2%nat)) ^ 2).

(** finite doubles: receiver coordinates up to 7000 km, satellite coordinates up to 43,000 km, at least 15,000 km
    apart; the receiver clock offset (in metres) at most a second of light, the satellite's clock at most 10 ms *)
Record tracking (st sv : nat -> Q) : Prop := {
  tr_state : forall i, double (st i);
  tr_sat : forall i, double (sv i);
  tr_receiver : forall i, (i < 3)%nat -> (Qabs (st i) <= 7000000)%Q;
  tr_satellite : forall i, (i < 3)%nat -> (Qabs (sv i) <= 43000000)%Q;
  tr_apart : 15000000 <= distance st sv;
  tr_clock : (Qabs (st 3%nat) <= 300000000)%Q;
  tr_satclock : (Qabs (sv 3%nat) <= 1 # 100)%Q }.
(** an observed pseudorange in metres *)
Definition observed (o : Q) : Prop := double o /\ (Qabs o <= 500000000)%Q.
(** the scale given to the constructor: a double, at most 1 (its default) *)
Definition scale (c : Q) : Prop := double c /\ (Qabs c <= 1)%Q.
