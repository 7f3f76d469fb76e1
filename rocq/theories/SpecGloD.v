(** SpecGloD: the ranges of a GLONASS ephemeris. Nothing of the model. *)
From Coq Require Import ZArith QArith Qabs List.
From Verif Require Import SpecB64.
Import ListNotations.
Local Open Scope Q_scope.

(** a GLONASS ephemeris in metres and seconds: finite doubles; the satellite between 25,000 and 26,000 km from the
    geocentre (its orbit is at 25,500 km), moving at most 3.7 km/s along each axis, perturbed by less than 1e-5 m/s^2 *)
Record glonass_broadcast (d : nat -> Q) : Prop := {
  gb_double : forall i, double (d i);
  gb_radius : 25000000 * 25000000 <= d 3%nat * d 3%nat + d 7%nat * d 7%nat + d 11%nat * d 11%nat <= 26000000 * 26000000;
  gb_speed : forall i, In i [4; 8; 12]%nat -> Qabs (d i) <= 3700;
  gb_accel : forall i, In i [5; 9; 13]%nat -> Qabs (d i) <= 1 # 100000 }.
(** its clock: bias (-TauN) and drift (GammaN) *)
Record glonass_clock (d : nat -> Q) : Prop := {
  gc_double : double (d 0%nat) /\ double (d 1%nat);
  gc_bias : Qabs (d 0%nat) <= 1 # 100;
  gc_drift : Qabs (d 1%nat) <= 1 # 100000000 }.
