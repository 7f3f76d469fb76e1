(** SpecFloat: what is assumed of <cmath>, and the ranges of broadcast ephemerides, for C106-C108. Nothing of the model's computations. *)
From Coq Require Import ZArith QArith Qabs Reals Qreals List.
Import ListNotations.
From Verif Require Import SpecB64 ModelFloat ModelOrbit.
Local Open Scope R_scope.

(** <cmath> gives doubles; sine and cosine are off by at most 2^-53 (one unit in the last place of a number in
    [1/2, 1)), atan2 by at most 2^-51 (one unit in the last place of a number in [2, 4)), square roots by a relative
    2^-52 (twice what IEEE 754 allows) *)
Record accurate (m : libm) : Prop := {
  sin_double : forall x, double (m_sin m x);
  cos_double : forall x, double (m_cos m x);
  sqrt_double : forall x, double (m_sqrt m x);
  atan2_double : forall y x, double (m_atan2 m y x);
  sin_accurate : forall x, double x -> Rabs (Q2R (m_sin m x) - sin (Q2R x)) <= / 2 ^ 53;
  cos_accurate : forall x, double x -> Rabs (Q2R (m_cos m x) - cos (Q2R x)) <= / 2 ^ 53;
  sqrt_accurate : forall x, double x -> (2 ^ (-1022) <= x)%Q -> Rabs (Q2R (m_sqrt m x) - sqrt (Q2R x)) <= / 2 ^ 52 * sqrt (Q2R x);
  atan2_accurate : forall y x, double y -> double x -> ~ (y == 0 /\ x == 0)%Q ->
    Rabs (Q2R (m_atan2 m y x) - atan2 (Q2R y) (Q2R x)) <= / 2 ^ 51 }.

(** the fields of a broadcast ephemeris: finite doubles within the ranges of the interface documents (angles in
    radians, at most 3.2; sqrt(A) of medium and geosynchronous orbits; eccentricities up to 0.2) *)
Record broadcast (d : nat -> Q) : Prop := {
  b_double : forall i, double (d i);
  b_sqrtA : (5000 <= d 10%nat <= 6600)%Q;
  b_ecc : (0 <= d 8%nat <= 1 # 5)%Q;
  b_angles : forall i, In i [6; 13; 15; 17]%nat -> (Qabs (d i) <= 32 # 10)%Q;
  b_deltan : (Qabs (d 5%nat) <= 2 # 100000000)%Q;
  b_idot : (Qabs (d 19%nat) <= 1 # 100000000)%Q;
  b_omegadot : (Qabs (d 18%nat) <= 4 # 1000000)%Q;
  b_small : forall i, In i [7; 9; 12; 14]%nat -> (Qabs (d i) <= 1 # 10000)%Q;
  b_radius : forall i, In i [4; 16]%nat -> (Qabs (d i) <= 2048)%Q;
  b_toe : (0 <= d 11%nat <= 604800)%Q }.
(** the clock: bias, drift, drift rate *)
Record broadcast_clock (d : nat -> Q) : Prop := {
  c_bias : (Qabs (d 0%nat) <= 1 # 100)%Q;
  c_drift : (Qabs (d 1%nat) <= 1 # 100000000)%Q;
  c_rate : (Qabs (d 2%nat) <= 1 # 100000000000000)%Q }.
(** a time difference of at most half a week, in seconds *)
Definition half_week (t t0 : Q) : Prop := (Qabs (t - t0) <= 302400)%Q.
(** std::pow of powers of two: doubles, off by a relative 2^-50 (8 units in the last place) between 2^-1 and 2^16 *)
Definition pow_accurate (pw : Q -> Q -> Q) : Prop :=
  forall y, double y -> (-1 <= y <= 16)%Q -> Rabs (Q2R (pw 2%Q y) - Rpower 2 (Q2R y)) <= / 2 ^ 50 * Rpower 2 (Q2R y).
(** and never smaller for a larger exponent *)
Definition pow_monotone (pw : Q -> Q -> Q) : Prop :=
  forall y y', double y -> double y' -> (y <= y')%Q -> (pw 2 y <= pw 2 y')%Q.
(** the accuracies of the indices 0 to 14 (IS-GPS-200), metres *)
Definition ura_metres : list Q := [2; 28 # 10; 4; 57 # 10; 8; 113 # 10; 16; 32; 64; 128; 256; 512; 1024; 2048; 4096]%Q.
