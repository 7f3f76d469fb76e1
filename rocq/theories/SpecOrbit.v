(** SpecOrbit: orbit and clock formulas of the interface documents (IS-GPS-200, Galileo OS SIS ICD,
    BeiDou ICD, GLONASS ICD app. J), for C46-C51, C57, C68-C70. *)
From Coq Require Import Reals List.
From Verif Require Import ModelSatsys.
Import ListNotations.
Local Open Scope R_scope.

(** Kepler's equation *)
Definition kepler_eq (e M E : R) : Prop := E - e * sin E = M.

(** the fixed-point iteration for it, from [M] *)
Fixpoint kepler_iter (e M : R) (n : nat) : R :=
  match n with O => M | S m => M + e * sin (kepler_iter e M m) end.
(** the n-th change; the start is compared with 0 *)
Definition kepler_gap (e M : R) (n : nat) : R :=
  match n with O => Rabs M | S m => Rabs (kepler_iter e M (S m) - kepler_iter e M m) end.

(** [v] is the true anomaly belonging to the eccentric anomaly [E] *)
Definition true_anomaly (e E v : R) : Prop :=
  cos v = (cos E - e) / (1 - e * cos E) /\ sin v = sqrt (1 - e * e) * sin E / (1 - e * cos E).

(** the broadcast ephemeris, by name *)
Record ephemeris := mkEph {
  sqrtA : R; ecc : R; i0 : R; Omega0 : R; omega : R; M0 : R; Deltan : R; IDOT : R; OMEGADOT : R;
  Cuc : R; Cus : R; Crc : R; Crs : R; Cic : R; Cis : R; toe_sow : R }.
(** IS-GPS-200 table 20-IV with the eccentric anomaly [E] at time [tk] after the ephemeris epoch:
    the position (x, y, z); mu and Omega_e are the constants of the system *)
Definition mean_motion (mu : R) (p : ephemeris) : R := sqrt (mu / (sqrtA p ^ 2) ^ 3) + Deltan p.
Definition icd_position (mu Oe : R) (p : ephemeris) (tk E x y z : R) : Prop :=
  exists v Phi u r i Om,
    true_anomaly (ecc p) E v /\
    Phi = v + omega p /\
    u = Phi + (Cus p * sin (2 * Phi) + Cuc p * cos (2 * Phi)) /\
    r = sqrtA p ^ 2 * (1 - ecc p * cos E) + (Crs p * sin (2 * Phi) + Crc p * cos (2 * Phi)) /\
    i = i0 p + (Cis p * sin (2 * Phi) + Cic p * cos (2 * Phi)) + IDOT p * tk /\
    Om = Omega0 p + (OMEGADOT p - Oe) * tk - Oe * toe_sow p /\
    x = r * cos u * cos Om - r * sin u * cos i * sin Om /\
    y = r * cos u * sin Om + r * sin u * cos i * cos Om /\
    z = r * sin u * sin i.

(** GLONASS ICD, J.2.1: accelerations at position (x, y, z), velocity (vx, vy), with luni-solar
    acceleration (ax, ay, az) *)
Definition icd_accel (GM ae J2 om x y z vx vy ax ay az ddx ddy ddz : R) : Prop :=
  let r := sqrt (x ^ 2 + y ^ 2 + z ^ 2) in
  ddx = - GM / r ^ 3 * x - 3 / 2 * J2 * (GM * ae ^ 2 / r ^ 5) * x * (1 - 5 * z ^ 2 / r ^ 2) + om ^ 2 * x + 2 * om * vy + ax /\
  ddy = - GM / r ^ 3 * y - 3 / 2 * J2 * (GM * ae ^ 2 / r ^ 5) * y * (1 - 5 * z ^ 2 / r ^ 2) + om ^ 2 * y - 2 * om * vx + ay /\
  ddz = - GM / r ^ 3 * z - 3 / 2 * J2 * (GM * ae ^ 2 / r ^ 5) * z * (3 - 5 * z ^ 2 / r ^ 2) + az.


(** ** The ephemeris and the constants, by documented slot (RINEX 3.04 tables A6, A8, A14) *)
Definition eph_of (d : nat -> R) : ephemeris :=
  mkEph (d 10%nat) (d 8%nat) (d 15%nat) (d 13%nat) (d 17%nat) (d 6%nat) (d 5%nat) (d 19%nat) (d 18%nat)
        (d 7%nat) (d 9%nat) (d 16%nat) (d 4%nat) (d 12%nat) (d 14%nat) (d 11%nat).

(** BeiDou ICD, GEO satellites: the position in the frame that does not rotate since the ephemeris
    epoch, turned about x by -5 degrees and about z by the Earth rotation since then *)
Definition bds_geo_position (mu Oe : R) (p : ephemeris) (tk E x y z : R) : Prop :=
  exists v Phi u r i Om X Y Z,
    true_anomaly (ecc p) E v /\
    Phi = v + omega p /\
    u = Phi + (Cus p * sin (2 * Phi) + Cuc p * cos (2 * Phi)) /\
    r = sqrtA p ^ 2 * (1 - ecc p * cos E) + (Crs p * sin (2 * Phi) + Crc p * cos (2 * Phi)) /\
    i = i0 p + (Cis p * sin (2 * Phi) + Cic p * cos (2 * Phi)) + IDOT p * tk /\
    Om = Omega0 p + OMEGADOT p * tk - Oe * toe_sow p /\
    X = r * cos u * cos Om - r * sin u * cos i * sin Om /\
    Y = r * cos u * sin Om + r * sin u * cos i * cos Om /\
    Z = r * sin u * sin i /\
    (let a := - (5 * PI / 180) in let Y' := cos a * Y + sin a * Z in let Z' := - sin a * Y + cos a * Z in
     let w := Oe * tk in
     x = cos w * X + sin w * Y' /\ y = - sin w * X + cos w * Y' /\ z = Z').

(** Euclidean length of a triple *)
Definition norm3 (x y z : R) : R := sqrt (x ^ 2 + y ^ 2 + z ^ 2).

(** Constants: gravitational parameter, Earth rotation rate, relativistic clock factor
    (IS-GPS-200; Galileo OS SIS ICD; BDS-SIS-ICD). Other systems: not used. *)
Definition mu_of (s : satsys) : R :=
  match s with Gps => 3986005 * 10 ^ 8 | _ => 3986004418 * 10 ^ 5 end.
Definition Oe_of (s : satsys) : R :=
  match s with Beidou => 7292115 / 10 ^ 11 | _ => 72921151467 / 10 ^ 15 end.
Definition F_of (s : satsys) : R :=
  match s with
  | Gps => - (4442807633 / 10 ^ 19)
  | Galileo => - (4442807309 / 10 ^ 19)
  | _ => - 2 * sqrt (3986004418 * 10 ^ 5) / 299792458 ^ 2
  end.

(** ** Runge-Kutta, fourth order: one step [h] of y' = F(y) *)
Fixpoint lin (y : list R) (w : R) (k : list R) : list R :=
  match y, k with a :: y', b :: k' => (a + w * b) :: lin y' w k' | _, _ => nil end.
Definition rk4 (F : list R -> list R) (h : R) (y : list R) : list R :=
  let k1 := F y in
  let k2 := F (lin y (h / 2) k1) in
  let k3 := F (lin y (h / 2) k2) in
  let k4 := F (lin y h k3) in
  lin (lin (lin (lin y (h / 6) k1) (h / 3) k2) (h / 3) k3) (h / 6) k4.
Fixpoint rk4_steps (F : list R -> list R) (h : R) (n : nat) (y : list R) : list R :=
  match n with O => y | S m => rk4_steps F h m (rk4 F h y) end.
(** the GLONASS equations of motion for (x, y, z, vx, vy, vz), constants of PZ-90 *)
Definition glo_motion (ax ay az : R) (F : list R -> list R) : Prop :=
  forall x y z vx vy vz, x ^ 2 + y ^ 2 + z ^ 2 <> 0 ->
  exists ddx ddy ddz, F [x; y; z; vx; vy; vz] = [vx; vy; vz; ddx; ddy; ddz] /\
    icd_accel (3986004418 * 10 ^ 5) 6378136 (108262575 / 10 ^ 11) (72921151467 / 10 ^ 15) x y z vx vy ax ay az ddx ddy ddz.
(** [s] is [D] reduced to half a day, up to whole days *)
Definition reduced_day (D s : R) : Prop := Rabs s <= 43200 /\ exists z, D - s = IZR z * 86400.
