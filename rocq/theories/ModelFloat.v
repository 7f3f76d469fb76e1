(** ModelFloat: the Keplerian orbit and clock of /repo/src/navrnx.hpp:267-439 in machine doubles: every operation
    is rounded to the nearest double ([b64], B64.v), the functions of <cmath> are a parameter.
    Simplifications: numbers are finite (no NaN, no infinities, no -0; no overflow to infinity); each operation is
    rounded on its own (no contraction to fused multiply-add: the library is built for the baseline instruction
    set); the blocks under #ifdef DEBUG are not modelled. *)
From Coq Require Import ZArith QArith Qabs Qround List.
From Verif Require Import B64 ModelOrbit.
From Verif Require Base.
Import ListNotations.
Local Open Scope Q_scope.

(** the operators on double *)
Definition fadd (x y : Q) : Q := b64 (x + y).
Definition fsub (x y : Q) : Q := b64 (x - y).
Definition fmul (x y : Q) : Q := b64 (x * y).
Definition fdiv (x y : Q) : Q := b64 (x / y).
(** a decimal literal *)
Definition flit (q : Q) : Q := b64 q.

(** <cmath>: std::sqrt, std::sin, std::cos, std::atan2 *)
Record libm := mkLibm { m_sqrt : Q -> Q; m_sin : Q -> Q; m_cos : Q -> Q; m_atan2 : Q -> Q -> Q }.

(** satsys.hpp:93-100, 132-139, 188-205 satellite_system_traits: mi, omegae_dot, f_clock *)
Definition mi_d (s : kepsys) : Q := match s with KGps => flit 398600500000000 | _ => flit 398600441800000 end.
Definition omegae_d (s : kepsys) : Q :=
  match s with KBds => flit (72921150 # 1000000000000) | _ => flit (72921151467 # 1000000000000000) end.
Definition f_clock_d (m : libm) (s : kepsys) : Q :=
  match s with
  | KGps => - flit (4442807633 # 10000000000000000000)
  | KGal => - flit (4442807309 # 10000000000000000000)
  | KBds => fdiv (fmul (- (2)) (m_sqrt m (flit 398600441800000))) (fmul (flit 299792458) (flit 299792458))
  end.

(** navrnx.hpp:275 and 392 *)
Definition limit_d : Q := flit (1 # 100000000000000).
(** navrnx.hpp:298-301 and 419-422 the loop; [left] is 1001 - i *)
Fixpoint kepler_loop_d (m : libm) (left i : nat) (E Ek e Mk : Q) : nat * Q :=
  match left with
  | O => (i, E)
  | S l =>
      if Qle_bool (Qabs (fsub E Ek)) limit_d then (i, E)
      else kepler_loop_d m l (S i) (fadd (fmul (m_sin m E) e) Mk) E e Mk
  end.
(** navrnx.hpp:293-304 and 416-425; None is return 1 *)
Definition kepler_solve_d (m : libm) (e Mk : Q) : option Q :=
  let '(i, E) := kepler_loop_d m 1001 0 Mk 0 e Mk in
  if (1000 <=? i)%nat then None else Some E.

(** navrnx.hpp:278-292 and 411-415 *)
Definition mean_anomaly_d (m : libm) (s : kepsys) (d : nat -> Q) (dt : Q) : Q :=
  let A := fmul (d 10%nat) (d 10%nat) in
  let n0 := m_sqrt m (fdiv (mi_d s) (fmul (fmul A A) A)) in
  let n := fadd n0 (d 5%nat) in
  fadd (d 6%nat) (fmul n dt).

(** navrnx.hpp:267-351 kepler2state, [d] is data__, [toe] the seconds of toe__; Some (E, x, y, z); None: return 1 *)
Definition kepler2state_d (m : libm) (s : kepsys) (d : nat -> Q) (toe t_sec : Q) : option (Q * Q * Q * Q) :=
  let A := fmul (d 10%nat) (d 10%nat) in
  let tk := fsub t_sec toe in
  let Mk := mean_anomaly_d m s d tk in
  let e := d 8%nat in
  match kepler_solve_d m e Mk with
  | None => None
  | Some E =>
      let sinE := m_sin m E in
      let cosE := m_cos m E in
      let ecosEm1 := fsub 1 (fmul e cosE) in
      let vk_ar := fdiv (fmul (m_sqrt m (fsub 1 (fmul e e))) sinE) ecosEm1 in
      let vk_pr := fdiv (fsub cosE e) ecosEm1 in
      let vk := m_atan2 m vk_ar vk_pr in
      let Fk := fadd vk (d 17%nat) in
      let sin2F := m_sin m (fmul 2 Fk) in
      let cos2F := m_cos m (fmul 2 Fk) in
      let duk := fadd (fmul (d 9%nat) sin2F) (fmul (d 7%nat) cos2F) in
      let drk := fadd (fmul (d 4%nat) sin2F) (fmul (d 16%nat) cos2F) in
      let dik := fadd (fmul (d 14%nat) sin2F) (fmul (d 12%nat) cos2F) in
      let uk := fadd Fk duk in
      let rk := fadd (fmul A (fsub 1 (fmul e cosE))) drk in
      let ik := fadd (fadd (d 15%nat) dik) (fmul (d 19%nat) tk) in
      let xk_dot := fmul rk (m_cos m uk) in
      let yk_dot := fmul rk (m_sin m uk) in
      let omega_k := fsub (fadd (d 13%nat) (fmul (fsub (d 18%nat) (omegae_d s)) tk)) (fmul (omegae_d s) (d 11%nat)) in
      let sinOk := m_sin m omega_k in
      let cosOk := m_cos m omega_k in
      let cosik := m_cos m ik in
      Some (E, fsub (fmul xk_dot cosOk) (fmul (fmul yk_dot sinOk) cosik),
               fadd (fmul xk_dot sinOk) (fmul (fmul yk_dot cosOk) cosik),
               fmul yk_dot (m_sin m ik))
  end.

(** navrnx.hpp:387-439 sv_clock without the optional anomaly (the only call, navrnx.hpp:144-184), [toc] the seconds of
    toc__; None: return 1 *)
Definition sv_clock_d (m : libm) (s : kepsys) (d : nat -> Q) (toc t_sec : Q) : option Q :=
  let dt := fsub t_sec toc in
  match kepler_solve_d m (d 8%nat) (mean_anomaly_d m s d dt) with
  | None => None
  | Some Ek =>
      let Dtr := fmul (f_clock_d m s) (fmul (fmul (d 8%nat) (d 10%nat)) (m_sin m Ek)) in
      let Dtsv := fadd (fadd (d 0%nat) (fmul (d 1%nat) dt)) (fmul (fmul (d 2%nat) dt) dt) in
      Some (fadd Dtsv Dtr)
  end.

(** navrnx.hpp:122-142 ref2toe / ref2toc: [ref] is toe__ or toc__ in seconds since MJD 0, [mjd] and [tk] the day and the
    ticks of the day of t, [fac] ticks per second (ggdatetime's to_fractional_seconds is the count as a double,
    divided); the difference of days is an int *)
Definition ref2_d (ref : Z) (mjd tk : Z) (fac : positive) : Q :=
  let tsec := fdiv (b64 (inject_Z tk)) (b64 (inject_Z (Zpos fac))) in
  let mjd_diff := Base.to_i32 (mjd - ref / 86400) in
  if (mjd_diff =? 0)%Z then tsec else fadd tsec (fmul 86400 (b64 (inject_Z mjd_diff))).
(** the time of day of toe__ or toc__, whole seconds *)
Definition sec_d (ref : Z) : Q := b64 (inject_Z (ref mod 86400)).
(** navrnx.hpp:144-184 gps_, gal_, bds_stateNclock: (status, state if written, clock if written) *)
Definition kep_stateNclock_d (m : libm) (s : kepsys) (d : nat -> Q) (toe toc mjd tk : Z) (fac : positive) : Z * option (Q * Q * Q) * option Q :=
  match kepler2state_d m s d (sec_d toe) (ref2_d toe mjd tk fac) with
  | None => (1%Z, None, None)
  | Some (_, x, y, z) =>
      match sv_clock_d m s d (sec_d toc) (ref2_d toc mjd tk fac) with
      | None => (1%Z, Some (x, y, z), None)
      | Some c => (0%Z, Some (x, y, z), Some c)
      end
  end.

(** <cmath>: std::round to a whole number, halves away from zero *)
Definition round_away (q : Q) : Z := if Qle_bool 0 q then Qfloor (q + (1 # 2)) else (- Qfloor (- q + (1 # 2)))%Z.
(** gpsnav.cpp:237-238, 241-242: the power kept in a float, rounded to a tenth (long to float, divided as doubles, kept in
    a float) *)
Definition ura_tenth (power : Q) : Q :=
  let ura_meters := b32 power in
  b32 (fdiv (b32 (inject_Z (round_away (fmul ura_meters 10)))) 10).
(** gpsnav.cpp:232-249 gps_ura of a frame whose data__[23] is [d23]; [pw] is std::pow on doubles. The index and the
    result are floats. Simplification: the power is finite and its tenfold fits a long, which holds for indices of at least -1000 *)
Definition gps_ura_d (pw : Q -> Q -> Q) (d23 : Q) : Q :=
  let ura_index := b32 d23 in
  if Qle_bool ura_index 6 then ura_tenth (pw 2 (fadd 1 (fdiv ura_index 2)))
  else if Qle_bool 15 ura_index then (2 - (1 # 8388608)) * 2 ^ 127
  else ura_tenth (pw 2 (fsub ura_index 2)).
