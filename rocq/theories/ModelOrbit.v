(** ModelOrbit: the orbit and clock computations of /repo/src/navrnx.hpp (kepler2state, sv_clock,
    *_stateNclock), /repo/src/glonav.cpp and /repo/src/gpsnav.cpp (gps_ura).
    Simplification: doubles and floats are real numbers (no rounding, no NaN, no infinities); the
    blocks under #ifdef DEBUG and messages on std::cerr are not modelled. *)
From Coq Require Import Reals Lra Lia ZArith List.
From Coq Require Import Qreals.
From Verif Require Import CNum ModelSatsys ModelNav.
Import ListNotations.
Local Open Scope R_scope.

(** navrnx.hpp:236-240: what the functions read of a NavDataFrame: data__, and the seconds of day of toe__ and toc__ *)
Record rframe := mkR { r_data : nat -> R; r_toe : R; r_toc : R }.

(** satsys.hpp:93-100, 132-139, 188-205 satellite_system_traits: mi, omegae_dot, f_clock *)
Inductive kepsys := KGps | KGal | KBds.
Definition mi_sys (s : kepsys) : R :=
  match s with KGps => 398600500000000 | KGal | KBds => 398600441800000 end.
Definition omegae (s : kepsys) : R :=
  match s with KGps | KGal => 72921151467 / 10 ^ 15 | KBds => 72921150 / 10 ^ 12 end.
Definition f_clock (s : kepsys) : R :=
  match s with
  | KGps => - (4442807633 / 10 ^ 19)
  | KGal => - (4442807309 / 10 ^ 19)
  | KBds => - 2 * sqrt 398600441800000 / (299792458 * 299792458)
  end.

(** navrnx.hpp:266-351, <cmath>: std::atan2 (zeros without sign) *)
Definition atan2 (y x : R) : R :=
  if Rlt_dec 0 x then atan (y / x)
  else if Rlt_dec x 0 then (if Rle_dec 0 y then atan (y / x) + PI else atan (y / x) - PI)
  else if Rlt_dec 0 y then PI / 2 else if Rlt_dec y 0 then - (PI / 2) else 0.

(** glonav.cpp:62, 318, gpsnav.cpp:232-249, <cmath>: std::round: halves away from zero *)
Definition rround (x : R) : R :=
  if Rle_dec 0 x then IZR (Int_part (x + 1 / 2)) else - IZR (Int_part (- x + 1 / 2)).

(** navrnx.hpp:297-301 and 418-422 the loop; [left] is 1001 - i *)
Definition LIMIT : R := / 10 ^ 14.
Fixpoint kepler_loop (left i : nat) (E Ek e Mk : R) : nat * R :=
  match left with
  | O => (i, E)
  | S l =>
      if Rlt_dec LIMIT (Rabs (E - Ek)) then kepler_loop l (S i) (sin E * e + Mk) E e Mk
      else (i, E)
  end.
(** navrnx.hpp:293-303 and 416-424; None is return 1 *)
Definition kepler_solve (e Mk : R) : option R :=
  let '(i, E) := kepler_loop 1001 0 Mk 0 e Mk in
  if (1000 <=? i)%nat then None else Some E.

(** navrnx.hpp:272-291 / 411-415 mean anomaly, [dt] seconds *)
Definition mean_anomaly (s : kepsys) (f : rframe) (dt : R) : R :=
  let A := r_data f 10 * r_data f 10 in
  let n0 := sqrt (mi_sys s / (A * A * A)) in
  let n := n0 + r_data f 5 in
  r_data f 6 + n * dt.

Record kstate := mkK { k_x : R; k_y : R; k_z : R; k_E : R }.

(** navrnx.hpp:267-351 kepler2state; None: return 1, nothing written *)
Definition kepler2state (s : kepsys) (f : rframe) (t_sec : R) : option kstate :=
  let d := r_data f in
  let A := d 10%nat * d 10%nat in
  let tk := t_sec - r_toe f in
  let Mk := mean_anomaly s f tk in
  let e := d 8%nat in
  match kepler_solve e Mk with
  | None => None
  | Some E =>
      let sinE := sin E in
      let cosE := cos E in
      let ecosEm1 := 1 - e * cosE in
      let vk_ar := (sqrt (1 - e * e) * sinE) / ecosEm1 in
      let vk_pr := (cosE - e) / ecosEm1 in
      let vk := atan2 vk_ar vk_pr in
      let Fk := vk + d 17%nat in
      let sin2F := sin (2 * Fk) in
      let cos2F := cos (2 * Fk) in
      let duk := d 9%nat * sin2F + d 7%nat * cos2F in
      let drk := d 4%nat * sin2F + d 16%nat * cos2F in
      let dik := d 14%nat * sin2F + d 12%nat * cos2F in
      let uk := Fk + duk in
      let rk := A * (1 - e * cosE) + drk in
      let ik := d 15%nat + dik + d 19%nat * tk in
      let xk_dot := rk * cos uk in
      let yk_dot := rk * sin uk in
      let omega_k := d 13%nat + (d 18%nat - omegae s) * tk - omegae s * d 11%nat in
      let sinOk := sin omega_k in
      let cosOk := cos omega_k in
      let cosik := cos ik in
      Some (mkK (xk_dot * cosOk - yk_dot * sinOk * cosik)
                (xk_dot * sinOk + yk_dot * cosOk * cosik)
                (yk_dot * sin ik) E)
  end.

(** navrnx.hpp:387-439 sv_clock; [Ein]: the optional anomaly; None: return 1 *)
Definition sv_clock (s : kepsys) (f : rframe) (t_sec : R) (Ein : option R) : option R :=
  let d := r_data f in
  let dt := t_sec - r_toc f in
  match (match Ein with Some E => Some E | None => kepler_solve (d 8%nat) (mean_anomaly s f dt) end) with
  | None => None
  | Some Ek =>
      let Dtr := f_clock s * (d 8%nat * d 10%nat * sin Ek) in
      Some (d 0%nat + d 1%nat * dt + (d 2%nat * dt) * dt + Dtr)
  end.

(** navrnx.hpp:144-184 gps_, gal_, bds_stateNclock; [te], [tc]: ref2toe(t), ref2toc(t).
    (status, state if written, clock if written) *)
Definition kep_stateNclock (s : kepsys) (f : rframe) (te tc : R) : Z * option kstate * option R :=
  match kepler2state s f te with
  | None => (1%Z, None, None)
  | Some k =>
      match sv_clock s f tc None with
      | None => (1%Z, Some k, None)
      | Some c => (0%Z, Some k, Some c)
      end
  end.

(** ** GLONASS, glonav.cpp *)
(** glonav.cpp:43-57 *)
Definition h_step : R := 60.
Definition GM_GLO : R := 398600441800000.
Definition AE_GLO : R := 6378136.
Definition J2_GLO : R := 108262575 / 10 ^ 11.
Definition OMEGA_GLO : R := 72921151467 / 10 ^ 15.

(** glonav.cpp:59-65 glo_clock *)
Definition glo_clock (f : rframe) (t_mt : R) : R :=
  let toe_mt := r_toe f in
  let deltat := t_mt - toe_mt - rround ((t_mt - toe_mt) / 86400) * 86400 in
  r_data f 0 + r_data f 1 * deltat.

(** glonav.cpp:116, 284-354: arrays of six and three doubles *)
Record vec6 := mk6 { s0 : R; s1 : R; s2 : R; s3 : R; s4 : R; s5 : R }.
Record vec3 := mk3 { a0 : R; a1 : R; a2 : R }.

(** glonav.cpp:116-133 glo_state_deriv *)
Definition glo_state_deriv (x : vec6) (acc : vec3) : vec6 :=
  let r2 := s0 x * s0 x + s1 x * s1 x + s2 x * s2 x in
  let r3 := r2 * sqrt r2 in
  let omg2 := OMEGA_GLO * OMEGA_GLO in
  let a := 3 / 2 * J2_GLO * GM_GLO * (AE_GLO * AE_GLO) / r2 / r3 in
  let b := 5 * s2 x * s2 x / r2 in
  let c := - GM_GLO / r3 - a * (1 - b) in
  mk6 (s3 x) (s4 x) (s5 x)
      ((c + omg2) * s0 x + 2 * OMEGA_GLO * s4 x + a0 acc)
      ((c + omg2) * s1 x - 2 * OMEGA_GLO * s3 x + a1 acc)
      ((c - 2 * a) * s2 x + a2 acc).

(** glonav.cpp:327-336: y[i] + w * k[i] for i < 6 *)
Definition axpy (y : vec6) (w : R) (k : vec6) : vec6 :=
  mk6 (s0 y + w * s0 k) (s1 y + w * s1 k) (s2 y + w * s2 k) (s3 y + w * s3 k) (s4 y + w * s4 k) (s5 y + w * s5 k).

(** glonav.cpp:324-340 one pass of the loop body *)
Definition rk4_step (h : R) (acc : vec3) (yti : vec6) : vec6 :=
  let k1 := glo_state_deriv yti acc in
  let k2 := glo_state_deriv (axpy yti (h / 2) k1) acc in
  let k3 := glo_state_deriv (axpy yti (h / 2) k2) acc in
  let k4 := glo_state_deriv (axpy yti h k3) acc in
  let up (p : vec6 -> R) := p yti + (h / 6) * (p k1 + 2 * p k2 + 2 * p k3 + p k4) in
  mk6 (up s0) (up s1) (up s2) (up s3) (up s4) (up s5).

(** glonav.cpp:317-343: what the loop leaves: state, ti, max_it, and the number of passes *)
Record gloop := mkG { g_y : vec6; g_ti : R; g_it : nat; g_n : nat }.

(** glonav.cpp:323-343 the loop, condition
    h > 0 ? ti < t_lim : (ti > t_lim && ++max_it < 1500); None: [fuel] used up *)
Fixpoint glo_loop (fuel : nat) (h t_lim : R) (acc : vec3) (g : gloop) : option gloop :=
  let body it := mkG (rk4_step h acc (g_y g)) (g_ti g + h) it (S (g_n g)) in
  match fuel with
  | O => None
  | S k =>
      if Rlt_dec 0 h then
        if Rlt_dec (g_ti g) t_lim then glo_loop k h t_lim acc (body (g_it g)) else Some g
      else
        if Rlt_dec t_lim (g_ti g) then
          let it := S (g_it g) in
          if (it <? 1500)%nat then glo_loop k h t_lim acc (body it)
          else Some (mkG (g_y g) (g_ti g) it (g_n g))
        else Some g
  end.

(** glonav.cpp:284-354 glo_ecef: status and, unless it is 10, the state; the last component is the
    value of ti at the end (not visible outside) *)
Record gres := mkGR { q_status : Z; q_state : option vec6; q_ti : R; q_steps : nat }.
Definition glo_ecef (fuel : nat) (f : rframe) (t_sec : R) : option gres :=
  let d := r_data f in
  let toe_sec := r_toe f in
  let status := if Rlt_dec (15 * 60) (Rabs (t_sec - toe_sec)) then (-1)%Z else 0%Z in
  let x := mk6 (d 3%nat) (d 7%nat) (d 11%nat) (d 4%nat) (d 8%nat) (d 12%nat) in
  let acc := mk3 (d 5%nat) (d 9%nat) (d 13%nat) in
  if Req_EM_T toe_sec t_sec then Some (mkGR status (Some x) toe_sec 0)
  else
    let h := if Rlt_dec toe_sec t_sec then h_step else - h_step in
    let t_lim := t_sec - rround ((t_sec - toe_sec) / 86400) * 86400 in
    match glo_loop fuel h t_lim acc (mkG x toe_sec 0 0) with
    | None => None
    | Some g =>
        if (1500 <=? g_it g)%nat then Some (mkGR 10 None (g_ti g) (g_n g))
        else Some (mkGR status (Some (g_y g)) (g_ti g) (g_n g))
    end.

(** navrnx.hpp:190-200 glo_stateNclock: (status, state if written, clock if written) *)
Definition glo_stateNclock (fuel : nat) (f : rframe) (te : R) : option (Z * option vec6 * option R) :=
  match glo_ecef fuel f te with
  | None => None
  | Some g =>
      if (q_status g =? 0)%Z then Some (0%Z, q_state g, Some (glo_clock f te))
      else Some (q_status g, q_state g, None)
  end.

(** gpsnav.cpp:232-249 gps_ura; FLT_MAX = (2 - 2^-23) 2^127 *)
Definition FLT_MAX : R := (2 - / 2 ^ 23) * 2 ^ 127.
Definition gps_ura (f : rframe) : R :=
  let ura_index := r_data f 23 in
  if Rle_dec ura_index 6 then rround (Rpower 2 (1 + ura_index / 2) * 10) / 10
  else if Rlt_dec ura_index 15 then rround (Rpower 2 (ura_index - 2) * 10) / 10
  else FLT_MAX.

(** ** From a frame that was read (ModelNav), navrnx.hpp:236-240 *)
Definition real_of (v : option cdbl) : option R := match v with Some (DFin q) => Some (Q2R q) | _ => None end.
(** [f] holds the finite doubles of [g]; sec() is the time of day *)
Definition reals_of (g : frame) (f : rframe) : Prop :=
  (forall i q, nth_error (f_data g) i = Some (DFin q) -> r_data f i = Q2R q) /\
  r_toe f = IZR (f_toe g mod 86400) /\ r_toc f = IZR (f_toc g mod 86400).

(** ** navrnx.hpp:50-72 stateNclock: the switch on the system; [te], [tc] as above. Simplification:
    the state is the list of the components written (3, or 6 for GLONASS). *)
Inductive sn_result := Throws | Runs (status : Z) (state : option (list R)) (clock : option R).
Definition xyz (k : kstate) : list R := k_x k :: k_y k :: k_z k :: nil.
Definition six (v : vec6) : list R := s0 v :: s1 v :: s2 v :: s3 v :: s4 v :: s5 v :: nil.
Definition kep_result (s : kepsys) (f : rframe) (te tc : R) : sn_result :=
  let '(st, k, c) := kep_stateNclock s f te tc in Runs st (option_map xyz k) c.
Definition stateNclock (fuel : nat) (sys : satsys) (f : rframe) (te tc : R) : option sn_result :=
  match sys with
  | Gps => Some (kep_result KGps f te tc)
  | Glonass =>
      match glo_stateNclock fuel f te with
      | None => None
      | Some (st, v, c) => Some (Runs st (option_map six v) c)
      end
  | Galileo => Some (kep_result KGal f te tc)
  | Beidou => Some (kep_result KBds f te tc)
  | Sbas | Qzss | Irnss | Mixed => Some Throws
  end.
