(** ModelFloat2: the GLONASS clock and orbit of /repo/src/glonav.cpp:40-133, 284-354 in machine doubles, like ModelFloat
    (same simplifications: finite numbers, each operation rounded on its own, no -0). *)
From Coq Require Import ZArith QArith Qabs Qround.
From Verif Require Import B64 ModelFloat.
Local Open Scope Q_scope.

(** <cmath>: std::round gives a double *)
Definition round_d (x : Q) : Q := b64 (inject_Z (round_away x)).

(** glonav.cpp:59-65 glo_clock; [toe] the seconds of toe__ *)
Definition glo_clock_d (d : nat -> Q) (toe t_mt : Q) : Q :=
  let deltat := fsub (fsub t_mt toe) (fmul (round_d (fdiv (fsub t_mt toe) 86400)) 86400) in
  fadd (d 0%nat) (fmul (d 1%nat) deltat).

(** glonav.cpp:43-57 *)
Definition GM_d : Q := flit 398600441800000.
Definition AE_d : Q := 6378136.
Definition J2_d : Q := flit (108262575 # 100000000000).
Definition OMEGA_d : Q := flit (72921151467 # 1000000000000000).

(** glonav.cpp:116, 284-354: arrays of six and three doubles *)
Record vec6d := mk6d { d0 : Q; d1 : Q; d2 : Q; d3 : Q; d4 : Q; d5 : Q }.
Record vec3d := mk3d { e0 : Q; e1 : Q; e2 : Q }.

(** glonav.cpp:116-133 glo_state_deriv *)
Definition deriv_d (m : libm) (x : vec6d) (acc : vec3d) : vec6d :=
  let r2 := fadd (fadd (fmul (d0 x) (d0 x)) (fmul (d1 x) (d1 x))) (fmul (d2 x) (d2 x)) in
  let r3 := fmul r2 (m_sqrt m r2) in
  let omg2 := fmul OMEGA_d OMEGA_d in
  let a := fdiv (fdiv (fmul (fmul (fmul (flit (3 # 2)) J2_d) GM_d) (fmul AE_d AE_d)) r2) r3 in
  let b := fdiv (fmul (fmul 5 (d2 x)) (d2 x)) r2 in
  let c := fsub (fdiv (- GM_d) r3) (fmul a (fsub 1 b)) in
  mk6d (d3 x) (d4 x) (d5 x)
       (fadd (fadd (fmul (fadd c omg2) (d0 x)) (fmul (fmul 2 OMEGA_d) (d4 x))) (e0 acc))
       (fadd (fsub (fmul (fadd c omg2) (d1 x)) (fmul (fmul 2 OMEGA_d) (d3 x))) (e1 acc))
       (fadd (fmul (fsub c (fmul 2 a)) (d2 x)) (e2 acc)).

(** glonav.cpp:327-336: y[i] + w * k[i] for i < 6 *)
Definition axpy_d (y : vec6d) (w : Q) (k : vec6d) : vec6d :=
  let u (p : vec6d -> Q) := fadd (p y) (fmul w (p k)) in
  mk6d (u d0) (u d1) (u d2) (u d3) (u d4) (u d5).

(** glonav.cpp:324-340 one pass of the loop body *)
Definition rk4_step_d (m : libm) (h : Q) (acc : vec3d) (y : vec6d) : vec6d :=
  let k1 := deriv_d m y acc in
  let k2 := deriv_d m (axpy_d y (fdiv h 2) k1) acc in
  let k3 := deriv_d m (axpy_d y (fdiv h 2) k2) acc in
  let k4 := deriv_d m (axpy_d y h k3) acc in
  let u (p : vec6d -> Q) := fadd (p y) (fmul (fdiv h 6) (fadd (fadd (fadd (p k1) (fmul 2 (p k2))) (fmul 2 (p k3))) (p k4))) in
  mk6d (u d0) (u d1) (u d2) (u d3) (u d4) (u d5).

(** glonav.cpp:317-343 what the loop leaves: state, ti, max_it *)
Record gloop_d := mkGd { gd_y : vec6d; gd_ti : Q; gd_it : nat }.
Definition flt (x y : Q) : bool := negb (Qle_bool y x).
(** glonav.cpp:323-343 the loop; None: [fuel] used up *)
Fixpoint glo_loop_d (fuel : nat) (m : libm) (h t_lim : Q) (acc : vec3d) (g : gloop_d) : option gloop_d :=
  let body it := mkGd (rk4_step_d m h acc (gd_y g)) (fadd (gd_ti g) h) it in
  match fuel with
  | O => None
  | S k =>
      if flt 0 h then
        if flt (gd_ti g) t_lim then glo_loop_d k m h t_lim acc (body (gd_it g)) else Some g
      else
        if flt t_lim (gd_ti g) then
          let it := S (gd_it g) in
          if (it <? 1500)%nat then glo_loop_d k m h t_lim acc (body it)
          else Some (mkGd (gd_y g) (gd_ti g) it)
        else Some g
  end.

(** glonav.cpp:284-354 glo_ecef: status and, unless it is 10, the state *)
Definition glo_ecef_d (fuel : nat) (m : libm) (d : nat -> Q) (toe t_sec : Q) : option (Z * option vec6d) :=
  let status := if flt (fmul 15 60) (Qabs (fsub t_sec toe)) then (-1)%Z else 0%Z in
  let x := mk6d (d 3%nat) (d 7%nat) (d 11%nat) (d 4%nat) (d 8%nat) (d 12%nat) in
  let acc := mk3d (d 5%nat) (d 9%nat) (d 13%nat) in
  if Qeq_bool toe t_sec then Some (status, Some x)
  else
    let h := if flt toe t_sec then 60 else - (60) in
    let t_lim := fsub t_sec (fmul (round_d (fdiv (fsub t_sec toe) 86400)) 86400) in
    match glo_loop_d fuel m h t_lim acc (mkGd x toe 0) with
    | None => None
    | Some g => if (1500 <=? gd_it g)%nat then Some (10%Z, None) else Some (status, Some (gd_y g))
    end.

(** navrnx.hpp:190-200 glo_stateNclock: (status, state if written, clock if written) *)
Definition glo_stateNclock_d (fuel : nat) (m : libm) (d : nat -> Q) (toe t_sec : Q) : option (Z * option vec6d * option Q) :=
  match glo_ecef_d fuel m d toe t_sec with
  | None => None
  | Some (s, v) =>
      if (s =? 0)%Z then Some (0%Z, v, Some (glo_clock_d d toe t_sec)) else Some (s, v, None)
  end.
