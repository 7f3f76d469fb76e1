(** ModelDebugOrbit: kepler2state, sv_clock and stateNclock as compiled with -DDEBUG (src/Makefile.am:16, the default
    flags): the guards navrnx.hpp:283-289 and 396-406. Messages on std::cerr are not modelled. *)
From Coq Require Import Reals ZArith List.
From Verif Require Import ModelSatsys ModelOrbit.
Local Open Scope R_scope.

(** navrnx.hpp:284, 397: the test of the guards *)
Definition off (d : R) : bool :=
  if Rlt_dec d (-302400) then true else if Rlt_dec 302400 d then true else false.
(** navrnx.hpp:267-351: (status, what is written) *)
Definition kepler2state_dbg (s : kepsys) (f : rframe) (t_sec : R) : Z * option kstate :=
  if off (t_sec - r_toe f) then ((-1)%Z, None)
  else match kepler2state s f t_sec with Some k => (0%Z, Some k) | None => (1%Z, None) end.
(** navrnx.hpp:387-439 *)
Definition sv_clock_dbg (s : kepsys) (f : rframe) (t_sec : R) (Ein : option R) : Z * option R :=
  if off (t_sec - r_toc f) then ((-1)%Z, None)
  else match sv_clock s f t_sec Ein with Some c => (0%Z, Some c) | None => (1%Z, None) end.
(** navrnx.hpp:144-184 *)
Definition kep_stateNclock_dbg (s : kepsys) (f : rframe) (te tc : R) : Z * option kstate * option R :=
  let '(st, k) := kepler2state_dbg s f te in
  if (st =? 0)%Z then let '(st2, c) := sv_clock_dbg s f tc None in (st2, k, c) else (st, k, None).
(** navrnx.hpp:50-72 *)
Definition kep_result_dbg (s : kepsys) (f : rframe) (te tc : R) : sn_result :=
  let '(st, k, c) := kep_stateNclock_dbg s f te tc in Runs st (option_map xyz k) c.
Definition stateNclock_dbg (fuel : nat) (sys : satsys) (f : rframe) (te tc : R) : option sn_result :=
  match sys with
  | Gps => Some (kep_result_dbg KGps f te tc)
  | Glonass =>
      match glo_stateNclock fuel f te with
      | None => None
      | Some (st, v, c) => Some (Runs st (option_map six v) c)
      end
  | Galileo => Some (kep_result_dbg KGal f te tc)
  | Beidou => Some (kep_result_dbg KBds f te tc)
  | Sbas | Qzss | Irnss | Mixed => Some Throws
  end.
