(** ModelGal: /repo/src/galnav.cpp:228-234, the accessors of a Galileo message *)
From Verif Require Import Base CNum Stream ModelSatsys ModelNav.
Local Open Scope Z_scope.

(** conversion of a double to float: to nearest, infinite beyond the largest float *)
Definition to_float (v : cdbl) : cdbl :=
  match v with
  | DFin q => if flt_overflows q then DInf (Qnum q <? 0) else DFin (b32 q)
  | _ => v
  end.
(** data__[i]: the frame has 31 elements, navrnx.hpp:238 *)
Definition datum (g : frame) (i : nat) : outcome cdbl := match nth_error (f_data g) i with Some v => Val v | None => UB end.
(** galnav.cpp:228-230 *)
Definition gal_sisa (g : frame) : outcome cdbl := do v <- datum g 23; Val (to_float v).
(** galnav.cpp:232-234 *)
Definition gal_iod_nav (g : frame) : outcome Z := do v <- datum g 3; to_int v.
