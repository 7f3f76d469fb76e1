(** ModelDebug: the navigation reader as compiled with -DDEBUG (src/Makefile.am:16, the default flags):
    navrnx.cpp:80-83, 166-173, 257-260, 280-283, 315-320, 361-364, navrnx.hpp:525-556, 643-646. A failed
    assert aborts: [Term]. Simplification: the asserts of set_from_rnx3 and toe2date are evaluated after the
    release code of the function, of which they use only the values read; diagnostics are not modelled. *)
From Verif Require Import Base CNum Stream ModelSatsys ModelNav.
Local Open Scope Z_scope.

(** navrnx.cpp:169, 172, navrnx.hpp:526, 536: assert(std::abs(x - (int)x) < 1e-15) *)
Definition assert_whole (v : cdbl) : outcome unit :=
  do z <- to_int v;
  match v with
  | DFin q => if negb (Qle_bool (1 # 1000000000000000) (q - inject_Z z)) && negb (Qle_bool (1 # 1000000000000000) (inject_Z z - q)) then Val tt else Term
  | _ => UB
  end.
(** navrnx.cpp:166-173; for GLONASS also navrnx.hpp:533, (int)data[6] *)
Definition toe_asserts (f : frame) : outcome unit :=
  match f_sys f with
  | Glonass => do v <- slot (f_data f) 2; do _ <- assert_whole v; do h <- slot (f_data f) 6; do _ <- to_int h; Val tt
  | Gps | Galileo | Beidou => do v <- slot (f_data f) 11; assert_whole v
  | _ => Val tt
  end.
(** navrnx.cpp:76-180 *)
Definition set_from_rnx3_dbg (strp : strp_t) (st : stream) (f0 : frame) (errno : Z) : outcome navres :=
  if negb (good st) then Val (mkNav 50 f0 st errno)
  else
    do r <- set_from_rnx3 strp st f0 errno;
    if n_code r =? 0 then do _ <- toe_asserts (n_frame r); Val r else Val r.
(** navrnx.cpp:256-268 *)
Definition read_next_record_dbg (strp : strp_t) (st : stream) (f : frame) (errno : Z) : outcome navres :=
  if negb (good st) then Val (mkNav 50 f st errno)
  else
    match peek st with
    | (st1, Some _) => set_from_rnx3_dbg strp st1 f errno
    | (st1, None) => if seof st1 then Val (mkNav (-1) f (sclear st1) errno) else Val (mkNav 50 f st1 errno)
    end.
(** navrnx.cpp:279-306 *)
Definition ignore_next_block_dbg (st : stream) : outcome (Z * stream) :=
  if negb (good st) then Val (50, st) else ignore_next_block st.
(** navrnx.cpp:314-334 *)
Definition peak_satsys_dbg (st : stream) : Z * satsys * stream :=
  if negb (good st) then (10, Mixed, st) else peak_satsys st.
(** navrnx.cpp:366-383 *)
Fixpoint find_loop_dbg (fuel : nat) (strp : strp_t) (st : stream) (f : frame) (errno : Z) (sys : satsys) (prn : Z)
  : outcome navres :=
  match fuel with
  | O => Fuel
  | S k =>
      let '(status, csys, st1) := peak_satsys_dbg st in
      if negb (status =? 0) then Val (mkNav status f st1 errno)
      else if satsys_eqb csys sys then
        do r <- read_next_record_dbg strp st1 f errno;
        if negb (n_code r =? 0) then Val (mkNav (n_code r) (n_frame r) (sclear (n_stream r)) (n_errno r))
        else if (prn =? -1) || (prn =? f_prn (n_frame r)) then Val r
        else find_loop_dbg k strp (n_stream r) (n_frame r) (n_errno r) sys prn
      else
        do r <- ignore_next_block_dbg st1;
        let '(j, st2) := r in
        if negb (j =? 0) then Val (mkNav j f (sclear st2) errno)
        else find_loop_dbg k strp st2 f errno sys prn
  end.
(** navrnx.cpp:359-384: (curpos if assigned, result) *)
Definition find_next_dbg (fuel : nat) (strp : strp_t) (st : stream) (f : frame) (errno : Z) (sys : satsys) (prn : Z)
  : outcome (option (option nat) * navres) :=
  if negb (good st) then Val (None, mkNav 50 f st errno)
  else
    let '(st1, pos) := tellg st in
    do r <- find_loop_dbg fuel strp st1 f errno sys prn;
    Val (Some pos, r).
(** navrnx.hpp:648-695 *)
Fixpoint valid_loop_dbg (fuel : nat) (strp : strp_t) (t : Z) (st : stream) (f : frame) (errno : Z) (sys : satsys) (prn : Z)
  : outcome navres :=
  match fuel with
  | O => Fuel
  | S k =>
      let '(status, csys, st1) := peak_satsys_dbg st in
      if negb (status =? 0) then Val (mkNav status f st1 errno)
      else if satsys_eqb csys sys then
        do r <- read_next_record_dbg strp st1 f errno;
        if negb (n_code r =? 0) then Val (mkNav (n_code r) (n_frame r) (sclear (n_stream r)) (n_errno r))
        else
          let g := n_frame r in
          let again := valid_loop_dbg k strp t (n_stream r) g (n_errno r) sys prn in
          if prn =? f_prn g then
            let toc := f_toc g * 1000 in
            if (t <? toc) && (3600 * 4 * 1000 <? toc - t) then Val (mkNav (-1) g (n_stream r) (n_errno r))
            else
              do h <- sv_health g;
              if h =? 0 then
                do fit <- fit_interval g;
                if negb (satsys_eqb sys Glonass) then
                  if (toc <=? t) && (t <? toc + fit * 1000) then Val r else again
                else
                  let toe := f_toe g * 1000 in
                  if (toe - fit * 1000 <=? t) && (t <? toe + fit * 1000) then Val r else again
              else again
          else again
      else
        do r <- ignore_next_block_dbg st1;
        let '(j, st2) := r in
        if negb (j =? 0) then Val (mkNav j f (sclear st2) errno)
        else valid_loop_dbg k strp t st2 f errno sys prn
  end.
(** navrnx.hpp:637-698 *)
Definition find_next_valid_dbg (fuel : nat) (strp : strp_t) (t : Z) (st : stream) (f : frame) (errno : Z) (sys : satsys) (prn : Z)
  : outcome (option (option nat) * navres) :=
  if negb (good st) then Val (None, mkNav 50 f st errno)
  else
    let '(st1, pos) := tellg st in
    do r <- noexcept (valid_loop_dbg fuel strp t st1 f errno sys prn);
    Val (Some pos, r).
