(** ModelNav: /repo/src/navrnx.cpp, and the file-reading and time parts of /repo/src/navrnx.hpp,
    gps_fit_interval and gps_ura of /repo/src/gpsnav.cpp.  The blocks under #ifdef DEBUG are not
    modelled.  Doubles: rationals rounded to binary64 (see CNum, B64).
    ggdatetime (not in /repo) is modelled as follows: a datetime<seconds> is the number of seconds since
    MJD 0, a datetime<milliseconds> the number of milliseconds since MJD 0 (i.e. datetimes are
    normalised); strptime_ymd_hms is an arbitrary function [strp] of the C string it is given, which may
    throw (None), and does not touch errno. *)
From Coq Require Import Qround.
From Verif Require Import Base CNum Stream ModelSatsys ModelNvarstr.
Local Open Scope Z_scope.

Definition strp_t := list ascii -> option Z.

(** navrnx.hpp:236-240 the members of NavDataFrame *)
Record frame := mkFrame {
  f_sys : satsys; f_prn : Z;
  f_toc : Z; f_toe : Z;          (* seconds since MJD 0 *)
  f_data : list cdbl             (* data__, 31 elements *)
}.

Definition set_sys s f := mkFrame s (f_prn f) (f_toc f) (f_toe f) (f_data f).
Definition set_prn p f := mkFrame (f_sys f) p (f_toc f) (f_toe f) (f_data f).
Definition set_toc t f := mkFrame (f_sys f) (f_prn f) t (f_toe f) (f_data f).
Definition set_toe t f := mkFrame (f_sys f) (f_prn f) (f_toc f) t (f_data f).
Definition set_data d f := mkFrame (f_sys f) (f_prn f) (f_toc f) (f_toe f) d.

(** nvarstr.hpp:89, 112: assignment to data[off], data[off+1], ... *)
Definition put (d : list cdbl) (off : nat) (vs : list cdbl) : outcome (list cdbl) :=
  if (off + length vs <=? length d)%nat
  then Val (firstn off d ++ vs ++ skipn (off + length vs) d)
  else UB.

(** navrnx.hpp:202: read of data[i] *)
Definition slot (d : list cdbl) (i : nat) : outcome cdbl :=
  match nth_error d i with Some v => Val v | None => UB end.

(** navrnx.hpp:78, 82, 468-469, 495-496, 523, gpsnav.cpp:254: static_cast<int>(double), static_cast<long>(double): undefined when out of range *)
Definition trunc_in (lo hi : Z) (v : cdbl) : outcome Z :=
  match v with
  | DFin q =>
      let z := Z.quot (Qnum q) (Zpos (Qden q)) in
      if (lo <=? z) && (z <=? hi) then Val z else UB
  | _ => UB
  end.
Definition to_int : cdbl -> outcome Z := trunc_in (-2147483648) 2147483647.
Definition to_long : cdbl -> outcome Z := trunc_in LONG_MIN LONG_MAX.

(** <cerrno>; navrnx.cpp:93 errno values *)
Definition ERANGE : Z := 34.

(** nvarstr.hpp:85-118 __char2double__ with the value of errno before and after *)
Definition c2d (line : mem) (off N : nat) (errno : Z) : outcome (bool * list cdbl * Z) :=
  do r <- char2double line off N 19 (negb (errno =? 0));
  let '(ok, vs, e) := r in
  Val (ok, vs, if e then (if errno =? 0 then ERANGE else errno) else errno).

(** navrnx.cpp:38-64 __lines_per_satsys_v3__: (lines, records in the last line); the second value is
    the caller's initial 0 when not assigned *)
Definition lines_per_satsys (s : satsys) : Z * nat :=
  match s with
  | Gps | Qzss | Beidou => (8, 2%nat)
  | Galileo | Irnss => (8, 1%nat)
  | Glonass | Sbas => (4, 4%nat)
  | Mixed => (-10, 0%nat)
  end.

(** navrnx.hpp:470: GPS epoch 6-Jan-1980 in seconds since MJD 0 (ggdatetime) *)
Definition GPS0 : Z := 44244 * 86400.

(** navrnx.hpp:467-471 gps_toe2date (datetime(gps_week, seconds) is from ggdatetime) *)
Definition gps_toe (f : frame) : outcome Z :=
  do d21 <- slot (f_data f) 21;
  do wk <- to_int d21;
  do d11 <- slot (f_data f) 11;
  do sc <- to_long d11;
  Val (GPS0 + wk * 604800 + sc).

(** navrnx.hpp:494-498 bds_toe2date *)
Definition bds_toe (f : frame) : outcome Z :=
  do d21 <- slot (f_data f) 21;
  do wk <- to_int d21;
  do d11 <- slot (f_data f) 11;
  do sc <- to_long d11;
  Val (GPS0 + (wk + 1356) * 604800 + sc).

(** navrnx.hpp:516-557 glo_toe2date; as_gps_wsow (ggdatetime) gives the seconds of the GPS week *)
Definition glo_toe (f : frame) : outcome Z :=
  let sw_toc := (f_toc f - GPS0) mod 604800 in
  let dw_toc := Z.quot sw_toc 86400 in
  do d2 <- slot (f_data f) 2;
  do sw_toe <- to_long d2;
  let dw_toe := Z.quot sw_toe 86400 in
  let offset := to_i32 (dw_toc - dw_toe) in
  let sd_toe := Z.rem sw_toe 86400 in
  Val ((f_toc f / 86400 - offset) * 86400 + sd_toe).

(** navrnx.hpp:27-48 toe2date *)
Definition toe2date (f : frame) : outcome Z :=
  match f_sys f with
  | Gps => gps_toe f
  | Glonass => glo_toe f
  | Galileo => gps_toe f                 (* navrnx.hpp:484-486 *)
  | Beidou => bds_toe f
  | _ => Exn
  end.

(** navrnx.cpp:76-180: what set_from_rnx3 leaves behind *)
Record navres := mkNav { n_code : Z; n_frame : frame; n_stream : stream; n_errno : Z }.

(** navrnx.cpp:112-123 and 125-143: lines ln .. ln+k-1 of the middle part; [inl] is a return *)
Fixpoint mid_lines (k ln : nat) (st : stream) (line : mem) (f : frame) (errno : Z)
  : outcome (navres + (stream * mem * frame * Z)) :=
  match k with
  | O => Val (inr (st, line, f, errno))
  | S k' =>
      do r <- getline st line 128;
      let '(st1, line1) := r in
      if sfail st1 then Val (inl (mkNav 5 f st1 errno))
      else
        do line2 <- for2cpp line1;
        let n := if (satsys_eqb (f_sys f) Galileo || satsys_eqb (f_sys f) Beidou) && (ln =? 4)%nat
                 then 3%nat else 4%nat in
        do c <- c2d line2 4 n errno;
        let '(ok, vs, e1) := c in
        do d <- put (f_data f) (3 + ln * 4) vs;
        let f1 := set_data d f in
        if ok then mid_lines k' (S ln) st1 line2 f1 e1
        else Val (inl (mkNav 6 f1 st1 0))
  end.

(** navrnx.cpp:160-163 the GLONASS scaling *)
Fixpoint scale_at (ix : list nat) (d : list cdbl) : outcome (list cdbl) :=
  match ix with
  | [] => Val d
  | i :: r =>
      do v <- slot d i;
      do d1 <- put d i [dmul v (DFin 1000)];
      scale_at r d1
  end.

(** navrnx.cpp:76-180 NavDataFrame::set_from_rnx3 *)
Definition set_from_rnx3 (strp : strp_t) (st : stream) (f0 : frame) (errno : Z) : outcome navres :=
  noexcept (
  do r <- getline st (uninit 128) 128;
  let '(st1, line) := r in
  if sfail st1 then Val (mkNav 1 f0 st1 errno)
  else
    do c0 <- rd line 0;
    do sys <- char_to_satsys c0;
    let f1 := set_sys sys f0 in
    do s3 <- cstr line 3;
    match strp s3 with
    | None => Exn
    | Some toc =>
      let f2 := set_toc toc f1 in
      do s1 <- cstr line 1;
      let '(p, _, er) := strtol s1 in
      let e1 := if er then ERANGE else errno in
      let f3 := set_prn (to_i32 p) f2 in
      if (to_i32 p =? 0) || (e1 =? ERANGE) then Val (mkNav 2 f3 st1 0)
      else
        do m23 <- for2cpp (skipn 23 line);
        let line1 := firstn 23 line ++ m23 in
        do c <- c2d line1 23 3 e1;
        let '(ok, vs, e2) := c in
        do d1 <- put (f_data f3) 0 vs;
        let f4 := set_data d1 f3 in
        if negb ok then Val (mkNav 3 f4 st1 0)
        else
          let '(nl, last) := lines_per_satsys sys in
          let lines := nl - 1 in
          if lines <? 0 then Val (mkNav 4 f4 st1 e2)
          else
            let k := Z.to_nat (lines - 1) in
            do m <- mid_lines k 0 st1 line1 f4 e2;
            match m with
            | inl res => Val res
            | inr (st2, line2, f5, e3) =>
                do r <- getline st2 line2 128;
                let '(st3, line3) := r in
                if sfail st3 then Val (mkNav 7 f5 st3 e3)
                else
                  do line4 <- for2cpp line3;
                  do c <- c2d line4 4 last e3;
                  let '(ok, vs, e4) := c in
                  do d2 <- put (f_data f5) (3 + k * 4) vs;
                  let f6 := set_data d2 f5 in
                  if negb ok then Val (mkNav 8 f6 st3 0)
                  else
                    do f7 <- (if satsys_eqb sys Glonass
                              then do d <- scale_at [3; 4; 5; 7; 8; 9; 11; 12; 13]%nat (f_data f6); Val (set_data d f6)
                              else Val f6);
                    match sys with
                    | Gps | Glonass | Galileo | Beidou =>
                        do toe <- toe2date f7; Val (mkNav 0 (set_toe toe f7) st3 e4)
                    | _ => Val (mkNav 0 f7 st3 e4)
                    end
            end
    end).

(** navrnx.cpp:256-268 read_next_record, 390-393 clear_stream *)
Definition read_next_record (strp : strp_t) (st : stream) (f : frame) (errno : Z) : outcome navres :=
  match peek st with
  | (st1, Some _) => set_from_rnx3 strp st1 f errno
  | (st1, None) => if seof st1 then Val (mkNav (-1) f (sclear st1) errno) else Val (mkNav 50 f st1 errno)
  end.

(** navrnx.cpp:284, 322: the char a peeked int is stored in: EOF becomes char(-1), i.e. the byte 0xFF *)
Definition peek_char (st : stream) : stream * ascii :=
  match peek st with
  | (st1, Some c) => (st1, c)
  | (st1, None) => (st1, CFF)
  end.

(** navrnx.cpp:279-306: lines skipped by ignore_next_block: (a getline failed, stream) *)
Fixpoint skip_lines (k : nat) (st : stream) (line : mem) : outcome (bool * stream) :=
  match k with
  | O => Val (false, st)
  | S k' =>
      do r <- getline st line 128;
      let '(st1, line1) := r in
      if sfail st1 then Val (true, st1) else skip_lines k' st1 line1
  end.

(** navrnx.cpp:279-306 ignore_next_block *)
Definition ignore_next_block (st : stream) : outcome (Z * stream) :=
  let '(st1, s) := peek_char st in
  if ceqb s CFF then Val (-1, sclear st1)
  else
    match char_to_satsys s with
    | Val sys =>
        do r <- skip_lines (Z.to_nat (fst (lines_per_satsys sys))) st1 (uninit 128);
        let '(bad, st2) := r in
        Val (if bad then 2 else 0, st2)
    | _ => Val (1, st1)
    end.

(** navrnx.cpp:314-334 peak_satsys: (status, system, stream) *)
Definition peak_satsys (st : stream) : Z * satsys * stream :=
  let '(st1, s) := peek_char st in
  if ceqb s CFF then (-1, Mixed, sclear st1)
  else
    match char_to_satsys s with
    | Val sys => (0, sys, st1)
    | _ => (1, Mixed, st1)
    end.

(** navrnx.cpp:338-345 rewind; None is pos_type(-1), [eoh] is __end_of_head *)
Definition nav_rewind (eoh : option nat) (pos : option nat) (st : stream) : stream :=
  match pos with
  | None => seekg st eoh
  | Some _ => seekg st pos
  end.

(** navrnx.cpp:366-383 the loop of find_next; dummy_it is never changed, so the loop has no bound of
    its own: [fuel] only makes the definition total *)
Fixpoint find_loop (fuel : nat) (strp : strp_t) (st : stream) (f : frame) (errno : Z) (sys : satsys) (prn : Z)
  : outcome navres :=
  match fuel with
  | O => Fuel
  | S k =>
      let '(status, csys, st1) := peak_satsys st in
      if negb (status =? 0) then Val (mkNav status f st1 errno)
      else if satsys_eqb csys sys then
        do r <- read_next_record strp st1 f errno;
        if negb (n_code r =? 0) then Val (mkNav (n_code r) (n_frame r) (sclear (n_stream r)) (n_errno r))
        else if (prn =? -1) || (prn =? f_prn (n_frame r)) then Val r
        else find_loop k strp (n_stream r) (n_frame r) (n_errno r) sys prn
      else
        do r <- ignore_next_block st1;
        let '(j, st2) := r in
        if negb (j =? 0) then Val (mkNav j f (sclear st2) errno)
        else find_loop k strp st2 f errno sys prn
  end.

(** navrnx.cpp:359-384 find_next: (curpos, result) *)
Definition find_next (fuel : nat) (strp : strp_t) (st : stream) (f : frame) (errno : Z) (sys : satsys) (prn : Z)
  : outcome (option nat * navres) :=
  let '(st1, pos) := tellg st in
  do r <- find_loop fuel strp st1 f errno sys prn;
  Val (pos, r).

(** navrnx.hpp:75-94 sv_health *)
Definition sv_health (f : frame) : outcome Z :=
  match f_sys f with
  | Glonass => do v <- slot (f_data f) 6; to_int v
  | Gps | Galileo | Beidou => do v <- slot (f_data f) 24; to_int v
  | _ => Exn
  end.

(** gpsnav.cpp:253-255 gps_fit_interval *)
Definition gps_fit_interval (f : frame) : outcome Z :=
  do v <- slot (f_data f) 28;
  do h <- to_int v;
  Val (to_i32 (3600 * h)).

(** navrnx.hpp:96-116 fit_interval *)
Definition fit_interval (f : frame) : outcome Z :=
  match f_sys f with
  | Glonass => Val (15 * 60)
  | Gps => gps_fit_interval f
  | Galileo | Beidou => Val (4 * 60 * 60)
  | _ => Exn
  end.

(** navrnx.hpp:648-695 the loop of find_next_valid, for T = milliseconds (the only instance that
    compiles: toc is a datetime<milliseconds>); [t] in milliseconds since MJD 0 *)
Fixpoint valid_loop (fuel : nat) (strp : strp_t) (t : Z) (st : stream) (f : frame) (errno : Z) (sys : satsys) (prn : Z)
  : outcome navres :=
  match fuel with
  | O => Fuel
  | S k =>
      let '(status, csys, st1) := peak_satsys st in
      if negb (status =? 0) then Val (mkNav status f st1 errno)
      else if satsys_eqb csys sys then
        do r <- read_next_record strp st1 f errno;
        if negb (n_code r =? 0) then Val (mkNav (n_code r) (n_frame r) (sclear (n_stream r)) (n_errno r))
        else
          let g := n_frame r in
          let again := valid_loop k strp t (n_stream r) g (n_errno r) sys prn in
          if prn =? f_prn g then
            let toc := f_toc g * 1000 in
            if (t <? toc) && (3600 * 4 * 1000 <? toc - t) then Val (mkNav (-1) g (n_stream r) (n_errno r))
            else
              do h <- sv_health g;
              if h =? 0 then
                do fit <- fit_interval g;
                if negb (satsys_eqb sys Glonass) then
                  if (toc <=? t) && (t <? toc + fit * 1000) then Val r else again
                else
                  let toe := f_toe g * 1000 in
                  if (toe - fit * 1000 <=? t) && (t <? toe + fit * 1000) then Val r else again
              else again
          else again
      else
        do r <- ignore_next_block st1;
        let '(j, st2) := r in
        if negb (j =? 0) then Val (mkNav j f (sclear st2) errno)
        else valid_loop k strp t st2 f errno sys prn
  end.

(** navrnx.hpp:637-698 find_next_valid (noexcept) *)
Definition find_next_valid (fuel : nat) (strp : strp_t) (t : Z) (st : stream) (f : frame) (errno : Z) (sys : satsys) (prn : Z)
  : outcome (option nat * navres) :=
  let '(st1, pos) := tellg st in
  do r <- noexcept (valid_loop fuel strp t st1 f errno sys prn);
  Val (pos, r).

(** navrnx.hpp:122-142 ref2toe / ref2toc: [ref] is toe__ or toc__ (seconds since MJD 0), [t] a
    datetime<T> as day and ticks of the day, [factor] ticks per second; the int conversion is modular *)
Definition ref2 (ref : Z) (t_mjd t_ticks : Z) (factor : positive) : Q :=
  let tsec := Qmake t_ticks factor in
  let mjd_diff := to_i32 (t_mjd - ref / 86400) in
  if mjd_diff =? 0 then tsec else (tsec + 86400 * inject_Z mjd_diff)%Q.
Definition ref2toe (f : frame) := ref2 (f_toe f).
Definition ref2toc (f : frame) := ref2 (f_toc f).

(** ** The object *)
(** navrnx.hpp:707-711, the members *)
Record navobj := mkNavObj { v_stream : stream; v_satsys : satsys; v_version : cdbl; v_eoh : option nat }.

(** navrnx.cpp:232-241 header lines until 'END OF HEADER' *)
Fixpoint nav_header_loop (k : nat) (st : stream) (line : mem) : outcome (option stream) :=
  do e <- strncmp_lit line 60 "END OF HEADER" 13;
  if e then Val (Some st)
  else
    do r <- getline st line 85;
    let '(st1, line1) := r in
    match k with
    | O => Val None
    | S O => Val None              (* dummy_it has reached MAX_HEADER_LINES: the line is not looked at *)
    | S k' => nav_header_loop k' st1 line1
    end.

(** navrnx.cpp:205-248 read_header on an open stream ([inl]: return code) *)
Definition nav_read_header (d : list ascii) : outcome (Z + navobj) :=
  do r <- getline (open_stream d) (uninit 85) 85;
  let '(st1, line) := r in
  do s <- cstr line 0;
  let '(v, n, _) := strtof s in
  if (n =? 0)%nat then Val (inl 10)
  else
    do c20 <- rd line 20;
    if negb (ceqb c20 "N"%char) then Val (inl 11)
    else
      do c40 <- rd line 40;
      match char_to_satsys c40 with
      | Val sys =>
          do r <- getline st1 line 85;
          let '(st2, line1) := r in
          do h <- nav_header_loop 1000 st2 line1;
          match h with
          | None => Val (inl 20)
          | Some st3 => let '(st4, p) := tellg st3 in Val (inr (mkNavObj st4 sys v p))
          end
      | _ => Val (inl 12)
      end.

(** navrnx.cpp:188-199 the constructor (the file could be opened) *)
Definition nav_open (d : list ascii) : outcome navobj :=
  do r <- nav_read_header d;
  match r with inl _ => Exn | inr o => Val o end.
