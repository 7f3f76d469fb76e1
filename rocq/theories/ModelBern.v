(** ModelBern: /repo/src/bern_utils.cpp, bern_utils.hpp.  The file is open (is_open() is true).
    ggdatetime (not in /repo): a datetime<seconds> is the number of seconds since MJD 0,
    strptime_ymd_hms is an arbitrary function [strp] of the C string it is given, [None] when it throws, and
    leaves errno alone; datetime::max() is later than every epoch. The message on std::cerr is not modelled. *)
From Verif Require Import Base CNum Stream ModelSatellite ModelAntex ModelSp3.

(** bern_utils.cpp:11 *)
Definition MAX_SATELLIT_CHARS : nat := 256.
(** bern_utils.cpp:43, 110 *)
Definition SATELLIT_LINES : nat := 1000.

(** bern_utils.cpp:111-114, 148-150, 155-159 *)
Definition SAT_LINE1 : string := "SATELLITE-SPECIFIC INFO FOR GPS/GLONASS/GEO/LEO/SLR, BSW5.2".
Definition SAT_LINE2 : string := "PART 2: ON-BOARD SENSORS".
Definition SAT_HLN1 : string := "                                              START TIME           END TIME                 SENSOR OFFSETS (M)       SENSOR BORESIGHT VECTOR (U) SENSOR AZIMUTH VECTOR (N)".
Definition SAT_HLN2 : string := "PRN  TYPE  SENSOR NAME______SVN  NUMBER  YYYY MM DD HH MM SS  YYYY MM DD HH MM SS         DX        DY        DZ         X       Y       Z          X       Y       Z      ANTEX SENSOR NAME___  IFRQ  SIGNAL LIST___________------>".

(** bern_utils.cpp:96, 128, 136: strncmp("literal", line, strlen(literal)) == 0 *)
Definition starts_with (line : mem) (s : string) : outcome bool := strncmp_lit line 0 s (length (lit s)).

(** bern_utils.cpp:135-139; [n] is max_lines - line_count; the boolean is line_count < max_lines at the end *)
Fixpoint part2_loop (n : nat) (st : stream) (line : mem) : outcome (bool * stream * mem) :=
  match n with
  | O => do _ <- starts_with line SAT_LINE2; Val (false, st, line)
  | S n' =>
      do eq <- starts_with line SAT_LINE2;
      if eq then Val (true, st, line)
      else
        do r <- getline st line MAX_SATELLIT_CHARS;
        let '(st1, l1) := r in
        part2_loop n' st1 l1
  end.

(** bern_utils.cpp:109-170 initialize: (return value, _part2, stream) *)
Definition bern_initialize (st0 : stream) : outcome (Z * option nat * stream) :=
  let st := seekg st0 (Some 0) in
  do r1 <- getline st (uninit MAX_SATELLIT_CHARS) MAX_SATELLIT_CHARS;
  let '(st1, l1) := r1 in
  do e1 <- starts_with l1 SAT_LINE1;
  if negb e1 then Val (10%Z, Some 0, st1)
  else
    do p <- part2_loop SATELLIT_LINES st1 l1;
    let '(found, st2, l2) := p in
    if negb (good st2) || negb found then Val (11%Z, Some 0, st2)
    else
      do r3 <- getline st2 l2 MAX_SATELLIT_CHARS;
      let '(st3, l3) := r3 in
      do r4 <- getline st3 l3 MAX_SATELLIT_CHARS;
      let '(st4, l4) := r4 in
      do e4 <- starts_with l4 SAT_HLN1;
      if negb e4 then Val (12%Z, Some 0, st4)
      else
        do r5 <- getline st4 l4 MAX_SATELLIT_CHARS;
        let '(st5, l5) := r5 in
        do e5 <- starts_with l5 SAT_HLN2;
        if negb e5 then Val (13%Z, Some 0, st5)
        else
          do r6 <- getline st5 l5 MAX_SATELLIT_CHARS;
          let '(st6, _) := r6 in
          let '(st7, pos) := tellg st6 in
          Val (0%Z, pos, st7).

(** bern_utils.cpp:41-45: return value, (ifrqn, prn) when assigned, errno == ERANGE afterwards, stream *)
Record bernres := mkBern { b_code : Z; b_out : option (Z * Z); b_errno : bool; b_stream : stream }.

Section Bern.
  Variable strp : list ascii -> option Z.

  (** bern_utils.cpp:70, 74: ngpt::strptime_ymd_hms(line + k) *)
  Definition strp_at (line : mem) (k : nat) : outcome Z :=
    do s <- cstr line k; match strp s with Some t => Val t | None => Exn end.

  (** bern_utils.cpp:59-98, [n] is max_lines - line_count; [errno] is errno == ERANGE *)
  Fixpoint channel_loop (n : nat) (st : stream) (line : mem) (svn eph : Z) (errno : bool) : outcome bernres :=
    match n with
    | O => Val (mkBern (-1) None errno st)
    | S n' =>
        let next (errno' : bool) :=
          do r <- getline st line MAX_SATELLIT_CHARS;
          let '(st1, l1) := r in
          do len <- strlen l1 0;
          do p3 <- (if len <? 10 then Val true else starts_with l1 "PART 3");
          if p3 then Val (mkBern (-1) None errno' st1) else channel_loop n' st1 l1 svn eph errno' in
        do c5 <- rd line 5;
        do mw <- (if ceqb c5 "M"%char then do c6 <- rd line 6; Val (ceqb c6 "W"%char) else Val false);
        if negb mw then next errno
        else
          do q <- strtol_at line 28;
          let '(v, used, er) := q in
          if (errno || er) || (used =? 0) then Val (mkBern 2 None false st)
          else if negb (to_i32 v =? svn)%Z then next false
          else
            do start <- strp_at line 41;
            do has_stop <- some_nonblank line 62 20;
            do stop <- (if has_stop then do t <- strp_at line 62; Val (Some t) else Val None);
            if ((start <=? eph)%Z && match stop with Some t => (eph <? t)%Z | None => true end)%bool then
              do q1 <- strtol_at line 0;
              let '(p, _, er1) := q1 in
              do q2 <- strtol_at line 193;
              let '(f, _, er2) := q2 in
              if er1 || er2 then Val (mkBern 3 (Some (to_i32 f, to_i32 p)) false st)
              else Val (mkBern 0 (Some (to_i32 f, to_i32 p)) false st)
            else next false
    end.

  (** bern_utils.cpp:41-101 get_frequency_channel; [part2] is _part2 *)
  Definition get_frequency_channel (st : stream) (part2 : option nat) (svn eph : Z) (errno : bool) : outcome bernres :=
    do r <- getline (seekg st part2) (uninit MAX_SATELLIT_CHARS) MAX_SATELLIT_CHARS;
    let '(st1, l1) := r in
    channel_loop SATELLIT_LINES st1 l1 svn eph errno.
End Bern.
