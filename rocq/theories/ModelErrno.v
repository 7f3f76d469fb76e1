(** ModelErrno: the observation reader of ModelObsRnx with errno, obsrnx.cpp. The reader only asks whether
    errno is zero, so the state is one boolean: [e] = errno is not zero. Library calls never clear errno;
    strtol, strtod and strtof set it to ERANGE; std::ifstream, the output streams, the standard containers and the
    calendar library are taken to leave it alone. Everything else is as in ModelObsRnx. *)
From Verif Require Import Base CNum Stream ModelSatsys ModelObs ModelNvarstr ModelSatellite ModelAntenna ModelObsRnx.
Local Open Scope list_scope.

(** obsrnx.cpp:55-70 RawRnxObs__::resolve *)
Definition raw_resolve_e (r : rawrnx) (str : mem) (e : bool) : outcome (Z * rawrnx * bool) :=
  do b <- string_is_empty str 0 (Some 14);
  if b then Val (0%Z, mkRawRnx (Some MISSING) (rlli r) (rssi r), e)
  else
    do s <- cstr str 0;
    let '(v, n, er) := strtod s in
    let e1 := e || er in
    if e1 || (n =? 0) then Val (1%Z, mkRawRnx (Some v) (rlli r) (rssi r), false)
    else
      do c14 <- rd str 14;
      do c15 <- rd str 15;
      let dig c := if ceqb c " "%char then 0%Z else (zchar c - 48)%Z in
      Val (0%Z, mkRawRnx (Some v) (Some (dig c14)) (Some (dig c15)), e1).

(** obsrnx.cpp:286-343 __resolve_obstypes_304__ *)
Definition resolve_obstypes_e (t : smap (list obscode)) (st : stream) (cline : mem) (e : bool)
  : outcome (Z * smap (list obscode) * stream * bool) :=
  noexcept (
    do line <- memcpy (uninit MAX_HEADER_CHARS) 0 cline 0 MAX_HEADER_CHARS;
    do c0 <- rd line 0;
    do sys <- char_to_satsys c0;
    match t sys with
    | Some _ => Val (1%Z, t, st, e)
    | None =>
        do s <- cstr line 3;
        let '(v, n, er) := strtol s in
        let obsnum := to_i32 v in
        let e1 := e || er in
        if e1 || (n =? 0) then Val (2%Z, t, st, false)
        else
          do r <- obstypes_loop (Z.to_nat (Z.max 1 obsnum)) st line 0 [];
          let '(st', res) := r in
          match res with
          | inl code => Val (code, t, st', e1)
          | inr obsvec =>
              if (Z.of_nat (length obsvec) =? obsnum mod 18446744073709551616)%Z
              then Val (0%Z, smap_set t sys obsvec, st', e1)
              else Val (9%Z, t, st', e1)
          end
    end).

(** obsrnx.cpp:197-255: a header line. The lines that involve no number leave errno alone and are those of [hdr_line].
    APPROX POSITION XYZ and ANTENNA: DELTA H/E/N (215-228) return 51 and 52 without clearing errno. *)
Definition hdr_line_e (strp : list ascii -> option Z) (h : obshdr) (st : stream) (line : mem) (e : bool)
  : outcome (Z * obshdr * stream * bool) :=
  let plain := do r <- hdr_line strp h st line; Val (r, e) in
  do b1 <- strncmp_lit line 60 "MARKER NAME" 11;
  if b1 then plain else
  do b2 <- strncmp_lit line 60 "MARKER NUMBER" 13;
  if b2 then plain else
  do b3 <- strncmp_lit line 60 "REC # / TYPE / VERS" 19;
  if b3 then plain else
  do b4 <- strncmp_lit line 60 "ANT # / TYPE" 12;
  if b4 then plain else
  do b5 <- strncmp_lit line 60 "APPROX POSITION XYZ" 19;
  if b5 then
    do r <- char2double line 0 3 14 e;
    let '(ok, vs, e1) := r in
    if negb ok then Val (51%Z, h, st, e1)
    else Val (0%Z, mkHdr (h_version h) (h_sys h) (h_name h) (h_number h) (h_rnumber h) (h_rtype h) (h_ant h)
                    vs (h_ecc h) (h_rcvoff h) (h_start h) (h_tbl h), st, e1)
  else
  do b6 <- strncmp_lit line 60 "ANTENNA: DELTA H/E/N" 20;
  if b6 then
    do r <- char2double line 0 3 14 e;
    let '(ok, vs, e1) := r in
    if negb ok then Val (52%Z, h, st, e1)
    else Val (0%Z, mkHdr (h_version h) (h_sys h) (h_name h) (h_number h) (h_rnumber h) (h_rtype h) (h_ant h)
                    (h_approx h) vs (h_rcvoff h) (h_start h) (h_tbl h), st, e1)
  else
  do b7 <- strncmp_lit line 60 "SYS / # / OBS TYPES" 19;
  if b7 then
    do r <- resolve_obstypes_e (h_tbl h) st line e;
    let '(code, t, st', e1) := r in
    Val (code, mkHdr (h_version h) (h_sys h) (h_name h) (h_number h) (h_rnumber h) (h_rtype h) (h_ant h)
                    (h_approx h) (h_ecc h) (h_rcvoff h) (h_start h) t, st', e1)
  else
  do b8 <- strncmp_lit line 60 "RCV CLOCK OFFS APPL" 19;
  if b8 then
    do s <- cstr line 0;
    let '(v, n, er) := strtol s in
    let i := to_i32 v in
    let e1 := e || er in
    if (e1 || (n =? 3)) || (negb (i =? 0)%Z && negb (i =? 1)%Z) then Val (60%Z, h, st, false)
    else Val (0%Z, mkHdr (h_version h) (h_sys h) (h_name h) (h_number h) (h_rnumber h) (h_rtype h) (h_ant h)
                    (h_approx h) (h_ecc h) (negb (i =? 0)%Z) (h_start h) (h_tbl h), st, e1)
  else plain.

(** obsrnx.cpp:190-260 *)
Fixpoint hdr_loop_e (strp : list ascii -> option Z) (k : nat) (h : obshdr) (st : stream) (line : mem) (e : bool)
  : outcome (Z * obshdr * stream * bool) :=
  match k with
  | O => Val (20%Z, h, st, e)
  | S k' =>
      do eoh <- strncmp_lit line 60 "END OF HEADER" 13;
      if eoh then Val (0%Z, h, st, e)
      else
        do sl <- getline st line MAX_HEADER_CHARS;
        let '(st1, line1) := sl in
        do r <- hdr_line_e strp h st1 line1 e;
        let '(code, h', st2, e1) := r in
        if negb (code =? 0)%Z then Val (code, h', st2, e1)
        else hdr_loop_e strp k' h' st2 line1 e1
  end.

(** strtof: ERANGE outside the range of float, obsrnx.cpp:176 *)
Definition strtof_range (s : list ascii) : bool := snd (strtof s).

(** obsrnx.cpp:163-267 read_header *)
Definition read_header_e (strp : list ascii -> option Z) (h : obshdr) (st0 : stream) (e : bool)
  : outcome (Z * obshdr * option nat * stream * bool) :=
  noexcept (
    let st1 := seekg st0 (Some 0) in
    do sl <- getline st1 (uninit MAX_HEADER_CHARS) MAX_HEADER_CHARS;
    let '(st2, line) := sl in
    do s <- cstr line 0;
    let '(v, n, er) := strtof s in
    let e1 := e || er in
    if n =? 0 then Val (10%Z, h, Some 0, st2, e1)
    else
      do c20 <- rd line 20;
      if negb (ceqb c20 "O"%char) then Val (11%Z, h, Some 0, st2, e1)
      else
        do c40 <- rd line 40;
        match char_to_satsys c40 with
        | Val sys =>
            let h1 := mkHdr v sys (h_name h) (h_number h) (h_rnumber h) (h_rtype h) (h_ant h)
                        (h_approx h) (h_ecc h) (h_rcvoff h) (h_start h) (h_tbl h) in
            do sl2 <- getline st2 line MAX_HEADER_CHARS;
            let '(st3, line2) := sl2 in
            do r <- hdr_loop_e strp MAX_HEADER_LINES h1 st3 line2 e1;
            let '(code, h2, st4, e2) := r in
            if negb (code =? 0)%Z then Val (code, h2, Some 0, st4, e2)
            else let (st5, p) := tellg st4 in Val (0%Z, h2, p, st5, e2)
        | Exn => Val (12%Z, h, Some 0, st2, e1)
        | Term => Term | UB => UB | Fuel => Fuel
        end).

(** obsrnx.cpp:80-94 the constructor: None when it throws; errno afterwards *)
Definition obs_open_e (strp : list ascii -> option Z) (d : list ascii) (e : bool) : outcome (option obsfile * bool) :=
  do h0 <- hdr_init;
  do r <- read_header_e strp h0 (open_stream d) e;
  let '(code, h, p, st, e1) := r in
  if negb (code =? 0)%Z then Val (None, e1)
  else
    let sz := max_obs (h_tbl h) * 16 + 4 in
    Val (Some (mkObsFile st h p (uninit sz) sz), e1).

(** obsrnx.cpp:380-392 *)
Fixpoint epoch_ints_e (k : nat) (m : mem) (start : nat) (e : bool) : outcome (option (list Z * nat) * bool) :=
  match k with
  | O => Val (Some ([], start), e)
  | S k' =>
      do s <- cstr m start;
      let '(v, n, er) := strtol s in
      let e1 := e || er in
      if e1 || (n =? 0) then Val (None, false)
      else
        do r <- epoch_ints_e k' m (start + n + 1) e1;
        match r with
        | (None, e2) => Val (None, e2)
        | (Some (l, x), e2) => Val (Some (to_i32 v :: l, x), e2)
        end
  end.

(** obsrnx.cpp:361-438 __resolve_epoch_304__ *)
Definition resolve_epoch_e (m : mem) (e : bool) : outcome (Z * option epochhdr * bool) :=
  do line <- cstr m 0;
  let lnlen := length line in
  do c0 <- rd m 0;
  if negb (ceqb c0 ">"%char) || (lnlen <? 35) then Val (1%Z, None, e)
  else
    do r <- epoch_ints_e 5 m 2 e;
    match r with
    | (None, e1) => Val (2%Z, None, e1)
    | (Some (ints, start), e1) =>
        do s <- cstr m start;
        let '(rsec, n, er) := strtod s in
        let e2 := e1 || er in
        if e2 || (n =? 0) then Val (3%Z, None, false)
        else
          let hh := nth 3 ints 0%Z in
          let mi := nth 4 ints 0%Z in
          let sec := dadd (DFin (inject_Z ((hh * 60 + mi) * 60))) rsec in
          do c31 <- rd m 31;
          let flag := (zchar c31 - 48)%Z in
          do s2 <- cstr m 32;
          let '(v2, n2, er2) := strtol s2 in
          let nsats := to_i32 v2 in
          let end2 := 32 + n2 in
          let e3 := e2 || er2 in
          if e3 || (start =? end2) then Val (4%Z, None, false)
          else if 41 <? lnlen then
            do b <- string_is_empty m 41 None;
            if b then
              if e3 || (start =? end2) then Val (5%Z, None, false)
              else Val (0%Z, Some (mkEpoch ints sec flag nsats (Some (DFin 0))), e3)
            else
              do s3 <- cstr m 41;
              let '(v3, n3, er3) := strtod s3 in
              let e4 := e3 || er3 in
              if e4 || (start =? 41 + n3) then Val (5%Z, None, false)
              else Val (0%Z, Some (mkEpoch ints sec flag nsats (Some v3)), e4)
          else Val (0%Z, Some (mkEpoch ints sec flag nsats None), e3)
    end.

(** obsrnx.cpp:773-789 *)
Fixpoint collect_pairs_e (buf : mem) (len : nat) (prs : vecof_idpair) (raw : rawrnx) (tbuf : mem)
    (status : Z) (obsval : cdbl) (e : bool) : outcome (option (rawrnx * mem * Z * cdbl) * bool) :=
  match prs with
  | [] => Val (Some (raw, tbuf, status, obsval), e)
  | (col, coef) :: r =>
      let idx := col * 16 + 3 in
      if idx + 16 <=? len then
        do tbuf' <- memcpy tbuf 0 buf idx 16;
        do rr <- raw_resolve_e raw tbuf' e;
        let '(c, raw', e1) := rr in
        if negb (c =? 0)%Z then Val (None, e1)
        else
          let v := match rv raw' with Some x => x | None => DNan end in
          if negb (deq v MISSING)
          then collect_pairs_e buf len r raw' tbuf' status (dadd obsval (dmul v coef)) e1
          else collect_pairs_e buf len r raw' tbuf' (status - 1)%Z MISSING e1
      else collect_pairs_e buf len r (mkRawRnx (Some MISSING) (rlli raw) (rssi raw)) tbuf status MISSING e
  end.

(** obsrnx.cpp:769-794 *)
Fixpoint collect_obs_e (buf : mem) (len : nat) (sysobs : list vecof_idpair) (raw : rawrnx) (tbuf : mem)
    (status : Z) (k : nat) (vals : list cdbl) (e : bool) : outcome (Z * list cdbl * bool) :=
  match sysobs with
  | [] => Val (status, vals, e)
  | prs :: r =>
      do x <- collect_pairs_e buf len prs raw tbuf status (DFin 0) e;
      match x with
      | (None, e1) => Val (2%Z, vals, e1)
      | (Some (raw', tbuf', status', v), e1) =>
          do vals' <- vset vals k v;
          collect_obs_e buf len r raw' tbuf' status' (S k) vals' e1
      end
  end.

(** obsrnx.cpp:752-795 sat_epoch_collect (code 1 does not clear errno) *)
Definition sat_epoch_collect_e (buf : mem) (sysobs : list vecof_idpair) (vals : list cdbl) (e : bool)
  : outcome (Z * Z * list cdbl * bool) :=
  do tb0 <- memset (uninit 17) 0 NUL 17;
  do tbuf <- memcpy tb0 0 buf 1 2;
  do s <- cstr tbuf 0;
  let '(v, n, er) := strtol s in
  let prn := to_i32 v in
  let e1 := e || er in
  if (e1 || (n =? 0)) || ((prn <? 1)%Z || (prn >? 99)%Z) then Val (1%Z, prn, vals, e1)
  else
    do len <- strlen buf 0;
    do r <- collect_obs_e buf len sysobs raw_new tbuf 0 0 vals e1;
    let '(code, vals', e2) := r in
    Val (code, prn, vals', e2).

(** obsrnx.cpp:855-883 *)
Fixpoint collect_loop_e (k : nat) (mmap : smap (list vecof_idpair)) (st : stream) (buf : mem)
    (bufsz : nat) (out : list satentry) (pos : nat) (e : bool)
  : outcome (Z * nat * list satentry * stream * mem * bool) :=
  match k with
  | O => Val (0%Z, pos, out, st, buf, e)
  | S k' =>
      do sl <- getline st buf bufsz;
      let '(st1, buf1) := sl in
      do c0 <- rd buf1 0;
      match char_to_satsys c0 with
      | Val s =>
          match mmap s with
          | None => collect_loop_e k' mmap st1 buf1 bufsz out pos e
          | Some sysobs =>
              match nth_error out pos with
              | None => UB
              | Some (sat, vals) =>
                  do r <- sat_epoch_collect_e buf1 sysobs vals e;
                  let '(code, prn, vals', e1) := r in
                  if (code >? 0)%Z then Val (1%Z, pos, entry_set out pos (sat, vals'), st1, buf1, e1)
                  else collect_loop_e k' mmap st1 buf1 bufsz
                         (entry_set out pos (new_satellite s prn, vals')) (S pos) e1
              end
          end
      | Exn => Val (1%Z, pos, out, st1, buf1, e)
      | Term => Term | UB => UB | Fuel => Fuel
      end
  end.

(** obsrnx.cpp:932-956 read_next_epoch *)
Definition read_next_epoch_e (o : obsfile) (mmap : smap (list vecof_idpair)) (out : list satentry) (e : bool)
  : outcome (epochres * bool) :=
  let upd st buf := mkObsFile st (o_hdr o) (o_eoh o) buf (o_bufsz o) in
  let tail st buf out' n h e' :=
    if seof st then Val (mkRes (-1)%Z (upd (sclear st) buf) out' n h, e')
    else Val (mkRes 0%Z (upd st buf) out' n h, e') in
  let (st0, c) := peek (o_stream o) in
  match c with
  | Some ch =>
      do sl <- getline st0 (o_buf o) (o_bufsz o);
      let '(st1, buf1) := sl in
      do r <- resolve_epoch_e buf1 e;
      let '(j, hdr, e1) := r in
      match hdr with
      | None => Val (mkRes (20 + j)%Z (upd st1 buf1) out 0 None, e1)
      | Some h =>
          do q <- collect_loop_e (Z.to_nat (e_nsats h)) mmap st1 buf1 (o_bufsz o) out 0 e1;
          let '(j2, n, out', st2, buf2, e2) := q in
          if negb (j2 =? 0)%Z then Val (mkRes (30 + j2)%Z (upd st2 buf2) out' n (Some h), e2)
          else tail st2 buf2 out' n (Some h) e2
      end
  | None => tail st0 (o_buf o) out 0 None e
  end.
