(** ModelObsRnx: /repo/src/obsrnx.hpp, obsrnx.cpp (class ObservationRnx).
    Simplifications common to the file: diagnostics printed to cerr/cout are left out; errno is 0
    at entry (every function resets it on its error paths); doubles are rounded (CNum, B64); std::map keyed by
    system is a function from systems, visited in enum order; the file is open. *)
From Verif Require Import Base CNum Stream ModelSatsys ModelObs ModelNvarstr ModelSatellite
  ModelAntenna.

(** std::map<SATELLITE_SYSTEM, A>; satsys.hpp:53-62 gives the key order. *)
Definition smap (A : Type) := satsys -> option A.
Definition smap_empty {A} : smap A := fun _ => None.
Definition smap_set {A} (m : smap A) (k : satsys) (a : A) : smap A :=
  fun x => if satsys_eqb x k then Some a else m x.
Definition all_satsys : list satsys :=
  [Gps; Glonass; Sbas; Galileo; Beidou; Qzss; Irnss; Mixed].

(** obsrnx.cpp:14-22 *)
Definition MAX_HEADER_CHARS : nat := 85.
Definition MAX_HEADER_LINES : nat := 1000.
Definition MAX_SAT_IN_EPOCH : nat := 80.

(** obsrnx.hpp:19 RNXOBS_MISSING_VAL, -999.990e0 *)
Definition MISSING : cdbl := DFin (b64 (-99999 # 100)).

(** obsrnx.hpp:22-29 struct RawRnxObs__; [None]: not yet assigned. *)
Record rawrnx := mkRawRnx { rv : option cdbl; rlli : option Z; rssi : option Z }.
Definition raw_new : rawrnx := mkRawRnx None None None.

(** obsrnx.cpp:55-70 RawRnxObs__::resolve: (return value, object). *)
Definition raw_resolve (r : rawrnx) (str : mem) : outcome (Z * rawrnx) :=
  do e <- string_is_empty str 0 (Some 14);
  if e then Val (0%Z, mkRawRnx (Some MISSING) (rlli r) (rssi r))
  else
    do s <- cstr str 0;
    let '(v, n, er) := strtod s in
    if er || (n =? 0) then Val (1%Z, mkRawRnx (Some v) (rlli r) (rssi r))
    else
      do c14 <- rd str 14;
      do c15 <- rd str 15;
      let dig c := if ceqb c " "%char then 0%Z else (zchar c - 48)%Z in
      Val (0%Z, mkRawRnx (Some v) (Some (dig c14)) (Some (dig c15))).

(** obsrnx.cpp:127-142 max_obs (the int result; sizes assumed to fit). *)
Definition max_obs (t : smap (list obscode)) : nat :=
  fold_left (fun mx k => match t k with
                         | Some v => if mx <? length v then length v else mx
                         | None => mx
                         end) all_satsys 0.

(** ** The header *)

(** obsrnx.cpp:308-335: the do-while loop, [left] = iterations still to run
    (max(1, obsnum) in total).  Result: error code or the vector. *)
Fixpoint obstypes_loop (left : nat) (st : stream) (line : mem) (resolved : nat)
    (obsvec : list obscode) : outcome (stream * (Z + list obscode)) :=
  match left with
  | O => Val (st, inr obsvec)
  | S left' =>
      match obscode_of_cstr line (7 + resolved * 4) with
      | Exn => Val (st, inl 3%Z)
      | Val c =>
          let obsvec' := obsvec ++ [c] in
          if S resolved =? 13 then
            do sl <- getline st line MAX_HEADER_CHARS;
            let '(st', line') := sl in
            do same <- strncmp_lit line' 60 "SYS / # / OBS TYPES" 19;
            if negb same then Val (st', inl 4%Z)
            else obstypes_loop left' st' line' 0 obsvec'
          else obstypes_loop left' st line (S resolved) obsvec'
      | Term => Term | UB => UB | Fuel => Fuel
      end
  end.

(** obsrnx.cpp:286-343 __resolve_obstypes_304__ (noexcept; char_to_satsys may throw). *)
Definition resolve_obstypes (t : smap (list obscode)) (st : stream) (cline : mem)
  : outcome (Z * smap (list obscode) * stream) :=
  noexcept (
    do line <- memcpy (uninit MAX_HEADER_CHARS) 0 cline 0 MAX_HEADER_CHARS;
    do c0 <- rd line 0;
    do sys <- char_to_satsys c0;
    match t sys with
    | Some _ => Val (1%Z, t, st)
    | None =>
        do s <- cstr line 3;
        let '(v, n, er) := strtol s in
        let obsnum := to_i32 v in
        if er || (n =? 0) then Val (2%Z, t, st)
        else
          do r <- obstypes_loop (Z.to_nat (Z.max 1 obsnum)) st line 0 [];
          let '(st', res) := r in
          match res with
          | inl code => Val (code, t, st')
          | inr obsvec =>
              (* obsvec.size() == (std::size_t)obsnum *)
              if (Z.of_nat (length obsvec) =? obsnum mod 18446744073709551616)%Z
              then Val (0%Z, smap_set t sys obsvec, st')
              else Val (9%Z, t, st')
          end
    end).

(** obsrnx.hpp:142-168: the data members set by read_header.  __epoch_start is the external
    type ngpt::datetime; it is represented by an opaque integer. *)
Record obshdr := mkHdr {
  h_version : cdbl;
  h_sys : satsys;
  h_name : list ascii;
  h_number : list ascii;
  h_rnumber : list ascii;
  h_rtype : list ascii;
  h_ant : mem;
  h_approx : list cdbl;
  h_ecc : list cdbl;
  h_rcvoff : bool;
  h_start : option Z;
  h_tbl : smap (list obscode)
}.

(** obsrnx.cpp:80-82 and the default member initialisers. *)
Definition hdr_init : outcome obshdr :=
  do a <- ant_default;
  Val (mkHdr (DFin 0) Mixed [] [] [] [] a [DFin 0; DFin 0; DFin 0] [DFin 0; DFin 0; DFin 0]
             false None smap_empty).

(** One dispatched header line, obsrnx.cpp:197-255.  [strp] is
    ngpt::strptime_ymd_hms<microseconds> of the external library ggdatetime: [None] when it throws
    std::invalid_argument (other exceptions are not modelled).  Result: (return code or 0 to go on,
    header, stream). *)
Definition hdr_line (strp : list ascii -> option Z) (h : obshdr) (st : stream) (line : mem)
  : outcome (Z * obshdr * stream) :=
  do b1 <- strncmp_lit line 60 "MARKER NAME" 11;
  if b1 then
    do r <- rtrim_start line 0 (Some 60);
    Val (0%Z, mkHdr (h_version h) (h_sys h) (fst r) (h_number h) (h_rnumber h) (h_rtype h) (h_ant h)
                    (h_approx h) (h_ecc h) (h_rcvoff h) (h_start h) (h_tbl h), st)
  else
  do b2 <- strncmp_lit line 60 "MARKER NUMBER" 13;
  if b2 then
    do r <- rtrim_start line 0 (Some 20);
    Val (0%Z, mkHdr (h_version h) (h_sys h) (h_name h) (fst r) (h_rnumber h) (h_rtype h) (h_ant h)
                    (h_approx h) (h_ecc h) (h_rcvoff h) (h_start h) (h_tbl h), st)
  else
  do b3 <- strncmp_lit line 60 "REC # / TYPE / VERS" 19;
  if b3 then
    do r <- rtrim_start line 0 (Some 20);
    do q <- rtrim_start line 20 (Some 20);
    Val (0%Z, mkHdr (h_version h) (h_sys h) (h_name h) (h_number h) (fst r) (fst q) (h_ant h)
                    (h_approx h) (h_ecc h) (h_rcvoff h) (h_start h) (h_tbl h), st)
  else
  do b4 <- strncmp_lit line 60 "ANT # / TYPE" 12;
  if b4 then
    do q <- rtrim_start line 20 (Some 20);
    do ant <- ant_of_cstr (cbuf (fst q)) 0;
    do e <- string_is_empty line 0 (Some 20);
    do ant' <- (if negb e then set_serial_nr ant line 0 else Val ant);
    Val (0%Z, mkHdr (h_version h) (h_sys h) (h_name h) (h_number h) (h_rnumber h) (h_rtype h) ant'
                    (h_approx h) (h_ecc h) (h_rcvoff h) (h_start h) (h_tbl h), st)
  else
  do b5 <- strncmp_lit line 60 "APPROX POSITION XYZ" 19;
  if b5 then
    do r <- char2double line 0 3 14 false;
    let '(ok, vs, _) := r in
    if negb ok then Val (51%Z, h, st)
    else Val (0%Z, mkHdr (h_version h) (h_sys h) (h_name h) (h_number h) (h_rnumber h) (h_rtype h) (h_ant h)
                    vs (h_ecc h) (h_rcvoff h) (h_start h) (h_tbl h), st)
  else
  do b6 <- strncmp_lit line 60 "ANTENNA: DELTA H/E/N" 20;
  if b6 then
    do r <- char2double line 0 3 14 false;
    let '(ok, vs, _) := r in
    if negb ok then Val (52%Z, h, st)
    else Val (0%Z, mkHdr (h_version h) (h_sys h) (h_name h) (h_number h) (h_rnumber h) (h_rtype h) (h_ant h)
                    (h_approx h) vs (h_rcvoff h) (h_start h) (h_tbl h), st)
  else
  do b7 <- strncmp_lit line 60 "SYS / # / OBS TYPES" 19;
  if b7 then
    do r <- resolve_obstypes (h_tbl h) st line;
    let '(code, t, st') := r in
    Val (code, mkHdr (h_version h) (h_sys h) (h_name h) (h_number h) (h_rnumber h) (h_rtype h) (h_ant h)
                    (h_approx h) (h_ecc h) (h_rcvoff h) (h_start h) t, st')
  else
  do b8 <- strncmp_lit line 60 "RCV CLOCK OFFS APPL" 19;
  if b8 then
    do s <- cstr line 0;
    let '(v, n, er) := strtol s in
    let i := to_i32 v in
    (* the second test compares the end pointer with line + 3 *)
    if (er || (n =? 3)) || (negb (i =? 0)%Z && negb (i =? 1)%Z) then Val (60%Z, h, st)
    else Val (0%Z, mkHdr (h_version h) (h_sys h) (h_name h) (h_number h) (h_rnumber h) (h_rtype h) (h_ant h)
                    (h_approx h) (h_ecc h) (negb (i =? 0)%Z) (h_start h) (h_tbl h), st)
  else
  do b9 <- strncmp_lit line 60 "TIME OF FIRST OBS" 17;
  if b9 then
    do s <- cstr line 0;
    match strp s with
    | None => Val (61%Z, h, st)
    | Some d => Val (0%Z, mkHdr (h_version h) (h_sys h) (h_name h) (h_number h) (h_rnumber h) (h_rtype h) (h_ant h)
                    (h_approx h) (h_ecc h) (h_rcvoff h) (Some d) (h_tbl h), st)
    end
  else Val (0%Z, h, st).

(** obsrnx.cpp:190-260: the header loop; [k] = MAX_HEADER_LINES - dummy_it. *)
Fixpoint hdr_loop (strp : list ascii -> option Z) (k : nat) (h : obshdr) (st : stream) (line : mem)
  : outcome (Z * obshdr * stream) :=
  match k with
  | O => Val (20%Z, h, st)                      (* dummy_it >= MAX_HEADER_LINES *)
  | S k' =>
      do eoh <- strncmp_lit line 60 "END OF HEADER" 13;
      if eoh then Val (0%Z, h, st)
      else
        do sl <- getline st line MAX_HEADER_CHARS;
        let '(st1, line1) := sl in
        do r <- hdr_line strp h st1 line1;
        let '(code, h', st2) := r in
        if negb (code =? 0)%Z then Val (code, h', st2)
        else hdr_loop strp k' h' st2 line1
  end.

(** obsrnx.cpp:163-267 read_header: (return code, header, end of head, stream). *)
Definition read_header (strp : list ascii -> option Z) (h : obshdr) (st0 : stream)
  : outcome (Z * obshdr * option nat * stream) :=
  noexcept (
    let st1 := seekg st0 (Some 0) in
    do sl <- getline st1 (uninit MAX_HEADER_CHARS) MAX_HEADER_CHARS;
    let '(st2, line) := sl in
    do s <- cstr line 0;
    let '(v, n, _) := strtof s in
    if n =? 0 then Val (10%Z, h, Some 0, st2)
    else
      do c20 <- rd line 20;
      if negb (ceqb c20 "O"%char) then Val (11%Z, h, Some 0, st2)
      else
        do c40 <- rd line 40;
        match char_to_satsys c40 with
        | Val sys =>
            let h1 := mkHdr v sys (h_name h) (h_number h) (h_rnumber h) (h_rtype h) (h_ant h)
                        (h_approx h) (h_ecc h) (h_rcvoff h) (h_start h) (h_tbl h) in
            do sl2 <- getline st2 line MAX_HEADER_CHARS;
            let '(st3, line2) := sl2 in
            do r <- hdr_loop strp MAX_HEADER_LINES h1 st3 line2;
            let '(code, h2, st4) := r in
            if negb (code =? 0)%Z then Val (code, h2, Some 0, st4)
            else let (st5, p) := tellg st4 in Val (0%Z, h2, p, st5)
        | Exn => Val (12%Z, h, Some 0, st2)
        | Term => Term | UB => UB | Fuel => Fuel
        end).

(** obsrnx.hpp:142-174 the object after construction. *)
Record obsfile := mkObsFile {
  o_stream : stream;
  o_hdr : obshdr;
  o_eoh : option nat;
  o_buf : mem;
  o_bufsz : nat
}.

(** obsrnx.cpp:80-94 the constructor, on a file with content [d] that opens. *)
Definition obs_open (strp : list ascii -> option Z) (d : list ascii) : outcome obsfile :=
  do h0 <- hdr_init;
  do r <- read_header strp h0 (open_stream d);
  let '(code, h, p, st) := r in
  if negb (code =? 0)%Z then Exn
  else
    let sz := max_obs (h_tbl h) * 16 + 4 in
    Val (mkObsFile st h p (uninit sz) sz).

(** obsrnx.hpp:60 rewind. *)
Definition obs_rewind (o : obsfile) : obsfile :=
  mkObsFile (seekg (o_stream o) (o_eoh o)) (o_hdr o) (o_eoh o) (o_buf o) (o_bufsz o).

(** ** Epoch header *)
(** obsrnx.hpp:119-121: the output parameters *)
Record epochhdr := mkEpoch {
  e_ints : list Z;        (* year, month, day, hour, minute *)
  e_sec : cdbl;           (* seconds of day *)
  e_flag : Z;
  e_nsats : Z;
  e_coff : option cdbl    (* None: output parameter not assigned *)
}.

(** obsrnx.cpp:380-392: reading the five integers; [start] is an offset into the buffer.
    (values in order, start after the loop), or None for return code 2. *)
Fixpoint epoch_ints (k : nat) (m : mem) (start : nat) : outcome (option (list Z * nat)) :=
  match k with
  | O => Val (Some ([], start))
  | S k' =>
      do s <- cstr m start;
      let '(v, n, er) := strtol s in
      if er || (n =? 0) then Val None
      else
        do r <- epoch_ints k' m (start + n + 1);
        match r with
        | None => Val None
        | Some (l, e) => Val (Some (to_i32 v :: l, e))
        end
  end.

(** obsrnx.cpp:361-438 __resolve_epoch_304__: return code 0 with the values, or the code.
    The modified julian day is computed by the external library from the first three integers;
    the model keeps the integers.  (int arithmetic on hours and minutes is done in double.)
    The codes 4 and 5 test start == end with start still at the seconds field: [end] is then at
    or after column 32 (or the unchanged end of the previous conversion), hence never equal unless
    the seconds field starts there; the comparison is modelled with offsets. *)
Definition resolve_epoch (m : mem) : outcome (Z * option epochhdr) :=
  do line <- cstr m 0;
  let lnlen := length line in
  do c0 <- rd m 0;
  if negb (ceqb c0 ">"%char) || (lnlen <? 35) then Val (1%Z, None)
  else
    do r <- epoch_ints 5 m 2;
    match r with
    | None => Val (2%Z, None)
    | Some (ints, start) =>
        do s <- cstr m start;
        let '(rsec, n, er) := strtod s in
        if er || (n =? 0) then Val (3%Z, None)
        else
          let hh := nth 3 ints 0%Z in
          let mi := nth 4 ints 0%Z in
          let sec := dadd (DFin (inject_Z ((hh * 60 + mi) * 60))) rsec in
          do c31 <- rd m 31;
          let flag := (zchar c31 - 48)%Z in
          do s2 <- cstr m 32;
          let '(v2, n2, er2) := strtol s2 in
          let nsats := to_i32 v2 in
          let end2 := 32 + n2 in
          if er2 || (start =? end2) then Val (4%Z, None)
          else if 41 <? lnlen then
            do e <- string_is_empty m 41 None;
            if e then
              if start =? end2 then Val (5%Z, None)
              else Val (0%Z, Some (mkEpoch ints sec flag nsats (Some (DFin 0))))
            else
              do s3 <- cstr m 41;
              let '(v3, n3, er3) := strtod s3 in
              if er3 || (start =? 41 + n3) then Val (5%Z, None)
              else Val (0%Z, Some (mkEpoch ints sec flag nsats (Some v3)))
          else Val (0%Z, Some (mkEpoch ints sec flag nsats None))
    end.

(** ** Read plan *)
(** obsrnx.hpp:32-33 *)
Definition idpair := (nat * cdbl)%type.
Definition vecof_idpair := list idpair.

(** std::find over the header codes, obsrnx.cpp:714-722. *)
Fixpoint find_code (l : list obscode) (c : obscode) : option nat :=
  match l with
  | [] => None
  | x :: r => if obscode_eqb x c then Some 0 else option_map S (find_code r c)
  end.

(** obsrnx.cpp:705-726: the loop over the parts: (pairs, status). *)
Fixpoint getter_loop (codes : list obscode) (sys : satsys) (v : list obspart) (ovec : vecof_idpair)
  : vecof_idpair * Z :=
  match v with
  | [] => (ovec, 0%Z)
  | p :: r =>
      if negb (satsys_eqb (rsys (ptype p)) sys) then ([], 1%Z)
      else match find_code codes (rcode (ptype p)) with
           | None => ([], (-2)%Z)
           | Some idx => getter_loop codes sys r (ovec ++ [(idx, pcoef p)])
           end
  end.

(** obsrnx.cpp:684-727 obs_getter: (vector, system, status); vec[0] of an empty vector is UB. *)
Definition obs_getter (t : smap (list obscode)) (o : observable) : outcome (vecof_idpair * satsys * Z) :=
  match o with
  | [] => UB
  | p0 :: _ =>
      let sys := rsys (ptype p0) in
      match t sys with
      | None => Val ([], sys, (-1)%Z)
      | Some codes => let (v, st) := getter_loop codes sys o [] in Val (v, sys, st)
      end
  end.

(** obsrnx.cpp:584-646: the inner loop for one key.  [kept] are the requests already passed over
    (still in the vector), [plan] the vectors emplaced for this key.  Result: (aborted, the request
    vector, the emplaced vectors).  All emplacements go to resmap[s] with s = key. *)
Fixpoint plan_requests (t : smap (list obscode)) (key : satsys) (skip : bool)
    (todo kept : list observable) (plan : list vecof_idpair)
  : outcome (bool * list observable * list vecof_idpair) :=
  match todo with
  | [] => Val (false, kept, plan)
  | o :: r =>
      do g <- obs_getter t o;
      let '(v, s, status) := g in
      if negb (satsys_eqb s key) || (0 <? status)%Z then Val (true, kept ++ o :: r, plan)
      else if (status =? 0)%Z then plan_requests t key skip r (kept ++ [o]) (plan ++ [v])
      else if skip then plan_requests t key skip r kept plan
      else Val (true, kept ++ o :: r, plan)
  end.

(** obsrnx.cpp:583-647: the outer loop over the keys of the request map. *)
Fixpoint plan_keys (t : smap (list obscode)) (skip : bool) (keys : list satsys)
    (inmap : smap (list observable)) (res : smap (list vecof_idpair))
  : outcome (bool * smap (list observable) * smap (list vecof_idpair)) :=
  match keys with
  | [] => Val (false, inmap, res)
  | k :: ks =>
      match inmap k with
      | None => plan_keys t skip ks inmap res
      | Some reqs =>
          do r <- plan_requests t k skip reqs [] [];
          let '(abort, reqs', plan) := r in
          let inmap' := smap_set inmap k reqs' in
          if abort then Val (true, inmap', smap_empty)
          else plan_keys t skip ks inmap'
                 (match plan with [] => res | _ => smap_set res k plan end)
      end
  end.

(** obsrnx.cpp:568-658 set_read_map: (plan, request map afterwards).  The final loop (649-656)
    erases keys with an empty vector; none exists because a key is created by emplacing. *)
Definition set_read_map (t : smap (list obscode)) (inmap : smap (list observable)) (skip : bool)
  : outcome (smap (list vecof_idpair) * smap (list observable)) :=
  do r <- plan_keys t skip all_satsys inmap smap_empty;
  let '(abort, inmap', res) := r in
  if abort then Val (smap_empty, inmap') else Val (res, inmap').

(** ** Satellite records *)

(** obsrnx.cpp:773-789 inner loop over the pairs of one observable: Some (raw, tbuf, status, value)
    or None for return code 2. *)
Fixpoint collect_pairs (buf : mem) (len : nat) (prs : vecof_idpair) (raw : rawrnx) (tbuf : mem)
    (status : Z) (obsval : cdbl) : outcome (option (rawrnx * mem * Z * cdbl)) :=
  match prs with
  | [] => Val (Some (raw, tbuf, status, obsval))
  | (col, coef) :: r =>
      let idx := col * 16 + 3 in
      if idx + 16 <=? len then
        do tbuf' <- memcpy tbuf 0 buf idx 16;
        do rr <- raw_resolve raw tbuf';
        let '(e, raw') := rr in
        if negb (e =? 0)%Z then Val None
        else
          let v := match rv raw' with Some x => x | None => DNan end in
          if negb (deq v MISSING)
          then collect_pairs buf len r raw' tbuf' status (dadd obsval (dmul v coef))
          else collect_pairs buf len r raw' tbuf' (status - 1)%Z MISSING
      else collect_pairs buf len r (mkRawRnx (Some MISSING) (rlli raw) (rssi raw)) tbuf status MISSING
  end.

(** obsrnx.cpp:790: vals[k] = x: UB outside the vector. *)
Definition vset (l : list cdbl) (k : nat) (x : cdbl) : outcome (list cdbl) :=
  if k <? length l then Val (firstn k l ++ x :: skipn (S k) l) else UB.

(** obsrnx.cpp:769-794 loop over the observables: (return code, vals). *)
Fixpoint collect_obs (buf : mem) (len : nat) (sysobs : list vecof_idpair) (raw : rawrnx) (tbuf : mem)
    (status : Z) (k : nat) (vals : list cdbl) : outcome (Z * list cdbl) :=
  match sysobs with
  | [] => Val (status, vals)
  | prs :: r =>
      do x <- collect_pairs buf len prs raw tbuf status (DFin 0);
      match x with
      | None => Val (2%Z, vals)
      | Some (raw', tbuf', status', v) =>
          do vals' <- vset vals k v;
          collect_obs buf len r raw' tbuf' status' (S k) vals'
      end
  end.

(** obsrnx.cpp:752-795 sat_epoch_collect: (return code, prn, vals). *)
Definition sat_epoch_collect (buf : mem) (sysobs : list vecof_idpair) (vals : list cdbl)
  : outcome (Z * Z * list cdbl) :=
  do tb0 <- memset (uninit 17) 0 NUL 17;
  do tbuf <- memcpy tb0 0 buf 1 2;
  do s <- cstr tbuf 0;
  let '(v, n, er) := strtol s in
  let prn := to_i32 v in
  if (er || (n =? 0)) || ((prn <? 1)%Z || (prn >? 99)%Z) then Val (1%Z, prn, vals)
  else
    do len <- strlen buf 0;
    do r <- collect_obs buf len sysobs raw_new tbuf 0 0 vals;
    let '(code, vals') := r in
    Val (code, prn, vals').

(** obsrnx.hpp:109: an element of the output vector *)
Definition satentry := (satellite * list cdbl)%type.

(** obsrnx.cpp:875-878: assignment through ovec_it *)
Definition entry_set (l : list satentry) (k : nat) (x : satentry) : list satentry :=
  firstn k l ++ x :: skipn (S k) l.

(** obsrnx.cpp:855-883: the loop, [k] lines still to read: (code, sats, output, stream, buffer).
    Dereferencing ovec_it past the end is UB. *)
Fixpoint collect_loop (k : nat) (mmap : smap (list vecof_idpair)) (st : stream) (buf : mem)
    (bufsz : nat) (out : list satentry) (pos : nat)
  : outcome (Z * nat * list satentry * stream * mem) :=
  match k with
  | O => Val (0%Z, pos, out, st, buf)
  | S k' =>
      do sl <- getline st buf bufsz;
      let '(st1, buf1) := sl in
      do c0 <- rd buf1 0;
      match char_to_satsys c0 with
      | Val s =>
          match mmap s with
          | None => collect_loop k' mmap st1 buf1 bufsz out pos
          | Some sysobs =>
              match nth_error out pos with
              | None => UB
              | Some (sat, vals) =>
                  do r <- sat_epoch_collect buf1 sysobs vals;
                  let '(code, prn, vals') := r in
                  if (code >? 0)%Z then Val (1%Z, pos, entry_set out pos (sat, vals'), st1, buf1)
                  else collect_loop k' mmap st1 buf1 bufsz
                         (entry_set out pos (new_satellite s prn, vals')) (S pos)
              end
          end
      | Exn => Val (1%Z, pos, out, st1, buf1)
      | Term => Term | UB => UB | Fuel => Fuel
      end
  end.

(** obsrnx.cpp:839-885 collect_epoch. *)
Definition collect_epoch (numsats : Z) (mmap : smap (list vecof_idpair)) (st : stream) (buf : mem)
    (bufsz : nat) (out : list satentry) : outcome (Z * nat * list satentry * stream * mem) :=
  collect_loop (Z.to_nat numsats) mmap st buf bufsz out 0.

(** obsrnx.hpp:102-105 result of read_next_epoch: code, object afterwards, satobs, sats, the epoch header values
    (None: an error in the epoch line; mjd and secofday may then have been assigned, codes 23-25, or not). *)
Record epochres := mkRes {
  er_code : Z; er_obj : obsfile; er_out : list satentry; er_sats : nat; er_hdr : option epochhdr
}.

(** obsrnx.cpp:932-956 read_next_epoch. *)
Definition read_next_epoch (o : obsfile) (mmap : smap (list vecof_idpair)) (out : list satentry)
  : outcome epochres :=
  let upd st buf := mkObsFile st (o_hdr o) (o_eoh o) buf (o_bufsz o) in
  let tail st buf out' n h :=
    if seof st then Val (mkRes (-1)%Z (upd (sclear st) buf) out' n h)
    else Val (mkRes 0%Z (upd st buf) out' n h) in
  let (st0, c) := peek (o_stream o) in
  match c with
  | Some ch =>
      do sl <- getline st0 (o_buf o) (o_bufsz o);
      let '(st1, buf1) := sl in
      do r <- resolve_epoch buf1;
      let '(j, hdr) := r in
      match hdr with
      | None => Val (mkRes (20 + j)%Z (upd st1 buf1) out 0 None)
      | Some h =>
          do q <- collect_epoch (e_nsats h) mmap st1 buf1 (o_bufsz o) out;
          let '(j2, n, out', st2, buf2) := q in
          if negb (j2 =? 0)%Z then Val (mkRes (30 + j2)%Z (upd st2 buf2) out' n (Some h))
          else tail st2 buf2 out' n (Some h)
      end
  | None => tail st0 (o_buf o) out 0 None
  end.

(** obsrnx.cpp:964-977 initialize_epoch_vector. *)
Definition plan_width (mmap : smap (list vecof_idpair)) : nat :=
  fold_left (fun mx k => match mmap k with
                         | Some v => if mx <? length v then length v else mx
                         | None => mx
                         end) all_satsys 0.
Definition initialize_epoch_vector (mmap : smap (list vecof_idpair)) : list satentry :=
  repeat (new_satellite Mixed (-1)%Z, repeat MISSING (plan_width mmap)) MAX_SAT_IN_EPOCH.
