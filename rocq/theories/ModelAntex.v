(** ModelAntex: /repo/src/antex.cpp, antex.hpp, antenna_pcv.hpp.
    An Antex object is its stream and end-of-header position; the file is open (is_open() is true).
    ggdatetime (not in /repo): a datetime<seconds> is the number of seconds since MJD 0 and
    strptime_ymd_hms is an arbitrary function [strp] of the C string it is given, [None] when it throws.
    A default-constructed std::fpos is position 0 (libstdc++). *)
From Coq Require Import Qabs.
From Verif Require Import Base CNum Stream ModelSatsys ModelObs ModelNvarstr ModelSatellite ModelAntenna.

(** antex.cpp:18, 21, 46 *)
Definition ATX_HEADER_CHARS : nat := 85.
Definition ATX_HEADER_LINES : nat := 1000.
Definition ATX_GRID_CHARS : nat := 512.
(** antex.cpp:251, 413 *)
Definition ATX_ANTENNA_LINES : nat := 5000.

(** antex.cpp:159, 209, 220, 257 and others: std::strncmp(line + 60, s, n) == 0 *)
Definition label (line : mem) (s : string) (n : nat) : outcome bool := strncmp_lit line 60 s n.

(** antex.cpp:357, 377, 720, 755: std::stoi(std::string(line + k, n)): stoi stops at a NUL byte by itself. *)
Definition stoi_at (line : mem) (k n : nat) : outcome Z := do s <- rd_n (skipn k line) n; stoi s.

(** antex.hpp:40-43 *)
Inductive atx_version := V14 | V13.

(** antex.hpp:115-119, antex.cpp:114-172: what read_header leaves: return value, satellite system and version if assigned, end of head, stream *)
Record atxhdr := mkAtx {
  a_code : Z; a_sys : satsys; a_version : atx_version; a_eoh : option nat; a_stream : stream }.

(** antex.cpp:158-162; [n] is MAX_HEADER_LINES - dummy_it; the boolean is dummy_it < MAX_HEADER_LINES at the end *)
Fixpoint header_loop (n : nat) (st : stream) (line : mem) : outcome (bool * stream) :=
  match n with
  | O => Val (false, st)
  | S n' =>
      do eq <- label line "END OF HEADER" 13;
      if eq then Val (true, st)
      else
        do r <- getline st line ATX_HEADER_CHARS;
        let '(st1, line1) := r in
        header_loop n' st1 line1
  end.

(** antex.cpp:131-135: the version is a float, 1.4 and .001 are doubles, so is their difference *)
Definition near_version (q x : Q) : bool := negb (Qle_bool (b64 (1 # 1000)) (Qabs (b64 (b32 x - b64 q)))).

(** antex.cpp:114-172 read_header, called from the constructors (60-69, 80-93) with _satsys mixed,
    _version v14 and _end_of_head 0. *)
Definition atx_read_header (st0 : stream) : outcome atxhdr :=
  let st := seekg st0 (Some 0) in
  do r <- getline st (uninit ATX_HEADER_CHARS) ATX_HEADER_CHARS;
  let '(st1, l1) := r in
  do l2 <- wr l1 15 NUL;
  do s <- cstr l2 0;
  let '(v, _, _) := strtod s in
  let near (q : Q) := match v with DFin x => near_version q x | _ => false end in
  if negb (near (14 # 10)) && negb (near (13 # 10)) then Val (mkAtx 10 Mixed V14 (Some 0) st1)
  else
    let ver := if near (14 # 10) then V14 else V13 in
    do c <- rd l2 20;
    match char_to_satsys c with
    | Val ss =>
        do r2 <- getline st1 l2 ATX_HEADER_CHARS;
        let '(st2, l3) := r2 in
        do c0 <- rd l3 0;
        if negb (ceqb c0 "A"%char) then Val (mkAtx 12 ss ver (Some 0) st2)
        else
          do r3 <- getline st2 l3 ATX_HEADER_CHARS;
          let '(st3, l4) := r3 in
          do h <- header_loop ATX_HEADER_LINES st3 l4;
          let '(found, st4) := h in
          if negb found then Val (mkAtx 20 ss ver (Some 0) st4)
          else let '(st5, p) := tellg st4 in Val (mkAtx 0 ss ver p st5)
    | Exn => Val (mkAtx 11 Mixed ver (Some 0) st1)
    | Term => Term | UB => UB | Fuel => Fuel
    end.

(** antex.cpp:226-231: some of line[i], ..., line[i+n-1] is not blank *)
Fixpoint some_nonblank (line : mem) (i n : nat) : outcome bool :=
  match n with
  | O => Val false
  | S n' => do c <- rd line i;
            if negb (ceqb c " "%char) then Val true else some_nonblank line (S i) n'
  end.

(** antex.cpp:199-239 read_next_antenna_type: (return value, antenna if assigned, the buffer c, stream);
    [c = None] is the null pointer. *)
Definition read_next_antenna_type (st : stream) (c : option mem)
  : outcome (Z * option mem * option mem * stream) :=
  do r1 <- getline st (uninit ATX_HEADER_CHARS) ATX_HEADER_CHARS;
  let '(st1, l1) := r1 in
  do ok1 <- (if sfail st1 then Val false else label l1 "START OF ANTENNA" 16);
  if negb ok1 then
    if seof st1 then Val ((-1)%Z, None, c, sclear st1) else Val (10%Z, None, c, st1)
  else
    do r2 <- getline st1 l1 ATX_HEADER_CHARS;
    let '(st2, l2) := r2 in
    do ok2 <- (if sfail st2 then Val false else label l2 "TYPE / SERIAL NO" 16);
    if negb ok2 then Val (11%Z, None, c, st2)
    else
      do a <- ant_of_cstr l2 0;
      do b <- some_nonblank l2 20 20;
      do a' <- (if b then set_serial_nr a l2 20 else Val a);
      do c' <- match c with
               | Some m => do m' <- memcpy m 0 l2 0 60; Val (Some m')
               | None => Val None
               end;
      Val (0%Z, Some a', c', st2).

(** antex.cpp:249-265 skip_rest_of_antenna; [n] is max_antenna_lines - dummy_it *)
Fixpoint skip_loop (n : nat) (st : stream) (line : mem) : outcome (Z * stream) :=
  match n with
  | O => Val (1%Z, st)        (* not reached: n >= 1 at every call *)
  | S n' =>
      do r <- getline st line ATX_GRID_CHARS;
      let '(st1, line1) := r in
      do eq <- label line1 "END OF ANTENNA" 14;
      match n' with
      | O => Val (1%Z, st1)
      | S _ => if eq then Val (0%Z, st1) else skip_loop n' st1 line1
      end
  end.
Definition skip_rest_of_antenna (st : stream) : outcome (Z * stream) :=
  skip_loop ATX_ANTENNA_LINES st (uninit ATX_GRID_CHARS).

(** antex.cpp:305-310: after the loop; [stat2 = None] is the uninitialised variable *)
Definition closest_end (stat1 : Z) (stat2 : option Z) (best : mem) (bpos : option nat) (st : stream)
  : outcome (Z * option (mem * option nat) * stream) :=
  if (stat1 >? 0)%Z then Val (1%Z, None, st)
  else match stat2 with
       | None => UB
       | Some z => if (z =? 0)%Z then Val (0%Z, Some (best, bpos), st) else Val (1%Z, None, st)
       end.

(** antex.cpp:291-303 *)
Fixpoint closest_loop (fuel : nat) (st : stream) (ant_in best : mem) (bpos : option nat) (stat2 : option Z)
  : outcome (Z * option (mem * option nat) * stream) :=
  match fuel with
  | O => Fuel
  | S fuel' =>
      do r <- read_next_antenna_type st None;
      let '(stat1, ca, _, st1) := r in
      match ca with
      | Some cur =>
          do same <- ant_is_same cur ant_in;
          if same then let '(st2, p) := tellg st1 in Val ((-1)%Z, Some (cur, p), st2)
          else
            do cm <- compare_model cur ant_in;
            do keep <- (if cm then do hs <- has_serial cur; Val (negb hs) else Val false);
            let '(st2, best', bpos') :=
              if keep then let '(st2, p) := tellg st1 in (st2, cur, p) else (st1, best, bpos) in
            do k <- skip_rest_of_antenna st2;
            let '(s2, st3) := k in
            if (s2 =? 0)%Z then closest_loop fuel' st3 ant_in best' bpos' (Some s2)
            else closest_end stat1 (Some s2) best' bpos' st3
      | None => closest_end stat1 stat2 best bpos st1
      end
  end.

(** antex.cpp:281-311 find_closest_antenna_match: (return value, ant_out and ant_pos if assigned, stream).
    [fuel] bounds the number of records (see antex_fuel). *)
Definition find_closest_antenna_match (fuel : nat) (st : stream) (eoh : option nat) (ant_in : mem)
  : outcome (Z * option (mem * option nat) * stream) :=
  do best <- ant_default;
  closest_loop fuel (seekg st eoh) ant_in best (Some 0) None.

(** satellite.hpp:107-117 a Satellite with its antenna member; the setters are 59-98 and the assignments in antex.cpp:343-388 *)
Record asat := mkAsat { as_sat : satellite; as_ant : mem }.
Definition set_ssys (s : satsys) (x : asat) : asat :=
  mkAsat (mkSat s (sat_prn (as_sat x)) (sat_svn (as_sat x)) (sat_cospar (as_sat x))) (as_ant x).
Definition set_sprn (p : Z) (x : asat) : asat :=
  mkAsat (mkSat (sat_sys (as_sat x)) p (sat_svn (as_sat x)) (sat_cospar (as_sat x))) (as_ant x).
Definition set_ssvn (v : Z) (x : asat) : asat :=
  mkAsat (mkSat (sat_sys (as_sat x)) (sat_prn (as_sat x)) v (sat_cospar (as_sat x))) (as_ant x).
Definition set_scospar (m : mem) (x : asat) : asat :=
  mkAsat (mkSat (sat_sys (as_sat x)) (sat_prn (as_sat x)) (sat_svn (as_sat x)) m) (as_ant x).
Definition set_sant (m : mem) (x : asat) : asat := mkAsat (as_sat x) m.

(** satellite.hpp:52-53 default constructor *)
Definition asat_default : outcome asat := do a <- sant_default; Val (mkAsat (new_satellite Mixed (-1)) a).

(** antex.cpp:338-391 resolve_satellite_antenna_line: (return value, sat) *)
Definition resolve_satellite_antenna_line (line : mem) (sat : asat) : outcome (Z * asat) :=
  do n <- strlen line 0;
  if n <? 60 then Val (1%Z, sat)
  else
    do a <- sant_copy (as_ant sat) line 0;
    let sat1 := set_sant a sat in
    do c20 <- rd line 20;
    if ceqb c20 " "%char then Val (5%Z, sat1)
    else
      match char_to_satsys c20 with
      | Val ss =>
          let sat2 := set_ssys ss sat1 in
          match stoi_at line 21 5 with
          | Val p =>
              let sat3 := set_sprn p sat2 in
              do e <- string_is_empty line 40 (Some 10);
              do c40 <- rd line 40;
              let cospar (sat4 : asat) :=
                do e2 <- string_is_empty line 50 (Some 10);
                if e2 then Val (0%Z, sat4)
                else
                  do m1 <- memcpy (sat_cospar (as_sat sat4)) 0 line 50 COSPAR_ID_CHARS;
                  do m2 <- wr m1 COSPAR_ID_CHARS NUL;
                  Val (0%Z, set_scospar m2 sat4) in
              if e then cospar sat3
              else if negb (ceqb c40 c20) then Val (10%Z, sat3)
              else match stoi_at line 41 5 with
                   | Val v => cospar (set_ssvn v sat3)
                   | Exn => Val (10%Z, sat3)
                   | Term => Term | UB => UB | Fuel => Fuel
                   end
          | Exn => Val (5%Z, sat2)
          | Term => Term | UB => UB | Fuel => Fuel
          end
      | Exn => Val (5%Z, sat1)
      | Term => Term | UB => UB | Fuel => Fuel
      end.

Section Time.
  Variable strp : list ascii -> option Z.

  (** antex.cpp:424-444: the loop; dummy_it stays 0, so the only ways out are the break, the returns and
      the START OF FREQUENCY label. [inl] is a return. *)
  Fixpoint valid_loop (fuel : nat) (st : stream) (line : mem) (from to : option Z)
    : outcome ((Z * stream) + (option Z * option Z * stream)) :=
    match fuel with
    | O => Fuel
    | S fuel' =>
        do r <- getline st line ATX_GRID_CHARS;
        let '(st1, line1) := r in
        do isfrom <- label line1 "VALID FROM" 10;
        do step <- (if isfrom then
                      do s <- cstr line1 0;
                      Val (match strp s with Some t => inr (Some t, to) | None => inl 11%Z end)
                    else
                      do isuntil <- label line1 "VALID UNTIL" 11;
                      if isuntil then
                        do s <- cstr line1 0;
                        Val (match strp s with Some t => inr (from, Some t) | None => inl 12%Z end)
                      else Val (inr (from, to)));
        match step with
        | inl code => Val (inl (code, st1))
        | inr (from', to') =>
            match from', to' with
            | Some _, Some _ => Val (inr (from', to', st1))
            | _, _ =>
                do start <- label line1 "START OF FREQUENCY" 18;
                if start then Val (inr (from', to', st1)) else valid_loop fuel' st1 line1 from' to'
            end
        end
    end.

  (** antex.cpp:410-467 check_time_interval *)
  Definition check_time_interval (fuel : nat) (st : stream) (at_ : Z) : outcome (Z * stream) :=
    do r <- getline st (uninit ATX_GRID_CHARS) ATX_GRID_CHARS;
    let '(st1, l1) := r in
    do ok <- (if sfail st1 then Val false else label l1 "METH / BY / # / DATE" 20);
    if negb ok then Val (10%Z, st1)
    else
      do v <- valid_loop fuel st1 l1 None None;
      match v with
      | inl (code, st2) => Val (code, st2)
      | inr (None, _, st2) => Val (21%Z, st2)
      | inr (Some from, None, st2) => Val ((if (from <=? at_)%Z then 0 else 1)%Z, st2)
      | inr (Some from, Some to, st2) =>
          Val ((if ((from <=? at_)%Z && (at_ <=? to)%Z)%bool then 0 else 1)%Z, st2)
      end.

  (** antex.cpp:517-521 *)
  Definition satellite_end (stat1 : Z) (stat2 : option Z) (pos : option nat) (st : stream)
    : outcome (Z * option nat * option asat * stream) :=
    if (stat1 >? 0)%Z then Val (1%Z, pos, None, st)
    else match stat2 with
         | None => UB
         | Some z => if (z =? 0)%Z then Val (10%Z, pos, None, st) else Val (1%Z, pos, None, st)
         end.

  (** antex.cpp:501-515; [line] is the local buffer, refilled (60 bytes) for every record *)
  Fixpoint satellite_loop (fuel tfuel : nat) (st : stream) (line : mem) (prn : Z) (ss : satsys) (at_ : Z)
      (pos : option nat) (cur : asat) (stat2 : option Z)
    : outcome (Z * option nat * option asat * stream) :=
    match fuel with
    | O => Fuel
    | S fuel' =>
        do r <- read_next_antenna_type st (Some line);
        let '(stat1, ca, c', st1) := r in
        match ca, c' with
        | Some _, Some line' =>
            let cur1 := set_ssys Mixed cur in
            let '(st2, p) := tellg st1 in
            do rs <- resolve_satellite_antenna_line line' cur1;
            let '(code, cur2) := rs in
            do t <- (if ((code =? 0)%Z && (sat_prn (as_sat cur2) =? prn)%Z && satsys_eqb (sat_sys (as_sat cur2)) ss)%bool
                     then check_time_interval tfuel st2 at_ else Val (1%Z, st2));
            let '(valid, st3) := t in
            if (valid =? 0)%Z then Val (0%Z, p, Some cur2, st3)
            else
              do k <- skip_rest_of_antenna st3;
              let '(s2, st4) := k in
              if (s2 =? 0)%Z then satellite_loop fuel' tfuel st4 line' prn ss at_ p cur2 (Some s2)
              else satellite_end stat1 (Some s2) p st4
        | _, _ => satellite_end stat1 stat2 pos st1
        end
    end.

  (** antex.cpp:489-522 find_satellite_antenna: (return value, ant_pos, the Satellite written to sv, stream).
      [line0] is the initial content of the local array line (uninitialised in the code); [pos0] the value of
      ant_pos at the call. *)
  Definition find_satellite_antenna (fuel tfuel : nat) (line0 : mem) (st : stream) (eoh : option nat)
      (prn : Z) (ss : satsys) (at_ : Z) (pos0 : option nat)
    : outcome (Z * option nat * option asat * stream) :=
    do cur <- asat_default;
    satellite_loop fuel tfuel (seekg st eoh) line0 prn ss at_ pos0 cur None.
End Time.

(** antenna_pcv.hpp:43-59 AntennaPco *)
Record pco := mkPco { pco_code : obscode; pco_sys : satsys; pco_n : cdbl; pco_e : cdbl; pco_u : cdbl }.

(** do { fin.getline(buf, n); } while (fin && strncmp(buf + 60, s, k)) (antex.cpp:728-730, 741-743, 776-778) *)
Fixpoint skip_until (fuel : nat) (st : stream) (buf : mem) (n : nat) (s : string) (k : nat)
  : outcome (stream * mem) :=
  match fuel with
  | O => Fuel
  | S fuel' =>
      do r <- getline st buf n;
      let '(st1, b1) := r in
      if sfail st1 then Val (st1, b1)
      else
        do eq <- label b1 s k;
        if eq then Val (st1, b1) else skip_until fuel' st1 b1 n s k
  end.

(** antex.cpp:763-769: std::stod of ten columns copied to tmp *)
Definition stod_ten (hline : mem) (k : nat) : outcome cdbl :=
  do s <- rd_n (skipn k hline) 10;
  do t <- cstr (cbuf s) 0;
  stod t.

(** antex.cpp:736-781, [n] iterations left; [l] is the list so far, in order *)
Fixpoint pco_loop (n fuel : nat) (st : stream) (hline gline : mem) (l : list pco)
  : outcome (Z * list pco * stream) :=
  match n with
  | O => Val (0%Z, l, st)
  | S n' =>
      do at_start <- (if sfail st then Val false else label hline "START OF FREQUENCY" 18);
      do pre <- (if at_start then Val (inr (st, hline, gline))
                 else
                   do rms <- label hline "START OF FREQ RMS" 17;
                   if rms then
                     do k <- skip_until fuel st gline ATX_GRID_CHARS "END OF FREQ RMS" 15;
                     let '(st1, g1) := k in
                     do r <- getline st1 hline ATX_HEADER_CHARS;
                     let '(st2, h1) := r in
                     do ok <- (if sfail st2 then Val false else label h1 "START OF FREQUENCY" 18);
                     if ok then Val (inr (st2, h1, g1)) else Val (inl (11%Z, st2))
                   else Val (inl (5%Z, st)));
      match pre with
      | inl (code, st1) => Val (code, l, st1)
      | inr (st1, h1, g1) =>
          do c <- rd h1 3;
          match (do ss <- char_to_satsys c; do bn <- stoi_at h1 4 2; Val (ss, bn)) with
          | Val (ss, bn) =>
              do r <- getline st1 h1 ATX_HEADER_CHARS;
              let '(st2, h2) := r in
              do ok <- (if sfail st2 then Val false else label h2 "NORTH / EAST / UP" 17);
              if negb ok then Val (7%Z, l, st2)
              else
                do dn <- stod_ten h2 0;
                do de <- stod_ten h2 10;
                do du <- stod_ten h2 20;
                let l' := l ++ [mkPco (mkCode AnyType bn "?"%char) ss dn de du] in
                do k <- skip_until fuel st2 g1 ATX_GRID_CHARS "END OF FREQUENCY" 16;
                let '(st3, g2) := k in
                do r2 <- getline st3 h2 ATX_HEADER_CHARS;
                let '(st4, h3) := r2 in
                pco_loop n' fuel st4 h3 g2 l'
          | Exn => Val (6%Z, l, st1)
          | Term => Term | UB => UB | Fuel => Fuel
          end
      end
  end.

(** antex.cpp:689-784 collect_pco (noexcept): (return value, list, stream) *)
Definition collect_pco (fuel : nat) (st : stream) (l : list pco) : outcome (Z * list pco * stream) :=
  noexcept (
    do r1 <- getline st (uninit ATX_HEADER_CHARS) ATX_HEADER_CHARS;
    let '(st1, h1) := r1 in
    do ok1 <- (if sfail st1 then Val false else label h1 "METH / BY / # / DATE" 20);
    if negb ok1 then Val (1%Z, l, st1) else
    do r2 <- getline st1 h1 ATX_HEADER_CHARS;
    let '(st2, h2) := r2 in
    do ok2 <- (if sfail st2 then Val false else label h2 "DAZI" 4);
    if negb ok2 then Val (2%Z, l, st2) else
    do r3 <- getline st2 h2 ATX_HEADER_CHARS;
    let '(st3, h3) := r3 in
    do ok3 <- (if sfail st3 then Val false else label h3 "ZEN1 / ZEN2 / DZEN" 18);
    if negb ok3 then Val (3%Z, l, st3) else
    do r4 <- getline st3 h3 ATX_HEADER_CHARS;
    let '(st4, h4) := r4 in
    do ok4 <- (if sfail st4 then Val false else label h4 "# OF FREQUENCIES" 16);
    if negb ok4 then Val (4%Z, l, st4) else
    match stoi_at h4 0 6 with
    | Val nf =>
        do k <- skip_until fuel st4 h4 ATX_HEADER_CHARS "START OF FREQUENCY" 18;
        let '(st5, h5) := k in
        pco_loop (Z.to_nat nf) fuel st5 h5 (uninit ATX_GRID_CHARS) l
    | Exn => Val (4%Z, l, st4)
    | Term => Term | UB => UB | Fuel => Fuel
    end).

(** antex.cpp:653-677 get_antenna_pco(ReceiverAntenna, list, must_match_serial); the list is cleared first *)
Definition get_antenna_pco_rcv (fuel : nat) (st : stream) (eoh : option nat) (ant_in : mem) (must : bool)
  : outcome (Z * list pco * stream) :=
  do r <- find_closest_antenna_match fuel st eoh ant_in;
  let '(found, out, st1) := r in
  if (found >? 0)%Z then Val (found, [], st1)
  else if ((found =? 0)%Z && must)%bool then Val (10%Z, [], st1)
  else
    let pos := match out with Some (_, p) => p | None => Some 0 end in
    collect_pco fuel (seekg st1 pos) [].

(** antex.cpp:616-636 get_antenna_pco(prn, ss, at, list, sv); ant_pos starts default-constructed *)
Definition get_antenna_pco_sat (strp : list ascii -> option Z) (fuel tfuel : nat) (line0 : mem) (st : stream)
    (eoh : option nat) (prn : Z) (ss : satsys) (at_ : Z)
  : outcome (Z * list pco * option asat * stream) :=
  do r <- find_satellite_antenna strp fuel tfuel line0 st eoh prn ss at_ (Some 0);
  let '(found, pos, sv, st1) := r in
  if (found >? 0)%Z then Val (found, [], sv, st1)
  else
    do c <- collect_pco fuel (seekg st1 pos) [];
    let '(code, l, st2) := c in Val (code, l, sv, st2).

(** antex.cpp:592-597 get_satellite_info *)
Definition get_satellite_info (strp : list ascii -> option Z) (fuel tfuel : nat) (line0 : mem) (st : stream)
    (eoh : option nat) (prn : Z) (ss : satsys) (at_ : Z) : outcome (Z * option asat * stream) :=
  do r <- find_satellite_antenna strp fuel tfuel line0 st eoh prn ss at_ (Some 0);
  let '(found, _, sv, st1) := r in Val (found, sv, st1).
