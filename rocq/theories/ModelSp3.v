(** ModelSp3: /repo/src/sp3c.hpp, sp3c.cpp (Sp3Flag, Sp3c, LagrangeSp3Interpolator).
    Simplifications common to the file: errno is 0 at entry; doubles are rounded (CNum, B64); the calendar
    library (ggdatetime, not part of the repository) is a parameter where its results are used; the
    file is open; diagnostics printed to cerr are left out. *)
From Verif Require Import Base CNum Stream ModelSatsys.

(** sp3c.hpp:21-28 enum class Sp3Event *)
Inductive sp3event := BadPosition | BadClock | ClockEvent | ClockPrediction | Maneuver | OrbitPrediction.
Definition event_bit (e : sp3event) : Z :=
  match e with
  | BadPosition => 0 | BadClock => 1 | ClockEvent => 2 | ClockPrediction => 3 | Maneuver => 4 | OrbitPrediction => 5
  end%Z.

(** sp3c.hpp:32-44 struct Sp3Flag: the unsigned char bits_ as a number in 0..255 *)
Definition sp3flag := Z.
(** sp3c.hpp:34-36 set *)
Definition flag_set (f : sp3flag) (e : sp3event) : sp3flag := ((Z.lor f (Z.shiftl 1 (event_bit e))) mod 256)%Z.
(** sp3c.hpp:37-39 clear *)
Definition flag_clear (f : sp3flag) (e : sp3event) : sp3flag :=
  ((Z.land f (Z.lnot (Z.shiftl 1 (event_bit e)))) mod 256)%Z.
(** sp3c.hpp:40 reset *)
Definition flag_reset (f : sp3flag) : sp3flag := 0%Z.
(** sp3c.hpp:41-43 is_set *)
Definition flag_is_set (f : sp3flag) (e : sp3event) : bool := Z.odd (Z.shiftr f (event_bit e)).

(** sp3c.hpp:46-51 struct Sp3EpochSvRecord; the enum is value-initialised (0: gps, satsys.hpp:52) *)
Record sp3rec := mkSp3 { p_sys : satsys; p_prn : Z; p_vals : list cdbl; p_flag : sp3flag }.
Definition sp3rec_new : sp3rec := mkSp3 Gps 0%Z [DFin 0; DFin 0; DFin 0; DFin 0] 0%Z.

(** sp3c.cpp:72, 343 and others: strtol(line + k, &end, 10): value, characters used, ERANGE *)
Definition strtol_at (line : mem) (k : nat) : outcome (Z * nat * bool) :=
  do s <- cstr line k; Val (strtol s).
(** sp3c.cpp:97, 351 and others: strtod(line + k, &end) *)
Definition strtod_at (line : mem) (k : nat) : outcome (cdbl * nat * bool) :=
  do s <- cstr line k; Val (strtod s).

(** sp3c.cpp:349-357: the four numbers, [i] the index of the first one left, [k] its offset *)
Fixpoint sp3_numbers (n : nat) (line : mem) (i : Z) (k : nat) : outcome (Z + list cdbl) :=
  match n with
  | O => Val (inr [])
  | S n' =>
      do r <- strtod_at line k;
      let '(v, used, er) := r in
      if er || (used =? 0) then Val (inl (5 + i)%Z)
      else
        do t <- sp3_numbers n' line (i + 1)%Z (k + 14);
        match t with
        | inl c => Val (inl c)
        | inr vs => Val (inr (v :: vs))
        end
  end.

(** sp3c.cpp:329-379: x == 0e0 for some of the first three *)
Definition any_zero (l : list cdbl) : bool := existsb dis_zero l.

(** sp3c.cpp:329-379 Sp3c::get_next_position; [flag] is the caller's flag.  Result: error code or
    the record.  The enum, prn and state left in the caller's variables on an error are not used. *)
Definition sp3_position (line : mem) (flag : sp3flag) : outcome (Z + sp3rec) :=
  let f0 := flag_reset flag in
  do c0 <- rd line 0;
  if negb (ceqb c0 "P"%char) then Val (inl 2%Z)
  else
    do c1 <- rd line 1;
    match char_to_satsys c1 with
    | Exn => Val (inl 3%Z)
    | Val s =>
        do r <- strtol_at line 2;
        let '(prn, used, er) := r in
        if er || (used =? 0) then Val (inl 4%Z)
        else
          do t <- sp3_numbers 4 line 0%Z 4;
          match t with
          | inl c => Val (inl c)
          | inr [x; y; z; clk] =>
              let km v := dmul v (DFin 1000) in
              let xyz := [km x; km y; km z] in
              let f1 := if any_zero xyz then flag_set f0 BadPosition else f0 in
              let f2 := if dge clk 999999 then flag_set f1 BadClock else f1 in
              do c74 <- rd line 74;
              let f3 := if ceqb c74 "E"%char then flag_set f2 ClockEvent else f2 in
              do c75 <- rd line 75;
              let f4 := if ceqb c75 "P"%char then flag_set f3 ClockPrediction else f3 in
              do c78 <- rd line 78;
              let f5 := if ceqb c78 "M"%char then flag_set f4 Maneuver else f4 in
              do c79 <- rd line 79;
              let f6 := if ceqb c79 "E"%char then flag_set f5 OrbitPrediction else f5 in
              Val (inr (mkSp3 s (to_i32 prn) (xyz ++ [clk]) f6))
          | inr _ => UB
          end
    | Term => Term | UB => UB | Fuel => Fuel
    end.

(** sp3c.cpp:272-279: the epoch: year, month, day, hour, minute and microseconds (the arguments given to datetime) *)
Record sp3time := mkTime { t_date : list Z; t_usec : Z }.

(** sp3c.cpp:112, 133, 279: static_cast<long>(x * 1e6) *)
Definition to_usec (v : cdbl) : outcome Z :=
  match v with
  | DFin q =>
      let x := b64 (q * 1000000) in
      let u := Z.quot (Qnum x) (Zpos (Qden x)) in
      if (LONG_MIN <=? u)%Z && (u <=? LONG_MAX)%Z then Val u else UB
  | _ => UB
  end.

(** sp3c.cpp:261-269: month, day, hour, minute *)
Fixpoint sp3_date (n : nat) (line : mem) (i : Z) (k : nat) : outcome (Z + list Z) :=
  match n with
  | O => Val (inr [])
  | S n' =>
      do r <- strtol_at line k;
      let '(v, used, er) := r in
      if er || (used =? 0) then Val (inl (5 + i)%Z)
      else
        do t <- sp3_date n' line (i + 1)%Z (k + 3);
        match t with
        | inl c => Val (inl c)
        | inr vs => Val (inr (to_i32 v :: vs))
        end
  end.

(** sp3c.cpp:254-279: the epoch header line *)
Definition sp3_epoch_header (line : mem) : outcome (Z + sp3time) :=
  do c0 <- rd line 0;
  if negb (ceqb c0 "*"%char) then Val (inl 2%Z)
  else
    do c1 <- rd line 1;
    if negb (ceqb c1 " "%char) then Val (inl 2%Z)
    else
      do r <- strtol_at line 3;
      let '(y, _, er) := r in
      if (to_i32 y =? 0)%Z || er then Val (inl 5%Z)
      else
        do d <- sp3_date 4 line 1%Z 8;
        match d with
        | inl c => Val (inl c)
        | inr ds =>
            do f <- strtod_at line 20;
            let '(v, used, er) := f in
            if er || (used =? 0) then Val (inl 11%Z)
            else do u <- to_usec v; Val (inr (mkTime (to_i32 y :: ds) u))
        end.

(** sp3c.hpp:87-89 allocate_epoch_vector; a negative size throws out of the noexcept function *)
Definition allocate_epoch_vector (num_sats : Z) : outcome (list sp3rec) :=
  if (num_sats <? 0)%Z then Term else Val (repeat sp3rec_new (Z.to_nat num_sats)).

(** sp3c.cpp:295-316, through the iterator of vec: it = rec; ++it *)
Definition put_rec (vec : list sp3rec) (i : nat) (r : sp3rec) : outcome (list sp3rec) :=
  if i <? length vec then Val (firstn i vec ++ r :: skipn (S i) vec) else UB.

(** sp3c.cpp:20 *)
Definition MAX_RECORD_CHARS : nat := 128.

(** sp3c.cpp:243-317: what get_next_epoch leaves: return value, t (if assigned), vec, sats_read (if assigned), stream *)
Record sp3res := mkSp3Res { q_code : Z; q_time : option sp3time; q_vec : list sp3rec; q_sats : option nat; q_stream : stream }.

(** sp3c.cpp:295-316: the do-while loop; no bound in the code, [fuel] iterations in the model *)
Fixpoint sp3_loop (fuel : nat) (st : stream) (line : mem) (t : sp3time) (vec : list sp3rec) (it : nat) (flag : sp3flag)
  : outcome sp3res :=
  match fuel with
  | O => Fuel
  | S fuel' =>
      let '(st1, c) := peek st in
      let star := match c with Some x => ceqb x "*"%char | None => false end in
      if star then Val (mkSp3Res 0%Z (Some t) vec (Some it) st1)
      else
        do sl <- getline st1 line MAX_RECORD_CHARS;
        let '(st2, line2) := sl in
        do c0 <- rd line2 0;
        if ceqb c0 "P"%char then
          do p <- sp3_position line2 flag;
          match p with
          | inl j => Val (mkSp3Res (j + 20)%Z (Some t) vec None st2)
          | inr r =>
              do vec' <- put_rec vec it r;
              sp3_loop fuel' st2 line2 t vec' (S it) (p_flag r)
          end
        else
          do e <- strncmp_lit line2 0 "EOF" 3;
          if e then Val (mkSp3Res (-1)%Z (Some t) vec (Some it) st2)
          else sp3_loop fuel' st2 line2 t vec it flag
  end.

(** sp3c.cpp:243-317 Sp3c::get_next_epoch *)
Definition sp3_next_epoch (fuel : nat) (st : stream) (vec : list sp3rec) : outcome sp3res :=
  if negb (good st) then Val (mkSp3Res 1%Z None vec None st)
  else
    do sl <- getline st (uninit MAX_RECORD_CHARS) MAX_RECORD_CHARS;
    let '(st1, line) := sl in
    do h <- sp3_epoch_header line;
    match h with
    | inl j => Val (mkSp3Res j None vec None st1)
    | inr t => sp3_loop fuel st1 line t vec 0 0%Z
    end.

(** ** Header *)
(** sp3c.cpp:14, 17 *)
Definition SP3_HEADER_CHARS : nat := 85.
Definition SP3_HEADER_LINES : nat := 1000.

(** sp3c.hpp:119-131: the members (bytes of the std::strings may be uninitialised copies) *)
Record sp3hdr := mkSp3Hdr {
  g_version : ascii; g_start : sp3time; g_epochs : Z; g_sats : Z;
  g_crd : mem; g_orb : mem; g_agency : mem; g_tsys : mem; g_interval : Z; g_eoh : option nat }.

(** sp3c.cpp:104-106, 189: std::string(line + k, n) *)
Definition sub_at (line : mem) (k n : nat) : outcome mem :=
  if k + n <=? length line then Val (firstn n (skipn k line)) else UB.

(** sp3c.cpp:114-144: x == y on doubles *)
Definition deqb (a b : cdbl) : bool :=
  match a, b with
  | DFin x, DFin y => Qeq_bool x y
  | DInf s, DInf t => Bool.eqb s t
  | _, _ => false
  end.

Section Sp3Header.
  (** start_epoch__.as_gps_wsow: week, and seconds of week (to_fractional_seconds) *)
  Variable wsow : sp3time -> Z * Q.
  (** start_epoch__.as_mjd *)
  Variable as_mjd : sp3time -> Q.

  (** sp3c.cpp:67-112: first line *)
  Definition sp3_line1 (line : mem) : outcome (Z + (ascii * sp3time * Z * mem * mem * mem)) :=
    do c0 <- rd line 0;
    if negb (ceqb c0 "#"%char) then Val (inl 10%Z)
    else
      do ver <- rd line 1;
      if negb (ceqb ver "c"%char) && negb (ceqb ver "d"%char) then Val (inl 10%Z)
      else
        do r1 <- strtol_at line 3; let '(y, _, e1) := r1 in
        if (to_i32 y =? 0)%Z || e1 then Val (inl 11%Z) else
        do r2 <- strtol_at line 8; let '(mo, _, e2) := r2 in
        if (to_i32 mo =? 0)%Z || e2 then Val (inl 12%Z) else
        do r3 <- strtol_at line 11; let '(d, _, e3) := r3 in
        if (to_i32 d =? 0)%Z || e3 then Val (inl 13%Z) else
        do r4 <- strtol_at line 14; let '(h, u4, e4) := r4 in
        if e4 || (u4 =? 0) then Val (inl 14%Z) else
        do r5 <- strtol_at line 17; let '(mi, u5, e5) := r5 in
        if e5 || (u5 =? 0) then Val (inl 15%Z) else
        do r6 <- strtod_at line 20; let '(sec, _, e6) := r6 in      (* not checked: errno stays *)
        do r7 <- strtol_at line 32; let '(ne, _, e7) := r7 in
        if (to_i32 ne =? 0)%Z || (e6 || e7) then Val (inl 16%Z) else
        do crd <- sub_at line 46 5;
        do orb <- sub_at line 52 3;
        do ag <- sub_at line 56 3;
        do u <- to_usec sec;
        Val (inr (ver, mkTime [to_i32 y; to_i32 mo; to_i32 d; to_i32 h; to_i32 mi] u, to_i32 ne, crd, orb, ag)).

  (** sp3c.cpp:114-144: second line; result: error or (interval, errno is ERANGE) *)
  Definition sp3_line2 (line : mem) (start : sp3time) : outcome (Z + (Z * bool)) :=
    do c0 <- rd line 0;
    if negb (ceqb c0 "#"%char) then Val (inl 20%Z)
    else
      do c1 <- rd line 1;
      if negb (ceqb c1 "#"%char) then Val (inl 20%Z)
      else
        do r1 <- strtol_at line 3; let '(wk, _, e1) := r1 in
        if (to_i32 wk =? 0)%Z || e1 then Val (inl 21%Z) else
        do r2 <- strtod_at line 8; let '(sow, _, e2) := r2 in
        if negb (fst (wsow start) =? to_i32 wk)%Z || negb (deqb (DFin (snd (wsow start))) sow) then Val (inl 22%Z) else
        do r3 <- strtod_at line 24; let '(iv, _, e3) := r3 in
        do u <- to_usec iv;
        do r4 <- strtol_at line 39; let '(mjd, _, e4) := r4 in
        if (to_i32 mjd =? 0)%Z || (e2 || e3 || e4) then Val (inl 23%Z) else
        do r5 <- strtod_at line 45; let '(fr, _, e5) := r5 in
        if negb (deqb (dadd fr (DFin (inject_Z (to_i32 mjd)))) (DFin (as_mjd start))) then Val (inl 24%Z)
        else Val (inr (u, e5)).

  (** sp3c.cpp:159-161: while (++dummy_it < MAX && line is "+ ") getline; [n] = dummy_it.
      Result: the new dummy_it.  [k]: iterations still allowed *)
  Fixpoint sp3_plus (k : nat) (n : nat) (st : stream) (line : mem) : outcome (nat * stream * mem) :=
    match k with
    | O => Val (S n, st, line)                     (* ++dummy_it reaches MAX_HEADER_LINES *)
    | S k' =>
        do b <- strncmp_lit line 0 "+ " 2;
        if b then
          do sl <- getline st line SP3_HEADER_CHARS;
          sp3_plus k' (S n) (fst sl) (snd sl)
        else Val (S n, st, line)
    end.

  (** sp3c.cpp:173-178: the same for "++", leaving when the next line does not start with '+' *)
  Fixpoint sp3_plusplus (k : nat) (n : nat) (st : stream) (line : mem) : outcome (nat * stream * mem) :=
    match k with
    | O => Val (S n, st, line)
    | S k' =>
        do b <- strncmp_lit line 0 "++" 2;
        if b then
          do sl <- getline st line SP3_HEADER_CHARS;
          let '(st1, c) := peek (fst sl) in
          if match c with Some x => ceqb x "+"%char | None => false end
          then sp3_plusplus k' (S n) st1 (snd sl)
          else Val (S n, st1, snd sl)
        else Val (S n, st, line)
    end.

  (** sp3c.cpp:186-188 (and 190-192, 197-199, 205-207): one line that must start with '%' and [c] *)
  Definition sp3_percent (st : stream) (line : mem) (c : ascii) : outcome (bool * stream * mem) :=
    do sl <- getline st line SP3_HEADER_CHARS;
    do c0 <- rd (snd sl) 0;
    if negb (ceqb c0 "%"%char) then Val (false, fst sl, snd sl)
    else do c1 <- rd (snd sl) 1; Val (ceqb c1 c, fst sl, snd sl).

  (** sp3c.cpp:213-220: comment lines; [k] bounds ++dummy_it > MAX *)
  Fixpoint sp3_comments (k : nat) (st : stream) (c : option ascii) (line : mem) : outcome (Z * stream) :=
    if match c with Some x => ceqb x "/"%char | None => false end then
      do sl <- getline st line SP3_HEADER_CHARS;
      do c1 <- rd (snd sl) 1;
      if negb (ceqb c1 "*"%char) then Val (80%Z, fst sl)
      else
        let '(st1, c') := peek (fst sl) in
        match k with
        | O => Val (81%Z, st1)
        | S k' => sp3_comments k' st1 c' (snd sl)
        end
    else Val (0%Z, st).

  (** sp3c.cpp:52-227 Sp3c::read_header on a file just opened: error code or the object *)
  Definition sp3_read_header (d : list ascii) : outcome (Z + (sp3hdr * stream)) :=
    do sl1 <- getline (open_stream d) (uninit SP3_HEADER_CHARS) SP3_HEADER_CHARS;
    do a <- sp3_line1 (snd sl1);
    match a with
    | inl c => Val (inl c)
    | inr (ver, start, ne, crd, orb, ag) =>
        do sl2 <- getline (fst sl1) (snd sl1) SP3_HEADER_CHARS;
        do b <- sp3_line2 (snd sl2) start;
        match b with
        | inl c => Val (inl c)
        | inr (iv, e5) =>
            do sl3 <- getline (fst sl2) (snd sl2) SP3_HEADER_CHARS;
            do c0 <- rd (snd sl3) 0;
            if negb (ceqb c0 "+"%char) then Val (inl 30%Z) else
            do c1 <- rd (snd sl3) 1;
            if negb (ceqb c1 " "%char) then Val (inl 30%Z) else
            do r <- strtol_at (snd sl3) 3;
            let '(ns, _, e) := r in
            if (to_i32 ns =? 0)%Z || (e5 || e) then Val (inl 31%Z) else
            do p <- sp3_plus (SP3_HEADER_LINES - 1) 0 (fst sl3) (snd sl3);
            let '(n1, st1, l1) := p in
            if SP3_HEADER_LINES <=? n1 then Val (inl 32%Z) else
            do d0 <- rd l1 0;
            if negb (ceqb d0 "+"%char) then Val (inl 40%Z) else
            do d1 <- rd l1 1;
            if negb (ceqb d1 "+"%char) then Val (inl 40%Z) else
            do pp <- sp3_plusplus (SP3_HEADER_LINES - 1 - n1) n1 st1 l1;
            let '(n2, st2, l2) := pp in
            if SP3_HEADER_LINES <=? n2 then Val (inl 41%Z) else
            do q1 <- sp3_percent st2 l2 "c"%char;
            let '(ok1, st3, l3) := q1 in
            if negb ok1 then Val (inl 50%Z) else
            do ts <- sub_at l3 9 3;
            do q2 <- sp3_percent st3 l3 "c"%char;
            let '(ok2, st4, l4) := q2 in
            if negb ok2 then Val (inl 51%Z) else
            do q3 <- sp3_percent st4 l4 "f"%char;
            let '(ok3, st5, l5) := q3 in
            if negb ok3 then Val (inl 60%Z) else
            do q4 <- sp3_percent st5 l5 "f"%char;
            let '(ok4, st6, l6) := q4 in
            if negb ok4 then Val (inl 60%Z) else
            do q5 <- sp3_percent st6 l6 "i"%char;
            let '(ok5, st7, l7) := q5 in
            if negb ok5 then Val (inl 70%Z) else
            do q6 <- sp3_percent st7 l7 "i"%char;
            let '(ok6, st8, l8) := q6 in
            if negb ok6 then Val (inl 70%Z) else
            let '(st9, c9) := peek st8 in
            do cm <- sp3_comments (SP3_HEADER_LINES - n2) st9 c9 l8;
            let '(code, st10) := cm in
            if negb (code =? 0)%Z then Val (inl code) else
            let '(st11, eoh) := tellg st10 in
            Val (inr (mkSp3Hdr ver start ne (to_i32 ns) crd orb ag ts iv eoh, st11))
        end
    end.

  (** sp3c.cpp:28-38 the constructor: throws unless the header was read *)
  Definition sp3_open (d : list ascii) : outcome (sp3hdr * stream) :=
    do r <- sp3_read_header d;
    match r with inl _ => Exn | inr o => Val o end.
End Sp3Header.

(** sp3c.cpp:40-47 rewind(pos) ; pos = -1 (None): end of header *)
Definition sp3_rewind (h : sp3hdr) (st : stream) (pos : option nat) : stream :=
  match pos with None => seekg st (g_eoh h) | Some p => seekg st (Some p) end.

(** sp3c.hpp:140, 144, 146: std::vector: v.reserve(n) changes the capacity, not the elements; n out of range throws *)
Definition vec_reserve {A} (v : list A) (n : Z) : outcome (list A) :=
  if (n <? 0)%Z then Exn else Val v.
(** sp3c.hpp:143: v[i] = x: undefined unless i < v.size() *)
Definition vec_set {A} (v : list A) (i : nat) (x : A) : outcome (list A) :=
  if i <? length v then Val (firstn i v ++ x :: skipn (S i) v) else UB.

(** sp3c.hpp:141-145: the loop of the constructor, iterations [i] .. [i + n - 1] *)
Fixpoint lagrange_fill (n i : nat) (k : Z) (svec : list (list sp3rec)) : outcome (list (list sp3rec)) :=
  match n with
  | O => Val svec
  | S n' =>
      do svec1 <- vec_set svec i [sp3rec_new];
      do r <- vec_reserve [sp3rec_new] (2 * k)%Z;
      lagrange_fill n' (S i) k svec1
  end.

(** sp3c.hpp:136-147 constructor of LagrangeSp3Interpolator<SEC> (noexcept), for an object with the
    given interval (microseconds) and number of satellites.  Result: K and svec_ *)
Definition lagrange_construct (sec interval num_sats : Z) : outcome (Z * list (list sp3rec)) :=
  noexcept (
    if (interval =? 0)%Z then UB
    else
      let k := to_i32 (Z.quot (2 * sec * 1000000) interval + 1) in
      do v0 <- vec_reserve [] num_sats;
      do v1 <- lagrange_fill (Z.to_nat num_sats) 0 k v0;
      do tv <- vec_reserve (@nil sp3time) (2 * k)%Z;
      Val (k, v1)).
