(** ModelSp3Errno: the SP3 reader of ModelSp3 with errno as it is found, sp3c.cpp.  errno is a number; strtol and strtod
    set it to ERANGE (34) and never clear it; std::ifstream, std::string, cerr and the calendar library are taken to leave
    it alone.  Everything else is as in ModelSp3. *)
From Verif Require Import Base CNum Stream ModelSatsys ModelSp3.
Local Open Scope list_scope.

(** <cerrno> on Linux *)
Definition SP3_ERANGE : Z := 34.
(** what a conversion leaves in errno *)
Definition note (e : Z) (er : bool) : Z := if er then SP3_ERANGE else e.
(** errno == ERANGE *)
Definition hot (e : Z) : bool := (e =? SP3_ERANGE)%Z.

(** sp3c.cpp:349-357: the four numbers *)
Fixpoint sp3_numbers_e (n : nat) (line : mem) (i : Z) (k : nat) (e : Z) : outcome ((Z + list cdbl) * Z) :=
  match n with
  | O => Val (inr [], e)
  | S n' =>
      do r <- strtod_at line k;
      let '(v, used, er) := r in
      let e1 := note e er in
      if hot e1 || (used =? 0) then Val (inl (5 + i)%Z, 0%Z)
      else
        do t <- sp3_numbers_e n' line (i + 1)%Z (k + 14) e1;
        match t with
        | (inl c, e2) => Val (inl c, e2)
        | (inr vs, e2) => Val (inr (v :: vs), e2)
        end
  end.

(** sp3c.cpp:329-379 Sp3c::get_next_position *)
Definition sp3_position_e (line : mem) (flag : sp3flag) (e : Z) : outcome ((Z + sp3rec) * Z) :=
  let f0 := flag_reset flag in
  do c0 <- rd line 0;
  if negb (ceqb c0 "P"%char) then Val (inl 2%Z, e)
  else
    do c1 <- rd line 1;
    match char_to_satsys c1 with
    | Exn => Val (inl 3%Z, e)
    | Val s =>
        do r <- strtol_at line 2;
        let '(prn, used, er) := r in
        let e1 := note e er in
        if hot e1 || (used =? 0) then Val (inl 4%Z, 0%Z)
        else
          do t <- sp3_numbers_e 4 line 0%Z 4 e1;
          match t with
          | (inl c, e2) => Val (inl c, e2)
          | (inr [x; y; z; clk], e2) =>
              let km v := dmul v (DFin 1000) in
              let xyz := [km x; km y; km z] in
              let f1 := if any_zero xyz then flag_set f0 BadPosition else f0 in
              let f2 := if dge clk 999999 then flag_set f1 BadClock else f1 in
              do c74 <- rd line 74;
              let f3 := if ceqb c74 "E"%char then flag_set f2 ClockEvent else f2 in
              do c75 <- rd line 75;
              let f4 := if ceqb c75 "P"%char then flag_set f3 ClockPrediction else f3 in
              do c78 <- rd line 78;
              let f5 := if ceqb c78 "M"%char then flag_set f4 Maneuver else f4 in
              do c79 <- rd line 79;
              let f6 := if ceqb c79 "E"%char then flag_set f5 OrbitPrediction else f5 in
              Val (inr (mkSp3 s (to_i32 prn) (xyz ++ [clk]) f6), e2)
          | (inr _, _) => UB
          end
    | Term => Term | UB => UB | Fuel => Fuel
    end.

(** sp3c.cpp:261-269: month, day, hour, minute *)
Fixpoint sp3_date_e (n : nat) (line : mem) (i : Z) (k : nat) (e : Z) : outcome ((Z + list Z) * Z) :=
  match n with
  | O => Val (inr [], e)
  | S n' =>
      do r <- strtol_at line k;
      let '(v, used, er) := r in
      let e1 := note e er in
      if hot e1 || (used =? 0) then Val (inl (5 + i)%Z, 0%Z)
      else
        do t <- sp3_date_e n' line (i + 1)%Z (k + 3) e1;
        match t with
        | (inl c, e2) => Val (inl c, e2)
        | (inr vs, e2) => Val (inr (to_i32 v :: vs), e2)
        end
  end.

(** sp3c.cpp:254-279: the epoch header line *)
Definition sp3_epoch_header_e (line : mem) (e : Z) : outcome ((Z + sp3time) * Z) :=
  do c0 <- rd line 0;
  if negb (ceqb c0 "*"%char) then Val (inl 2%Z, e)
  else
    do c1 <- rd line 1;
    if negb (ceqb c1 " "%char) then Val (inl 2%Z, e)
    else
      do r <- strtol_at line 3;
      let '(y, _, er) := r in
      let e1 := note e er in
      if (to_i32 y =? 0)%Z || hot e1 then Val (inl 5%Z, 0%Z)
      else
        do d <- sp3_date_e 4 line 1%Z 8 e1;
        match d with
        | (inl c, e2) => Val (inl c, e2)
        | (inr ds, e2) =>
            do f <- strtod_at line 20;
            let '(v, used, er) := f in
            let e3 := note e2 er in
            if hot e3 || (used =? 0) then Val (inl 11%Z, 0%Z)
            else do u <- to_usec v; Val (inr (mkTime (to_i32 y :: ds) u), e3)
        end.

(** sp3c.cpp:295-316: the do-while loop *)
Fixpoint sp3_loop_e (fuel : nat) (st : stream) (line : mem) (t : sp3time) (vec : list sp3rec) (it : nat) (flag : sp3flag) (e : Z)
  : outcome (sp3res * Z) :=
  match fuel with
  | O => Fuel
  | S fuel' =>
      let '(st1, c) := peek st in
      let star := match c with Some x => ceqb x "*"%char | None => false end in
      if star then Val (mkSp3Res 0%Z (Some t) vec (Some it) st1, e)
      else
        do sl <- getline st1 line MAX_RECORD_CHARS;
        let '(st2, line2) := sl in
        do c0 <- rd line2 0;
        if ceqb c0 "P"%char then
          do p <- sp3_position_e line2 flag e;
          match p with
          | (inl j, e1) => Val (mkSp3Res (j + 20)%Z (Some t) vec None st2, e1)
          | (inr r, e1) =>
              do vec' <- put_rec vec it r;
              sp3_loop_e fuel' st2 line2 t vec' (S it) (p_flag r) e1
          end
        else
          do b <- strncmp_lit line2 0 "EOF" 3;
          if b then Val (mkSp3Res (-1)%Z (Some t) vec (Some it) st2, e)
          else sp3_loop_e fuel' st2 line2 t vec it flag e
  end.

(** sp3c.cpp:243-317 Sp3c::get_next_epoch *)
Definition sp3_next_epoch_e (fuel : nat) (st : stream) (vec : list sp3rec) (e : Z) : outcome (sp3res * Z) :=
  if negb (good st) then Val (mkSp3Res 1%Z None vec None st, e)
  else
    do sl <- getline st (uninit MAX_RECORD_CHARS) MAX_RECORD_CHARS;
    let '(st1, line) := sl in
    do h <- sp3_epoch_header_e line e;
    match h with
    | (inl j, e1) => Val (mkSp3Res j None vec None st1, e1)
    | (inr t, e1) => sp3_loop_e fuel st1 line t vec 0 0%Z e1
    end.

Section Sp3HeaderErrno.
  Variable wsow : sp3time -> Z * Q.
  Variable as_mjd : sp3time -> Q.

  (** sp3c.cpp:67-112: first line.  The conversion of the seconds (97) is not checked. *)
  Definition sp3_line1_e (line : mem) (e : Z) : outcome ((Z + (ascii * sp3time * Z * mem * mem * mem)) * Z) :=
    do c0 <- rd line 0;
    if negb (ceqb c0 "#"%char) then Val (inl 10%Z, e)
    else
      do ver <- rd line 1;
      if negb (ceqb ver "c"%char) && negb (ceqb ver "d"%char) then Val (inl 10%Z, e)
      else
        do r1 <- strtol_at line 3; let '(y, _, x1) := r1 in let e1 := note e x1 in
        if (to_i32 y =? 0)%Z || hot e1 then Val (inl 11%Z, 0%Z) else
        do r2 <- strtol_at line 8; let '(mo, _, x2) := r2 in let e2 := note e1 x2 in
        if (to_i32 mo =? 0)%Z || hot e2 then Val (inl 12%Z, 0%Z) else
        do r3 <- strtol_at line 11; let '(d, _, x3) := r3 in let e3 := note e2 x3 in
        if (to_i32 d =? 0)%Z || hot e3 then Val (inl 13%Z, 0%Z) else
        do r4 <- strtol_at line 14; let '(h, u4, x4) := r4 in let e4 := note e3 x4 in
        if hot e4 || (u4 =? 0) then Val (inl 14%Z, 0%Z) else
        do r5 <- strtol_at line 17; let '(mi, u5, x5) := r5 in let e5 := note e4 x5 in
        if hot e5 || (u5 =? 0) then Val (inl 15%Z, 0%Z) else
        do r6 <- strtod_at line 20; let '(sec, _, x6) := r6 in let e6 := note e5 x6 in
        do r7 <- strtol_at line 32; let '(ne, _, x7) := r7 in let e7 := note e6 x7 in
        if (to_i32 ne =? 0)%Z || hot e7 then Val (inl 16%Z, 0%Z) else
        do crd <- sub_at line 46 5;
        do orb <- sub_at line 52 3;
        do ag <- sub_at line 56 3;
        do u <- to_usec sec;
        Val (inr (ver, mkTime [to_i32 y; to_i32 mo; to_i32 d; to_i32 h; to_i32 mi] u, to_i32 ne, crd, orb, ag), e7).

  (** sp3c.cpp:114-144: second line.  The conversions of the seconds of week (123), the interval (132) and the fraction of
      day (139) are not checked; the returns 22 and 24 (126-131, 141-144) leave errno as it is. *)
  Definition sp3_line2_e (line : mem) (start : sp3time) (e : Z) : outcome ((Z + Z) * Z) :=
    do c0 <- rd line 0;
    if negb (ceqb c0 "#"%char) then Val (inl 20%Z, e)
    else
      do c1 <- rd line 1;
      if negb (ceqb c1 "#"%char) then Val (inl 20%Z, e)
      else
        do r1 <- strtol_at line 3; let '(wk, _, x1) := r1 in let e1 := note e x1 in
        if (to_i32 wk =? 0)%Z || hot e1 then Val (inl 21%Z, 0%Z) else
        do r2 <- strtod_at line 8; let '(sow, _, x2) := r2 in let e2 := note e1 x2 in
        if negb (fst (wsow start) =? to_i32 wk)%Z || negb (deqb (DFin (snd (wsow start))) sow) then Val (inl 22%Z, e2) else
        do r3 <- strtod_at line 24; let '(iv, _, x3) := r3 in let e3 := note e2 x3 in
        do u <- to_usec iv;
        do r4 <- strtol_at line 39; let '(mjd, _, x4) := r4 in let e4 := note e3 x4 in
        if (to_i32 mjd =? 0)%Z || hot e4 then Val (inl 23%Z, 0%Z) else
        do r5 <- strtod_at line 45; let '(fr, _, x5) := r5 in let e5 := note e4 x5 in
        if negb (deqb (dadd fr (DFin (inject_Z (to_i32 mjd)))) (DFin (as_mjd start))) then Val (inl 24%Z, e5)
        else Val (inr u, e5).

  (** sp3c.cpp:159-227: from the "+ " lines to the end; no errno there (the same text as in sp3_read_header) *)
  Definition sp3_tail (ver : ascii) (start : sp3time) (ne : Z) (crd orb ag : mem) (iv ns : Z) (st : stream) (line : mem)
    : outcome (Z + (sp3hdr * stream)) :=
    do p <- sp3_plus (SP3_HEADER_LINES - 1) 0 st line;
    let '(n1, st1, l1) := p in
    if SP3_HEADER_LINES <=? n1 then Val (inl 32%Z) else
    do d0 <- rd l1 0;
    if negb (ceqb d0 "+"%char) then Val (inl 40%Z) else
    do d1 <- rd l1 1;
    if negb (ceqb d1 "+"%char) then Val (inl 40%Z) else
    do pp <- sp3_plusplus (SP3_HEADER_LINES - 1 - n1) n1 st1 l1;
    let '(n2, st2, l2) := pp in
    if SP3_HEADER_LINES <=? n2 then Val (inl 41%Z) else
    do q1 <- sp3_percent st2 l2 "c"%char;
    let '(ok1, st3, l3) := q1 in
    if negb ok1 then Val (inl 50%Z) else
    do ts <- sub_at l3 9 3;
    do q2 <- sp3_percent st3 l3 "c"%char;
    let '(ok2, st4, l4) := q2 in
    if negb ok2 then Val (inl 51%Z) else
    do q3 <- sp3_percent st4 l4 "f"%char;
    let '(ok3, st5, l5) := q3 in
    if negb ok3 then Val (inl 60%Z) else
    do q4 <- sp3_percent st5 l5 "f"%char;
    let '(ok4, st6, l6) := q4 in
    if negb ok4 then Val (inl 60%Z) else
    do q5 <- sp3_percent st6 l6 "i"%char;
    let '(ok5, st7, l7) := q5 in
    if negb ok5 then Val (inl 70%Z) else
    do q6 <- sp3_percent st7 l7 "i"%char;
    let '(ok6, st8, l8) := q6 in
    if negb ok6 then Val (inl 70%Z) else
    let '(st9, c9) := peek st8 in
    do cm <- sp3_comments (SP3_HEADER_LINES - n2) st9 c9 l8;
    let '(code, st10) := cm in
    if negb (code =? 0)%Z then Val (inl code) else
    let '(st11, eoh) := tellg st10 in
    Val (inr (mkSp3Hdr ver start ne ns crd orb ag ts iv eoh, st11)).

  (** sp3c.cpp:28-38, 52-227: the constructor on a file that exists.  [inl code]: it throws, with the code in the message *)
  Definition sp3_open_e (d : list ascii) (e : Z) : outcome ((Z + (sp3hdr * stream)) * Z) :=
    do sl1 <- getline (open_stream d) (uninit SP3_HEADER_CHARS) SP3_HEADER_CHARS;
    do a <- sp3_line1_e (snd sl1) e;
    match a with
    | (inl c, e1) => Val (inl c, e1)
    | (inr (ver, start, ne, crd, orb, ag), e1) =>
        do sl2 <- getline (fst sl1) (snd sl1) SP3_HEADER_CHARS;
        do b <- sp3_line2_e (snd sl2) start e1;
        match b with
        | (inl c, e2) => Val (inl c, e2)
        | (inr iv, e2) =>
            do sl3 <- getline (fst sl2) (snd sl2) SP3_HEADER_CHARS;
            do c0 <- rd (snd sl3) 0;
            if negb (ceqb c0 "+"%char) then Val (inl 30%Z, e2) else
            do c1 <- rd (snd sl3) 1;
            if negb (ceqb c1 " "%char) then Val (inl 30%Z, e2) else
            do r <- strtol_at (snd sl3) 3;
            let '(ns, _, x) := r in
            let e3 := note e2 x in
            if (to_i32 ns =? 0)%Z || hot e3 then Val (inl 31%Z, 0%Z) else
            do t <- sp3_tail ver start ne crd orb ag iv (to_i32 ns) (fst sl3) (snd sl3);
            Val (t, e3)
        end
    end.
End Sp3HeaderErrno.
