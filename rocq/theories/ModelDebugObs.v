(** ModelDebugObs: the observation reader as compiled with -DDEBUG (src/Makefile.am:16, the default flags): the
    assertions of obsrnx.cpp:393-396, 759-761, 851-853. A failed assert aborts: [Term]. [is_valid] is day_of_month::is_valid of
    the external calendar library on (year, month, day). *)
From Verif Require Import Base CNum Stream ModelSatsys ModelSatellite ModelObs ModelNvarstr ModelAntenna ModelObsRnx.

(** obsrnx.cpp:395 *)
Definition valid_t := Z -> Z -> Z -> bool.

(** obsrnx.cpp:361-438, with the assertion after the five integers *)
Definition resolve_epoch_dbg (is_valid : valid_t) (m : mem) : outcome (Z * option epochhdr) :=
  do line <- cstr m 0;
  let lnlen := length line in
  do c0 <- rd m 0;
  if negb (ceqb c0 ">"%char) || (lnlen <? 35) then Val (1%Z, None)
  else
    do r <- epoch_ints 5 m 2;
    match r with
    | None => Val (2%Z, None)
    | Some (ints, start) =>
        if negb (is_valid (nth 0 ints 0%Z) (nth 1 ints 0%Z) (nth 2 ints 0%Z)) then Term
        else
        do s <- cstr m start;
        let '(rsec, n, er) := strtod s in
        if er || (n =? 0) then Val (3%Z, None)
        else
          let hh := nth 3 ints 0%Z in
          let mi := nth 4 ints 0%Z in
          let sec := dadd (DFin (inject_Z ((hh * 60 + mi) * 60))) rsec in
          do c31 <- rd m 31;
          let flag := (zchar c31 - 48)%Z in
          do s2 <- cstr m 32;
          let '(v2, n2, er2) := strtol s2 in
          let nsats := to_i32 v2 in
          let end2 := 32 + n2 in
          if er2 || (start =? end2) then Val (4%Z, None)
          else if 41 <? lnlen then
            do e <- string_is_empty m 41 None;
            if e then
              if start =? end2 then Val (5%Z, None)
              else Val (0%Z, Some (mkEpoch ints sec flag nsats (Some (DFin 0))))
            else
              do s3 <- cstr m 41;
              let '(v3, n3, er3) := strtod s3 in
              if er3 || (start =? 41 + n3) then Val (5%Z, None)
              else Val (0%Z, Some (mkEpoch ints sec flag nsats (Some v3)))
          else Val (0%Z, Some (mkEpoch ints sec flag nsats None))
    end.

(** obsrnx.cpp:752-795 *)
Definition sat_epoch_collect_dbg (buf : mem) (sysobs : list vecof_idpair) (vals : list cdbl)
  : outcome (Z * Z * list cdbl) :=
  if length vals <? length sysobs then Term else sat_epoch_collect buf sysobs vals.

(** obsrnx.cpp:859-883 *)
Fixpoint collect_loop_dbg (k : nat) (mmap : smap (list vecof_idpair)) (st : stream) (buf : mem)
    (bufsz : nat) (out : list satentry) (pos : nat)
  : outcome (Z * nat * list satentry * stream * mem) :=
  match k with
  | O => Val (0%Z, pos, out, st, buf)
  | S k' =>
      do sl <- getline st buf bufsz;
      let '(st1, buf1) := sl in
      do c0 <- rd buf1 0;
      match char_to_satsys c0 with
      | Val s =>
          match mmap s with
          | None => collect_loop_dbg k' mmap st1 buf1 bufsz out pos
          | Some sysobs =>
              match nth_error out pos with
              | None => UB
              | Some (sat, vals) =>
                  do r <- sat_epoch_collect_dbg buf1 sysobs vals;
                  let '(code, prn, vals') := r in
                  if (code >? 0)%Z then Val (1%Z, pos, entry_set out pos (sat, vals'), st1, buf1)
                  else collect_loop_dbg k' mmap st1 buf1 bufsz
                         (entry_set out pos (new_satellite s prn, vals')) (S pos)
              end
          end
      | Exn => Val (1%Z, pos, out, st1, buf1)
      | Term => Term | UB => UB | Fuel => Fuel
      end
  end.

(** obsrnx.cpp:839-885: assert(satobs.size() >= (std::size_t)numsats): a negative count becomes 2^64 - |numsats| *)
Definition collect_epoch_dbg (numsats : Z) (mmap : smap (list vecof_idpair)) (st : stream) (buf : mem)
    (bufsz : nat) (out : list satentry) : outcome (Z * nat * list satentry * stream * mem) :=
  if (Z.of_nat (length out) <? numsats mod 2 ^ 64)%Z then Term
  else collect_loop_dbg (Z.to_nat numsats) mmap st buf bufsz out 0.

(** obsrnx.cpp:932-956 *)
Definition read_next_epoch_dbg (is_valid : valid_t) (o : obsfile) (mmap : smap (list vecof_idpair)) (out : list satentry)
  : outcome epochres :=
  let upd st buf := mkObsFile st (o_hdr o) (o_eoh o) buf (o_bufsz o) in
  let tail st buf out' n h :=
    if seof st then Val (mkRes (-1)%Z (upd (sclear st) buf) out' n h)
    else Val (mkRes 0%Z (upd st buf) out' n h) in
  let (st0, c) := peek (o_stream o) in
  match c with
  | Some ch =>
      do sl <- getline st0 (o_buf o) (o_bufsz o);
      let '(st1, buf1) := sl in
      do r <- resolve_epoch_dbg is_valid buf1;
      let '(j, hdr) := r in
      match hdr with
      | None => Val (mkRes (20 + j)%Z (upd st1 buf1) out 0 None)
      | Some h =>
          do q <- collect_epoch_dbg (e_nsats h) mmap st1 buf1 (o_bufsz o) out;
          let '(j2, n, out', st2, buf2) := q in
          if negb (j2 =? 0)%Z then Val (mkRes (30 + j2)%Z (upd st2 buf2) out' n (Some h))
          else tail st2 buf2 out' n (Some h)
      end
  | None => tail st0 (o_buf o) out 0 None
  end.
