(** ModelObs: /repo/src/gnssobs.hpp, gnssobs.cpp, gnssobsrv.hpp, gnssobsrv.cpp. *)
From Verif Require Import Base CNum ModelSatsys.

(** gnssobs.hpp:33-41 enum class OBSERVABLE_TYPE. *)
Inductive obstype : Type :=
| Pseudorange | CarrierPhase | Doppler | SignalStrength | IonoDelay | RecvChannel | AnyType.

Definition obstype_eqb (a b : obstype) : bool :=
  match a, b with
  | Pseudorange, Pseudorange | CarrierPhase, CarrierPhase | Doppler, Doppler
  | SignalStrength, SignalStrength | IonoDelay, IonoDelay | RecvChannel, RecvChannel
  | AnyType, AnyType => true
  | _, _ => false
  end.

(** gnssobs.cpp:22-40 char_to_observabletype. *)
Definition char_to_obstype (c : ascii) : outcome obstype :=
  if ceqb c "C"%char then Val Pseudorange
  else if ceqb c "L"%char then Val CarrierPhase
  else if ceqb c "D"%char then Val Doppler
  else if ceqb c "S"%char then Val SignalStrength
  else if ceqb c "I"%char then Val IonoDelay
  else if ceqb c "X"%char then Val RecvChannel
  else Exn.

(** gnssobs.cpp:54-73 observabletype_to_char. *)
Definition obstype_to_char (t : obstype) : ascii :=
  match t with
  | Pseudorange => "C"%char
  | CarrierPhase => "L"%char
  | Doppler => "D"%char
  | SignalStrength => "S"%char
  | IonoDelay => "I"%char
  | RecvChannel => "X"%char
  | AnyType => "?"%char
  end.

(** gnssobs.hpp:108-168 class ObservationCode (type, band, attribute); the attribute class
    (gnssobs.hpp:57-75) is just a char. *)
Record obscode := mkCode { ctype : obstype; cband : Z; cattr : ascii }.

(** gnssobs.hpp:129-132 operator==. *)
Definition obscode_eqb (a b : obscode) : bool :=
  obstype_eqb (ctype a) (ctype b) && ((cband a =? cband b)%Z && ceqb (cattr a) (cattr b)).

(** gnssobs.cpp:84-99 ObservationCode(const char pointer); the argument is the C string found at
    offset [off] of buffer [m]. *)
Definition obscode_of_cstr (m : mem) (off : nat) : outcome obscode :=
  do s <- cstr m off;
  if length s <? 2 then Exn
  else
    do c0 <- rd m off;
    do ot <- char_to_obstype c0;
    do c1 <- rd m (off + 1);
    let bn := (zchar c1 - 48)%Z in
    if 2 <? length s then
      do c2 <- rd m (off + 2);
      if negb (ceqb c2 " "%char) then Val (mkCode ot bn c2)
      else Val (mkCode ot bn "?"%char)
    else Val (mkCode ot bn "?"%char).

(** gnssobs.cpp:101-110 ObservationCode::to_string: only the first char of the printed band. *)
Definition obscode_to_string (c : obscode) : list ascii :=
  [obstype_to_char (ctype c);
   match to_string_Z (cband c) with d :: _ => d | [] => "?"%char end;
   cattr c].

(** gnssobsrv.hpp:30-79 class GnssRawObservable. *)
Record rawobs := mkRaw { rsys : satsys; rcode : obscode }.

(** gnssobsrv.hpp:44-46 *)
Definition rawobs_eqb (a b : rawobs) : bool :=
  satsys_eqb (rsys a) (rsys b) && obscode_eqb (rcode a) (rcode b).

(** gnssobsrv.hpp:81-106 struct __ObsPart. *)
Record obspart := mkPart { ptype : rawobs; pcoef : cdbl }.

(** gnssobsrv.hpp:93: IEEE comparison of doubles: NaN differs from everything. *)
Definition deq (a b : cdbl) : bool :=
  match a, b with
  | DFin x, DFin y => Qeq_bool x y
  | DInf s, DInf t => Bool.eqb s t
  | _, _ => false
  end.

(** gnssobsrv.hpp:92-94 *)
Definition obspart_eqb (a b : obspart) : bool :=
  rawobs_eqb (ptype a) (ptype b) && deq (pcoef a) (pcoef b).

(** gnssobsrv.hpp:108-159 class GnssObservable: the vector of parts.  The public constructors give
    at least one part, but underlying_vector() (hpp:137) hands out the vector for modification. *)
Definition observable := list obspart.

(** gnssobsrv.cpp:64-75 operator==: same size and every part of the left has an equal part on the
    right (std::find_if with p == ic, p from the right). *)
Definition observable_eqb (a b : observable) : bool :=
  if negb (length b =? length a) then false
  else forallb (fun i => existsb (fun p => obspart_eqb p i) b) a.

(** gnssobsrv.cpp:5-45 __ObsPart::frequency: the double nearest to the tabulated frequency times the coefficient. *)
Definition part_frequency (p : obspart) : outcome cdbl :=
  let band := cband (rcode (ptype p)) in
  match rsys (ptype p) with
  | Glonass => Val (DFin 0)
  | Mixed => Val (DFin 0)
  | s => do f <- band2frequency s band; Val (dmul (DFin (b64 f)) (pcoef p))
  end.

(** gnssobsrv.hpp:128-133 GnssObservable::frequency() noexcept. *)
Fixpoint frequency_loop (v : list obspart) (acc : cdbl) : outcome cdbl :=
  match v with
  | [] => Val acc
  | p :: r => do f <- part_frequency p; frequency_loop r (dadd acc f)
  end.
Definition observable_frequency (o : observable) : outcome cdbl :=
  noexcept (frequency_loop o (DFin 0)).

(** gnssobsrv.hpp:145-153 is_of_mixed_satsys. *)
Definition is_mixed (o : observable) : bool :=
  match o with
  | [] => false
  | p0 :: _ =>
      let sys := rsys (ptype p0) in
      existsb (fun p => negb (satsys_eqb (rsys (ptype p)) sys)) o
  end.

(** gnssobsrv.cpp:47-50 GnssRawObservable::to_string. *)
Definition rawobs_to_string (r : rawobs) : list ascii :=
  satsys_to_char (rsys r) :: lit "::" ++ obscode_to_string (rcode r).
