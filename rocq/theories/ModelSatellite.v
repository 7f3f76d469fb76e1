(** ModelSatellite: /repo/src/satellite.hpp, satellite.cpp, rinex.hpp. *)
From Verif Require Import Base ModelSatsys.

(** satellite.hpp:29-31 *)
Definition COSPAR_ID_CHARS : nat := 8.

(** satellite.hpp:49-117 class Satellite; the antenna member is a separate object
    (ModelAntenna).  The constructors (hpp:49-55) leave the cospar bytes uninitialised. *)
Record satellite := mkSat { sat_sys : satsys; sat_prn : Z; sat_svn : Z; sat_cospar : mem }.

Definition new_satellite (s : satsys) (prn : Z) : satellite :=
  mkSat s prn (-1) (uninit (COSPAR_ID_CHARS + 1)).

(** satellite.cpp:21: reading [n] initialised bytes: std::string(ptr, n). *)
Fixpoint rd_n (m : mem) (n : nat) : outcome (list ascii) :=
  match n with
  | O => Val []
  | S k => match m with
           | Some c :: r => do t <- rd_n r k; Val (c :: t)
           | _ => UB
           end
  end.

(** satellite.cpp:7-8: letter and PRN. *)
Definition sat_compact (s : satellite) : list ascii :=
  satsys_to_char (sat_sys s) ::
  (if (sat_prn s <? 10)%Z then "0"%char :: to_string_Z (sat_prn s) else to_string_Z (sat_prn s)).

(** satellite.cpp:5-22 Satellite::to_string(compact). *)
Definition sat_to_string (s : satellite) (compact : bool) : outcome (list ascii) :=
  let sat := sat_compact s in
  if compact then Val sat
  else
    let v := to_string_Z (sat_svn s) in
    let sat2 :=
      if (sat_svn s <? 10)%Z then sat ++ lit "-00" ++ v
      else if (sat_svn s <? 100)%Z then sat ++ lit "-0" ++ v
      else sat ++ lit "-" ++ v in
    do c <- rd_n (sat_cospar s) COSPAR_ID_CHARS;
    Val (sat2 ++ lit "/" ++ c).

(** rinex.hpp:12-14 four2two_digit_year. *)
Definition four2two_digit_year (y : Z) : Z := if (y <=? 79)%Z then (2000 + y)%Z else (1900 + y)%Z.
