(** ModelAntenna: /repo/src/antenna.hpp, antenna.cpp.  Objects are byte buffers. *)
From Verif Require Import Base.

(** antenna.hpp:31-52 *)
Definition ant_model_max : nat := 15.
Definition ant_radome_max : nat := 4.
Definition ant_serial_max : nat := 20.
Definition ant_full_max : nat := ant_model_max + 1 + ant_radome_max + ant_serial_max + 1. (* 41 *)
Definition sat_ant_max : nat := 20.
Definition mpr_sz : nat := ant_model_max + 1 + ant_radome_max. (* 20 *)

(** antenna.cpp:22-27 initialize and antenna.hpp:89 default constructor. *)
Definition ant_default : outcome mem :=
  let name := uninit ant_full_max in
  do n1 <- memset name 0 " "%char mpr_sz;
  wr n1 mpr_sz NUL.

(** antenna.cpp:30-34 set_none_radome. *)
Definition set_none_radome (name : mem) : outcome mem :=
  memcpy name (ant_model_max + 1) (cbuf (lit "NONE")) 0 ant_radome_max.

(** antenna.cpp:57-70 copy_from_cstr. *)
Definition copy_from_cstr (name : mem) (c : mem) (off : nat) : outcome mem :=
  do ant_size <- strlen c off;
  do n1 <- memcpy name 0 c off (Nat.min ant_size mpr_sz);
  if ant_size <? mpr_sz then
    do n2 <- memset n1 ant_size " "%char (mpr_sz - ant_size);
    set_none_radome n2
  else Val n1.

(** antenna.cpp:78-83 and 91-96 constructors from C string / std::string. *)
Definition ant_of_cstr (c : mem) (off : nat) : outcome mem :=
  do n <- copy_from_cstr (uninit ant_full_max) c off;
  wr n mpr_sz NUL.

(** antenna.cpp:141-152 has_serial; loop from index 20, UB past the object. *)
Fixpoint has_serial_loop (m : mem) : outcome bool :=
  match m with
  | Some c :: r =>
      if ceqb c NUL then Val false
      else if negb (ceqb c " "%char) then Val true
      else has_serial_loop r
  | _ => UB
  end.
Definition has_serial (name : mem) : outcome bool := has_serial_loop (skipn mpr_sz name).

(** antenna.cpp:108-112 is_same. *)
Definition ant_is_same (a b : mem) : outcome bool :=
  do ha <- has_serial a;
  if negb ha then Val false
  else
    do hb <- has_serial b;
    if negb hb then Val false
    else strncmp_eq a 0 b 0 ant_full_max.

(** antenna.cpp:122-125 compare_model. *)
Definition compare_model (a b : mem) : outcome bool := strncmp_eq a 0 b 0 mpr_sz.

(** antenna.cpp:130-133 compare_serial. *)
Definition compare_serial (a : mem) (c : mem) (off : nat) : outcome bool :=
  strncmp_eq a mpr_sz c off ant_serial_max.

(** antenna.cpp:159-169 set_serial_nr. *)
Definition set_serial_nr (name : mem) (c : mem) (off : nat) : outcome mem :=
  do n1 <- memset name mpr_sz " "%char (ant_serial_max + 1);
  do len <- strlen c off;
  do n2 <- memcpy n1 mpr_sz c off (Nat.min len ant_serial_max);
  wr n2 (mpr_sz + ant_serial_max) NUL.

(** antenna.cpp:174-178 SatelliteAntenna::copy_from_cstr (also set_from_cstr, antenna.hpp:152). *)
Definition sant_copy (name : mem) (c : mem) (off : nat) : outcome mem :=
  do len <- strlen c off;
  let n := Nat.min len sat_ant_max in
  do n1 <- memcpy name 0 c off n;
  wr n1 n NUL.

(** antenna.cpp:182-184 SatelliteAntenna(const char pointer). *)
Definition sant_of_cstr (c : mem) (off : nat) : outcome mem :=
  sant_copy (uninit (sat_ant_max + 1)) c off.

(** antenna.cpp:196-199 initialize, antenna.hpp:143 default constructor. *)
Definition sant_default : outcome mem :=
  memset (uninit (sat_ant_max + 1)) 0 NUL (sat_ant_max + 1).

(** antenna.cpp:191-193 SatelliteAntenna::is_same: returns the raw strncmp result as a bool,
    i.e. true when the strings differ. *)
Definition sant_is_same (a : mem) (c : mem) (off : nat) : outcome bool :=
  do eq <- strncmp_eq a 0 c off sat_ant_max;
  Val (negb eq).

(** antenna.hpp:160 to_string. *)
Definition sant_to_string (a : mem) : outcome (list ascii) := cstr a 0.
