(** ModelAntexObj: whole Antex objects, antex.hpp:47-63, 114-121, antex.cpp:60-93: construction and
    reset_to_file. std::ifstream: the attached file if open, get position, eofbit, failbit. [fs] gives the
    content of the named files that can be opened. *)
From Verif Require Import Base CNum Stream ModelSatsys ModelAntex.
Local Open Scope list_scope.

Record ifs := mkIfs { i_file : option (list ascii); i_pos : nat; i_eof : bool; i_fail : bool }.
(** std::ifstream::close: the state flags stay (closing a file opened for reading does not fail) *)
Definition ifs_close (i : ifs) : ifs := mkIfs None 0 (i_eof i) (i_fail i).
(** std::ifstream::open: clear() on success, failbit otherwise; an ifstream that is open cannot be opened again *)
Definition ifs_open (fs : list ascii -> option (list ascii)) (i : ifs) (name : list ascii) : ifs :=
  match i_file i with
  | Some _ => mkIfs (i_file i) (i_pos i) (i_eof i) true
  | None => match fs name with
            | Some d => mkIfs (Some d) 0 false false
            | None => mkIfs None (i_pos i) (i_eof i) true
            end
  end.
Definition of_stream (s : stream) : ifs := mkIfs (Some (sdata s)) (spos s) (seof s) (sfail s).

(** antex.hpp:114-121: the members *)
Record antex := mkAntex { ax_name : list ascii; ax_ifs : ifs; ax_sys : satsys; ax_version : atx_version; ax_eoh : option nat }.

(** antex.cpp:114-120: read_header (noexcept) returns 1 on a stream that is not open. The result: code, object *)
Definition ax_read_header (o : antex) : outcome (Z * antex) :=
  match i_file (ax_ifs o) with
  | None => Val (1%Z, o)
  | Some d =>
      do r <- noexcept (atx_read_header (mkStream d (i_pos (ax_ifs o)) (i_eof (ax_ifs o)) (i_fail (ax_ifs o))));
      Val (a_code r, mkAntex (ax_name o) (of_stream (a_stream r)) (a_sys r) (a_version r) (a_eoh r))
  end.
(** antex.cpp:64-68, 88-92: on failure close and throw *)
Definition ax_finish (o : antex) : outcome (bool * antex) :=
  do r <- ax_read_header o;
  let '(c, o1) := r in
  if (c =? 0)%Z then Val (false, o1)
  else Val (true, match i_file (ax_ifs o1) with
                  | Some _ => mkAntex (ax_name o1) (ifs_close (ax_ifs o1)) (ax_sys o1) (ax_version o1) (ax_eoh o1)
                  | None => o1
                  end).
(** antex.cpp:60-69 Antex(filename): an exception leaves no object *)
Definition new_antex (fs : list ascii -> option (list ascii)) (name : list ascii) : outcome antex :=
  do r <- ax_finish (mkAntex name (ifs_open fs (mkIfs None 0 false false) name) Mixed V14 (Some 0));
  let '(thrown, o) := r in if thrown : bool then Exn else Val o.
(** antex.hpp:47 Antex(): system, version and end of header are not initialised (any values) *)
Definition empty_antex (ss : satsys) (v : atx_version) (e : option nat) : antex := mkAntex [] (mkIfs None 0 false false) ss v e.
(** antex.cpp:80-93 reset_to_file; the boolean: an exception was thrown; the object remains *)
Definition reset_to_file (fs : list ascii -> option (list ascii)) (o : antex) (name : list ascii) : outcome (bool * antex) :=
  let i := match i_file (ax_ifs o) with Some _ => ifs_close (ax_ifs o) | None => ax_ifs o end in
  ax_finish (mkAntex name (ifs_open fs i name) Mixed V14 (Some 0)).
(** the lookups work on the stream and the end-of-header position *)
Definition ax_stream (o : antex) : option stream :=
  match i_file (ax_ifs o) with Some d => Some (mkStream d (i_pos (ax_ifs o)) (i_eof (ax_ifs o)) (i_fail (ax_ifs o))) | None => None end.
Definition ax_after (o : antex) (s : stream) : antex := mkAntex (ax_name o) (of_stream s) (ax_sys o) (ax_version o) (ax_eoh o).
