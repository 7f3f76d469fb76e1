(** ModelMain: /repo/test/pp_rnx.cpp:228-376, main of the point-positioning program from its arguments to its exit
    code: the files, the request, and the loop over the epochs (ModelPP.pp_main).  Simplifications: output is not
    modelled; errno is 0 when the observation file is opened (ModelErrno for anything else) and some value [errno]
    when the loop starts; what the calendar library makes of the start time of the file is a function [start]. *)
From Coq Require Import Reals Qreals ZArith List.
From Verif Require Import B64 Base CNum Stream ModelSatsys ModelSatellite ModelObs ModelObsRnx ModelNav ModelOrbit ModelApp
  ModelPP ModelAntex ModelAntexObj.
Local Open Scope list_scope.

(** test/pp_rnx.cpp:244-246: the observable that is asked for; gnssobsrv.hpp:110-123 for the constructor and add *)
Definition pp_sys : satsys := Glonass.
Definition pp_observable : outcome observable :=
  do c1 <- obscode_of_cstr (cbuf (lit "C1C")) 0;
  do c2 <- obscode_of_cstr (cbuf (lit "C2W")) 0;
  Val ([mkPart (mkRaw pp_sys c1) (DFin (b64 (25457277801631593 # 10000000000000000)))] ++
       [mkPart (mkRaw Gps c2) (DFin (b64 (-15457277801631593 # 10000000000000000)))]).

(** the parameters that come from outside: see pp_main; [a_strp], [a_fuel], [a_line]: strptime, loop bound and the
    uninitialised line buffer of the ANTEX search *)
Record outside := mkOut {
  x_fs : list ascii -> option (list ascii); x_ostrp : list ascii -> option Z; x_start : option Z -> Z;
  x_astrp : list ascii -> option Z; x_afuel : nat; x_aline : mem;
  x_passes : nat; x_nfuel : nat; x_nstrp : strp_t; x_frame : frame; x_errno : Z;
  x_ell : R * R * R -> R * R * R; x_day : list Z -> Z }.

(** test/pp_rnx.cpp:236, 240: obsrnx.cpp:80-94 and 165-166, navrnx.cpp:188-199 and 207: a file that cannot be
    opened makes read_header return 1 and the constructor throw *)
Definition open_obs (x : outside) (name : list ascii) : outcome obsfile :=
  match x_fs x name with Some d => obs_open (x_ostrp x) d | None => Exn end.
Definition open_nav (x : outside) (name : list ascii) : outcome navobj :=
  match x_fs x name with Some d => nav_open d | None => Exn end.

(** test/pp_rnx.cpp:254-256: the satellites asked for, [i], ..., [i + n - 1]; the list: the numbers found *)
Fixpoint info_loop (x : outside) (dt : Z) (n : nat) (i : Z) (st : stream) (eoh : option nat) (found : list Z) : outcome (list Z) :=
  match n with
  | O => Val found
  | S n' =>
      do r <- get_satellite_info (x_astrp x) (x_afuel x) (x_afuel x) (x_aline x) st eoh i pp_sys dt;
      let '(code, _, st1) := r in
      info_loop x dt n' (i + 1)%Z st1 eoh (if (code =? 0)%Z then found ++ [i] else found)
  end.
(** test/pp_rnx.cpp:249-258 *)
Definition sat_info (x : outside) (o : obsfile) (name : list ascii) : outcome (list Z) :=
  do a <- new_antex (x_fs x) name;
  match ax_stream a with
  | None => UB
  | Some st => info_loop x (x_start x (h_start (o_hdr o))) 32 1 st (ax_eoh a) []
  end.

(** test/pp_rnx.cpp:263-264 std::map::empty *)
Definition plan_is_empty (plan : smap (list vecof_idpair)) : bool :=
  forallb (fun s => match plan s with None => true | Some _ => false end) all_satsys.
(** test/pp_rnx.cpp:280-290: the approximate position of the file *)
Definition real_pos (l : list cdbl) : R * R * R :=
  let c i := match nth_error l i with Some (DFin q) => Q2R q | _ => 0%R end in (c 0, c 1, c 2).

(** test/pp_rnx.cpp:228-376: [args] is argv (argc = length); exit code and calls of filter.update *)
Definition pp_program (x : outside) (args : list (list ascii)) : outcome (Z * list upcall) :=
  match args with
  | _ :: obsname :: navname :: rest =>
      do o <- open_obs x obsname;
      do n <- open_nav x navname;
      do g <- pp_observable;
      do _ <- match rest with atx :: _ => sat_info x o atx | [] => Val [] end;
      do r <- set_read_map (h_tbl (o_hdr o)) (smap_set smap_empty pp_sys [g]) false;
      let plan := fst r in
      if plan_is_empty plan then Val (100%Z, [])
      else pp_main (x_passes x) (mkEnv (x_nfuel x) (x_nstrp x) (ModelNav.v_eoh n) (x_frame x)) (x_ell x) (x_day x)
             (real_pos (h_approx (o_hdr o))) plan o (v_stream n) (x_errno x)
  | _ => Val (1%Z, [])
  end.
