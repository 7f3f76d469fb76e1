(** ModelApp: /repo/test/pp_rnx.cpp, the point-positioning program built on the library: the cache of
    navigation messages it keeps (update_msg, check_nav_msg, get_valid_msg). *)
From Verif Require Import Base CNum Stream ModelSatsys ModelObs ModelObsRnx ModelNav.
Local Open Scope Z_scope.

(** test/pp_rnx.cpp:142-153 update_msg: search the navigation file for a message of the satellite of
    [msg] valid at [t] (milliseconds), then rewind to where the search started.  [curpos] is a
    default-constructed pos_type that find_next_valid assigns; [nmsg] is the default-constructed frame
    handed to the search.  Result: (code, message afterwards, stream, errno). *)
Definition update_msg (fuel : nat) (strp : strp_t) (eoh : option nat) (nmsg : frame) (t : Z) (st : stream) (errno : Z)
    (msg : frame) : outcome (Z * frame * stream * Z) :=
  do q <- find_next_valid fuel strp t st nmsg errno (f_sys msg) (f_prn msg);
  let '(pos, r) := q in
  let msg' := if n_code r =? 0 then n_frame r else msg in
  Val (n_code r, msg', nav_rewind eoh pos (n_stream r), n_errno r).

(** test/pp_rnx.cpp:161-186 check_nav_msg: -1 unhealthy, 0 usable at [t], 1 outside the interval.  Not
    noexcept: the exceptions of sv_health and fit_interval propagate. *)
Definition check_nav_msg (m : frame) (t : Z) : outcome Z :=
  do h <- sv_health m;
  if negb (h =? 0) then Val (-1)
  else
    do fit <- fit_interval m;
    if satsys_eqb (f_sys m) Glonass then
      let toe := f_toe m * 1000 in
      if (toe - fit * 1000 <=? t) && (t <? toe + fit * 1000) then Val 0 else Val 1
    else
      let toc := f_toc m * 1000 in
      if toc <=? t then if t <? toc + fit * 1000 then Val 0 else Val 1 else Val 1.

(** test/pp_rnx.cpp:196-197, 213 the satellite of a cached message is the requested one *)
Definition same_sv (sys : satsys) (prn : Z) (p : frame) : bool := satsys_eqb sys (f_sys p) && (prn =? f_prn p).

(** test/pp_rnx.cpp:194-198 the first std::find_if, whose predicate assigns [status]; result: index of
    the element found (or the length) and status *)
Fixpoint cache_search (sys : satsys) (prn t : Z) (cache : list frame) (i : nat) (status : Z) : outcome (nat * Z) :=
  match cache with
  | [] => Val (i, status)
  | p :: r =>
      if same_sv sys prn p then
        do c <- check_nav_msg p t;
        if c =? 0 then Val (i, c) else cache_search sys prn t r (S i) c
      else cache_search sys prn t r (S i) status
  end.

(** test/pp_rnx.cpp:211-213 the second std::find_if *)
Fixpoint first_sv (sys : satsys) (prn : Z) (cache : list frame) (i : nat) : option nat :=
  match cache with
  | [] => None
  | p :: r => if same_sv sys prn p then Some i else first_sv sys prn r (S i)
  end.

(** the result of get_valid_msg: the iterator (None: end()), status, cache, stream and errno afterwards *)
Record cacheres := mkCache { g_it : option nat; g_status : Z; g_cache : list frame; g_stream : stream; g_errno : Z }.

(** test/pp_rnx.cpp:188-226 get_valid_msg; [nmsg] as in update_msg, also the default-constructed message
    whose system and PRN are set at line 202.  The assert of line 214 is Term. *)
Definition get_valid_msg (fuel : nat) (strp : strp_t) (eoh : option nat) (nmsg : frame) (st : stream) (errno : Z)
    (sys : satsys) (prn t : Z) (cache : list frame) : outcome cacheres :=
  do q <- cache_search sys prn t cache 0 (-200);
  let '(i, status) := q in
  if status =? 0 then Val (mkCache (Some i) 0 cache st errno)
  else
    do u <- update_msg fuel strp eoh nmsg t st errno (set_prn prn (set_sys sys nmsg));
    let '(j, msg, st', errno') := u in
    if negb (j =? 0) then Val (mkCache None j cache st' errno')
    else if 0 <=? status then
      match first_sv sys prn cache 0 with
      | None => Term
      | Some k => Val (mkCache (Some k) 0 (firstn k cache ++ msg :: skipn (S k) cache) st' errno')
      end
    else Val (mkCache (Some (length cache)) 0 (cache ++ [msg]) st' errno').
