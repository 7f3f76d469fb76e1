(** ModelNvarstr: /repo/src/nvarstr.hpp, nvarstr.cpp.
    [stop = None] is size_t(-1).  Lengths are assumed to fit an int (the code stores len-1 in an
    int in rtrim<End>). *)
From Verif Require Import Base CNum.

(** nvarstr.cpp:7-9, 24-26, 41-43, 67-69: the considered length. *)
Definition cut_len (len : nat) (stop : option nat) : nat :=
  match stop with
  | Some k => if k <? len then k else len
  | None => len
  end.

(** nvarstr.cpp:15-18: index after the last non-blank among the first [n] chars. *)
Fixpoint back_nonblank (s : list ascii) (n : nat) : nat :=
  match n with
  | O => O
  | S k => if ceqb (nth k s NUL) " "%char then back_nonblank s k else S k
  end.

(** nvarstr.cpp:5-20 StrSearchPolicyEnd::rtrim: (returned string, end). *)
Definition rtrim_end (m : mem) (off : nat) (stop : option nat) : outcome (list ascii * nat) :=
  do s <- cstr m off;
  let len := cut_len (length s) stop in
  if len =? 0 then Val ([], 0)
  else let e := back_nonblank s len in Val (firstn e s, e).

(** nvarstr.cpp:34: std::find(first, last, ' ') as an index into the first [n] chars. *)
Fixpoint find_blank (s : list ascii) (n : nat) : nat :=
  match n, s with
  | S k, c :: r => if ceqb c " "%char then O else S (find_blank r k)
  | _, _ => O
  end.

(** nvarstr.cpp:22-37 StrSearchPolicyStart::rtrim (the default policy, nvarstr.hpp:56-60). *)
Definition rtrim_start (m : mem) (off : nat) (stop : option nat) : outcome (list ascii * nat) :=
  do s <- cstr m off;
  let len := cut_len (length s) stop in
  if len =? 0 then Val ([], 0)
  else let e := find_blank s len in Val (firstn e s, e).

(** nvarstr.cpp:50-51: std::find_if_not(first, last, is blank) as an index. *)
Fixpoint find_nonblank (s : list ascii) (n : nat) : nat :=
  match n, s with
  | S k, c :: r => if ceqb c " "%char then S (find_nonblank r k) else O
  | _, _ => O
  end.

(** nvarstr.cpp:39-54 ltrim: (returned string, start). *)
Definition ltrim (m : mem) (off : nat) (stop : option nat) : outcome (list ascii * nat) :=
  do s <- cstr m off;
  let len := cut_len (length s) stop in
  if len =? 0 then Val ([], 0)
  else let b := find_nonblank s len in Val (firstn (len - b) (skipn b s), b).

(** nvarstr.cpp:56-64 __for2cpp__: in place on the buffer that starts at the argument. *)
Fixpoint for2cpp (m : mem) : outcome mem :=
  match m with
  | Some c :: r =>
      if ceqb c NUL then Val m
      else
        do r' <- for2cpp r;
        Val (Some (if ceqb c "D"%char || ceqb c "d"%char then "E"%char else c) :: r')
  | _ => UB
  end.

(** nvarstr.cpp:66-74 string_is_empty. *)
Definition string_is_empty (m : mem) (off : nat) (stop : option nat) : outcome bool :=
  do s <- cstr m off;
  let len := cut_len (length s) stop in
  Val (forallb (fun c => ceqb c " "%char) (firstn len s)).

(** nvarstr.hpp:85-95, 108-118 and 108-118 __char2double__<N,M>: (result, values assigned to data[0..] in
    order, errno set).  A failing conversion also assigns its (zero) value.  [errno] is the state of
    the global at the call: glibc sets it on ERANGE and never clears it. *)
Fixpoint char2double (m : mem) (off N M : nat) (errno : bool) : outcome (bool * list cdbl * bool) :=
  match N with
  | O => Val (negb errno, [], errno)
  | S k =>
      do s <- cstr m off;
      let '(v, n, er) := strtod s in
      let errno' := errno || er in
      if n =? 0 then Val (false, [v], errno')
      else
        do r <- char2double m (off + M) k M errno';
        let '(ok, vs, e) := r in
        Val (ok, v :: vs, e)
  end.
