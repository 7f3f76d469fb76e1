(** Stream: std::ifstream as used by /repo (libstdc++ 11 semantics).
    Models no file of /repo; trusted model of the standard library (see DESIGN.md).
    badbit and I/O errors are not modelled. *)
From Verif Require Import Base.

Record stream := mkStream {
  sdata : list ascii;   (* whole content of the file *)
  spos  : nat;          (* get position *)
  seof  : bool;         (* eofbit *)
  sfail : bool          (* failbit *)
}.

Definition open_stream (d : list ascii) : stream := mkStream d 0 false false.

Definition good (s : stream) : bool := negb (seof s) && negb (sfail s).

Definition rest (s : stream) : list ascii := skipn (spos s) (sdata s).

Definition set_fail (s : stream) : stream := mkStream (sdata s) (spos s) (seof s) true.
Definition set_eof (s : stream) : stream := mkStream (sdata s) (spos s) true (sfail s).
Definition clear_bits (s : stream) : stream := mkStream (sdata s) (spos s) false false.
Definition advance (s : stream) (n : nat) : stream :=
  mkStream (sdata s) (spos s + n) (seof s) (sfail s).

Inductive line_end := LDelim | LEof | LFull.

(** Characters transferred by getline when at most [k] fit, and why it stopped. *)
Fixpoint take_line (k : nat) (l : list ascii) : list ascii * line_end :=
  match l with
  | [] => ([], LEof)
  | c :: r =>
      if ceqb c NL then ([], LDelim)
      else match k with
           | O => ([], LFull)
           | S k' => let (t, e) := take_line k' r in (c :: t, e)
           end
  end.

(** in.getline(buf, n), n >= 1, delimiter newline. *)
Definition getline (s : stream) (buf : mem) (n : nat) : outcome (stream * mem) :=
  if good s then
    let (t, e) := take_line (n - 1) (rest s) in
    do b <- wr_bytes buf 0 (map Some t ++ [Some NUL]);
    let s1 := advance s (length t + match e with LDelim => 1 | _ => 0 end) in
    let s2 := match e with
              | LDelim => s1
              | LEof => set_eof s1
              | LFull => set_fail s1
              end in
    let s3 := match t, e with
              | [], LDelim => s2
              | [], _ => set_fail s2          (* gcount == 0 *)
              | _, _ => s2
              end in
    Val (s3, b)
  else
    do b <- wr_bytes buf 0 [Some NUL];
    Val (set_fail s, b).

(** in.peek(): None is EOF (-1). *)
Definition peek (s : stream) : stream * option ascii :=
  if good s then
    match rest s with
    | [] => (set_eof s, None)
    | c :: _ => (s, Some c)
    end
  else (set_fail s, None).

(** in.tellg(): None is pos_type(-1). *)
Definition tellg (s : stream) : stream * option nat :=
  if good s then (s, Some (spos s)) else (set_fail s, None).

(** in.seekg(p): clears eofbit, does nothing else when failbit is set. *)
Definition seekg (s : stream) (p : option nat) : stream :=
  let s1 := mkStream (sdata s) (spos s) false (sfail s) in
  if sfail s then s1
  else match p with
       | Some k => mkStream (sdata s) k false false
       | None => set_fail s1
       end.

(** in.clear() *)
Definition sclear (s : stream) : stream := clear_bits s.
