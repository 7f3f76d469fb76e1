(** Base: outcomes of C++ executions, byte buffers and the libc string
    functions used by /repo/src.  This file models no file of /repo; it models the
    language and the C library functions the code calls (trusted, see DESIGN.md). *)
From Coq Require Export String.
From Coq Require Import DecimalString.
From Coq Require Export List ZArith Ascii Bool Arith Lia QArith.
Export ListNotations.
Open Scope nat_scope.

(** Outcome of running a piece of C++ code. *)
Inductive outcome (A : Type) : Type :=
| Val (a : A)   (* returns normally *)
| Exn           (* a C++ exception propagates to the caller *)
| Term          (* std::terminate was called: exception left a noexcept function *)
| UB            (* undefined behaviour *)
| Fuel.         (* the fuel given to a loop is exhausted: not a C++ outcome *)
Arguments Val {A} a.
Arguments Exn {A}.
Arguments Term {A}.
Arguments UB {A}.
Arguments Fuel {A}.

Definition bind {A B} (o : outcome A) (f : A -> outcome B) : outcome B :=
  match o with
  | Val a => f a
  | Exn => Exn
  | Term => Term
  | UB => UB
  | Fuel => Fuel
  end.

Notation "'do' x <- o ; k" := (bind o (fun x => k))
  (at level 200, x pattern, o at level 100, k at level 200, right associativity).

(** Body of a [noexcept] function: an escaping exception calls std::terminate. *)
Definition noexcept {A} (o : outcome A) : outcome A :=
  match o with Exn => Term | _ => o end.

(** try { o } catch (...) { h } *)
Definition catch {A} (o : outcome A) (h : outcome A) : outcome A :=
  match o with Exn => h | _ => o end.

Definition is_val {A} (o : outcome A) : bool :=
  match o with Val _ => true | _ => false end.

(** ** Characters *)
Definition NUL : ascii := ascii_of_nat 0.
Definition NL : ascii := ascii_of_nat 10.
Definition CFF : ascii := ascii_of_nat 255.
Definition BLANK : ascii := " "%char.

(** Value of a plain [char] (signed on x86-64 gcc). *)
Definition zchar (c : ascii) : Z :=
  let n := Z.of_nat (nat_of_ascii c) in
  if (n <? 128)%Z then n else (n - 256)%Z.

(** Value of an [unsigned char]. *)
Definition uchar (c : ascii) : Z := Z.of_nat (nat_of_ascii c).

(** Conversion int -> char (implementation defined, modulo 256 on gcc). *)
Definition char_of_int (z : Z) : ascii := ascii_of_nat (Z.to_nat (z mod 256)).

Definition ceqb (a b : ascii) : bool := Ascii.eqb a b.

Fixpoint lit (s : string) : list ascii :=
  match s with
  | EmptyString => []
  | String c r => c :: lit r
  end.

Fixpoint list_eqb (a b : list ascii) : bool :=
  match a, b with
  | [], [] => true
  | x :: a', y :: b' => ceqb x y && list_eqb a' b'
  | _, _ => false
  end.

(** ** Byte buffers: [None] is an uninitialised byte. *)
Definition mem := list (option ascii).

Definition uninit (n : nat) : mem := repeat None n.

(** A C string literal or a std::string's c_str(): bytes followed by NUL. *)
Definition cbuf (s : list ascii) : mem := map Some s ++ [Some NUL].

(** Read of one byte: outside the object or uninitialised is UB. *)
Definition rd (m : mem) (i : nat) : outcome ascii :=
  match nth_error m i with
  | Some (Some c) => Val c
  | _ => UB
  end.

(** Write of one byte. *)
Definition wr (m : mem) (i : nat) (c : ascii) : outcome mem :=
  if i <? length m
  then Val (firstn i m ++ Some c :: skipn (S i) m)
  else UB.

(** Write of consecutive bytes. *)
Definition wr_bytes (m : mem) (off : nat) (s : list (option ascii)) : outcome mem :=
  if off + length s <=? length m
  then Val (firstn off m ++ s ++ skipn (off + length s) m)
  else UB.

(** memcpy(dst+doff, src+soff, n); copying uninitialised bytes is allowed. *)
Definition memcpy (dst : mem) (doff : nat) (src : mem) (soff n : nat) : outcome mem :=
  if soff + n <=? length src
  then wr_bytes dst doff (firstn n (skipn soff src))
  else UB.

(** memset(dst+doff, c, n) *)
Definition memset (dst : mem) (doff : nat) (c : ascii) (n : nat) : outcome mem :=
  wr_bytes dst doff (repeat (Some c) n).

(** The NUL-terminated string starting at the beginning of [m]; UB when a byte before the
    terminator is uninitialised or outside the object.  Used for every libc function
    that requires a string argument (strlen, strtol, strtod, std::string from a char pointer). *)
Fixpoint cstr0 (m : mem) : outcome (list ascii) :=
  match m with
  | Some c :: r =>
      if ceqb c NUL then Val []
      else do s <- cstr0 r; Val (c :: s)
  | _ => UB
  end.

Definition cstr (m : mem) (off : nat) : outcome (list ascii) := cstr0 (skipn off m).

Definition strlen (m : mem) (off : nat) : outcome nat :=
  do s <- cstr m off; Val (length s).

(** strncmp(a, b, n) == 0: compares bytes up to n or the first NUL/difference. *)
Fixpoint strncmp0 (a b : mem) (n : nat) {struct n} : outcome bool :=
  match n with
  | O => Val true
  | S n' =>
      match a, b with
      | Some x :: a', Some y :: b' =>
          if ceqb x y
          then if ceqb x NUL then Val true else strncmp0 a' b' n'
          else Val false
      | _, _ => UB
      end
  end.

Definition strncmp_eq (a : mem) (aoff : nat) (b : mem) (boff n : nat) : outcome bool :=
  strncmp0 (skipn aoff a) (skipn boff b) n.

(** strncmp(buf+off, "literal", n) == 0 *)
Definition strncmp_lit (a : mem) (aoff : nat) (s : string) (n : nat) : outcome bool :=
  strncmp_eq a aoff (cbuf (lit s)) 0 n.

(** std::to_string(int) *)
Definition string_of_nonneg (z : Z) : list ascii :=
  lit (NilZero.string_of_uint (N.to_uint (Z.to_N z))).

Definition to_string_Z (z : Z) : list ascii :=
  if (z <? 0)%Z then "-"%char :: string_of_nonneg (- z) else string_of_nonneg z.

(** Conversion of a long to a 32-bit int (modular, gcc). *)
Definition to_i32 (z : Z) : Z := ((z + 2147483648) mod 4294967296 - 2147483648)%Z.
