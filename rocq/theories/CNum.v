(** CNum: strtol, strtod, std::stoi, std::stod on C strings ("C" locale, glibc).
    Models no file of /repo; trusted model of the C library (see DESIGN.md).
    Doubles are rational numbers, infinities or NaN (no sign of zero); rounding is B64. *)
From Coq Require Import Qabs.
From Verif Require Import Base.
From Verif Require Export B64.
Local Open Scope Z_scope.

Definition is_space (c : ascii) : bool :=
  let n := nat_of_ascii c in
  ((n =? 32) || ((9 <=? n) && (n <=? 13)))%nat.

Definition is_digit (c : ascii) : bool :=
  let n := nat_of_ascii c in ((48 <=? n) && (n <=? 57))%nat.

Definition digit_val (c : ascii) : Z := Z.of_nat (nat_of_ascii c) - 48.

(** Number of leading white-space characters and the rest. *)
Fixpoint skip_ws (s : list ascii) : nat * list ascii :=
  match s with
  | c :: r => if is_space c then let (k, t) := skip_ws r in (S k, t) else (O, s)
  | [] => (O, [])
  end.

(** Leading decimal digits: value (continuing [acc]), count, rest. *)
Fixpoint scan_digits (s : list ascii) (acc : Z) : Z * nat * list ascii :=
  match s with
  | c :: r =>
      if is_digit c
      then let '(v, k, t) := scan_digits r (acc * 10 + digit_val c) in (v, S k, t)
      else (acc, O, s)
  | [] => (acc, O, [])
  end.

(** Optional sign: is negative, chars used, rest. *)
Definition scan_sign (s : list ascii) : bool * nat * list ascii :=
  match s with
  | c :: r =>
      if ceqb c "-"%char then (true, 1%nat, r)
      else if ceqb c "+"%char then (false, 1%nat, r)
      else (false, O, s)
  | [] => (false, O, [])
  end.

Definition LONG_MAX : Z := 9223372036854775807.
Definition LONG_MIN : Z := -9223372036854775808.

(** strtol(s, &end, 10): (value, end - s, ERANGE).  end - s = 0 when no conversion. *)
Definition strtol (s : list ascii) : Z * nat * bool :=
  let '(w, s1) := skip_ws s in
  let '(neg, sg, s2) := scan_sign s1 in
  let '(v, k, _) := scan_digits s2 0 in
  match k with
  | O => (0, O, false)
  | _ =>
      let z := if neg then - v else v in
      let n := (w + sg + k)%nat in
      if z >? LONG_MAX then (LONG_MAX, n, true)
      else if z <? LONG_MIN then (LONG_MIN, n, true)
      else (z, n, false)
  end.

(** ** Floating point *)
Inductive cdbl : Type :=
| DFin (q : Q)
| DInf (neg : bool)
| DNan.

Definition lower (c : ascii) : ascii :=
  let n := nat_of_ascii c in
  if ((65 <=? n) && (n <=? 90))%nat then ascii_of_nat (n + 32) else c.

(** Case-insensitive prefix test. *)
Fixpoint prefix_ci (p s : list ascii) : bool :=
  match p, s with
  | [], _ => true
  | x :: p', y :: s' => ceqb x (lower y) && prefix_ci p' s'
  | _, [] => false
  end.

Definition is_hex (c : ascii) : bool :=
  let n := nat_of_ascii (lower c) in
  is_digit c || ((97 <=? n) && (n <=? 102))%nat.

Definition hex_val (c : ascii) : Z :=
  if is_digit c then digit_val c else Z.of_nat (nat_of_ascii (lower c)) - 87.

Fixpoint scan_hex (s : list ascii) (acc : Z) : Z * nat * list ascii :=
  match s with
  | c :: r =>
      if is_hex c
      then let '(v, k, t) := scan_hex r (acc * 16 + hex_val c) in (v, S k, t)
      else (acc, O, s)
  | [] => (acc, O, [])
  end.

(** Optional exponent part introduced by [e] (lower case): exponent value, chars used. *)
Definition scan_exp (e : ascii) (s : list ascii) : Z * nat :=
  match s with
  | c :: r =>
      if ceqb (lower c) e then
        let '(neg, sg, r1) := scan_sign r in
        let '(v, k, _) := scan_digits r1 0 in
        match k with
        | O => (0, O)
        | _ => ((if neg then - v else v), (1 + sg + k)%nat)
        end
      else (0, O)
  | [] => (0, O)
  end.

(** m * b^e as a rational. *)
Definition scaleQ (m : Z) (b : Z) (e : Z) : Q :=
  if (e >=? 0) then inject_Z (m * b ^ e)
  else Qmake m (Z.to_pos (b ^ (- e))).

(** n-char-sequence of nan(...): chars up to the closing parenthesis, if well formed. *)
Fixpoint nan_seq (s : list ascii) : option nat :=
  match s with
  | c :: r =>
      if ceqb c ")"%char then Some 1%nat
      else
        let n := nat_of_ascii (lower c) in
        if is_digit c || ((97 <=? n) && (n <=? 122))%nat || ceqb c "_"%char
        then option_map S (nan_seq r) else None
  | [] => None
  end.

(** Largest magnitude that does not overflow and smallest normal magnitude. *)
Definition DBL_OVER : Z := 2 ^ 1024 - 2 ^ 970.
Definition overflows (q : Q) : bool :=
  (Z.abs (Qnum q) >=? DBL_OVER * Zpos (Qden q)).
Definition underflows (q : Q) : bool :=
  negb (Qnum q =? 0) && (Z.abs (Qnum q) * 2 ^ 1022 <? Zpos (Qden q)).

(** Unsigned decimal literal: mantissa value, chars used (0: none). *)
Definition scan_decimal (s : list ascii) : Q * nat :=
  let '(v1, k1, s1) := scan_digits s 0 in
  let '(v, k2, dot, s2) :=
    match s1 with
    | c :: r =>
        if ceqb c "."%char then
          let '(v2, k2, t) := scan_digits r v1 in (v2, k2, 1%nat, t)
        else (v1, O, O, s1)
    | [] => (v1, O, O, s1)
    end in
  match (k1 + k2)%nat with
  | O => (inject_Z 0, O)
  | _ =>
      let '(e, ke) := scan_exp "e"%char s2 in
      (scaleQ v 10 (e - Z.of_nat k2), (k1 + dot + k2 + ke)%nat)
  end.

(** Unsigned hexadecimal literal after the "0x" prefix. *)
Definition scan_hexfloat (s : list ascii) : Q * nat :=
  let '(v1, k1, s1) := scan_hex s 0 in
  let '(v, k2, dot, s2) :=
    match s1 with
    | c :: r =>
        if ceqb c "."%char then
          let '(v2, k2, t) := scan_hex r v1 in (v2, k2, 1%nat, t)
        else (v1, O, O, s1)
    | [] => (v1, O, O, s1)
    end in
  match (k1 + k2)%nat with
  | O => (inject_Z 0, O)
  | _ =>
      let '(e, ke) := scan_exp "p"%char s2 in
      (scaleQ v 2 (e - 4 * Z.of_nat k2), (k1 + dot + k2 + ke)%nat)
  end.

(** the double nearest to [q] *)
Definition mkfin (neg : bool) (q : Q) : cdbl * bool :=
  if overflows q then (DInf neg, true)
  else (DFin (b64 (if neg then Qopp q else q)), underflows q).

(** the float nearest to [q] *)
Definition FLT_OVER : Z := 2 ^ 128 - 2 ^ 103.
Definition flt_overflows (q : Q) : bool := (Z.abs (Qnum q) >=? FLT_OVER * Zpos (Qden q))%Z.
Definition flt_underflows (q : Q) : bool := negb (Qnum q =? 0)%Z && (Z.abs (Qnum q) * 2 ^ 126 <? Zpos (Qden q))%Z.
Definition mkflt (neg : bool) (q : Q) : cdbl * bool :=
  if flt_overflows q then (DInf neg, true)
  else (DFin (b32 (if neg then Qopp q else q)), flt_underflows q).

(** the text of a number: (value as [mk] makes it, end - s, ERANGE); end - s = 0 when no conversion. *)
Definition strtonum (mk : bool -> Q -> cdbl * bool) (s : list ascii) : cdbl * nat * bool :=
  let '(w, s1) := skip_ws s in
  let '(neg, sg, s2) := scan_sign s1 in
  let base := (w + sg)%nat in
  if prefix_ci (lit "infinity") s2 then (DInf neg, (base + 8)%nat, false)
  else if prefix_ci (lit "inf") s2 then (DInf neg, (base + 3)%nat, false)
  else if prefix_ci (lit "nan") s2 then
    let extra := match skipn 3 s2 with
                 | c :: r => if ceqb c "("%char
                             then match nan_seq r with Some k => S k | None => O end
                             else O
                 | [] => O
                 end in
    (DNan, (base + 3 + extra)%nat, false)
  else
    let hex := if prefix_ci (lit "0x") s2 then scan_hexfloat (skipn 2 s2)
               else (inject_Z 0, O) in
    match hex with
    | (q, S k) => let '(d, er) := mk neg q in (d, (base + 2 + S k)%nat, er)
    | (_, O) =>
        match scan_decimal s2 with
        | (_, O) => (DFin 0, O, false)
        | (q, k) => let '(d, er) := mk neg q in (d, (base + k)%nat, er)
        end
    end.

(** strtod(s, &end) and strtof(s, &end) *)
Definition strtod : list ascii -> cdbl * nat * bool := strtonum mkfin.
Definition strtof : list ascii -> cdbl * nat * bool := strtonum mkflt.

(** std::stod: throws invalid_argument when nothing is converted, out_of_range on ERANGE. *)
Definition stod (s : list ascii) : outcome cdbl :=
  let '(v, n, er) := strtod s in
  match n with
  | O => Exn
  | _ => if er then Exn else Val v
  end.

(** std::stoi: throws when nothing is converted or the value does not fit an int. *)
Definition stoi (s : list ascii) : outcome Z :=
  let '(v, n, er) := strtol s in
  match n with
  | O => Exn
  | _ => if er || (v >? 2147483647) || (v <? -2147483648) then Exn else Val v
  end.

(** The double nearest to [q]; infinity from 2^1024 on. *)
Definition dfin (q : Q) : cdbl :=
  if Qle_bool (inject_Z (2 ^ 1024)) (Qabs (b64 q)) then DInf (Qnum q <? 0) else DFin (b64 q).

(** Arithmetic on doubles needed by the readers. *)
Definition dmul (a b : cdbl) : cdbl :=
  match a, b with
  | DFin x, DFin y => dfin (x * y)
  | DNan, _ | _, DNan => DNan
  | DInf s, DFin y => if Qeq_bool y 0 then DNan else DInf (xorb s (negb (Qle_bool 0 y)))
  | DFin x, DInf s => if Qeq_bool x 0 then DNan else DInf (xorb s (negb (Qle_bool 0 x)))
  | DInf s, DInf t => DInf (xorb s t)
  end.

Definition dadd (a b : cdbl) : cdbl :=
  match a, b with
  | DFin x, DFin y => dfin (x + y)
  | DNan, _ | _, DNan => DNan
  | DInf s, DFin _ => DInf s
  | DFin _, DInf s => DInf s
  | DInf s, DInf t => if Bool.eqb s t then DInf s else DNan
  end.

(** x == 0e0 *)
Definition dis_zero (a : cdbl) : bool :=
  match a with DFin q => Qeq_bool q 0 | _ => false end.

(** x >= q *)
Definition dge (a : cdbl) (q : Q) : bool :=
  match a with
  | DFin x => Qle_bool q x
  | DInf neg => negb neg
  | DNan => false
  end.
