(** SpecNum: decimal texts and their values, independent of the model of strtol/strtod. *)
From Verif Require Import Base.
From Verif Require Export B64.
Local Open Scope Z_scope.

Definition digit (c : ascii) : Prop := (48 <= nat_of_ascii c <= 57)%nat.
Definition digits (s : list ascii) : Prop := Forall digit s.

(** value of a digit string *)
Definition dec_val (s : list ascii) : Z :=
  fold_left (fun a c => a * 10 + (Z.of_nat (nat_of_ascii c) - 48)) s 0.

Definition blanks (n : nat) : list ascii := repeat " "%char n.

(** [s] right-justified in [w] columns *)
Definition rjust (w : nat) (s : list ascii) : list ascii := blanks (w - length s) ++ s.

(** [s] left-justified in [w] columns *)
Definition ljust (w : nat) (s : list ascii) : list ascii := s ++ blanks (w - length s).

(** A decimal literal: sign, integer digits, optional point and fraction digits, optional exponent
    (letter, sign, digits). *)
Record numlit := mkNum {
  nsign : option ascii;
  nint : list ascii;
  ndot : bool;
  nfrac : list ascii;
  nexp : option (ascii * option ascii * list ascii)
}.

Definition sign_text (s : option ascii) : list ascii := match s with Some c => [c] | None => [] end.
Definition is_neg (s : option ascii) : bool :=
  match s with Some c => Ascii.eqb c "-"%char | None => false end.
Definition sign_ok (s : option ascii) : Prop :=
  match s with Some c => c = "-"%char \/ c = "+"%char | None => True end.

Definition mant_text (n : numlit) : list ascii :=
  nint n ++ (if ndot n then "."%char :: nfrac n else []).
Definition exp_text (n : numlit) : list ascii :=
  match nexp n with Some (e, sg, ds) => e :: sign_text sg ++ ds | None => [] end.
Definition num_text (n : numlit) : list ascii := sign_text (nsign n) ++ mant_text n ++ exp_text n.

Definition exp_val (n : numlit) : Z :=
  match nexp n with
  | Some (_, sg, ds) => if is_neg sg then - dec_val ds else dec_val ds
  | None => 0
  end.
Definition pow10 (e : Z) : Q :=
  if e >=? 0 then inject_Z (10 ^ e) else Qmake 1 (Z.to_pos (10 ^ (- e))).
(** the number the text denotes *)
Definition num_dec (n : numlit) : Q :=
  let m := dec_val (nint n ++ nfrac n) in
  (inject_Z (if is_neg (nsign n) then - m else m)
   * pow10 (exp_val n - Z.of_nat (length (nfrac n))))%Q.

(** the double nearest to it (SpecB64, ProofB64) *)
Definition num_val (n : numlit) : Q := b64 (num_dec n).
(** the float nearest to it *)
Definition num_flt (n : numlit) : Q := b32 (num_dec n).

(** well formed, and small enough to be in the range of a double *)
Definition num_ok (n : numlit) : Prop :=
  sign_ok (nsign n) /\ digits (nint n) /\ digits (nfrac n) /\ nint n ++ nfrac n <> [] /\
  (ndot n = false -> nfrac n = []) /\
  (length (nint n ++ nfrac n) <= 100)%nat /\
  match nexp n with
  | Some (e, sg, ds) =>
      (e = "e"%char \/ e = "E"%char) /\ sign_ok sg /\ digits ds /\ ds <> [] /\ dec_val ds <= 100
  | None => True
  end.

(** what may follow the literal without becoming part of it *)
Definition num_stop (n : numlit) (r : list ascii) : Prop :=
  match r with
  | [] => True
  | c :: _ =>
      ~ digit c /\
      (nexp n = None -> c <> "e"%char /\ c <> "E"%char) /\
      (nexp n = None -> ndot n = false ->
       c <> "."%char /\ c <> "x"%char /\ c <> "X"%char)
  end.
