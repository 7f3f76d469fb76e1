(** ModelObsText: gnssobsrv.cpp:52-62, to_string of the parts of an observable and of an observable *)
From Verif Require Import Base CNum ModelSatsys ModelObs.
Local Open Scope Z_scope.
Local Open Scope list_scope.

(** std::to_string(double) is printf "%f": the exact value rounded to six decimals, ties to even.
    Simplification: the sign of a zero is not modelled (-0.0 prints as -0.000000) and neither is that of a NaN. *)
Definition round6 (q : Q) : Z :=
  let n := Z.abs (Qnum q) * 1000000 in let d := Zpos (Qden q) in
  let k := n / d in let r := n mod d in
  if 2 * r <? d then k else if d <? 2 * r then k + 1 else if Z.even k then k else k + 1.
Definition digit_char (k : Z) : ascii := ascii_of_nat (Z.to_nat (48 + k)).
Definition six_digits (m : Z) : list ascii :=
  [digit_char (m / 100000 mod 10); digit_char (m / 10000 mod 10); digit_char (m / 1000 mod 10);
   digit_char (m / 100 mod 10); digit_char (m / 10 mod 10); digit_char (m mod 10)].
Definition to_string_double (x : cdbl) : list ascii :=
  match x with
  | DFin q => (if Qnum q <? 0 then ["-"%char] else []) ++ string_of_nonneg (round6 q / 1000000) ++ "."%char :: six_digits (round6 q mod 1000000)
  | DInf neg => if neg then lit "-inf" else lit "inf"
  | DNan => lit "nan"
  end.

(** gnssobsrv.cpp:52-54 *)
Definition part_to_string (p : obspart) : list ascii := rawobs_to_string (ptype p) ++ "*"%char :: to_string_double (pcoef p).
(** gnssobsrv.cpp:56-62; the first part is taken unconditionally *)
Definition observable_to_string (o : observable) : outcome (list ascii) :=
  match o with
  | [] => UB
  | p :: r => Val (part_to_string p ++ flat_map (fun q => "+"%char :: part_to_string q) r)
  end.
