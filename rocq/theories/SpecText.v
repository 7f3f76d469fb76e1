(** SpecText: specifications for C01-C08, C14, C15.  Uses only characters and lists
    (and the plain data types of observables), not the functions of the model. *)
From Coq Require Import Qabs.
From Verif Require Import SpecB64 Base CNum ModelSatsys ModelObs.

(** The letters of RINEX 3.04, table of satellite systems. *)
Definition satsys_letters : list (ascii * satsys) :=
  [("G"%char, Gps); ("R"%char, Glonass); ("S"%char, Sbas); ("E"%char, Galileo);
   ("C"%char, Beidou); ("J"%char, Qzss); ("I"%char, Irnss); ("M"%char, Mixed)].

(** The letters of observation types. *)
Definition obstype_letters : list (ascii * obstype) :=
  [("C"%char, Pseudorange); ("L"%char, CarrierPhase); ("D"%char, Doppler);
   ("S"%char, SignalStrength); ("I"%char, IonoDelay); ("X"%char, RecvChannel)].

Definition all_blank (s : list ascii) : Prop := forall c, In c s -> c = " "%char.
Definition no_blank (s : list ascii) : Prop := ~ In " "%char s.

(** [r] is [s] without its trailing blanks. *)
Definition strips_trailing (s r : list ascii) : Prop :=
  exists b, s = r ++ b /\ all_blank b /\ (forall r' c, r = r' ++ [c] -> c <> " "%char).

(** [r] is the part of [s] before its first blank. *)
Definition before_first_blank (s r : list ascii) : Prop :=
  exists t, s = r ++ t /\ no_blank r /\ (forall c t', t = c :: t' -> c = " "%char).

(** [r] is [s] without its leading blanks. *)
Definition strips_leading (s r : list ascii) : Prop :=
  exists b, s = b ++ r /\ all_blank b /\ (forall c r', r = c :: r' -> c <> " "%char).

(** The considered part of a string: everything, or its first [stop] characters. *)
Definition considered (s : list ascii) (stop : option nat) : list ascii :=
  match stop with None => s | Some k => firstn k s end.

(** Nominal band frequencies in MHz (None: no such band for the system). *)
Definition nominal (s : satsys) (band : Z) : option Q :=
  match s, band with
  | Gps, 1%Z => Some (157542#100)   | Gps, 2%Z => Some (12276#10)    | Gps, 5%Z => Some (117645#100)
  | Galileo, 1%Z => Some (157542#100) | Galileo, 5%Z => Some (117645#100)
  | Galileo, 7%Z => Some (120714#100) | Galileo, 8%Z => Some (1191795#1000)
  | Galileo, 6%Z => Some (127875#100)
  | Sbas, 1%Z => Some (157542#100)  | Sbas, 5%Z => Some (117645#100)
  | Qzss, 1%Z => Some (157542#100)  | Qzss, 2%Z => Some (12276#10)
  | Qzss, 5%Z => Some (117645#100)  | Qzss, 6%Z => Some (127875#100)
  | Beidou, 1%Z => Some (1561098#1000) | Beidou, 2%Z => Some (120714#100)
  | Beidou, 3%Z => Some (126852#100)
  | Irnss, 5%Z => Some (117645#100) | Irnss, 9%Z => Some (2492028#1000)
  | _, _ => None
  end.

(** A part contributes coefficient * frequency; GLONASS and mixed contribute 0;
    None: the band is not listed for the system.  [q] is the coefficient. *)
Definition contribution (s : satsys) (band : Z) (q : Q) : option Q :=
  match s with
  | Glonass | Mixed => Some 0%Q
  | _ => option_map (fun f => (f * q)%Q) (nominal s band)
  end.

Fixpoint sum_contributions (l : list (satsys * Z * Q)) : option Q :=
  match l with
  | [] => Some 0%Q
  | (s, b, q) :: r =>
      match contribution s b q, sum_contributions r with
      | Some x, Some y => Some (x + y)%Q
      | _, _ => None
      end
  end.

(** The size of a combination: the sum of the absolute contributions. *)
Definition size_contributions (l : list (satsys * Z * Q)) : option Q :=
  sum_contributions (map (fun t => (fst t, Qabs (snd t))) l).

(** The same in doubles: the nominal frequency is stored as a double, the product and each sum are rounded, from left to
    right, starting with [a]. *)
Definition contribution_double (s : satsys) (band : Z) (q x : Q) : Prop :=
  match s with
  | Glonass | Mixed => (x == 0)%Q
  | _ => exists f f', nominal s band = Some f /\ nearest_double f f' /\ nearest_double (f' * q) x
  end.
Inductive adds_up : Q -> list (satsys * Z * Q) -> Q -> Prop :=
| adds_nil a : adds_up a [] a
| adds_cons a s b q x a' r z :
    contribution_double s b q x -> nearest_double (a + x) a' -> adds_up a' r z -> adds_up a ((s, b, q) :: r) z.

(** Two parts are the same: same system, same code, same (finite) coefficient value. *)
Definition same_part (a b : obspart) : Prop :=
  ptype a = ptype b /\
  match pcoef a, pcoef b with
  | DFin x, DFin y => (x == y)%Q
  | DInf s, DInf t => s = t
  | _, _ => False
  end.

(** Equality of observables as the documentation suggests: the parts of one can be matched one to
    one with equal parts of the other, in any order. *)
Inductive same_parts : list obspart -> list obspart -> Prop :=
| sp_nil : same_parts [] []
| sp_cons x y a b1 b2 : same_part x y -> same_parts a (b1 ++ b2) -> same_parts (x :: a) (b1 ++ y :: b2).

Definition no_nan (o : list obspart) : Prop := forall p, In p o -> pcoef p <> DNan.

(** no two different positions hold the same part *)
Fixpoint no_dup_parts (o : list obspart) : Prop :=
  match o with
  | [] => True
  | p :: r => (forall q, In q r -> ~ same_part p q) /\ no_dup_parts r
  end.
