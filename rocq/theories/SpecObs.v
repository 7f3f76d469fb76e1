(** SpecObs: RINEX 3.04 observation-file texts, for C16-C26 and C54.
    Only characters, lists, decimal texts (SpecNum) and the plain data types of the model. *)
From Verif Require Import Base CNum ModelSatsys ModelObs SpecText SpecNum.

(** no NUL and no newline *)
Definition clean (l : list ascii) : Prop := Forall (fun c => c <> NUL /\ c <> NL) l.

(** the letter of an observation type *)
Definition type_letter (t : obstype) : ascii :=
  match t with
  | Pseudorange => "C"%char | CarrierPhase => "L"%char | Doppler => "D"%char
  | SignalStrength => "S"%char | IonoDelay => "I"%char | RecvChannel => "X"%char
  | AnyType => "?"%char
  end.

(** three-character observation code *)
Definition code_text (c : obscode) : list ascii :=
  [type_letter (ctype c); ascii_of_nat (48 + Z.to_nat (cband c)); cattr c].

Definition code_ok (c : obscode) : Prop :=
  ctype c <> AnyType /\ (0 <= cband c <= 9)%Z /\ cattr c <> " "%char /\ cattr c <> NUL /\ cattr c <> NL.

Definition LABEL_OBSTYPES : list ascii := lit "SYS / # / OBS TYPES".

(** a header line: 60 columns of content, the label, trailing blanks *)
Definition header_line (content label : list ascii) (j : nat) : list ascii :=
  ljust 60 content ++ label ++ blanks j.

(** content of a 'SYS / # / OBS TYPES' line: six columns, then codes as (1X,A3) *)
Definition codes_content (six : list ascii) (cs : list obscode) : list ascii :=
  six ++ flat_map (fun c => " "%char :: code_text c) cs.

(** first six columns of the first line: letter, 2X, I3 *)
Definition first_six (letter : ascii) (count : list ascii) : list ascii :=
  letter :: blanks 2 ++ rjust 3 count.

(** 13 codes per line *)
Inductive layout : list obscode -> list (list obscode) -> Prop :=
| layout_last cs : cs <> [] -> length cs <= 13 -> layout cs [cs]
| layout_more h t r : length h = 13 -> layout t r -> layout (h ++ t) (h :: r).

(** the continuation lines *)
Definition cont_text (conts : list (list obscode)) (j : nat) : list ascii :=
  flat_map (fun cs => header_line (codes_content (blanks 6) cs) LABEL_OBSTYPES j ++ [NL]) conts.

(** ** Epoch header line: "> ", I4, 4(1X,I2.2), F11.7, 2X, I1, I3, then blanks or 6X, F15.12.
    Integers may be zero- or blank-padded; the seconds use at most 10 of their 11 columns. *)
Record epoch_src := mkSrc {
  s_year : list ascii; s_month : list ascii; s_day : list ascii; s_hour : list ascii; s_min : list ascii;
  s_sec : numlit; s_flag : ascii; s_nsat : list ascii;
  s_off : option numlit;      (* receiver clock offset *)
  s_pad : nat                 (* trailing blanks *)
}.

Definition field_ok (w : nat) (ds : list ascii) : Prop := digits ds /\ ds <> [] /\ length ds <= w.

Definition epoch_src_ok (e : epoch_src) : Prop :=
  digits (s_year e) /\ length (s_year e) = 4 /\
  field_ok 2 (s_month e) /\ field_ok 2 (s_day e) /\ field_ok 2 (s_hour e) /\ field_ok 2 (s_min e) /\
  num_ok (s_sec e) /\ length (num_text (s_sec e)) <= 10 /\
  digit (s_flag e) /\ field_ok 3 (s_nsat e) /\
  match s_off e with Some n => num_ok n /\ length (num_text n) <= 15 | None => True end.

Definition epoch_base (e : epoch_src) (nsat : list ascii) : list ascii :=
  lit "> " ++ s_year e ++ lit " " ++ rjust 2 (s_month e) ++ lit " " ++ rjust 2 (s_day e) ++ lit " " ++
  rjust 2 (s_hour e) ++ lit " " ++ rjust 2 (s_min e) ++ rjust 11 (num_text (s_sec e)) ++ lit "  " ++
  [s_flag e] ++ nsat.

Definition epoch_line (e : epoch_src) : list ascii :=
  epoch_base e (rjust 3 (s_nsat e)) ++
  match s_off e with Some n => blanks 6 ++ rjust 15 (num_text n) | None => [] end ++ blanks (s_pad e).

(** ** Observation field: F14.3 right-justified, LLI, SSI *)
Definition obs_field (n : numlit) (lli ssi : ascii) : list ascii := rjust 14 (num_text n) ++ [lli; ssi].

Definition obs_num_ok (n : numlit) : Prop :=
  num_ok n /\ ndot n = true /\ nexp n = None /\ length (num_text n) <= 14.

(** value of an indicator column *)
Definition indicator (c : ascii) : Z := if Ascii.eqb c " "%char then 0%Z else (Z.of_nat (nat_of_ascii c) - 48)%Z.

(** ** Satellite record lines: letter, I2, then 16-column fields *)

(** what the reader finds in the field of column [col]; the number is read from the 16 characters
    (see C19 for the relation to the first 14) *)
Inductive cell := CShort | CBlank | CValue (v : cdbl) | CBad.
Definition the_missing_value : Q := b64 (-99999 # 100)%Q.   (* the double nearest to -999.99 *)
Definition cell_of (line : list ascii) (col : nat) : cell :=
  let f := firstn 16 (skipn (3 + 16 * col) line) in
  if length line <? 3 + 16 * col + 16 then CShort
  else if forallb (fun c => Ascii.eqb c " "%char) (firstn 14 f) then CBlank
  else match strtod f with
       | (v, S _, false) =>
           match v with
           | DFin q => if Qeq_bool q the_missing_value then CBlank else CValue v
           | _ => CValue v
           end
       | _ => CBad
       end.

Definition cell_missing (c : cell) : bool := match c with CShort | CBlank => true | _ => false end.
Definition cell_bad (c : cell) : bool := match c with CBad => true | _ => false end.

(** the value a request should get: the weighted sum, or the missing value when a field is missing *)
Definition intended_value (line : list ascii) (req : list (nat * cdbl)) : cdbl :=
  if existsb (fun p => cell_missing (cell_of line (fst p))) req then DFin the_missing_value
  else fold_left (fun acc p => match cell_of line (fst p) with
                               | CValue v => dadd acc (dmul v (snd p))
                               | _ => acc
                               end) req (DFin 0).

(** no field after a missing one is present *)
Fixpoint missing_last (line : list ascii) (req : list (nat * cdbl)) : Prop :=
  match req with
  | [] => True
  | p :: r => (cell_missing (cell_of line (fst p)) = true ->
               forall q, In q r -> cell_missing (cell_of line (fst q)) = true) /\ missing_last line r
  end.

(** what the reader does compute: a missing field restarts the sum at the missing value *)
Fixpoint actual_value (line : list ascii) (req : list (nat * cdbl)) (acc : cdbl) : cdbl :=
  match req with
  | [] => acc
  | p :: r =>
      actual_value line r
        (match cell_of line (fst p) with
         | CValue v => dadd acc (dmul v (snd p))
         | _ => DFin the_missing_value
         end)
  end.

(** the PRN columns: two digits, one digit alone or before anything, or white space or '+' and a digit *)
Definition ch_digit (c : ascii) : bool := (48 <=? nat_of_ascii c) && (nat_of_ascii c <=? 57).
Definition ch_lead (c : ascii) : bool :=
  Ascii.eqb c "+"%char || (nat_of_ascii c =? 32) || ((9 <=? nat_of_ascii c) && (nat_of_ascii c <=? 13)).
Definition ch_val (c : ascii) : Z := (Z.of_nat (nat_of_ascii c) - 48)%Z.
Definition prn_of (line : list ascii) : option Z :=
  let n := match firstn 2 (skipn 1 line) with
           | [a; b] => if ch_digit a then (if ch_digit b then ch_val a * 10 + ch_val b else ch_val a)
                       else if ch_lead a && ch_digit b then ch_val b else 0
           | [a] => if ch_digit a then ch_val a else 0
           | _ => 0
           end%Z in
  if (1 <=? n)%Z then Some n else None.

(** ** Epochs *)

(** the system of a record line *)
Definition system_of (c : ascii) : option satsys :=
  option_map snd (find (fun p => Ascii.eqb (fst p) c) satsys_letters).

(** what a record line means under a plan (per system, a list of requests, each a list of
    (column, coefficient)) *)
Inductive record := RSkip | RBad | RTake (s : satsys) (prn : Z) (vals : list cdbl).
Definition record_of (plan : satsys -> option (list (list (nat * cdbl)))) (line : list ascii) : record :=
  match line with
  | [] => RBad
  | c :: _ =>
      match system_of c with
      | None => RBad
      | Some s =>
          match plan s with
          | None => RSkip
          | Some reqs =>
              match prn_of line with
              | None => RBad
              | Some prn =>
                  if existsb (existsb (fun p => cell_bad (cell_of line (fst p)))) reqs then RBad
                  else RTake s prn (map (fun r => actual_value line r (DFin 0)) reqs)
              end
          end
      end
  end.

(** the satellites of the lines that the plan selects, in file order *)
Definition taken plan (lines : list (list ascii)) : list (satsys * Z * list cdbl) :=
  flat_map (fun l => match record_of plan l with RTake s p v => [(s, p, v)] | _ => [] end) lines.

(** the C string in a line: up to the first NUL *)
Fixpoint cut_nul (l : list ascii) : list ascii :=
  match l with
  | [] => []
  | c :: r => if Ascii.eqb c NUL then [] else c :: cut_nul r
  end.

(** lines, each followed by a newline *)
Definition text_of (lines : list (list ascii)) : list ascii := flat_map (fun l => l ++ [NL]) lines.

(** ** Read plan *)
Section PlanSpec.
  Variable header : satsys -> option (list obscode).

  (** the request can be formed for system [s] from the header's columns *)
  Definition formable (s : satsys) (o : observable) : Prop :=
    exists codes, header s = Some codes /\
      forall p, In p o -> rsys (ptype p) = s /\ In (rcode (ptype p)) codes.

  (** column [i] is the (first) column of the code *)
  Definition column_of (codes : list obscode) (c : obscode) (i : nat) : Prop :=
    nth_error codes i = Some c /\ forall j, j < i -> nth_error codes j <> Some c.

  (** the columns and coefficients of a request, part by part *)
  Definition request_columns (s : satsys) (o : observable) (v : list (nat * cdbl)) : Prop :=
    exists codes, header s = Some codes /\
      Forall2 (fun p ic => rsys (ptype p) = s /\ column_of codes (rcode (ptype p)) (fst ic) /\ snd ic = pcoef p) o v.

  (** a part of another system comes before any part that the header does not have *)
  Definition clashing (s : satsys) (o : observable) : Prop :=
    (exists p r, o = p :: r /\ rsys (ptype p) <> s) \/
    (exists codes pre p post, header s = Some codes /\ o = pre ++ p :: post /\ rsys (ptype p) <> s /\
       forall q, In q pre -> rsys (ptype q) = s /\ In (rcode (ptype q)) codes).
End PlanSpec.
