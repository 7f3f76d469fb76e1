(** SpecHeaderBad: observation-header lines that cannot be read, for C54 *)
From Verif Require Import Base CNum ModelSatsys ModelObs ModelObsRnx SpecText SpecNum SpecObs SpecHeader.

(** a character that starts no number: not a digit, sign, point, white space or the start of inf/nan *)
Definition starts_no_number (c : ascii) : Prop :=
  ~ digit c /\ ~ In c [" "; "+"; "-"; "."; "i"; "I"; "n"; "N"]%char /\ is_space c = false.
(** columns 1-14, 15-28, 29-42: some readable coordinates, then something that is no number *)
Definition bad_coords (content : list ascii) : Prop :=
  exists ns k rest, Forall coord_ok ns /\ length ns <= 2 /\ (ns = [] \/ 1 <= k) /\ content = flat_map (fun n => rjust 14 (num_text n)) ns ++ blanks k ++ rest /\
    match rest with [] => True | c :: _ => starts_no_number c end.
(** a header line that cannot be read: content, label *)
Inductive bad_line (strp : list ascii -> option Z) : list ascii -> string -> nat -> Prop :=
| bl_approx c j : content_ok c j -> bad_coords c -> bad_line strp c "APPROX POSITION XYZ" j
| bl_delta c j : content_ok c j -> bad_coords c -> bad_line strp c "ANTENNA: DELTA H/E/N" j
| bl_clk ds j : digits ds -> ds <> [] -> length ds <= 6 -> (dec_val ds <> 0 /\ dec_val ds <> 1)%Z -> j <= 4 -> bad_line strp (rjust 6 ds) "RCV CLOCK OFFS APPL" j
| bl_time c j : content_ok c j -> strp (header_line c (lit "TIME OF FIRST OBS") j) = None -> bad_line strp c "TIME OF FIRST OBS" j.

