(** SpecNav: RINEX 3.04 navigation blocks and headers (for C38-C45, C65-C67). *)
From Verif Require Import Base CNum Stream ModelSatsys ModelNav SpecText SpecNum SpecObs SpecHeader.

(** ** Numbers: D19.12 fields, exponent letter E, e, D or d *)
Definition toE (n : numlit) : numlit :=
  mkNum (nsign n) (nint n) (ndot n) (nfrac n)
        (match nexp n with Some (_, sg, ds) => Some ("E"%char, sg, ds) | None => None end).
Definition exp_letter_ok (n : numlit) : Prop :=
  match nexp n with
  | Some (e, _, _) => e = "E"%char \/ e = "e"%char \/ e = "D"%char \/ e = "d"%char
  | None => True
  end.
(** a number that can stand in 19 columns without running into the field before it *)
Definition nav_field (n : numlit) : Prop :=
  num_ok (toE n) /\ exp_letter_ok n /\ length (num_text n) <= 19 /\ (length (num_text n) <= 18 \/ nsign n <> None).

(** ** Blocks *)
Record date_src := mkDate {
  d_year : list ascii; d_month : list ascii; d_day : list ascii; d_hour : list ascii; d_min : list ascii; d_sec : list ascii }.
Definition date_ok (d : date_src) : Prop :=
  digits (d_year d) /\ length (d_year d) = 4 /\ field_ok 2 (d_month d) /\ field_ok 2 (d_day d) /\
  field_ok 2 (d_hour d) /\ field_ok 2 (d_min d) /\ field_ok 2 (d_sec d).
(** 1X,I4,5(1X,I2) *)
Definition date_text (d : date_src) : list ascii :=
  lit " " ++ d_year d ++ lit " " ++ rjust 2 (d_month d) ++ lit " " ++ rjust 2 (d_day d) ++ lit " " ++
  rjust 2 (d_hour d) ++ lit " " ++ rjust 2 (d_min d) ++ lit " " ++ rjust 2 (d_sec d).
Definition date_vals (d : date_src) : list Z :=
  map dec_val [d_year d; d_month d; d_day d; d_hour d; d_min d; d_sec d].
(** [strp] (the date parser) reads dates by the calendar [cal], whatever follows, if that is neither
    a digit nor a point *)
Definition reads_dates (strp : strp_t) (cal : list Z -> Z) : Prop :=
  forall d r, date_ok d -> match r with [] => True | c :: _ => ~ digit c /\ c <> "."%char end ->
    strp (date_text d ++ r) = Some (cal (date_vals d)).

(** a number or a blank (spare) field *)
Definition field_text (o : option numlit) : list ascii :=
  match o with Some n => rjust 19 (num_text n) | None => blanks 19 end.
Definition opt_field (o : option numlit) : Prop := match o with Some n => nav_field n | None => True end.
(** an orbit line: fields and a number of trailing blanks *)
Definition orbit := (list (option numlit) * nat)%type.
Definition orbit_text (l : orbit) : list ascii := blanks 4 ++ flat_map field_text (fst l) ++ blanks (snd l).

Record nav_src := mkNavSrc {
  b_letter : ascii; b_sys : satsys; b_prn : list ascii; b_date : date_src;
  b_clk : list numlit; b_pad : nat; b_orb : list orbit }.

(** the orbit lines of RINEX 3.04 tables A6-A18: true = a number, false = a spare followed by a
    number; spares at the end of a line are not listed *)
Definition T4 := [true; true; true; true].
Definition orbit_fields (s : satsys) : list (list bool) :=
  match s with
  | Gps | Qzss => [T4; T4; T4; T4; T4; T4; [true; true]]
  | Galileo => [T4; T4; T4; T4; [true; true; true]; T4; [true]]
  | Beidou => [T4; T4; T4; T4; [true; false; true]; T4; [true; true]]
  | Irnss => [T4; T4; T4; T4; [true; false; true]; [true; true; true]; [true]]
  | Glonass | Sbas => [T4; T4; T4]
  | Mixed => []
  end.
(** a line has the required numbers; in spare positions anything *)
Definition orbit_ok (l : orbit) (fl : list bool) : Prop :=
  (exists req extra, fst l = req ++ extra /\
     Forall2 (fun o (num : bool) => opt_field o /\ (num = true -> o <> None)) req fl /\ Forall opt_field extra) /\
  length (fst l) <= 4 /\ snd l <= 40.

(** the number documented for data index [i]: 0-2 clock, then four per orbit line *)
Definition number_at (b : nav_src) (i : nat) : option numlit :=
  if i <? 3 then nth_error (b_clk b) i
  else match nth_error (b_orb b) ((i - 3) / 4) with
       | Some l => match nth_error (fst l) ((i - 3) mod 4) with Some o => o | None => None end
       | None => None
       end.
(** RINEX assigns index [i] to a number *)
Definition documented (s : satsys) (i : nat) : bool :=
  if i <? 3 then true
  else match nth_error (orbit_fields s) ((i - 3) / 4) with
       | Some fl => match nth_error fl ((i - 3) mod 4) with Some b => b | None => false end
       | None => false
       end.
(** GLONASS position, velocity and acceleration are in km (the product is rounded) *)
Definition glo_km : list nat := [3; 4; 5; 7; 8; 9; 11; 12; 13].
Definition si_value (s : satsys) (i : nat) (n : numlit) : Q :=
  match s with
  | Glonass => if existsb (Nat.eqb i) glo_km then b64 (num_val n * 1000) else num_val n
  | _ => num_val n
  end.

(** the numbers that determine the time of ephemeris fit their integer types *)
Definition fits (lo hi : Z) (o : option numlit) : Prop :=
  match o with Some n => (inject_Z lo <= num_val n <= inject_Z hi)%Q | None => True end.
Definition toe_fits (b : nav_src) : Prop :=
  match b_sys b with
  | Gps | Galileo | Beidou => fits (-2147483648) 2147483647 (number_at b 21) /\ fits (- 10 ^ 18) (10 ^ 18) (number_at b 11)
  | Glonass => fits (- 10 ^ 18) (10 ^ 18) (number_at b 2)
  | _ => True
  end.

Definition block_ok (b : nav_src) : Prop :=
  In (b_letter b, b_sys b) satsys_letters /\ b_sys b <> Mixed /\
  field_ok 2 (b_prn b) /\ dec_val (b_prn b) <> 0%Z /\ date_ok (b_date b) /\
  length (b_clk b) = 3 /\ Forall nav_field (b_clk b) /\ b_pad b <= 40 /\
  Forall2 orbit_ok (b_orb b) (orbit_fields (b_sys b)) /\ toe_fits b.

Definition head_line (b : nav_src) : list ascii :=
  [b_letter b] ++ rjust 2 (b_prn b) ++ date_text (b_date b) ++
  flat_map (fun n => field_text (Some n)) (b_clk b) ++ blanks (b_pad b).
Definition block_lines (b : nav_src) : list (list ascii) := head_line b :: map orbit_text (b_orb b).
Definition block_text (b : nav_src) : list ascii := text_of (block_lines b).

(** the number of lines of a block, RINEX 3.04 *)
Definition block_size (s : satsys) : option nat :=
  match s with
  | Gps | Qzss | Beidou | Galileo | Irnss => Some 8
  | Glonass | Sbas => Some 4
  | Mixed => None
  end.

(** what a frame must hold after block [b] was read *)
Definition is_block (cal : list Z -> Z) (g : frame) (b : nav_src) : Prop :=
  f_sys g = b_sys b /\ f_prn g = dec_val (b_prn b) /\ f_toc g = cal (date_vals (b_date b)) /\
  length (f_data g) = 31 /\
  forall i n, documented (b_sys b) i = true -> number_at b i = Some n ->
    nth_error (f_data g) i = Some (DFin (si_value (b_sys b) i n)).

(** ** Header: version, file type N, system; then lines up to END OF HEADER *)
Definition nav_first (v : numlit) (mid : list ascii) (letter : ascii) (post : list ascii) : list ascii :=
  rjust 9 (num_text v) ++ blanks 11 ++ "N"%char :: mid ++ letter :: post.
Definition nav_header_text v mid letter post (lines : list (list ascii)) j : list ascii :=
  nav_first v mid letter post ++ NL :: text_of lines ++ end_line j ++ [NL].
Definition nav_header_ok v mid letter sys post (lines : list (list ascii)) j : Prop :=
  first_line_ok v mid letter sys post /\
  Forall (fun l => clean l /\ 60 <= length l <= 84 /\ labelled "END OF HEADER" l = false) lines /\
  length lines <= 999 /\ j <= 11.

(** ** Reading, finding (C38, C41, C42) *)
(** [n] lines were taken: complete ones, or the last one ended by the end of the file *)
Definition takes (n : nat) (st st' : stream) : Prop :=
  exists ls, length ls = n /\ Forall (fun l => ~ In NL l) ls /\ sdata st' = sdata st /\ sfail st' = false /\
    ((good st' = true /\ rest st = text_of ls ++ rest st') \/ (seof st' = true /\ rest st' = [] /\ rest st ++ [NL] = text_of ls)).
(** no line starts with 'M' *)
Definition no_mixed_line (d : list ascii) : Prop :=
  forall a b, d = a ++ b -> (a = [] \/ exists a', a = a' ++ [NL]) -> match b with [] => True | c :: _ => c <> "M"%char end.
(** ** find_next on a list of blocks *)
Definition wanted (sys : satsys) (prn : Z) (b : nav_src) : Prop := b_sys b = sys /\ (prn = (-1)%Z \/ dec_val (b_prn b) = prn).
Definition blocks_text (bs : list nav_src) : list ascii := flat_map block_text bs.
(** a frame is healthy, and its validity covers [t] (milliseconds) *)
Definition zero_part (v : cdbl) : Prop := exists q, v = DFin q /\ (-1 < q)%Q /\ (q < 1)%Q.
(** ** find_next_valid *)
Definition healthy (g : frame) : Prop :=
  exists v, nth_error (f_data g) (match f_sys g with Glonass => 6 | _ => 24 end) = Some v /\ zero_part v.
(** whole hours of the GPS fit interval field *)
Definition hours_of (v : cdbl) (h : Z) : Prop :=
  exists q, v = DFin q /\ (inject_Z h <= q < inject_Z (h + 1))%Q.
Definition covers (t : Z) (g : frame) : Prop :=
  match f_sys g with
  | Glonass => (f_toe g * 1000 - 900000 <= t < f_toe g * 1000 + 900000)%Z
  | Galileo | Beidou => (f_toc g * 1000 <= t < f_toc g * 1000 + 14400000)%Z
  | Gps => exists v h, nth_error (f_data g) 28 = Some v /\ hours_of v h /\ (0 < h)%Z /\
             (f_toc g * 1000 <= t < f_toc g * 1000 + h * 3600000)%Z
  | _ => False
  end.
(** the GPS interval computed from the hours field, whatever it is *)
Definition wild_hours (g : frame) : Prop := f_sys g = Gps /\ exists q, nth_error (f_data g) 28 = Some (DFin q) /\ (q < inject_Z (-596523))%Q.
(** the fields that decide health and validity fit their integer types *)
Definition int_fits (b : nav_src) : Prop :=
  match b_sys b with
  | Gps => fits (-2147483648) 2147483647 (number_at b 24) /\ fits (-596523) 596523 (number_at b 28)
  | Galileo | Beidou => fits (-2147483648) 2147483647 (number_at b 24)
  | Glonass => fits (-2147483648) 2147483647 (number_at b 6)
  | _ => True
  end.
Definition serves (sys : satsys) (prn : Z) (b : nav_src) : Prop := b_sys b = sys /\ dec_val (b_prn b) = prn.
(** what block [b] puts in a frame *)
Definition frame_of (cal : list Z -> Z) (b : nav_src) (g : frame) : Prop := is_block cal g b /\ toe2date g = Val (f_toe g).
(** the time of clock is more than four hours after [t] *)
Definition too_late (cal : list Z -> Z) (t : Z) (b : nav_src) : Prop := (t + 14400000 < cal (date_vals (b_date b)) * 1000)%Z.
Definition usable (t : Z) (g : frame) : Prop := healthy g /\ covers t g.
(** block [b] is passed over *)
Definition passed (cal : list Z -> Z) (t : Z) (sys : satsys) (prn : Z) (b : nav_src) : Prop :=
  ~ serves sys prn b \/ (~ too_late cal t b /\ int_fits b /\ forall g, frame_of cal b g -> ~ usable t g).
