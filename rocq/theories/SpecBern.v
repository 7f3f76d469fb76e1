(** SpecBern: Bernese SATELLIT files (BSW 5.2), for C37, C80 and C81.
    Only characters, lists and decimal texts; nothing of the model of bern_utils.cpp. *)
From Verif Require Import Base SpecText SpecNum SpecObs SpecAntex.

(** ** A record of 'PART 2: ON-BOARD SENSORS' of type MW (microwave antenna), by columns *)
Record sensor := mkSensor {
  n_prn : list ascii;     (* 1-3, right-justified digits *)
  n_name : list ascii;    (* 8-28 *)
  n_svn : list ascii;     (* 29-31, right-justified digits *)
  n_gap : list ascii;     (* 32-41 *)
  n_start : list ascii;   (* 42-62 *)
  n_stop : list ascii;    (* 63-82; blank: no end *)
  n_mid : list ascii;     (* 83-193 *)
  n_neg : bool; n_ifrq : list ascii;   (* 194-197: optional minus sign and digits, right-justified *)
  n_tail : list ascii
}.
Definition chan_text (n : sensor) : list ascii := (if n_neg n then ["-"%char] else []) ++ n_ifrq n.
Definition sensor_line (n : sensor) : list ascii :=
  rjust 3 (n_prn n) ++ blanks 2 ++ lit "MW" ++ n_name n ++ rjust 3 (n_svn n) ++ n_gap n ++ n_start n ++ n_stop n ++ n_mid n ++
  rjust 4 (chan_text n) ++ n_tail n.
Definition not_digit_first (r : list ascii) : Prop := match r with c :: _ => ~ digit c | [] => True end.
Definition sensor_ok (n : sensor) : Prop :=
  field_ok 3 (n_prn n) /\ cols 21 (n_name n) /\ field_ok 3 (n_svn n) /\ cols 10 (n_gap n) /\ not_digit_first (n_gap n) /\
  cols 21 (n_start n) /\ cols 20 (n_stop n) /\ cols 111 (n_mid n) /\
  digits (n_ifrq n) /\ n_ifrq n <> [] /\ length (chan_text n) <= 4 /\
  clean (n_tail n) /\ length (n_tail n) <= 58 /\ not_digit_first (n_tail n).
Definition channel (n : sensor) : Z := (if n_neg n then - dec_val (n_ifrq n) else dec_val (n_ifrq n))%Z.

(** records of other types *)
Definition is_MW (l : list ascii) : Prop := nth_error l 5 = Some "M"%char /\ nth_error l 6 = Some "W"%char.
Definition part3 (l : list ascii) : Prop := firstn 6 l = lit "PART 3".
Definition other_ok (l : list ascii) : Prop := clean l /\ 10 <= length l <= 255 /\ ~ is_MW l /\ ~ part3 l.

Definition item := (sensor + list ascii)%type.
Definition item_line (i : item) : list ascii := match i with inl n => sensor_line n | inr l => l end.
Definition item_ok (i : item) : Prop := match i with inl n => sensor_ok n | inr l => other_ok l end.

Section Dates.
  (** the epoch written at the beginning of a text (external library) *)
  Variable strp : list ascii -> option Z.
  Definition start_text (n : sensor) : list ascii := skipn 41 (sensor_line n).
  Definition stop_text (n : sensor) : list ascii := skipn 62 (sensor_line n).
  Definition readable (n : sensor) : Prop :=
    strp (start_text n) <> None /\ (all_blank (n_stop n) \/ strp (stop_text n) <> None).
  (** start <= t < stop *)
  Definition covers (n : sensor) (t : Z) : Prop :=
    (exists a, strp (start_text n) = Some a /\ (a <= t)%Z) /\
    (all_blank (n_stop n) \/ exists b, strp (stop_text n) = Some b /\ (t < b)%Z).
  Definition hit (svn t : Z) (i : item) : Prop :=
    match i with inl n => dec_val (n_svn n) = svn /\ covers n t | inr _ => False end.
  Definition dates_for (svn : Z) (i : item) : Prop :=
    match i with inl n => dec_val (n_svn n) = svn -> readable n | inr _ => True end.
  (** the reply to a query: the first record of the first thousand which matches *)
  Definition first_hit (svn t : Z) (items : list item) (n : sensor) : Prop :=
    exists a b, items = a ++ inl n :: b /\ length a < 1000 /\ Forall (fun i => ~ hit svn t i) a /\ hit svn t (inl n).
  Definition reply (svn t : Z) (items : list item) (code : Z) (out : option (Z * Z)) : Prop :=
    (exists n, first_hit svn t items n /\ code = 0%Z /\ out = Some (channel n, dec_val (n_prn n))) \/
    (Forall (fun i => ~ hit svn t i) (firstn 1000 items) /\ code = (-1)%Z /\ out = None).
End Dates.

(** ** The file *)
Definition TITLE : string := "SATELLITE-SPECIFIC INFO FOR GPS/GLONASS/GEO/LEO/SLR, BSW5.2".
Definition PART2 : string := "PART 2: ON-BOARD SENSORS".
Definition COLS1 : string := "                                              START TIME           END TIME                 SENSOR OFFSETS (M)       SENSOR BORESIGHT VECTOR (U) SENSOR AZIMUTH VECTOR (N)".
Definition COLS2 : string := "PRN  TYPE  SENSOR NAME______SVN  NUMBER  YYYY MM DD HH MM SS  YYYY MM DD HH MM SS         DX        DY        DZ         X       Y       Z          X       Y       Z      ANTEX SENSOR NAME___  IFRQ  SIGNAL LIST___________------>".
Definition begins (s : string) (l : list ascii) : Prop := firstn (length (lit s)) l = lit s.
Definition sat_line (l : list ascii) : Prop := clean l /\ length l <= 255.
Record satellit := mkSatl {
  l_title : list ascii; l_part1 : list (list ascii); l_part2 : list ascii; l_dashes : list ascii;
  l_cols1 : list ascii; l_cols2 : list ascii; l_blank : list ascii }.
Definition satl_ok (h : satellit) : Prop :=
  sat_line (l_title h) /\ begins TITLE (l_title h) /\
  Forall (fun l => sat_line l /\ ~ begins PART2 l) (l_part1 h) /\ length (l_part1 h) <= 998 /\
  sat_line (l_part2 h) /\ begins PART2 (l_part2 h) /\ sat_line (l_dashes h) /\
  sat_line (l_cols1 h) /\ begins COLS1 (l_cols1 h) /\ sat_line (l_cols2 h) /\ begins COLS2 (l_cols2 h) /\ sat_line (l_blank h).
Definition satl_text (h : satellit) : list ascii :=
  text_of ([l_title h] ++ l_part1 h ++ [l_part2 h; l_dashes h; l_cols1 h; l_cols2 h; l_blank h]).

(** what ends part 2: a line of less than ten characters or the title of part 3 *)
Definition end_line (l : list ascii) : Prop := clean l /\ length l <= 255 /\ (length l < 10 \/ part3 l).
