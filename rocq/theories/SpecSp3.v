(** SpecSp3: SP3-c/d position records, epochs and headers (for C27-C30, C62). *)
From Coq Require Import Qround.
From Verif Require Import Base CNum Stream ModelSatsys ModelSp3 SpecText SpecNum SpecObs.

(** ** Flags as a set of events *)
Inductive flag_op := FSet (e : sp3event) | FClear (e : sp3event) | FReset.
Definition flag_apply (f : sp3flag) (op : flag_op) : sp3flag :=
  match op with FSet e => flag_set f e | FClear e => flag_clear f e | FReset => flag_reset f end.
(** a new flag object, then the operations in order *)
Definition flag_run (ops : list flag_op) : sp3flag := fold_left flag_apply ops 0%Z.
(** the last operation about [e] put it in *)
Definition last_put_in (e : sp3event) (ops : list flag_op) : Prop :=
  exists a b, ops = a ++ FSet e :: b /\ ~ In (FClear e) b /\ ~ In FReset b.

(** ** Position and clock line: P, letter, I2, 4 x F14.6, columns 61.. *)
Record pos_src := mkPos {
  s_letter : ascii; s_sys : satsys; s_prn : list ascii;
  s_x : numlit; s_y : numlit; s_z : numlit; s_clk : numlit;   (* km, km, km, microseconds *)
  s_tail : list ascii                                          (* from column 61 *)
}.
Definition coord_field (n : numlit) : Prop := num_ok n /\ length (num_text n) <= 13.
Definition pos_ok (p : pos_src) : Prop :=
  In (s_letter p, s_sys p) satsys_letters /\ field_ok 2 (s_prn p) /\
  coord_field (s_x p) /\ coord_field (s_y p) /\ coord_field (s_z p) /\ coord_field (s_clk p) /\
  clean (s_tail p) /\ length (s_tail p) <= 67 /\ (s_tail p = [] \/ exists t, s_tail p = " "%char :: t).
Definition pos_line (p : pos_src) : list ascii :=
  lit "P" ++ [s_letter p] ++ rjust 2 (s_prn p) ++ rjust 14 (num_text (s_x p)) ++ rjust 14 (num_text (s_y p)) ++
  rjust 14 (num_text (s_z p)) ++ rjust 14 (num_text (s_clk p)) ++ s_tail p.

(** column [n] (from 1) holds [c] *)
Definition column_is (n : nat) (c : ascii) (line : list ascii) : bool :=
  match nth_error line (n - 1) with Some x => Ascii.eqb x c | None => false end.

(** the flags the record should have; [mark] is the orbit-prediction mark of column 80 *)
Definition pos_flag (mark : ascii) (p : pos_src) (e : sp3event) : bool :=
  match e with
  | BadPosition => Qeq_bool (num_val (s_x p)) 0 || Qeq_bool (num_val (s_y p)) 0 || Qeq_bool (num_val (s_z p)) 0
  | BadClock => Qle_bool 999999 (num_val (s_clk p))
  | ClockEvent => column_is 75 "E"%char (pos_line p)
  | ClockPrediction => column_is 76 "P"%char (pos_line p)
  | Maneuver => column_is 79 "M"%char (pos_line p)
  | OrbitPrediction => column_is 80 mark (pos_line p)
  end.

(** the record of a line: metres (rounded products), microseconds *)
Definition is_record (mark : ascii) (r : sp3rec) (p : pos_src) : Prop :=
  p_sys r = s_sys p /\ p_prn r = dec_val (s_prn p) /\
  p_vals r = [DFin (b64 (num_val (s_x p) * 1000)); DFin (b64 (num_val (s_y p) * 1000)); DFin (b64 (num_val (s_z p) * 1000));
              DFin (num_val (s_clk p))] /\
  forall e, flag_is_set (p_flag r) e = pos_flag mark p e.

(** ** Epochs: "*  ", I4, 4(1X,I2), 1X, F11.8 *)
Record sp3_src := mkSp3Src {
  t_year : list ascii; t_month : list ascii; t_day : list ascii; t_hour : list ascii; t_min : list ascii;
  t_sec : numlit; t_pad : nat }.
Definition sp3_src_ok (e : sp3_src) : Prop :=
  digits (t_year e) /\ length (t_year e) = 4 /\ dec_val (t_year e) <> 0%Z /\
  field_ok 2 (t_month e) /\ field_ok 2 (t_day e) /\ field_ok 2 (t_hour e) /\ field_ok 2 (t_min e) /\
  num_ok (t_sec e) /\ nsign (t_sec e) = None /\ nexp (t_sec e) = None /\ length (num_text (t_sec e)) <= 11 /\
  t_pad e <= 90.
Definition sp3_epoch_line (e : sp3_src) : list ascii :=
  lit "*  " ++ t_year e ++ lit " " ++ rjust 2 (t_month e) ++ lit " " ++ rjust 2 (t_day e) ++ lit " " ++
  rjust 2 (t_hour e) ++ lit " " ++ rjust 2 (t_min e) ++ lit " " ++ rjust 11 (num_text (t_sec e)) ++ blanks (t_pad e).
(** the instant written in the line: the double product with 1000000, truncated (C100: how near that is to the text) *)
Definition is_time (t : sp3time) (e : sp3_src) : Prop :=
  t_date t = map dec_val [t_year e; t_month e; t_day e; t_hour e; t_min e] /\
  t_usec t = Qfloor (b64 (num_val (t_sec e) * 1000000)).

(** lines of an epoch: position records and any other line (velocity, correlation, ...) *)
Inductive sp3_item := PPos (p : pos_src) | POther (l : list ascii).
Definition item_text (i : sp3_item) : list ascii := match i with PPos p => pos_line p | POther l => l end.
Definition sp3_item_ok (i : sp3_item) : Prop :=
  match i with
  | PPos p => pos_ok p /\ 20 <= length (s_tail p)
  | POther l => clean l /\ length l <= 127 /\ firstn 1 l <> lit "P" /\ firstn 1 l <> lit "*" /\ firstn 3 l <> lit "EOF"
  end.
Definition positions (is : list sp3_item) : list pos_src :=
  flat_map (fun i => match i with PPos p => [p] | POther _ => [] end) is.
Definition sp3_items_text (is : list sp3_item) : list ascii := text_of (map item_text is).
Definition sp3_epoch_text (e : sp3_src) (is : list sp3_item) : list ascii :=
  sp3_epoch_line e ++ NL :: sp3_items_text is.

(** ** Header.  Line 1: "#" version P/V, I4, 4(1X,I2), 1X, F11.8, 1X, I7, 1X, A5, 1X, A5, 1X, A3, 1X, A4.
    Line 2: "## ", I4, 1X, F15.8, 1X, F14.8, 1X, I5, 1X, F15.13.
    Then "+ " lines (the first with the number of satellites, I3, from column 4), "++" lines, two
    lines each of "%c", "%f", "%i", and comment lines. *)
Record sp3h_src := mkSp3h {
  h_version : ascii; h_posvel : ascii;
  h_start : sp3_src;                                     (* its blanks are not used *)
  h_nepochs : list ascii; h_used : list ascii; h_crd : list ascii; h_orb : list ascii; h_agency : list ascii;
  h_week : list ascii; h_sow : numlit; h_interval : numlit; h_mjd : list ascii; h_frac : numlit;
  h_nsats : list ascii; h_ids : list ascii;              (* rest of the first "+ " line *)
  h_plus : list (list ascii);                            (* the other "+ " lines, without the mark *)
  h_acc : list (list ascii);                             (* the "++" lines, without the mark *)
  h_ctype : list ascii; h_tsys : list ascii; h_crest : list ascii; h_c2 : list ascii;
  h_f1 : list ascii; h_f2 : list ascii; h_i1 : list ascii; h_i2 : list ascii;
  h_comments : list (list ascii) }.
Definition plain_num (w : nat) (n : numlit) : Prop :=
  num_ok n /\ nsign n = None /\ nexp n = None /\ length (num_text n) <= w.
Definition chars (w : nat) (l : list ascii) : Prop := clean l /\ length l = w.
Definition rest_ok (w : nat) (l : list ascii) : Prop := clean l /\ length l <= w.
Definition sp3h_ok (h : sp3h_src) : Prop :=
  (h_version h = "c"%char \/ h_version h = "d"%char) /\ chars 1 [h_posvel h] /\
  sp3_src_ok (h_start h) /\ dec_val (t_month (h_start h)) <> 0%Z /\ dec_val (t_day (h_start h)) <> 0%Z /\
  field_ok 7 (h_nepochs h) /\ dec_val (h_nepochs h) <> 0%Z /\
  chars 5 (h_used h) /\ chars 5 (h_crd h) /\ chars 3 (h_orb h) /\ chars 4 (h_agency h) /\
  field_ok 4 (h_week h) /\ dec_val (h_week h) <> 0%Z /\ plain_num 15 (h_sow h) /\ plain_num 14 (h_interval h) /\
  length (nint (h_interval h)) <= 11 /\
  field_ok 5 (h_mjd h) /\ dec_val (h_mjd h) <> 0%Z /\ plain_num 15 (h_frac h) /\
  field_ok 3 (h_nsats h) /\ dec_val (h_nsats h) <> 0%Z /\ rest_ok 77 (h_ids h) /\
  Forall (rest_ok 82) (h_plus h) /\ 2 <= length (h_acc h) /\ Forall (rest_ok 82) (h_acc h) /\
  chars 7 (h_ctype h) /\ chars 3 (h_tsys h) /\ rest_ok 72 (h_crest h) /\ rest_ok 82 (h_c2 h) /\
  rest_ok 82 (h_f1 h) /\ rest_ok 82 (h_f2 h) /\ rest_ok 82 (h_i1 h) /\ rest_ok 82 (h_i2 h) /\
  Forall (rest_ok 82) (h_comments h) /\
  length (h_plus h) + length (h_acc h) + length (h_comments h) <= 990.

Definition sp3h_line1 (h : sp3h_src) : list ascii :=
  let s := h_start h in
  lit "#" ++ [h_version h] ++ [h_posvel h] ++ t_year s ++ lit " " ++ rjust 2 (t_month s) ++ lit " " ++ rjust 2 (t_day s) ++
  lit " " ++ rjust 2 (t_hour s) ++ lit " " ++ rjust 2 (t_min s) ++ lit " " ++ rjust 11 (num_text (t_sec s)) ++ lit " " ++
  rjust 7 (h_nepochs h) ++ lit " " ++ h_used h ++ lit " " ++ h_crd h ++ lit " " ++ h_orb h ++ lit " " ++ h_agency h.
Definition sp3h_line2 (h : sp3h_src) : list ascii :=
  lit "## " ++ rjust 4 (h_week h) ++ lit " " ++ rjust 15 (num_text (h_sow h)) ++ lit " " ++
  rjust 14 (num_text (h_interval h)) ++ lit " " ++ rjust 5 (h_mjd h) ++ lit " " ++ rjust 15 (num_text (h_frac h)).
Definition sp3h_lines (h : sp3h_src) : list (list ascii) :=
  [sp3h_line1 h; sp3h_line2 h; lit "+  " ++ rjust 3 (h_nsats h) ++ lit " " ++ h_ids h] ++
  map (fun r => lit "+ " ++ r) (h_plus h) ++ map (fun r => lit "++" ++ r) (h_acc h) ++
  [lit "%c" ++ h_ctype h ++ h_tsys h ++ h_crest h; lit "%c" ++ h_c2 h;
   lit "%f" ++ h_f1 h; lit "%f" ++ h_f2 h; lit "%i" ++ h_i1 h; lit "%i" ++ h_i2 h] ++
  map (fun r => lit "/*" ++ r) (h_comments h).
Definition sp3h_text (h : sp3h_src) : list ascii := text_of (sp3h_lines h).

(** the members after reading; the agency as [agency] *)
Definition is_header (g : sp3hdr) (h : sp3h_src) (agency : list ascii) : Prop :=
  g_version g = h_version h /\ is_time (g_start g) (h_start h) /\ g_epochs g = dec_val (h_nepochs h) /\
  g_sats g = dec_val (h_nsats h) /\ g_crd g = map Some (h_crd h) /\ g_orb g = map Some (h_orb h) /\
  g_agency g = map Some agency /\ g_tsys g = map Some (h_tsys h) /\
  g_interval g = Qfloor (b64 (num_val (h_interval h) * 1000000)) /\ g_eoh g = Some (length (sp3h_text h)).

(** the redundant dates of line 2 agree with line 1, by the calendar in use *)
Definition dates_agree (wsow : sp3time -> Z * Q) (as_mjd : sp3time -> Q) (h : sp3h_src) : Prop :=
  forall t, is_time t (h_start h) ->
    fst (wsow t) = dec_val (h_week h) /\ (snd (wsow t) == num_val (h_sow h))%Q /\
    (as_mjd t == b64 (num_val (h_frac h) + inject_Z (dec_val (h_mjd h))))%Q.

(** n successive calls of get_next_epoch, each continuing where the previous one stopped *)
Fixpoint sp3_calls (n fuel : nat) (st : stream) (vec : list sp3rec) : outcome (list sp3res) :=
  match n with
  | O => Val []
  | S n' =>
      do q <- sp3_next_epoch fuel st vec;
      do qs <- sp3_calls n' fuel (q_stream q) (q_vec q);
      Val (q :: qs)
  end.
