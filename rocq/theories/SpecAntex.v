(** SpecAntex: ANTEX 1.3/1.4 files, for C31-C36, C78 and C79.
    Only characters, lists, decimal texts, the text formats of SpecObs/SpecHeader and the trusted C library
    number parsing (CNum); nothing of the model of antex.cpp. *)
From Verif Require Import Base CNum ModelSatsys ModelObs SpecText SpecNum SpecObs SpecHeader.

(** exactly [w] characters *)
Definition cols (w : nat) (l : list ascii) : Prop := clean l /\ length l = w.

(** lines of an antenna block reach the label column and fit the reader's buffers *)
Definition body_line (l : list ascii) : Prop := clean l /\ 60 <= length l <= 511.
Definition label_line (l : list ascii) : Prop := clean l /\ 60 <= length l <= 84.

(** number of line ends *)
Fixpoint newlines (l : list ascii) : nat := match l with c :: r => (if Ascii.eqb c NL then 1 else 0) + newlines r | [] => 0 end.

(** ** One antenna block: START OF ANTENNA, TYPE / SERIAL NO, anything, END OF ANTENNA *)
Record ant_src := mkAnt {
  r_model : list ascii;         (* A20: antenna type (and radome) *)
  r_serial : list ascii;        (* A20: serial number / satellite code *)
  r_more : list ascii;          (* A10, A10: satellite codes *)
  r_pad : nat;                  (* trailing blanks of the labelled lines *)
  r_body : list (list ascii)    (* the lines between TYPE / SERIAL NO and END OF ANTENNA *)
}.
Definition ant_ok (r : ant_src) : Prop :=
  cols 20 (r_model r) /\ cols 20 (r_serial r) /\ cols 20 (r_more r) /\ r_pad r <= 8 /\
  Forall (fun l => body_line l /\ labelled "END OF ANTENNA" l = false) (r_body r) /\
  length (r_body r) <= 4998.
Definition start_line (r : ant_src) : list ascii := header_line [] (lit "START OF ANTENNA") (r_pad r).
Definition type_line (r : ant_src) : list ascii :=
  header_line (r_model r ++ r_serial r ++ r_more r) (lit "TYPE / SERIAL NO") (r_pad r).
Definition stop_line (r : ant_src) : list ascii := header_line [] (lit "END OF ANTENNA") (r_pad r).
Definition ant_lines (r : ant_src) : list (list ascii) := start_line r :: type_line r :: r_body r ++ [stop_line r].
(** what follows the TYPE / SERIAL NO line *)
Definition ant_tail (r : ant_src) : list ascii := text_of (r_body r ++ [stop_line r]).
Definition ants_text (rs : list ant_src) : list ascii := text_of (flat_map ant_lines rs).

(** ** The header *)
Record atxh_src := mkAtxh {
  x_version : numlit;           (* F8.1, 12X *)
  x_letter : ascii;             (* A1 *)
  x_more : list ascii;          (* 39 columns *)
  x_type : list ascii;          (* the line PCV TYPE / REFANT after its first character 'A' *)
  x_lines : list (list ascii);  (* further lines *)
  x_pad : nat
}.
Definition atxh_ok (h : atxh_src) (s : satsys) : Prop :=
  num_ok (x_version h) /\ length (num_text (x_version h)) <= 8 /\
  (num_dec (x_version h) == 14 # 10 \/ num_dec (x_version h) == 13 # 10)%Q /\
  In (x_letter h, s) satsys_letters /\ cols 39 (x_more h) /\
  clean (x_type h) /\ length (x_type h) <= 83 /\
  Forall (fun l => label_line l /\ labelled "END OF HEADER" l = false) (x_lines h) /\ length (x_lines h) <= 998 /\
  x_pad h <= 4.
Definition atxh_first (h : atxh_src) : list ascii :=
  header_line (rjust 8 (num_text (x_version h)) ++ blanks 12 ++ [x_letter h] ++ x_more h)
    (lit "ANTEX VERSION / SYST") (x_pad h).
Definition atxh_lines (h : atxh_src) : list (list ascii) :=
  atxh_first h :: ("A"%char :: x_type h) :: x_lines h ++ [header_line [] (lit "END OF HEADER") (x_pad h)].
Definition atxh_text (h : atxh_src) : list ascii := text_of (atxh_lines h).

(** the whole file *)
Definition atx_file (h : atxh_src) (rs : list ant_src) : list ascii := atxh_text h ++ ants_text rs.

(** ** Receiver antennas.  Objects are 41 bytes: 20 of model and radome, 20 of serial. *)
Definition bytes_model (a : mem) : mem := firstn 20 a.
Definition bytes_serial (a : mem) : mem := firstn 20 (skipn 20 a).
(** same model, radome and serial (which is not blank) *)
Definition same_antenna (r : ant_src) (a : mem) : Prop :=
  bytes_model a = map Some (r_model r) /\ bytes_serial a = map Some (r_serial r) /\ ~ all_blank (r_serial r).
(** same model and radome, and the block gives no serial *)
Definition same_type (r : ant_src) (a : mem) : Prop :=
  bytes_model a = map Some (r_model r) /\ all_blank (r_serial r).

(** ** Satellite antennas: satellite code sNN, sNNN, COSPAR id *)
Definition letter_system (c : ascii) : option satsys :=
  match find (fun p => Ascii.eqb c (fst p)) satsys_letters with Some p => Some (snd p) | None => None end.
Definition blank (s : list ascii) : bool := forallb (fun c => Ascii.eqb c " "%char) s.
Definition int_field (s : list ascii) : option Z := match stoi s with Val z => Some z | _ => None end.

(** the identification a block gives, [None] when it is not one of a single satellite or is malformed *)
Record sat_id := mkId { i_sys : satsys; i_prn : Z; i_svn : option Z; i_cospar : option (list ascii) }.
Definition sat_ident (r : ant_src) : option sat_id :=
  match r_serial r with
  | c :: t =>
      match letter_system c, int_field (firstn 5 t) with
      | Some s, Some p =>
          let f := firstn 10 (r_more r) in
          let g := skipn 10 (r_more r) in
          let cospar := if blank g then None else Some (firstn 8 g) in
          if blank f then Some (mkId s p None cospar)
          else match f with
               | d :: u => if Ascii.eqb d c
                           then match int_field (firstn 5 u) with
                                | Some v => Some (mkId s p (Some v) cospar)
                                | None => None
                                end
                           else None
               | [] => None
               end
      | _, _ => None
      end
  | [] => None
  end.

Section Interval.
  (** the epoch written at the beginning of a line, None when it is not one (external library) *)
  Variable strp : list ascii -> option Z.

  Definition from_lines (opt : list (list ascii)) := filter (labelled "VALID FROM") opt.
  Definition until_lines (opt : list (list ascii)) := filter (labelled "VALID UNTIL") opt.

  (** METH / BY / # / DATE, optional lines, START OF FREQUENCY, the rest *)
  Definition sat_body (body opt : list (list ascii)) : Prop :=
    exists meth start more,
      body = meth :: opt ++ start :: more /\ labelled "METH / BY / # / DATE" meth = true /\
      labelled "START OF FREQUENCY" start = true /\
      Forall (fun l => labelled "START OF FREQUENCY" l = false) opt.
  (** at most one line of each kind, with readable dates *)
  Definition dates_ok (opt : list (list ascii)) : Prop :=
    length (from_lines opt) <= 1 /\ length (until_lines opt) <= 1 /\
    Forall (fun l => strp l <> None) (from_lines opt) /\ Forall (fun l => strp l <> None) (until_lines opt).
  (** VALID FROM <= t <= VALID UNTIL; no VALID UNTIL is no upper bound *)
  Definition valid_at (opt : list (list ascii)) (t : Z) : Prop :=
    (exists l f, In l (from_lines opt) /\ strp l = Some f /\ (f <= t)%Z) /\
    (forall l u, In l (until_lines opt) -> strp l = Some u -> (t <= u)%Z).
End Interval.

(** ** Phase-centre offsets *)
Record freq_src := mkFreq {
  q_letter : ascii; q_sys : satsys; q_band : list ascii;
  q_n : numlit; q_e : numlit; q_u : numlit;
  q_stext : list ascii; q_ntext : list ascii;   (* columns 7-60 of the START line, 31-60 of the NORTH / EAST / UP line *)
  q_grid : list (list ascii);
  q_rms : option (list (list ascii));           (* the block of rms values that may follow *)
  q_pad : nat
}.
Definition pco_num (n : numlit) : Prop := num_ok n /\ length (num_text n) <= 10 /\ ndot n = true /\ nexp n = None.
Definition freq_ok (q : freq_src) : Prop :=
  In (q_letter q, q_sys q) satsys_letters /\ digits (q_band q) /\ length (q_band q) = 2 /\
  pco_num (q_n q) /\ pco_num (q_e q) /\ pco_num (q_u q) /\
  cols 54 (q_stext q) /\ cols 30 (q_ntext q) /\
  Forall (fun l => body_line l /\ labelled "END OF FREQUENCY" l = false) (q_grid q) /\
  match q_rms q with
  | Some ls => Forall (fun l => body_line l /\ labelled "END OF FREQ RMS" l = false) ls
  | None => True
  end /\ q_pad q <= 6.
Definition freq_start (q : freq_src) : list ascii :=
  header_line (blanks 3 ++ [q_letter q] ++ q_band q ++ q_stext q) (lit "START OF FREQUENCY") (q_pad q).
Definition freq_neu (q : freq_src) : list ascii :=
  header_line (rjust 10 (num_text (q_n q)) ++ rjust 10 (num_text (q_e q)) ++ rjust 10 (num_text (q_u q)) ++ q_ntext q)
    (lit "NORTH / EAST / UP") (q_pad q).
Definition rms_lines (q : freq_src) : list (list ascii) :=
  match q_rms q with
  | Some ls => header_line [] (lit "START OF FREQ RMS") (q_pad q) :: ls ++ [header_line [] (lit "END OF FREQ RMS") (q_pad q)]
  | None => []
  end.
Definition freq_lines (q : freq_src) : list (list ascii) :=
  freq_start q :: freq_neu q :: q_grid q ++ [header_line [] (lit "END OF FREQUENCY") (q_pad q)] ++ rms_lines q.

(** the first lines of a block: METH, DAZI, ZEN1/ZEN2/DZEN, # OF FREQUENCIES, optional lines *)
Record pcob_src := mkPcob {
  k_meth : list ascii; k_dazi : list ascii; k_zen : list ascii; k_count : list ascii; k_cmore : list ascii;
  k_cpad : nat; k_opt : list (list ascii); k_freqs : list freq_src }.
Definition pcob_ok (k : pcob_src) : Prop :=
  label_line (k_meth k) /\ labelled "METH / BY / # / DATE" (k_meth k) = true /\
  label_line (k_dazi k) /\ labelled "DAZI" (k_dazi k) = true /\
  label_line (k_zen k) /\ labelled "ZEN1 / ZEN2 / DZEN" (k_zen k) = true /\
  field_ok 6 (k_count k) /\ dec_val (k_count k) = Z.of_nat (length (k_freqs k)) /\
  cols 54 (k_cmore k) /\ k_cpad k <= 8 /\
  Forall (fun l => label_line l /\ labelled "START OF FREQUENCY" l = false) (k_opt k) /\
  k_freqs k <> [] /\ Forall freq_ok (k_freqs k).
Definition pcob_lines (k : pcob_src) : list (list ascii) :=
  [k_meth k; k_dazi k; k_zen k; header_line (rjust 6 (k_count k) ++ k_cmore k) (lit "# OF FREQUENCIES") (k_cpad k)] ++
  k_opt k ++ flat_map freq_lines (k_freqs k).

(** ** Whole blocks *)
(** the position right after the TYPE / SERIAL NO line of block [r] of [rs1 ++ r :: rs2] *)
Definition block_pos (h : atxh_src) (rs1 : list ant_src) (r : ant_src) (rs2 : list ant_src) : nat :=
  length (atx_file h (rs1 ++ r :: rs2)) - length (ant_tail r ++ ants_text rs2).
(** the block identifies the requested satellite *)
Definition wants (prn : Z) (ss : satsys) (r : ant_src) : Prop := exists id, sat_ident r = Some id /\ i_prn id = prn /\ i_sys id = ss.
(** the block has the lines of a satellite antenna, with readable dates *)
Definition interval_ok (strp : list ascii -> option Z) (r : ant_src) : Prop :=
  exists opt, sat_body (r_body r) opt /\ dates_ok strp opt.
(** ... and is valid at [t] *)
Definition rec_valid (strp : list ascii -> option Z) (r : ant_src) (t : Z) : Prop :=
  exists opt, sat_body (r_body r) opt /\ dates_ok strp opt /\ valid_at strp opt t.
(** the block's body is that of a well-formed list of phase-centre offsets *)
Definition pco_body (r : ant_src) (k : pcob_src) : Prop := r_body r = pcob_lines k /\ pcob_ok k.
