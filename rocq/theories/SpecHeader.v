(** SpecHeader: the header of a RINEX 3 observation file, for C54, C58 and the end-to-end theorems. *)
From Verif Require Import Base CNum ModelSatsys ModelObs ModelObsRnx SpecText SpecNum SpecObs.

(** the characters before the first blank *)
Fixpoint word (s : list ascii) : list ascii :=
  match s with
  | [] => []
  | c :: r => if Ascii.eqb c " "%char then [] else c :: word r
  end.

(** columns [k+1 .. k+n] of a 60-column content *)
Definition columns (k n : nat) (content : list ascii) : list ascii := firstn n (skipn k (ljust 60 content)).

(** the antenna object for a (model) name and an optional serial: twenty characters of name (a name
    shorter than 20 is padded to 16 and gets the radome NONE), then the serial or nothing *)
Definition antenna_name (s : list ascii) : list ascii :=
  if length s <? 20 then firstn 16 (ljust 20 s) ++ lit "NONE" else firstn 20 s.
Definition antenna_mem (name : list ascii) (serial : option (list ascii)) : mem :=
  map Some (antenna_name name) ++
  match serial with
  | Some s => map Some s ++ [Some NUL]
  | None => Some NUL :: uninit 20
  end.

(** three coordinates, F14.4 *)
Definition three (a b c : numlit) : list ascii :=
  rjust 14 (num_text a) ++ rjust 14 (num_text b) ++ rjust 14 (num_text c).
Definition coord_ok (n : numlit) : Prop := num_ok n /\ length (num_text n) <= 13.

(** does the line carry the label (from column 61)? *)
Definition labelled (s : string) (line : list ascii) : bool :=
  list_eqb (firstn (String.length s) (skipn 60 line)) (lit s).

Definition known_labels : list string :=
  ["MARKER NAME"; "MARKER NUMBER"; "REC # / TYPE / VERS"; "ANT # / TYPE"; "APPROX POSITION XYZ";
   "ANTENNA: DELTA H/E/N"; "SYS / # / OBS TYPES"; "RCV CLOCK OFFS APPL"; "TIME OF FIRST OBS";
   "END OF HEADER"]%string.

Definition set_name h x := mkHdr (h_version h) (h_sys h) x (h_number h) (h_rnumber h) (h_rtype h) (h_ant h)
  (h_approx h) (h_ecc h) (h_rcvoff h) (h_start h) (h_tbl h).
Definition set_number h x := mkHdr (h_version h) (h_sys h) (h_name h) x (h_rnumber h) (h_rtype h) (h_ant h)
  (h_approx h) (h_ecc h) (h_rcvoff h) (h_start h) (h_tbl h).
Definition set_receiver h x y := mkHdr (h_version h) (h_sys h) (h_name h) (h_number h) x y (h_ant h)
  (h_approx h) (h_ecc h) (h_rcvoff h) (h_start h) (h_tbl h).
Definition set_antenna h x := mkHdr (h_version h) (h_sys h) (h_name h) (h_number h) (h_rnumber h) (h_rtype h) x
  (h_approx h) (h_ecc h) (h_rcvoff h) (h_start h) (h_tbl h).
Definition set_approx h x := mkHdr (h_version h) (h_sys h) (h_name h) (h_number h) (h_rnumber h) (h_rtype h) (h_ant h)
  x (h_ecc h) (h_rcvoff h) (h_start h) (h_tbl h).
Definition set_ecc h x := mkHdr (h_version h) (h_sys h) (h_name h) (h_number h) (h_rnumber h) (h_rtype h) (h_ant h)
  (h_approx h) x (h_rcvoff h) (h_start h) (h_tbl h).
Definition set_clk h x := mkHdr (h_version h) (h_sys h) (h_name h) (h_number h) (h_rnumber h) (h_rtype h) (h_ant h)
  (h_approx h) (h_ecc h) x (h_start h) (h_tbl h).
Definition set_start h x := mkHdr (h_version h) (h_sys h) (h_name h) (h_number h) (h_rnumber h) (h_rtype h) (h_ant h)
  (h_approx h) (h_ecc h) (h_rcvoff h) x (h_tbl h).
Definition set_tbl h x := mkHdr (h_version h) (h_sys h) (h_name h) (h_number h) (h_rnumber h) (h_rtype h) (h_ant h)
  (h_approx h) (h_ecc h) (h_rcvoff h) (h_start h) x.

(** an item of the header: a labelled line, an OBS TYPES block, another line *)
Inductive hitem :=
| ILine (content : list ascii) (label : string) (j : nat)
| IBlock (letter : ascii) (sys : satsys) (count : list ascii) (cs first : list obscode)
         (conts : list (list obscode)) (j : nat)
| IOther (line : list ascii).

Definition item_line (i : hitem) : list ascii :=
  match i with
  | ILine c lab j => header_line c (lit lab) j
  | IBlock letter sys count cs first conts j =>
      header_line (codes_content (first_six letter count) first) LABEL_OBSTYPES j
  | IOther l => l
  end.
Definition item_more (i : hitem) : list ascii :=
  match i with IBlock _ _ _ _ _ conts j => cont_text conts j | _ => [] end.
Definition items_text (is : list hitem) : list ascii :=
  flat_map (fun i => item_line i ++ NL :: item_more i) is.

Definition content_ok (c : list ascii) (j : nat) : Prop := clean c /\ length c <= 60 /\ j <= 4.

(** what an item means: header before, header after *)
Inductive item_means (strp : list ascii -> option Z) : hitem -> obshdr -> obshdr -> Prop :=
| im_name c j h : content_ok c j ->
    item_means strp (ILine c "MARKER NAME" j) h (set_name h (word c))
| im_number c j h : content_ok c j ->
    item_means strp (ILine c "MARKER NUMBER" j) h (set_number h (word (columns 0 20 c)))
| im_rec c j h : content_ok c j ->
    item_means strp (ILine c "REC # / TYPE / VERS" j) h
      (set_receiver h (word (columns 0 20 c)) (word (columns 20 20 c)))
| im_ant c j h : content_ok c j -> columns 0 20 c = blanks 20 ->
    item_means strp (ILine c "ANT # / TYPE" j) h (set_antenna h (antenna_mem (word (columns 20 20 c)) None))
| im_ant_serial c j h : content_ok c j -> columns 0 20 c <> blanks 20 ->
    item_means strp (ILine c "ANT # / TYPE" j) h
      (set_antenna h (antenna_mem (word (columns 20 20 c)) (Some (columns 0 20 c))))
| im_approx x y z j h : coord_ok x -> coord_ok y -> coord_ok z -> j <= 4 ->
    item_means strp (ILine (three x y z) "APPROX POSITION XYZ" j) h
      (set_approx h [DFin (num_val x); DFin (num_val y); DFin (num_val z)])
| im_delta x y z j h : coord_ok x -> coord_ok y -> coord_ok z -> j <= 4 ->
    item_means strp (ILine (three x y z) "ANTENNA: DELTA H/E/N" j) h
      (set_ecc h [DFin (num_val x); DFin (num_val y); DFin (num_val z)])
| im_clk (b : bool) j h : j <= 4 ->
    item_means strp (ILine (blanks 5 ++ [if b then "1"%char else "0"%char]) "RCV CLOCK OFFS APPL" j) h (set_clk h b)
| im_start c j h d : content_ok c j ->
    strp (header_line c (lit "TIME OF FIRST OBS") j) = Some d ->
    item_means strp (ILine c "TIME OF FIRST OBS" j) h (set_start h (Some d))
| im_block letter sys count cs first conts j h :
    In (letter, sys) satsys_letters -> digits count -> count <> [] -> length count <= 3 ->
    layout cs (first :: conts) -> Forall code_ok cs -> dec_val count = Z.of_nat (length cs) -> j <= 5 ->
    length cs mod 13 <> 0 -> h_tbl h sys = None ->
    item_means strp (IBlock letter sys count cs first conts j) h (set_tbl h (smap_set (h_tbl h) sys cs))
| im_other l h : clean l -> 60 <= length l <= 84 -> (forall s, In s known_labels -> labelled s l = false) ->
    item_means strp (IOther l) h h.

Inductive items_mean (strp : list ascii -> option Z) : list hitem -> obshdr -> obshdr -> Prop :=
| ims_nil h : items_mean strp [] h h
| ims_cons i is h h1 h2 : item_means strp i h h1 -> items_mean strp is h1 h2 -> items_mean strp (i :: is) h h2.

(** the first line: version, file type, system *)
Definition first_line (v : numlit) (mid : list ascii) (letter : ascii) (post : list ascii) : list ascii :=
  rjust 9 (num_text v) ++ blanks 11 ++ "O"%char :: mid ++ letter :: post.
Definition first_line_ok (v : numlit) (mid : list ascii) (letter : ascii) (sys : satsys) (post : list ascii) : Prop :=
  num_ok v /\ nexp v = None /\ length (num_text v) <= 9 /\ clean mid /\ length mid = 19 /\ In (letter, sys) satsys_letters /\
  clean post /\ length post <= 43.

Definition end_line (j : nat) : list ascii := header_line [] (lit "END OF HEADER") j.

Definition header_text v mid letter post second items j : list ascii :=
  first_line v mid letter post ++ NL :: second ++ NL :: items_text items ++ end_line j ++ [NL].
