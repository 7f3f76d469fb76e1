(** Properties C01-C08, C14, C15: text codecs, observables, trimming, satellite names. *)
From Verif Require Import Base BaseLemmas CNum CNumLemmas ModelSatsys ModelObs ModelNvarstr
  ModelSatellite SpecText ProofText.
From Coq Require Import Permutation.

(** C01 *)
Theorem C01_satsys_roundtrip : forall s, char_to_satsys (satsys_to_char s) = Val s.
Proof. exact satsys_codec. Qed.
Print Assumptions C01_satsys_roundtrip.

(** exactly the eight letters are accepted, with the right meaning; all other chars throw *)
Theorem C01_satsys_letters : forall c,
  (forall s, char_to_satsys c = Val s <-> In (c, s) satsys_letters) /\
  ((forall s, ~ In (c, s) satsys_letters) -> char_to_satsys c = Exn).
Proof. exact char_to_satsys_spec. Qed.
Print Assumptions C01_satsys_letters.

Example C01_example : char_to_satsys "E"%char = Val Galileo /\ char_to_satsys NUL = Exn
  /\ char_to_satsys CFF = Exn /\ forall s, ~ In (NUL, s) satsys_letters.
Proof. repeat split; intros s H; simpl in H; intuition discriminate. Qed.

(** C02 *)
Theorem C02_obscode_roundtrip : forall c,
  ctype c <> AnyType -> (0 <= cband c <= 9)%Z -> cattr c <> " "%char -> cattr c <> NUL ->
  obscode_of_cstr (cbuf (obscode_to_string c)) 0 = Val c /\ length (obscode_to_string c) = 3.
Proof. exact obscode_roundtrip. Qed.
Print Assumptions C02_obscode_roundtrip.

Theorem C02_obscode_print_injective : forall c d,
  printable_code c -> printable_code d -> obscode_to_string c = obscode_to_string d -> c = d.
Proof. exact obscode_print_inj. Qed.
Print Assumptions C02_obscode_print_injective.

(** outside the range printing is lossy *)
Theorem C02_obscode_big_band_lossy : forall c,
  (10 <= cband c)%Z ->
  exists d, d <> c /\ (0 <= cband d <= 9)%Z /\ obscode_to_string d = obscode_to_string c.
Proof. exact obscode_lossy. Qed.
Print Assumptions C02_obscode_big_band_lossy.

Theorem C02_obscode_any_rejected : forall b a,
  obscode_of_cstr (cbuf (obscode_to_string (mkCode AnyType b a))) 0 = Exn.
Proof. exact obscode_any_rejected. Qed.
Print Assumptions C02_obscode_any_rejected.

Example C02_example :
  obscode_to_string (mkCode CarrierPhase 5 "Q"%char) = lit "L5Q" /\
  printable_code (mkCode CarrierPhase 5 "Q"%char) /\
  obscode_to_string (mkCode Doppler 12 "C"%char) = obscode_to_string (mkCode Doppler 1 "C"%char).
Proof. repeat split; simpl; try lia; discriminate. Qed.

(** C03: for the C string [s] at any place of any buffer *)
Theorem C03_obscode_rejects_iff : forall m off s,
  cstr m off = Val s ->
  (obscode_of_cstr m off = Exn <->
   (length s < 2 \/ exists c r, s = c :: r /\ forall t, ~ In (c, t) obstype_letters)).
Proof. exact obscode_parse_reject. Qed.
Print Assumptions C03_obscode_rejects_iff.

Theorem C03_obscode_accepts : forall m off c0 c1 r t,
  cstr m off = Val (c0 :: c1 :: r) -> In (c0, t) obstype_letters ->
  exists a, obscode_of_cstr m off = Val (mkCode t (zchar c1 - 48) a) /\
    (r = [] -> a = "?"%char) /\
    (forall r', r = " "%char :: r' -> a = "?"%char) /\
    (forall c2 r', r = c2 :: r' -> c2 <> " "%char -> a = c2).
Proof. exact obscode_parse_accept. Qed.
Print Assumptions C03_obscode_accepts.

Example C03_example :
  obscode_of_cstr (cbuf (lit "C1P and more")) 0 = Val (mkCode Pseudorange 1 "P"%char) /\
  obscode_of_cstr (cbuf (lit "LA")) 0 = Val (mkCode CarrierPhase 17 "?"%char) /\
  obscode_of_cstr (cbuf (lit "L")) 0 = Exn /\ obscode_of_cstr (cbuf (lit "P1")) 0 = Exn.
Proof. repeat split. Qed.

(** C04: the full statement fails for observables with repeated parts (and for NaN coefficients) *)
Definition C04_full : Prop :=
  (forall a, observable_eqb a a = true) /\
  (forall a b, observable_eqb a b = true -> observable_eqb b a = true) /\
  (forall a b c, observable_eqb a b = true -> observable_eqb b c = true -> observable_eqb a c = true) /\
  (forall a a' b b', Permutation a a' -> Permutation b b' -> observable_eqb a b = observable_eqb a' b').

Theorem C04_symmetry_refuted : exists a b,
  no_nan a /\ no_nan b /\ observable_eqb a b = true /\ observable_eqb b a = false.
Proof.
  exists (let p := mkPart (mkRaw Gps (mkCode CarrierPhase 1 "C"%char)) (DFin 1) in [p; p]),
         (let p := mkPart (mkRaw Gps (mkCode CarrierPhase 1 "C"%char)) (DFin 1) in
          let q := mkPart (mkRaw Gps (mkCode CarrierPhase 2 "W"%char)) (DFin 1) in [p; q]).
  repeat split; intros p H; simpl in H; intuition (subst; discriminate).
Qed.
Print Assumptions C04_symmetry_refuted.

Theorem C04_full_refuted : ~ C04_full.
Proof.
  intros (_ & S & _). destruct C04_symmetry_refuted as (a & b & _ & _ & H & K).
  apply S in H. congruence.
Qed.
Print Assumptions C04_full_refuted.

(** what holds: reflexivity without NaN, transitivity and order-independence always; symmetry and
    agreement with one-to-one matching of the parts when no part is repeated *)
Theorem C04_equivalence_partial :
  (forall a, no_nan a -> observable_eqb a a = true) /\
  (forall a b, no_nan a -> no_dup_parts a -> observable_eqb a b = true -> observable_eqb b a = true) /\
  (forall a b c, observable_eqb a b = true -> observable_eqb b c = true -> observable_eqb a c = true) /\
  (forall a a' b b', Permutation a a' -> Permutation b b' -> observable_eqb a b = observable_eqb a' b') /\
  (forall a b, same_parts a b -> observable_eqb a b = true) /\
  (forall a b, no_nan a -> no_dup_parts a -> observable_eqb a b = true -> same_parts a b).
Proof.
  exact (conj observable_eqb_refl (conj observable_eqb_sym_nodup (conj observable_eqb_trans
        (conj observable_eqb_perm (conj same_parts_eqb eqb_same_parts))))).
Qed.
Print Assumptions C04_equivalence_partial.

Example C04_example :
  let p := mkPart (mkRaw Gps (mkCode CarrierPhase 1 "C"%char)) (DFin (2545#1000)) in
  let q := mkPart (mkRaw Gps (mkCode CarrierPhase 2 "W"%char)) (DFin (-1545#1000)) in
  no_nan [p; q] /\ no_dup_parts [p; q] /\ observable_eqb [p; q] [q; p] = true.
Proof.
  simpl. split; [|split; [|reflexivity]].
  - intros x H. simpl in H. intuition (subst; discriminate).
  - split; [|split; auto; intros x []]. intros x [<-|[]] [H _]. discriminate.
Qed.

(** C05 *)
Theorem C05_mixed_iff : forall o,
  is_mixed o = true <-> exists p q, In p o /\ In q o /\ rsys (ptype p) <> rsys (ptype q).
Proof. exact is_mixed_iff. Qed.
Print Assumptions C05_mixed_iff.

Theorem C05_mixed_order : forall a b, Permutation a b -> is_mixed a = is_mixed b.
Proof. exact is_mixed_perm. Qed.
Print Assumptions C05_mixed_order.

Example C05_example : is_mixed [] = false /\
  is_mixed [mkPart (mkRaw Gps (mkCode Doppler 1 "C"%char)) (DFin 1);
            mkPart (mkRaw Galileo (mkCode Doppler 1 "C"%char)) (DFin 1)] = true.
Proof. split; reflexivity. Qed.

(** C07: on the C string [s] found anywhere in any buffer *)
Theorem C07_rtrim_end : forall m off stop s,
  cstr m off = Val s ->
  exists r, rtrim_end m off stop = Val (r, length r) /\ strips_trailing (considered s stop) r.
Proof. exact rtrim_end_spec. Qed.
Print Assumptions C07_rtrim_end.

Theorem C07_rtrim_start : forall m off stop s,
  cstr m off = Val s ->
  exists r, rtrim_start m off stop = Val (r, length r) /\ before_first_blank (considered s stop) r.
Proof. exact rtrim_start_spec. Qed.
Print Assumptions C07_rtrim_start.

Theorem C07_ltrim : forall m off stop s,
  cstr m off = Val s ->
  exists b r, ltrim m off stop = Val (r, length b) /\ considered s stop = b ++ r /\
    strips_leading (considered s stop) r.
Proof. exact ltrim_spec. Qed.
Print Assumptions C07_ltrim.

Theorem C07_string_is_empty : forall m off stop s,
  cstr m off = Val s ->
  exists b, string_is_empty m off stop = Val b /\ (b = true <-> all_blank (considered s stop)).
Proof. exact string_is_empty_spec. Qed.
Print Assumptions C07_string_is_empty.

Theorem C07_rtrim_idempotent :
  (forall m off stop r e, rtrim_end m off stop = Val (r, e) -> rtrim_end (cbuf r) 0 None = Val (r, e)) /\
  (forall m off stop r e, rtrim_start m off stop = Val (r, e) -> rtrim_start (cbuf r) 0 None = Val (r, e)).
Proof. exact (conj rtrim_end_idempotent rtrim_start_idempotent). Qed.
Print Assumptions C07_rtrim_idempotent.

Example C07_example :
  rtrim_end (cbuf (lit "DIONYSOS NTUA   x")) 0 (Some 16) = Val (lit "DIONYSOS NTUA", 13) /\
  rtrim_start (cbuf (lit "DIONYSOS NTUA   x")) 0 (Some 16) = Val (lit "DIONYSOS", 8) /\
  ltrim (cbuf (lit "  ab ")) 0 None = Val (lit "ab ", 2).
Proof. repeat split. Qed.

(** C08: [d2e] maps D and d to E and keeps everything else *)
Theorem C08_for2cpp_exact : forall m m', for2cpp m = Val m' ->
  exists s r, m = map Some s ++ Some NUL :: r /\ ~ In NUL s /\
              m' = map Some (map d2e s) ++ Some NUL :: r.
Proof. exact for2cpp_val. Qed.
Print Assumptions C08_for2cpp_exact.

Theorem C08_d2e : forall c,
  (c = "D"%char \/ c = "d"%char -> d2e c = "E"%char) /\
  (c <> "D"%char -> c <> "d"%char -> d2e c = c).
Proof.
  intro c. unfold d2e. split.
  - intros [-> | ->]; reflexivity.
  - intros H K. apply ceqb_neq in H, K. rewrite H, K. reflexivity.
Qed.
Print Assumptions C08_d2e.

Theorem C08_for2cpp_idempotent : forall m m', for2cpp m = Val m' -> for2cpp m' = Val m'.
Proof. exact for2cpp_idem. Qed.
Print Assumptions C08_for2cpp_idempotent.

Theorem C08_for2cpp_total : forall m s, cstr m 0 = Val s -> exists m', for2cpp m = Val m'.
Proof. exact for2cpp_defined. Qed.
Print Assumptions C08_for2cpp_total.

Example C08_example : for2cpp (cbuf (lit "-.123D-05 1.0d+3")) = Val (cbuf (lit "-.123E-05 1.0E+3")).
Proof. reflexivity. Qed.

(** C14 *)
Theorem C14_compact_name : forall s, (0 <= sat_prn s <= LONG_MAX)%Z ->
  exists t, sat_to_string s true = Val (satsys_to_char (sat_sys s) :: t) /\
    fst (fst (strtol t)) = sat_prn s /\ snd (fst (strtol t)) = length t /\ 2 <= length t.
Proof.
  intros s H. destruct (sat_compact_read s H) as (t & E & R). exists t. split; [|exact R].
  unfold sat_to_string. rewrite E. reflexivity.
Qed.
Print Assumptions C14_compact_name.

Theorem C14_three_chars : forall s n, (0 <= sat_prn s <= 99)%Z -> sat_to_string s true = Val n -> length n = 3.
Proof. intros s n H E. inv E. apply sat_compact_len3. exact H. Qed.
Print Assumptions C14_three_chars.

Theorem C14_names_identify : forall s t n,
  (0 <= sat_prn s)%Z -> (0 <= sat_prn t)%Z ->
  sat_to_string s true = Val n -> sat_to_string t true = Val n ->
  sat_sys s = sat_sys t /\ sat_prn s = sat_prn t.
Proof.
  intros s t n Hs Ht E F. apply sat_compact_inj; auto.
  unfold sat_to_string in *. congruence.
Qed.
Print Assumptions C14_names_identify.

(** the long form reads the COSPAR bytes, which the constructors leave uninitialised *)
Theorem C14_long_name_uninitialised : forall s prn, sat_to_string (new_satellite s prn) false = UB.
Proof. intros s prn. reflexivity. Qed.
Print Assumptions C14_long_name_uninitialised.

(** the long form, once the COSPAR bytes are set: three digits of the SVN and the COSPAR identifier behind the compact form *)
Definition digit_of (d : Z) : ascii := ascii_of_nat (48 + Z.to_nat d).
Definition three (v : Z) : list ascii := [digit_of (v / 100); digit_of (v / 10 mod 10); digit_of (v mod 10)].
Lemma rd_n_all c : forall rest, rd_n (map Some c ++ rest) (length c) = Val c.
Proof. induction c as [|a c IH]; intro rest; [destruct rest; reflexivity|]. cbn. rewrite IH. reflexivity. Qed.
Lemma svn_three v : (0 <= v <= 999)%Z ->
  (if (v <? 10)%Z then lit "-00" ++ to_string_Z v else if (v <? 100)%Z then lit "-0" ++ to_string_Z v else lit "-" ++ to_string_Z v) = "-"%char :: three v.
Proof.
  intro H. assert (A : forallb (fun v => if list_eq_dec ascii_dec
     (if (v <? 10)%Z then lit "-00" ++ to_string_Z v else if (v <? 100)%Z then lit "-0" ++ to_string_Z v else lit "-" ++ to_string_Z v)
     ("-"%char :: three v) then true else false) (range 1000) = true) by (vm_compute; reflexivity).
  rewrite forallb_forall in A. specialize (A _ (range_in 1000 v ltac:(lia))). cbv beta in A.
  destruct (list_eq_dec ascii_dec _ _) as [E|]; [exact E|discriminate A].
Qed.
Theorem C14_long_name : forall s c rest, sat_cospar s = map Some c ++ rest -> length c = 8 -> (0 <= sat_svn s <= 999)%Z ->
  exists n, sat_to_string s true = Val n /\ sat_to_string s false = Val (n ++ "-"%char :: three (sat_svn s) ++ "/"%char :: c).
Proof.
  intros s c rest Hc L H. exists (sat_compact s). split; [reflexivity|]. unfold sat_to_string. rewrite Hc.
  change COSPAR_ID_CHARS with 8. rewrite <- L, rd_n_all. cbn [bind]. f_equal.
  pose proof (svn_three (sat_svn s) H) as E. change (lit "/") with ["/"%char].
  destruct (sat_svn s <? 10)%Z; [|destruct (sat_svn s <? 100)%Z]; rewrite <- !app_assoc; f_equal;
    rewrite ?app_assoc, E; cbn [app]; rewrite ?app_assoc; reflexivity.
Qed.
Print Assumptions C14_long_name.
Lemma three_inj a b : (0 <= a <= 999)%Z -> (0 <= b <= 999)%Z -> three a = three b -> a = b.
Proof.
  intros Ha Hb E. unfold three in E.
  assert (D : forall x y, (0 <= x <= 9)%Z -> (0 <= y <= 9)%Z -> digit_of x = digit_of y -> x = y).
  { intros x y Hx Hy K. apply (f_equal nat_of_ascii) in K. unfold digit_of in K. rewrite !nat_ascii_embedding in K by lia. lia. }
  inversion E as [[E1 E2 E3]].
  pose proof (Z.div_mod a 100 ltac:(lia)). pose proof (Z.div_mod b 100 ltac:(lia)).
  assert (A1 : (a / 100 = b / 100)%Z) by (apply D; [| |exact E1]; (split; [apply Z.div_pos; lia|apply Zlt_succ_le, Z.div_lt_upper_bound; lia])).
  assert (A2 : (a / 10 mod 10 = b / 10 mod 10)%Z) by (apply D; [| |exact E2]; pose proof (Z.mod_pos_bound (a / 10) 10); pose proof (Z.mod_pos_bound (b / 10) 10); lia).
  assert (A3 : (a mod 10 = b mod 10)%Z) by (apply D; [| |exact E3]; pose proof (Z.mod_pos_bound a 10); pose proof (Z.mod_pos_bound b 10); lia).
  pose proof (Z.div_mod a 10 ltac:(lia)). pose proof (Z.div_mod b 10 ltac:(lia)). pose proof (Z.div_mod (a / 10) 10 ltac:(lia)). pose proof (Z.div_mod (b / 10) 10 ltac:(lia)).
  rewrite !Z.div_div in * by lia. change (10 * 10)%Z with 100%Z in *. lia.
Qed.
Theorem C14_long_names_identify : forall s t c d rc rd n, (0 <= sat_prn s)%Z -> (0 <= sat_prn t)%Z -> (0 <= sat_svn s <= 999)%Z -> (0 <= sat_svn t <= 999)%Z ->
  sat_cospar s = map Some c ++ rc -> length c = 8 -> sat_cospar t = map Some d ++ rd -> length d = 8 ->
  sat_to_string s false = Val n -> sat_to_string t false = Val n ->
  sat_sys s = sat_sys t /\ sat_prn s = sat_prn t /\ sat_svn s = sat_svn t /\ c = d.
Proof.
  intros s t c d rc rd n Ps Pt Ss St Hc Lc Hd Ld E F.
  destruct (C14_long_name s c rc Hc Lc Ss) as (n1 & A1 & B1). destruct (C14_long_name t d rd Hd Ld St) as (n2 & A2 & B2).
  rewrite B1 in E. rewrite B2 in F. assert (K : n1 ++ "-"%char :: three (sat_svn s) ++ "/"%char :: c = n2 ++ "-"%char :: three (sat_svn t) ++ "/"%char :: d) by congruence.
  assert (Ln : length n1 = length n2).
  { apply (f_equal (@length _)) in K. rewrite !app_length in K. cbn [length three app] in K. lia. }
  assert (K1 : n1 = n2) by (apply (f_equal (firstn (length n1))) in K; rewrite firstn_app, Nat.sub_diag, firstn_all, Ln, firstn_app, Nat.sub_diag, firstn_all in K; cbn in K; rewrite !app_nil_r in K; exact K).
  rewrite K1 in K. apply app_inv_head in K. cbn [three app] in K.
  destruct (C14_names_identify s t n1 Ps Pt A1) as (Es & Ep); [rewrite K1; exact A2|]. split; [exact Es|]. split; [exact Ep|].
  split; [apply three_inj; auto; unfold three; congruence|congruence].
Qed.
Print Assumptions C14_long_names_identify.
Example C14_long_example : sat_to_string (mkSat Gps 7 48 (map Some (lit "2008-012A"))) false = Val (lit "G07-048/2008-012").
Proof. reflexivity. Qed.

Example C14_example :
  sat_to_string (new_satellite Gps 7) true = Val (lit "G07") /\
  sat_to_string (new_satellite Sbas 120) true = Val (lit "S120").
Proof. split; reflexivity. Qed.

(** C15 *)
Theorem C15_two_digit_years : forall y, (0 <= y <= 99)%Z ->
  let f := four2two_digit_year y in
  ((y <= 79)%Z -> (f = 2000 + y)%Z) /\ ((80 <= y)%Z -> (f = 1900 + y)%Z) /\
  (f mod 100 = y)%Z /\ (1980 <= f <= 2079)%Z.
Proof. exact year_spec. Qed.
Print Assumptions C15_two_digit_years.

Theorem C15_injective : forall a b, (0 <= a <= 99)%Z -> (0 <= b <= 99)%Z ->
  four2two_digit_year a = four2two_digit_year b -> a = b.
Proof.
  intros a b Ha Hb E. destruct (year_spec a Ha) as (_ & _ & Ma & _).
  destruct (year_spec b Hb) as (_ & _ & Mb & _). rewrite E in Ma. congruence.
Qed.
Print Assumptions C15_injective.

Example C15_example : four2two_digit_year 79 = 2079%Z /\ four2two_digit_year 80 = 1980%Z.
Proof. split; reflexivity. Qed.
