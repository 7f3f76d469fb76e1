(** PropertiesAntex: C31-C36, C78, C79 (ANTEX files) *)
From Verif Require Import Base BaseLemmas CNum CNumLemmas Stream ModelSatsys ModelObs ModelNvarstr ModelSatellite ModelAntenna
  ModelAntex SpecText SpecNum SpecObs SpecHeader SpecAntex SpecAntexObj ProofText ProofAntenna ProofNum ProofStream ProofObsTypes ProofObsRec ProofHeader ProofAntex
  ProofAntexFind ProofAntexSkip ProofAntexPco ProofAntexSat ProofAntexHeader ProofAntexApi ProofAntexTerm.
Open Scope string_scope.
Open Scope list_scope.

(** ** Sample file for the examples *)
Definition dec (s : option ascii) (i f : string) : numlit := mkNum s (lit i) true (lit f) None.
Ltac digs := repeat constructor; vm_compute; lia.
Lemma dec_ok s i f : sign_ok s -> digits (lit i) -> digits (lit f) -> lit i <> [] -> (length (lit i ++ lit f) <= 100)%nat -> num_ok (dec s i f).
Proof.
  intros S I F N L. split; [exact S|]. split; [exact I|]. split; [exact F|]. split; [intro E; apply app_eq_nil in E as [E _]; exact (N E)|].
  split; [discriminate|]. split; [exact L|exact Logic.I].
Qed.
Definition cleanb (l : list ascii) : bool := forallb (fun c => negb (Ascii.eqb c NUL) && negb (Ascii.eqb c NL)) l.
Lemma cleanb_ok l : cleanb l = true -> clean l.
Proof.
  unfold cleanb, clean. rewrite forallb_forall, Forall_forall. intros H c X. specialize (H c X). apply andb_true_iff in H as (A & B).
  split; intro E; rewrite E, Ascii.eqb_refl in *; discriminate.
Qed.
Ltac cl := apply cleanb_ok; vm_compute; reflexivity.
Definition fq (c : ascii) (s : satsys) (b : string) (n e u : numlit) : freq_src :=
  mkFreq c s (lit b) n e u (blanks 54) (blanks 30) [header_line (lit "   NOAZI    0.00   -0.02") (lit "  -0.08") 0] None 0.
Definition k0 (opt : list (list ascii)) (qs : list freq_src) : pcob_src :=
  mkPcob (header_line (lit "ROBOT               Geo++ GmbH              5") (lit "METH / BY / # / DATE") 0)
         (header_line (lit "     5.0") (lit "DAZI") 0) (header_line (lit "     0.0  90.0   5.0") (lit "ZEN1 / ZEN2 / DZEN") 0)
         (to_string_Z (Z.of_nat (length qs))) (blanks 54) 0 opt qs.
Definition q1 := fq "G"%char Gps "01" (dec None "1" "31") (dec (Some "-"%char) "0" "34") (dec None "89" "51").
Definition q2 := fq "R"%char Glonass "02" (dec None "0" "56") (dec None "0" "06") (dec (Some "-"%char) "120" "34").
Definition from_2004 := header_line (lit "  2004     1     1     0     0    0.0000000") (lit "VALID FROM") 0.
Definition until_2008 := header_line (lit "  2008    12    31    23    59   59.9999999") (lit "VALID UNTIL") 0.
Definition kr := k0 [] [q1; q2].
Definition ks := k0 [from_2004; until_2008] [q1].
Definition kt := k0 [from_2004] [q2].
Definition antenna_block (model serial more : string) (k : pcob_src) : ant_src :=
  mkAnt (ljust 20 (lit model)) (ljust 20 (lit serial)) (ljust 20 (lit more)) 0 (pcob_lines k).
Definition r1 := antenna_block "BLOCK IIA" "G01" "G032      1992-079A" ks.
Definition r2 := antenna_block "BEIDOU-2G" "C01" "" kt.
Definition r3 := antenna_block "TRM59800.00     NONE" "" "" kr.
Definition r4 := antenna_block "TRM59800.00     NONE" "1441112501" "" kt.
Definition h0 : atxh_src := mkAtxh (dec None "1" "4") "M"%char (blanks 39) (header_line [] (lit "PCV TYPE / REFANT") 0) [header_line [] (lit "COMMENT") 0] 0.
Definition year (l : list ascii) : option Z := int_field (firstn 6 l).

Lemma h0_ok : atxh_ok h0 Mixed.
Proof.
  split; [apply dec_ok; [exact I|digs|digs|discriminate|vm_compute; lia]|]. split; [vm_compute; lia|]. split; [left; reflexivity|]. split; [vm_compute; auto 10|].
  split; [split; [cl|reflexivity]|]. split; [cl|]. split; [vm_compute; lia|].
  split; [constructor; [split; [split; [cl|vm_compute; lia]|reflexivity]|constructor]|]. split; vm_compute; lia.
Qed.
Ltac numok := split; [apply dec_ok; [first [exact I|left; reflexivity]|digs|digs|discriminate|vm_compute; lia]|]; split; [vm_compute; lia|]; split; reflexivity.
Lemma fq_ok c s b n e u : In (c, s) satsys_letters -> digits (lit b) -> length (lit b) = 2%nat -> pco_num n -> pco_num e -> pco_num u -> freq_ok (fq c s b n e u).
Proof.
  intros H1 H2 H3 H4 H5 H6. split; [exact H1|]. split; [exact H2|]. split; [exact H3|]. do 3 (split; [assumption|]).
  split; [split; [cl|reflexivity]|]. split; [split; [cl|reflexivity]|]. split; [constructor; [|constructor]; split; [split; [cl|vm_compute; lia]|reflexivity]|]. split; [exact I|vm_compute; lia].
Qed.
Lemma q1_ok : freq_ok q1.
Proof. apply fq_ok; [vm_compute; auto 10|digs|reflexivity|numok|numok|numok]. Qed.
Lemma q2_ok : freq_ok q2.
Proof. apply fq_ok; [vm_compute; auto 10|digs|reflexivity|numok|numok|numok]. Qed.
Ltac lline := split; [cl|vm_compute; lia].
Lemma k0_ok opt qs : (qs = [q1] \/ qs = [q2] \/ qs = [q1; q2]) -> Forall (fun l => label_line l /\ labelled "START OF FREQUENCY" l = false) opt -> pcob_ok (k0 opt qs).
Proof.
  intros Q O. pose proof q1_ok. pose proof q2_ok. split; [lline|]. split; [reflexivity|]. split; [lline|]. split; [reflexivity|]. split; [lline|]. split; [reflexivity|].
  split; [destruct Q as [->|[->| ->]]; (split; [digs|]; split; [discriminate|vm_compute; lia])|].
  split; [destruct Q as [->|[->| ->]]; reflexivity|]. split; [split; [cl|reflexivity]|]. split; [vm_compute; lia|]. split; [exact O|].
  destruct Q as [->|[->| ->]]; (split; [discriminate|]); repeat (constructor; [assumption|]); constructor.
Qed.
Lemma opt_ok : Forall (fun l => label_line l /\ labelled "START OF FREQUENCY" l = false) [from_2004; until_2008].
Proof. repeat (constructor; [split; [lline|reflexivity]|]). constructor. Qed.
Lemma kr_ok : pcob_ok kr. Proof. apply k0_ok; auto. Qed.
Lemma ks_ok : pcob_ok ks. Proof. apply k0_ok; [auto|apply opt_ok]. Qed.
Lemma kt_ok : pcob_ok kt. Proof. apply k0_ok; [auto|]. pose proof opt_ok as O. inversion O; subst. constructor; [assumption|constructor]. Qed.
Lemma block_ok model serial more k : (length (lit model) <= 20 -> length (lit serial) <= 20 -> length (lit more) <= 20 ->
  clean (lit model) -> clean (lit serial) -> clean (lit more) -> (k = kr \/ k = ks \/ k = kt) -> ant_ok (antenna_block model serial more k))%nat.
Proof.
  intros L1 L2 L3 C1 C2 C3 K. 
  assert (J : forall s, (length s <= 20)%nat -> clean s -> cols 20 (ljust 20 s)).
  { intros s L C. split; [apply Forall_app; split; [exact C|]|unfold ljust; rewrite app_length, length_blanks; lia].
    apply Forall_forall. intros c X. apply repeat_spec in X. subst c. split; discriminate. }
  split; [apply J; assumption|]. split; [apply J; assumption|]. split; [apply J; assumption|]. split; [cbn; lia|].
  split.
  - cbn [antenna_block r_body]. destruct K as [->|[->| ->]]; (repeat (constructor; [split; [split; [cl|vm_compute; lia]|reflexivity]|])); constructor.
  - destruct K as [->|[->| ->]]; cbn [antenna_block r_body]; apply Nat.leb_le; vm_compute; reflexivity.
Qed.
Lemma rs_ok : Forall ant_ok [r1; r2; r3; r4].
Proof. repeat (constructor; [apply block_ok; try cl; try (vm_compute; lia); auto|]). constructor. Qed.
Lemma rs_body : Forall (fun r => exists k, pco_body r k /\ pco_fuel k 100) [r1; r2; r3; r4].
Proof.
  pose proof kr_ok. pose proof ks_ok. pose proof kt_ok. pose proof q1_ok. pose proof q2_ok.
  assert (F : forall k, (length (k_opt k) < 100)%nat -> Forall (fun q => (grid_fuel q < 100)%nat) (k_freqs k) -> pco_fuel k 100) by (intros; split; assumption).
  constructor; [exists ks; split; [split; [reflexivity|assumption]|apply F; [vm_compute; lia|repeat (constructor; [vm_compute; lia|]); constructor]]|].
  constructor; [exists kt; split; [split; [reflexivity|assumption]|apply F; [vm_compute; lia|repeat (constructor; [vm_compute; lia|]); constructor]]|].
  constructor; [exists kr; split; [split; [reflexivity|assumption]|apply F; [vm_compute; lia|repeat (constructor; [vm_compute; lia|]); constructor]]|].
  constructor; [exists kt; split; [split; [reflexivity|assumption]|apply F; [vm_compute; lia|repeat (constructor; [vm_compute; lia|]); constructor]]|]. constructor.
Qed.
Lemma rs_dates : Forall (fun r => sat_ident r <> None -> interval_ok year r) [r1; r2; r3; r4].
Proof.
  constructor; [|constructor; [|constructor; [|constructor; [|constructor]]]].
  - intros _. exists [k_dazi ks; k_zen ks; nth 3 (pcob_lines ks) []; from_2004; until_2008]. split.
    + exists (k_meth ks), (freq_start q1), (skipn 7 (pcob_lines ks)). split; [vm_compute; reflexivity|]. split; [reflexivity|]. split; [reflexivity|]. repeat constructor.
    + split; [vm_compute; lia|]. split; [vm_compute; lia|]. split; repeat (constructor; [vm_compute; discriminate|]); constructor.
  - intros _. exists [k_dazi kt; k_zen kt; nth 3 (pcob_lines kt) []; from_2004]. split.
    + exists (k_meth kt), (freq_start q2), (skipn 6 (pcob_lines kt)). split; [vm_compute; reflexivity|]. split; [reflexivity|]. split; [reflexivity|]. repeat constructor.
    + split; [vm_compute; lia|]. split; [vm_compute; lia|]. split; repeat (constructor; [vm_compute; discriminate|]); constructor.
  - intro N. exfalso. apply N. reflexivity.
  - intro N. exfalso. apply N. reflexivity.
Qed.
Definition trm : mem := match ant_of_cstr (cbuf (lit "TRM59800.00     NONE")) 0 with Val a => a | _ => [] end.
Definition leica : mem := match ant_of_cstr (cbuf (lit "LEIAR25.R4      LEIT")) 0 with Val a => a | _ => [] end.
Lemma trm_reach : reach_ant trm.
Proof. apply (ra_cstr (cbuf (lit "TRM59800.00     NONE")) 0 (lit "TRM59800.00     NONE")); reflexivity. Qed.
Lemma leica_reach : reach_ant leica.
Proof. apply (ra_cstr (cbuf (lit "LEIAR25.R4      LEIT")) 0 (lit "LEIAR25.R4      LEIT")); reflexivity. Qed.

(** ** C31 ; [a] is any antenna object obtainable through the public interface; [eoh] is the end of the header *)
Definition eoh (h : atxh_src) : option nat := Some (length (atxh_text h)).
Definition C31_full : Prop := forall h s rs a fuel st, atxh_ok h s -> Forall ant_ok rs -> reach_ant a -> (length rs < fuel)%nat ->
  sdata st = atx_file h rs -> sfail st = false ->
  exists code out st', find_closest_antenna_match fuel st (eoh h) a = Val (code, out, st') /\ (-1 <= code)%Z /\
    (code = (-1)%Z <-> Exists (fun r => same_antenna r a) rs) /\
    (code = 0%Z <-> ~ Exists (fun r => same_antenna r a) rs /\ Exists (fun r => same_type r a) rs).
(** the antenna handed out is the one of block [r] *)
Definition is_antenna (b : mem) (r : ant_src) : Prop :=
  bytes_model b = map Some (r_model r) /\ (~ all_blank (r_serial r) -> bytes_serial b = map Some (r_serial r)).
(** holds of every file with at least one block, except that an absent antenna is reported like an antenna
    type that was found (0), with a default antenna and the beginning of the file for its position *)
Theorem C31_closest_partial : forall h rs a fuel st, Forall ant_ok rs -> reach_ant a -> (length rs < fuel)%nat -> rs <> [] ->
  sdata st = atx_file h rs -> sfail st = false ->
  exists code b p st', find_closest_antenna_match fuel st (eoh h) a = Val (code, Some (b, Some p), st') /\
    (code = (-1)%Z <-> Exists (fun r => same_antenna r a) rs) /\
    (code = 0%Z <-> ~ Exists (fun r => same_antenna r a) rs) /\
    (code = (-1)%Z -> exists rs1 r rs2, rs = rs1 ++ r :: rs2 /\ same_antenna r a /\ Forall (fun q => ~ same_antenna q a) rs1 /\
       is_antenna b r /\ skipn p (atx_file h rs) = ant_tail r ++ ants_text rs2) /\
    (code = 0%Z -> Exists (fun r => same_type r a) rs ->
       exists rs1 r rs2, rs = rs1 ++ r :: rs2 /\ same_type r a /\ Forall (fun q => ~ same_type q a) rs2 /\
       is_antenna b r /\ skipn p (atx_file h rs) = ant_tail r ++ ants_text rs2).
Proof.
  intros h rs a fuel st F Ha Hf Ne D Sf. destruct (closest_api h rs a fuel st F Ha Hf Ne D Sf) as (code & b & p & st' & E & CC & _ & _).
  exists code, b, p, st'. split; [exact E|]. assert (NE : forall P : ant_src -> Prop, Forall (fun q => ~ P q) rs -> ~ Exists P rs).
  { intros P Fp Ex. rewrite Exists_exists in Ex. destruct Ex as (x & I & X). rewrite Forall_forall in Fp. exact (Fp x I X). }
  destruct CC as [rs1 r rs2 Q X N|rs1 r rs2 Q N X NT|d N NT ED].
  - assert (Ex : Exists (fun r => same_antenna r a) rs) by (apply Exists_exists; exists r; split; [rewrite Q; apply in_elt|exact X]).
    split; [tauto|]. split; [split; [discriminate|tauto]|]. split; [|discriminate]. intros _. exists rs1, r, rs2. split; [exact Q|]. split; [exact X|]. split; [exact N|].
    split; [|rewrite Q; apply block_at]. apply rec_bytes. rewrite Q in F. apply Forall_elt in F. exact F.
  - split; [split; [discriminate|intro Z0; exfalso; exact (NE _ N Z0)]|]. split; [split; [intros _; exact (NE _ N)|reflexivity]|]. split; [discriminate|].
    intros _ _. exists rs1, r, rs2. split; [exact Q|]. split; [exact X|]. split; [exact NT|].
    split; [|rewrite Q; apply block_at]. apply rec_bytes. rewrite Q in F. apply Forall_elt in F. exact F.
  - split; [split; [discriminate|intro Z0; exfalso; exact (NE _ N Z0)]|]. split; [split; [intros _; exact (NE _ N)|reflexivity]|]. split; [discriminate|].
    intros _ T. exfalso. exact (NE _ NT T).
Qed.
Print Assumptions C31_closest_partial.
Example C31_example : Forall ant_ok [r1; r2; r3; r4] /\ reach_ant trm /\ Exists (fun r => same_type r trm) [r1; r2; r3; r4].
Proof.
  split; [exact rs_ok|]. split; [exact trm_reach|]. apply Exists_cons_tl, Exists_cons_tl, Exists_cons_hd. split; [reflexivity|].
  intros c X. apply repeat_spec in X. exact X.
Qed.
(** the search ends on every file whatsoever *)
Theorem C31_ends : forall fuel st p a, (length (sdata st) < fuel)%nat -> find_closest_antenna_match fuel st p a <> Fuel.
Proof. exact closest_ends. Qed.
Print Assumptions C31_ends.
(** a file without antenna blocks: an uninitialised variable decides *)
Theorem C31_no_blocks : forall h a fuel st, (0 < fuel)%nat -> sdata st = atx_file h [] -> sfail st = false ->
  find_closest_antenna_match fuel st (eoh h) a = UB.
Proof.
  intros h a fuel st Hf D Sf. pose proof (atx_on h [] st D Sf) as H. destruct fuel as [|fuel]; [lia|].
  unfold find_closest_antenna_match. destruct ant_default as [d| | | |] eqn:ED; try discriminate ED. cbn [bind closest_loop].
  unfold read_next_antenna_type. change ATX_HEADER_CHARS with 85%nat. change (ants_text []) with (@nil ascii) in H.
  destruct (on_end _ _ (uninit 85) 85 H ltac:(lia) ltac:(rewrite len_uninit; lia)) as (st1 & E & S1 & S2 & _). unfold eoh. rewrite E. cbn [bind]. rewrite S1. cbn [bind negb].
  rewrite S2. cbn [bind]. reflexivity.
Qed.
Print Assumptions C31_no_blocks.
Theorem C31_full_refuted : ~ C31_full.
Proof.
  intro F. destruct (F h0 Mixed [r1; r2; r3; r4] leica 10%nat (open_stream (atx_file h0 [r1; r2; r3; r4])) h0_ok rs_ok leica_reach ltac:(vm_compute; lia) eq_refl eq_refl)
    as (code & out & st' & E & _ & _ & Z).
  destruct (C31_closest_partial h0 [r1; r2; r3; r4] leica 10%nat (open_stream (atx_file h0 [r1; r2; r3; r4])) rs_ok leica_reach ltac:(vm_compute; lia) ltac:(discriminate) eq_refl eq_refl)
    as (code' & b & p & st2 & E' & _ & Z' & _).
  rewrite E in E'. apply Val_inj in E'. pose proof (f_equal (fun x => fst (fst x)) E') as C. cbn [fst] in C. subst code'.
  assert (N : forall r, In r [r1; r2; r3; r4] -> bytes_model leica = map Some (r_model r) -> False).
  { intros r [<-|[<-|[<-|[<-|[]]]]] X; vm_compute in X; discriminate. }
  assert (C0 : code = 0%Z).
  { apply Z'. rewrite Exists_exists. intros (r & I & X & _). exact (N r I X). }
  apply Z in C0 as (_ & X). rewrite Exists_exists in X. destruct X as (r & I & X & _). exact (N r I X).
Qed.
Print Assumptions C31_full_refuted.

(** ** C32 *)
Definition absent (rs : list ant_src) (a : mem) : Prop := Forall (fun q => ~ same_antenna q a /\ ~ same_type q a) rs.
Definition C32_full : Prop := forall h s rs a fuel st must, atxh_ok h s -> Forall ant_ok rs -> reach_ant a -> (length rs < fuel)%nat ->
  sdata st = atx_file h rs -> sfail st = false -> absent rs a ->
  exists st', get_antenna_pco_rcv fuel st (eoh h) a must = Val (1%Z, [], st').
(** without must_match_serial *)
Theorem C32_absent_partial : forall h s rs a fuel st, atxh_ok h s -> Forall ant_ok rs -> reach_ant a -> (length rs < fuel)%nat -> rs <> [] ->
  sdata st = atx_file h rs -> sfail st = false -> absent rs a ->
  exists st', get_antenna_pco_rcv fuel st (eoh h) a false = Val (1%Z, [], st').
Proof.
  intros h s rs a fuel st Hh F Ha Hf Ne D Sf Ab.
  assert (HK : forall r, In r rs -> same_antenna r a \/ same_type r a -> exists k, pco_body r k /\ pco_fuel k fuel).
  { intros r I X. unfold absent in Ab. rewrite Forall_forall in Ab. specialize (Ab r I). tauto. }
  destruct (pco_rcv_api h s rs a false fuel st Hh F Ha Hf Ne D Sf HK) as (code & l & st' & E & _ & _ & C).
  exists st'. unfold eoh. rewrite E. destruct C as [(-> & rs1 & r & rs2 & k & Q & _ & _ & X)|[(_ & _ & M & _)|(-> & -> & _)]]; [|discriminate M|reflexivity].
  exfalso. unfold absent in Ab. rewrite Q in Ab. apply Forall_elt in Ab. destruct X as [(X & _)|(_ & _ & X & _)]; tauto.
Qed.
Print Assumptions C32_absent_partial.
Example C32_example : absent [r1; r2; r3; r4] leica.
Proof. repeat (constructor; [split; intros (X & _); vm_compute in X; discriminate|]). constructor. Qed.
(** with must_match_serial: 10 and no offsets unless model, radome and serial agree, whether or not the model exists *)
Theorem C32_must_match : forall h s rs a fuel st, atxh_ok h s -> Forall ant_ok rs -> reach_ant a -> (length rs < fuel)%nat -> rs <> [] ->
  sdata st = atx_file h rs -> sfail st = false -> Forall (fun q => ~ same_antenna q a) rs ->
  exists st', get_antenna_pco_rcv fuel st (eoh h) a true = Val (10%Z, [], st').
Proof.
  intros h s rs a fuel st Hh F Ha Hf Ne D Sf N. destruct (closest_api h rs a fuel st F Ha Hf Ne D Sf) as (code & b & p & st1 & E & CC & D1 & Sf1).
  exists st1. unfold get_antenna_pco_rcv, eoh. rewrite E. cbn [bind]. destruct CC as [rs1 r rs2 Q X _| |]; [|reflexivity|reflexivity].
  exfalso. rewrite Q in N. apply Forall_elt in N. exact (N X).
Qed.
Print Assumptions C32_must_match.
Theorem C32_ends : forall fuel st p a must, (length (sdata st) < fuel)%nat -> get_antenna_pco_rcv fuel st p a must <> Fuel.
Proof. exact pco_rcv_ends. Qed.
Print Assumptions C32_ends.
Theorem C32_full_refuted : ~ C32_full.
Proof.
  intro F. destruct (F h0 Mixed [r1; r2; r3; r4] leica 10%nat (open_stream (atx_file h0 [r1; r2; r3; r4])) true h0_ok rs_ok leica_reach ltac:(vm_compute; lia) eq_refl eq_refl C32_example) as (st' & E).
  destruct (C32_must_match h0 Mixed [r1; r2; r3; r4] leica 10%nat (open_stream (atx_file h0 [r1; r2; r3; r4])) h0_ok rs_ok leica_reach ltac:(vm_compute; lia) ltac:(discriminate) eq_refl eq_refl) as (st2 & E2).
  { eapply Forall_impl; [|exact C32_example]. cbn. tauto. }
  rewrite E in E2. apply Val_inj in E2. pose proof (f_equal (fun x => fst (fst x)) E2) as C. cbn [fst] in C. discriminate.
Qed.
Print Assumptions C32_full_refuted.

(** ** C33 ; [d] is what is left of the file at the call *)
Definition at_line (st : stream) (d : list ascii) : Prop := good st = true /\ rest st = d.
Definition C33_full : Prop := forall st d, at_line st d ->
  exists code st', skip_rest_of_antenna st = Val (code, st') /\ (newlines d <= 5000 + newlines (rest st'))%nat /\
    (code = 0%Z -> exists ls l t, d = text_of (ls ++ [l]) ++ t /\ Forall (fun x => labelled "END OF ANTENNA" x = false) ls /\
       labelled "END OF ANTENNA" l = true /\ at_line st' t).
(** it never hangs, throws or kills the process, and reads at most 5000 lines *)
Theorem C33_returns_partial : forall st,
  (exists code st', skip_rest_of_antenna st = Val (code, st') /\ (code = 0 \/ code = 1)%Z /\
     (newlines (rest st) <= 5000 + newlines (rest st'))%nat) \/ skip_rest_of_antenna st = UB.
Proof.
  exact skip_returns.
Qed.
Print Assumptions C33_returns_partial.

(** when it returns 0: the line found is the first one with the label, among the first 4999; the stream stands
    right after it, or after its first 511 characters if it is longer *)
Theorem C33_position_partial : forall st d st', at_line st d -> skip_rest_of_antenna st = Val (0%Z, st') ->
  exists ls l e, d = text_of ls ++ e /\ (length ls + 2 <= 5000)%nat /\ Forall (fun x => labelled "END OF ANTENNA" x = false) ls /\
    labelled "END OF ANTENNA" l = true /\
    ((exists t, e = l ++ NL :: t /\ at_line st' t) \/ (e = l /\ seof st' = true /\ sfail st' = false) \/
     (length l = 511%nat /\ (511 < length e)%nat /\ firstn 511 e = l /\ sfail st' = true)).
Proof.
  intros st d st' (G & R) H. unfold skip_rest_of_antenna in H. change ATX_GRID_CHARS with 512%nat in H. change ATX_ANTENNA_LINES with 5000%nat in H.
  assert (O : on st (sdata st) d) by (split; [exact G|]; split; [reflexivity|exact R]).
  destruct (skip_sound 5000 st (sdata st) d (uninit 512) st' (len_uninit 512) O ltac:(rewrite label_uninit by discriminate; discriminate) H)
    as (ls & l & e & E1 & E2 & E3 & E4 & _ & E5).
  exists ls, l, e. do 4 (split; [assumption|]). destruct E5 as [(t & Q & O')|[Q|(Q1 & Q2 & Q3 & Q4)]].
  - left. exists t. split; [exact Q|]. destruct O' as (G' & D' & R'). split; [exact G'|]. unfold rest. rewrite D'. exact R'.
  - right. left. exact Q.
  - right. right. rewrite Q1 in *. auto.
Qed.
Print Assumptions C33_position_partial.
(** it returns normally whenever the first line reaches the label columns *)
Theorem C33_defined_partial : forall st l d, at_line st (l ++ d) -> ~ In NL l -> length l = 60%nat ->
  exists code st', skip_rest_of_antenna st = Val (code, st').
Proof.
  intros st l d (G & R) N L. unfold skip_rest_of_antenna. eapply (skip_defined ATX_ANTENNA_LINES st (sdata st) l d); [apply len_uninit| |exact N|exact L].
  split; [exact G|]. split; [reflexivity|exact R].
Qed.
Print Assumptions C33_defined_partial.
(** a complete block is skipped entirely *)
Theorem C33_skips : forall r st t, ant_ok r -> at_line st (ant_tail r ++ t) ->
  exists st', skip_rest_of_antenna st = Val (0%Z, st') /\ at_line st' t /\ sdata st' = sdata st.
Proof.
  intros r st t Hr (G & R). pose proof Hr as (_ & _ & _ & P & B & L).
  assert (O : on st (sdata st) (ant_tail r ++ t)) by (split; [exact G|]; split; [reflexivity|exact R]).
  destruct (skip_lines (r_body r) 5000 r st (sdata st) t (uninit 512) B P ltac:(change 5000%nat with (4998 + 2)%nat; apply Nat.add_le_mono_r; exact L) (len_uninit 512) O) as (st' & E & O').
  exists st'. split; [exact E|]. destruct O' as (G' & D' & R'). split; [|exact D']. split; [exact G'|]. unfold rest. rewrite D'. exact R'.
Qed.
Print Assumptions C33_skips.
Example C33_example : ant_ok r4 /\ at_line (open_stream (ant_tail r4)) (ant_tail r4 ++ []).
Proof. split; [exact (Forall_inv (Forall_inv_tail (Forall_inv_tail (Forall_inv_tail rs_ok))))|]. split; [reflexivity|symmetry; apply app_nil_r]. Qed.
Theorem C33_full_refuted : ~ C33_full.
Proof.
  intro F. destruct (F (open_stream []) [] (conj eq_refl eq_refl)) as (code & st' & E & _).
  rewrite skip_nothing in E. discriminate E.
Qed.
Print Assumptions C33_full_refuted.

(** ** C34 ; [strp] reads the epoch at the beginning of a line (external library) *)
Definition C34_full : Prop := forall strp st at_, good st = true ->
  exists fuel r, check_time_interval strp fuel st at_ = Val r.
Theorem C34_interval_partial : forall strp body opt fuel st t at_, sat_body body opt -> dates_ok strp opt -> Forall body_line body -> (length body <= fuel)%nat ->
  at_line st (text_of body ++ t) ->
  exists code st', check_time_interval strp fuel st at_ = Val (code, st') /\
    (code = 0%Z <-> valid_at strp opt at_) /\ (code = 0 \/ code = 1 \/ code = 21)%Z /\ (from_lines opt = [] -> code <> 0%Z).
Proof.
  intros strp body opt fuel st t at_ Hb Hd Hl Hf (G & R).
  destruct (interval_exact strp body opt fuel st (sdata st) t at_ Hb Hd Hl Hf (conj G (conj eq_refl R))) as (code & st' & left & E & V & C & _).
  exists code, st'. split; [exact E|]. split; [exact V|]. split; [exact C|]. intros N Z. apply V in Z as ((l & f & I & _) & _). rewrite N in I. destruct I.
Qed.
Print Assumptions C34_interval_partial.
Example C34_example : interval_ok year r1 /\ Forall body_line (r_body r1) /\ rec_valid year r1 2006 /\ ~ rec_valid year r1 2010.
Proof.
  assert (O : sat_body (r_body r1) [k_dazi ks; k_zen ks; nth 3 (pcob_lines ks) []; from_2004; until_2008]).
  { exists (k_meth ks), (freq_start q1), (skipn 7 (pcob_lines ks)). split; [vm_compute; reflexivity|]. split; [reflexivity|]. split; [reflexivity|]. repeat constructor. }
  assert (Dk : dates_ok year [k_dazi ks; k_zen ks; nth 3 (pcob_lines ks) []; from_2004; until_2008]).
  { split; [vm_compute; lia|]. split; [vm_compute; lia|]. split; repeat (constructor; [vm_compute; discriminate|]); constructor. }
  split; [eexists; split; eassumption|]. split; [|split].
  - pose proof (Forall_inv rs_ok) as (_ & _ & _ & _ & B & _). eapply Forall_impl; [|exact B]. cbn. tauto.
  - eexists. split; [exact O|]. split; [exact Dk|]. split.
    + exists from_2004, 2004%Z. split; [vm_compute; auto|]. split; [reflexivity|lia].
    + intros l u I E. assert (l = until_2008) as -> by (destruct I as [<-|[]]; reflexivity). injection E as <-. lia.
  - intros (o & B & _ & _ & V). pose proof (sat_body_opt _ _ _ O B) as <-. specialize (V until_2008 2008%Z ltac:(vm_compute; auto) eq_refl). lia.
Qed.
(** a block with neither dates nor START OF FREQUENCY: the check never returns *)
Theorem C34_diverges : forall strp meth ls st at_, body_line meth -> labelled "METH / BY / # / DATE" meth = true ->
  Forall (fun l => body_line l /\ labelled "START OF FREQUENCY" l = false /\ labelled "VALID FROM" l = false /\ labelled "VALID UNTIL" l = false) ls ->
  at_line st (text_of (meth :: ls)) -> forall fuel, check_time_interval strp fuel st at_ = Fuel.
Proof.
  intros strp meth ls st at_ (Cm & Lm) Em F (G & R) fuel. unfold check_time_interval. change ATX_GRID_CHARS with 512%nat.
  assert (O : on st (sdata st) (text_of (meth :: ls) ++ [])) by (split; [exact G|]; split; [reflexivity|rewrite app_nil_r; exact R]).
  rewrite text_of_one, app_nil_r in O.
  destruct (on_line st _ _ _ (uninit 512) 512 O Cm ltac:(lia) ltac:(rewrite len_uninit; lia)) as (st1 & E & H1). rewrite E. cbn [bind]. rewrite (on_nofail _ _ _ H1).
  rewrite label_other by (first [reflexivity|nonul_lit|lia]). rewrite Em. cbn [bind negb].
  assert (X : forall s, firstn (String.length s) (lit "METH / BY / # / DATE") <> lit s -> (String.length s <= 20)%nat -> labelled s meth = false).
  { intros s N Ls. unfold labelled in *. apply list_eqb_eq in Em. destruct (list_eqb (firstn (String.length s) (skipn 60 meth)) (lit s)) eqn:Y; [|reflexivity].
    apply list_eqb_eq in Y. exfalso. apply N. rewrite <- Em. rewrite firstn_firstn, Nat.min_l by exact Ls. exact Y. }
  rewrite (valid_never strp ls fuel st1 (sdata st) _); [reflexivity|rewrite overlay_length; rewrite len_uninit; lia|exact H1|exact F|..];
    (rewrite label_other by (first [reflexivity|nonul_lit|lia]); rewrite X by (first [discriminate|cbn; lia]); reflexivity).
Qed.
Print Assumptions C34_diverges.
Theorem C34_full_refuted : ~ C34_full.
Proof.
  intro F. destruct (F year (open_stream (text_of [k_meth ks])) 0%Z eq_refl) as (fuel & r & E).
  rewrite (C34_diverges year (k_meth ks) []) in E; [discriminate|lline|reflexivity|constructor|split; reflexivity].
Qed.
Print Assumptions C34_full_refuted.

(** ** C35 *)
Definition C35_full : Prop := forall st fuel l, (length (sdata st) < fuel)%nat -> collect_pco fuel st l <> Term.
(** a well-formed block: all its frequencies, in order, appended to the list *)
Theorem C35_frequencies_partial : forall k fuel st t l, pcob_ok k -> (length (sdata st) < fuel)%nat -> at_line st (text_of (pcob_lines k) ++ t) ->
  exists st', collect_pco fuel st l = Val (0%Z, l ++ map freq_pco (k_freqs k), st').
Proof.
  intros k fuel st t l Hk Hf (G & R).
  assert (LT : forall ls, (length ls <= length (text_of ls))%nat) by (induction ls as [|x ls IH]; [cbn; lia|]; change (text_of (x :: ls)) with ((x ++ [NL]) ++ text_of ls); rewrite !app_length; cbn [length]; lia).
  assert (B : (length (pcob_lines k) < fuel)%nat).
  { pose proof (LT (pcob_lines k)). pose proof (rest_le st) as Q. rewrite R, app_length in Q. lia. }
  unfold pcob_lines in B. rewrite !app_length in B.
  destruct (collect_exact k fuel st (sdata st) t l Hk) as (st' & E & _); [lia| | |exists st'; exact E].
  - assert (B2 : (length (flat_map freq_lines (k_freqs k)) < fuel)%nat) by lia. revert B2. clear. induction (k_freqs k) as [|q qs IH]; intro B; [constructor|].
    cbn [flat_map] in B. rewrite app_length in B. constructor; [|apply IH; lia]. unfold freq_lines in B. cbn [length] in B. rewrite !app_length in B. cbn [length] in B.
    unfold grid_fuel. unfold rms_lines in B. destruct (q_rms q); cbn [length] in B; rewrite ?app_length in B; cbn [length] in B; lia.
  - split; [exact G|]. split; [reflexivity|exact R].
Qed.
Print Assumptions C35_frequencies_partial.
Example C35_example : pcob_ok kr /\ map freq_pco (k_freqs kr) =
  [mkPco (mkCode AnyType 1 "?"%char) Gps (DFin (num_val (q_n q1))) (DFin (num_val (q_e q1))) (DFin (num_val (q_u q1)));
   mkPco (mkCode AnyType 2 "?"%char) Glonass (DFin (num_val (q_n q2))) (DFin (num_val (q_e q2))) (DFin (num_val (q_u q2)))] /\
  (num_dec (q_e q1) == -34 # 100)%Q.
Proof. split; [exact kr_ok|]. split; reflexivity. Qed.
(** success adds as many offsets as the # OF FREQUENCIES line declares, whatever follows it *)
Theorem C35_counts : forall fuel st l1 l2 l3 l4 t l l' st', label_line l1 -> label_line l2 -> label_line l3 -> label_line l4 ->
  at_line st (text_of [l1; l2; l3; l4] ++ t) -> collect_pco fuel st l = Val (0%Z, l', st') ->
  exists n added, stoi (firstn 6 l4) = Val n /\ l' = l ++ added /\ length added = Z.to_nat n.
Proof.
  intros fuel st l1 l2 l3 l4 t l l' st' H1 H2 H3 H4 (G & R). apply (collect_counts fuel st (sdata st) l1 l2 l3 l4 t); auto.
  split; [exact G|]. split; [reflexivity|exact R].
Qed.
Print Assumptions C35_counts.
(** the collection ends on every file *)
Theorem C35_ends : forall fuel st l, (length (sdata st) < fuel)%nat -> collect_pco fuel st l <> Fuel.
Proof. exact collect_ends. Qed.
Print Assumptions C35_ends.
(** blank north, east and up columns: the process is killed *)
Definition bad_neu : list ascii := text_of (firstn 4 (pcob_lines kr) ++ [freq_start q1; header_line [] (lit "NORTH / EAST / UP") 0]).
Theorem C35_full_refuted : ~ C35_full.
Proof.
  intro F. apply (F (open_stream bad_neu) 1000%nat []); [vm_compute; lia|]. vm_compute. reflexivity.
Qed.
Print Assumptions C35_full_refuted.

(** ** C36 ; [line0] is what the search's local line buffer holds at the start *)
Definition C36_full : Prop := forall strp h s rs prn ss at_ fuel tfuel line0 st p x st', atxh_ok h s -> Forall ant_ok rs -> rs <> [] ->
  Forall (fun r => sat_ident r <> None -> interval_ok strp r) rs -> line_ok line0 -> sdata st = atx_file h rs -> sfail st = false ->
  find_satellite_antenna strp fuel tfuel line0 st (eoh h) prn ss at_ (Some 0%nat) = Val (0%Z, p, Some x, st') ->
  exists r id, In r rs /\ sat_ident r = Some id /\ i_prn id = prn /\ i_sys id = ss /\ rec_valid strp r at_ /\ sat_of r id x /\
    (i_svn id = None -> sat_svn (as_sat x) = (-1)%Z) /\ (i_cospar id = None -> sat_cospar (as_sat x) = uninit 9).
(** the first block of the requested satellite valid at the epoch, 10 when there is none; identity and antenna
    name are the block's own, and so are SVN and COSPAR id when it gives them *)
Theorem C36_satellite_partial : forall strp h rs prn ss at_ fuel tfuel line0 st, Forall ant_ok rs ->
  Forall (fun r => wants prn ss r -> interval_ok strp r) rs -> Forall (fun r => (length (r_body r) <= tfuel)%nat) rs ->
  (length rs < fuel)%nat -> rs <> [] -> line_ok line0 -> sdata st = atx_file h rs -> sfail st = false ->
  (exists rs1 r rs2 id x st', rs = rs1 ++ r :: rs2 /\ Forall (fun q => ~ (wants prn ss q /\ rec_valid strp q at_)) rs1 /\
      sat_ident r = Some id /\ i_prn id = prn /\ i_sys id = ss /\ rec_valid strp r at_ /\ sat_of r id x /\
      find_satellite_antenna strp fuel tfuel line0 st (eoh h) prn ss at_ (Some 0%nat) = Val (0%Z, Some (block_pos h rs1 r rs2), Some x, st')) \/
  (Forall (fun q => ~ (wants prn ss q /\ rec_valid strp q at_)) rs /\
   exists p st', find_satellite_antenna strp fuel tfuel line0 st (eoh h) prn ss at_ (Some 0%nat) = Val (10%Z, p, None, st')).
Proof.
  intros strp h rs prn ss at_ fuel tfuel line0 st F FI FB Hf Ne Hl D Sf.
  destruct (satellite_api strp h rs prn ss at_ (Some 0%nat) fuel tfuel line0 st F FI FB Hf Ne Hl D Sf)
    as (st1 & _ & _ & [(rs1 & r & rs2 & id & x & Q & N & A1 & A2 & A3 & A4 & A5 & E)|(N & p & E)]).
  - left. exists rs1, r, rs2, id, x, st1. do 7 (split; [assumption|]). exact E.
  - right. split; [exact N|]. exists p, st1. exact E.
Qed.
Print Assumptions C36_satellite_partial.
(** the position is that of the block *)
Theorem C36_position : forall h rs1 r rs2, skipn (block_pos h rs1 r rs2) (atx_file h (rs1 ++ r :: rs2)) = ant_tail r ++ ants_text rs2.
Proof. exact block_at. Qed.
Print Assumptions C36_position.
(** the offsets of a satellite are those of that block *)
Theorem C36_offsets_partial : forall strp h rs prn ss at_ fuel tfuel line0 st, Forall ant_ok rs ->
  Forall (fun r => wants prn ss r -> interval_ok strp r /\ exists k, pco_body r k /\ pco_fuel k fuel) rs -> Forall (fun r => (length (r_body r) <= tfuel)%nat) rs ->
  (length rs < fuel)%nat -> rs <> [] -> line_ok line0 -> sdata st = atx_file h rs -> sfail st = false ->
  (exists rs1 r rs2 id x k st', rs = rs1 ++ r :: rs2 /\ Forall (fun q => ~ (wants prn ss q /\ rec_valid strp q at_)) rs1 /\
      sat_ident r = Some id /\ i_prn id = prn /\ i_sys id = ss /\ rec_valid strp r at_ /\ sat_of r id x /\ pco_body r k /\
      get_antenna_pco_sat strp fuel tfuel line0 st (eoh h) prn ss at_ = Val (0%Z, map freq_pco (k_freqs k), Some x, st')) \/
  (Forall (fun q => ~ (wants prn ss q /\ rec_valid strp q at_)) rs /\
   exists st', get_antenna_pco_sat strp fuel tfuel line0 st (eoh h) prn ss at_ = Val (10%Z, [], None, st')).
Proof.
  intros strp h rs prn ss at_ fuel tfuel line0 st F FI FB Hf Ne Hl D Sf.
  destruct (pco_sat_api strp h rs prn ss at_ fuel tfuel line0 st F FI FB Hf Ne Hl D Sf)
    as (st1 & _ & _ & [(rs1 & r & rs2 & id & x & k & Q & N & A1 & A2 & A3 & A4 & A5 & A6 & E)|(N & E)]).
  - left. exists rs1, r, rs2, id, x, k, st1. do 8 (split; [assumption|]). exact E.
  - right. split; [exact N|]. exists st1. exact E.
Qed.
Print Assumptions C36_offsets_partial.
Definition zeros : mem := repeat (Some NUL) 85.
Example C36_example : line_ok zeros /\ wants 1 Gps r1 /\ sat_ident r1 = Some (mkId Gps 1 (Some 32%Z) (Some (lit "1992-079"))) /\
  sat_ident r2 = Some (mkId Beidou 1 None None).
Proof. split; [split; [reflexivity|exists []; reflexivity]|]. split; [eexists; split; [vm_compute; reflexivity|split; reflexivity]|]. split; vm_compute; reflexivity. Qed.
(** with the buffer uninitialised, as it is in the source, every search reads past what was written to it *)
Theorem C36_uninitialised : forall strp h r rs prn ss at_ p fuel tfuel st, ant_ok r -> (0 < fuel)%nat -> sdata st = atx_file h (r :: rs) -> sfail st = false ->
  find_satellite_antenna strp fuel tfuel (uninit 85) st (eoh h) prn ss at_ p = UB.
Proof. exact satellite_uninit. Qed.
Print Assumptions C36_uninitialised.
(** the SVN and COSPAR id of the first block are handed out for the second *)
Theorem C36_full_refuted : ~ C36_full.
Proof.
  intro F. set (fs := find_satellite_antenna year 10 100 zeros (open_stream (atx_file h0 [r1; r2])) (eoh h0) 1 Beidou 2005 (Some 0%nat)).
  assert (E : match fs with Val (c, _, Some x, _) => Some (c, sat_svn (as_sat x)) | _ => None end = Some (0%Z, 32%Z)) by (vm_compute; reflexivity).
  destruct fs as [[[[c p] [x|]] st']| | | |] eqn:Q; try discriminate E. injection E as E1 E2. subst c.
  assert (R2 : Forall ant_ok [r1; r2]) by (pose proof rs_ok as R; inversion R as [|? ? A B]; subst; inversion B; subst; auto).
  assert (D2 : Forall (fun r => sat_ident r <> None -> interval_ok year r) [r1; r2]) by (pose proof rs_dates as R; inversion R as [|? ? A B]; subst; inversion B; subst; auto).
  assert (ZL : line_ok zeros) by (split; [reflexivity|exists []; reflexivity]).
  destruct (F year h0 Mixed [r1; r2] 1%Z Beidou 2005%Z 10%nat 100%nat zeros (open_stream (atx_file h0 [r1; r2])) p x st' h0_ok R2 ltac:(discriminate) D2 ZL eq_refl eq_refl Q)
    as (r & id & I & Hi & Hp & Hs & _ & _ & Sv & _).
  assert (Ei : id = mkId Gps 1 (Some 32%Z) (Some (lit "1992-079")) \/ id = mkId Beidou 1 None None).
  { destruct C36_example as (_ & _ & I1 & I2). destruct I as [<-|[<-|[]]]; [left|right]; congruence. }
  destruct Ei as [-> | ->]; [discriminate Hs|]. specialize (Sv eq_refl). rewrite Sv in E2. discriminate.
Qed.
Print Assumptions C36_full_refuted.

(** ** C79 the header *)
Definition C79_full : Prop := forall d, exists r, atx_read_header (open_stream d) = Val r.
(** a well-formed header is accepted: system, version, and the position of the first block *)
Theorem C79_header_partial : forall h s st t, atxh_ok h s -> sfail st = false -> sdata st = atxh_text h ++ t ->
  exists st', atx_read_header st =
    Val (mkAtx 0 s (if Qeq_bool (num_dec (x_version h)) (14 # 10) then V14 else V13) (eoh h) st') /\
    at_line st' t /\ sdata st' = sdata st.
Proof.
  intros h s st t Hh Sf D. destruct (header_exact h s st (sdata st) t Hh Sf eq_refl D) as (st' & E & G & D' & R). exists st'.
  split; [exact E|]. split; [|exact D']. split; [exact G|]. unfold rest. rewrite D'. exact R.
Qed.
Print Assumptions C79_header_partial.
Example C79_example : atxh_ok h0 Mixed /\ atxh_first h0 = lit "     1.4            M                                       ANTEX VERSION / SYST".
Proof. split; [exact h0_ok|vm_compute; reflexivity]. Qed.
(** first lines with another version (10), an unknown system (11), a PCV type that is not absolute (12), and files
    without END OF HEADER (20) are rejected *)
Definition first_ok (h : atxh_src) : Prop :=
  num_ok (x_version h) /\ (length (num_text (x_version h)) <= 8)%nat /\ x_letter h <> NUL /\ x_letter h <> NL /\ cols 39 (x_more h) /\ (x_pad h <= 4)%nat.
Definition known_version (h : atxh_src) : Prop := (num_dec (x_version h) == 14 # 10 \/ num_dec (x_version h) == 13 # 10)%Q.
Definition near (v q : Q) : Prop := (q - (101 # 100000) < v < q + (101 # 100000))%Q.
Theorem C79_rejects_version : forall h t, first_ok h -> ~ near (num_dec (x_version h)) (13 # 10) -> ~ near (num_dec (x_version h)) (14 # 10) ->
  exists r, atx_read_header (open_stream (atxh_first h ++ NL :: t)) = Val r /\ a_code r = 10%Z.
Proof.
  intros h t (H1 & H2 & H3 & H4 & H5 & H6) N1 N2. apply (reject_version (x_version h) (x_letter h) (x_more h) (x_pad h) _ (atxh_first h ++ NL :: t) t); auto.
Qed.
Print Assumptions C79_rejects_version.
Theorem C79_rejects_system : forall h t, first_ok h -> known_version h -> (forall s, ~ In (x_letter h, s) satsys_letters) ->
  exists r, atx_read_header (open_stream (atxh_first h ++ NL :: t)) = Val r /\ a_code r = 11%Z.
Proof.
  intros h t (H1 & H2 & H3 & H4 & H5 & H6) V N. apply (reject_letter (x_version h) (x_letter h) (x_more h) (x_pad h) _ (atxh_first h ++ NL :: t) t); auto.
Qed.
Print Assumptions C79_rejects_system.
Theorem C79_rejects_type : forall h s l t, first_ok h -> known_version h -> In (x_letter h, s) satsys_letters ->
  clean l -> (length l <= 84)%nat -> hd_error l <> Some "A"%char ->
  exists r, atx_read_header (open_stream (atxh_first h ++ NL :: l ++ NL :: t)) = Val r /\ a_code r = 12%Z.
Proof.
  intros h s l t (H1 & H2 & H3 & H4 & H5 & H6) V I C L N. apply (reject_type (x_version h) (x_letter h) s (x_more h) (x_pad h) _ (atxh_first h ++ NL :: l ++ NL :: t) l t); auto.
Qed.
Print Assumptions C79_rejects_type.
Theorem C79_rejects_unended : forall h s ls, first_ok h -> known_version h -> In (x_letter h, s) satsys_letters ->
  clean (x_type h) -> (length (x_type h) <= 83)%nat -> ls <> [] -> Forall (fun l => label_line l /\ labelled "END OF HEADER" l = false) ls ->
  exists r, atx_read_header (open_stream (text_of (atxh_first h :: ("A"%char :: x_type h) :: ls))) = Val r /\ a_code r = 20%Z.
Proof.
  intros h s ls (H1 & H2 & H3 & H4 & H5 & H6) V I C L Ne F. 
  apply (reject_no_end (x_version h) (x_letter h) s (x_more h) (x_pad h) _ (text_of (atxh_first h :: ("A"%char :: x_type h) :: ls)) (x_type h) ls); auto.
  change (text_of (atxh_first h :: ?y)) with ((atxh_first h ++ [NL]) ++ text_of y). rewrite <- app_assoc. reflexivity.
Qed.
Print Assumptions C79_rejects_unended.
Example C79_reject_examples :
  first_ok (mkAtxh (dec None "1" "2") "M"%char (blanks 39) [] [] 0) /\ first_ok (mkAtxh (dec None "1" "3") "Z"%char (blanks 39) [] [] 0) /\
  (forall s, ~ In ("Z"%char, s) satsys_letters).
Proof.
  split; [|split].
  - split; [apply dec_ok; [exact I|digs|digs|discriminate|vm_compute; lia]|]. split; [vm_compute; lia|]. do 2 (split; [discriminate|]). split; [split; [cl|reflexivity]|vm_compute; lia].
  - split; [apply dec_ok; [exact I|digs|digs|discriminate|vm_compute; lia]|]. split; [vm_compute; lia|]. do 2 (split; [discriminate|]). split; [split; [cl|reflexivity]|vm_compute; lia].
  - intros s H. repeat (destruct H as [H|H]; [discriminate|]). destruct H.
Qed.
(** a first line that stops before the system letter: the letter is read from uninitialised memory *)
Theorem C79_full_refuted : ~ C79_full.
Proof.
  intro F. destruct (F (lit "     1.4" ++ [NL])) as (r & E).
  assert (X : atx_read_header (open_stream (lit "     1.4" ++ [NL])) = UB) by (vm_compute; reflexivity). rewrite X in E. discriminate E.
Qed.
Print Assumptions C79_full_refuted.

(** ** C78 histories of queries on one object *)
Inductive query := QClosest (a : mem) | QOffsets (a : mem) (must : bool) | QSatOffsets (prn : Z) (ss : satsys) (at_ : Z) | QSatInfo (prn : Z) (ss : satsys) (at_ : Z).
Inductive answer := AClosest (code : Z) (out : option (mem * option nat)) | AOffsets (code : Z) (l : list pco)
  | ASatOffsets (code : Z) (l : list pco) (sv : option asat) | ASatInfo (code : Z) (sv : option asat).
Definition ask strp fuel tfuel line0 (e : option nat) (st : stream) (q : query) : outcome (answer * stream) :=
  match q with
  | QClosest a => do r <- find_closest_antenna_match fuel st e a; let '(c, o, st') := r in Val (AClosest c o, st')
  | QOffsets a m => do r <- get_antenna_pco_rcv fuel st e a m; let '(c, l, st') := r in Val (AOffsets c l, st')
  | QSatOffsets p ss t => do r <- get_antenna_pco_sat strp fuel tfuel line0 st e p ss t; let '(c, l, sv, st') := r in Val (ASatOffsets c l sv, st')
  | QSatInfo p ss t => do r <- get_satellite_info strp fuel tfuel line0 st e p ss t; let '(c, sv, st') := r in Val (ASatInfo c sv, st')
  end.
Fixpoint ask_all strp fuel tfuel line0 e st (qs : list query) : outcome stream :=
  match qs with
  | [] => Val st
  | q :: qs' => do r <- ask strp fuel tfuel line0 e st q; ask_all strp fuel tfuel line0 e (snd r) qs'
  end.
Definition query_ok (q : query) : Prop := match q with QClosest a | QOffsets a _ => reach_ant a | _ => True end.
Definition C78_full : Prop := forall strp d fuel tfuel line0 qs q r st st' , line_ok line0 ->
  atx_read_header (open_stream d) = Val r -> a_code r = 0%Z -> Forall query_ok (qs ++ [q]) ->
  ask_all strp fuel tfuel line0 (a_eoh r) (a_stream r) qs = Val st -> ask strp fuel tfuel line0 (a_eoh r) st q = Val st' ->
  ask strp fuel tfuel line0 (a_eoh r) (a_stream r) q = Val st'.
(** well-formed files, large enough fuels *)
Definition file_ok strp (rs : list ant_src) (fuel tfuel : nat) : Prop :=
  Forall ant_ok rs /\ rs <> [] /\ (length rs < fuel)%nat /\
  Forall (fun r => exists k, pco_body r k /\ pco_fuel k fuel) rs /\
  Forall (fun r => sat_ident r <> None -> interval_ok strp r) rs /\ Forall (fun r => (length (r_body r) <= tfuel)%nat) rs.
Lemma ask_step strp h s rs fuel tfuel line0 st q : atxh_ok h s -> file_ok strp rs fuel tfuel -> line_ok line0 -> query_ok q ->
  sdata st = atx_file h rs -> sfail st = false ->
  exists r st', ask strp fuel tfuel line0 (eoh h) st q = Val (r, st') /\ sdata st' = atx_file h rs /\ sfail st' = false.
Proof.
  intros Hh (F & Ne & Hf & FK & FI & FB) Hl Hq D Sf.
  assert (FW : forall prn ss, Forall (fun r => wants prn ss r -> interval_ok strp r) rs).
  { intros prn ss. eapply Forall_impl; [|exact FI]. intros r X (id & W & _). apply X. congruence. }
  unfold eoh. destruct q as [a|a m|p ss t|p ss t]; cbn [ask query_ok] in *.
  - destruct (closest_api h rs a fuel st F Hq Hf Ne D Sf) as (c & b & p & st' & E & _ & D' & S'). rewrite E. cbn [bind]. do 2 eexists. split; [reflexivity|]. auto.
  - destruct (pco_rcv_api h s rs a m fuel st Hh F Hq Hf Ne D Sf) as (c & l & st' & E & D' & S' & _).
    { intros r I _. rewrite Forall_forall in FK. exact (FK r I). }
    rewrite E. cbn [bind]. do 2 eexists. split; [reflexivity|]. auto.
  - assert (FWK : Forall (fun r => wants p ss r -> interval_ok strp r /\ exists k, pco_body r k /\ pco_fuel k fuel) rs).
    { specialize (FW p ss). rewrite Forall_forall in *. intros r I W. split; [exact (FW r I W)|exact (FK r I)]. }
    destruct (pco_sat_api strp h rs p ss t fuel tfuel line0 st F FWK FB Hf Ne Hl D Sf) as (st' & D' & S' & [(rs1 & r & rs2 & id & x & k & A)|(_ & E)]).
    + destruct A as (_ & _ & _ & _ & _ & _ & _ & _ & E). rewrite E. cbn [bind]. do 2 eexists. split; [reflexivity|]. auto.
    + rewrite E. cbn [bind]. do 2 eexists. split; [reflexivity|]. auto.
  - unfold get_satellite_info. destruct (satellite_api strp h rs p ss t (Some 0%nat) fuel tfuel line0 st F (FW p ss) FB Hf Ne Hl D Sf) as (st' & D' & S' & [(rs1 & r & rs2 & id & x & A)|(_ & pp & E)]).
    + destruct A as (_ & _ & _ & _ & _ & _ & _ & E). rewrite E. cbn [bind]. do 2 eexists. split; [reflexivity|]. auto.
    + rewrite E. cbn [bind]. do 2 eexists. split; [reflexivity|]. auto.
Qed.
Lemma ask_seek strp fuel tfuel line0 e st1 st2 q : sdata st1 = sdata st2 -> sfail st1 = false -> sfail st2 = false ->
  ask strp fuel tfuel line0 (Some e) st1 q = ask strp fuel tfuel line0 (Some e) st2 q.
Proof.
  intros D S1 S2. assert (K : seekg st1 (Some e) = seekg st2 (Some e)) by (unfold seekg; rewrite S1, S2, D; reflexivity).
  destruct q; cbn [ask]; unfold get_antenna_pco_rcv, get_antenna_pco_sat, get_satellite_info, find_closest_antenna_match, find_satellite_antenna; rewrite K; reflexivity.
Qed.
(** on a well-formed file every query of every history is answered, and as if it were the first *)
Theorem C78_history_partial : forall strp h s rs fuel tfuel line0 qs q, atxh_ok h s -> file_ok strp rs fuel tfuel -> line_ok line0 -> Forall query_ok (qs ++ [q]) ->
  exists r st a st', atx_read_header (open_stream (atx_file h rs)) = Val r /\ a_code r = 0%Z /\
    ask_all strp fuel tfuel line0 (a_eoh r) (a_stream r) qs = Val st /\
    ask strp fuel tfuel line0 (a_eoh r) st q = Val (a, st') /\ ask strp fuel tfuel line0 (a_eoh r) (a_stream r) q = Val (a, st').
Proof.
  intros strp h s rs fuel tfuel line0 qs q Hh Hr Hl Hq.
  destruct (C79_header_partial h s (open_stream (atx_file h rs)) (ants_text rs) Hh eq_refl eq_refl) as (st0 & E & (G0 & _) & D0).
  eexists. assert (S0 : sfail st0 = false) by (unfold good in G0; destruct (seof st0), (sfail st0); cbn in G0; congruence).
  change (sdata (open_stream ?x)) with x in D0. apply Forall_app in Hq as (Hqs & Hq). apply Forall_inv in Hq.
  assert (A : forall qs st, Forall query_ok qs -> sdata st = atx_file h rs -> sfail st = false ->
    exists st', ask_all strp fuel tfuel line0 (eoh h) st qs = Val st' /\ sdata st' = atx_file h rs /\ sfail st' = false).
  { clear Hqs qs E. induction qs as [|x qs IH]; intros st Fq D Sf; [exists st; auto|]. inversion Fq as [|? ? X1 X2]; subst.
    destruct (ask_step strp h s rs fuel tfuel line0 st x Hh Hr Hl X1 D Sf) as (r & st1 & E & D1 & S1). cbn [ask_all]. rewrite E. cbn [bind snd]. apply IH; assumption. }
  destruct (A qs st0 Hqs D0 S0) as (st1 & E1 & D1 & S1).
  destruct (ask_step strp h s rs fuel tfuel line0 st1 q Hh Hr Hl Hq D1 S1) as (a & st2 & E2 & _).
  exists st1, a, st2. split; [exact E|]. cbn [a_code a_eoh a_stream]. split; [reflexivity|]. split; [exact E1|]. split; [exact E2|].
  rewrite <- E2. apply ask_seek; congruence.
Qed.
Print Assumptions C78_history_partial.
Example C78_example : file_ok year [r1; r2; r3; r4] 100 100 /\ Forall query_ok ([QClosest trm; QSatOffsets 1 Beidou 2010] ++ [QOffsets leica false]).
Proof.
  split.
  - split; [exact rs_ok|]. split; [discriminate|]. split; [vm_compute; lia|]. split; [exact rs_body|]. split; [exact rs_dates|]. repeat (constructor; [vm_compute; lia|]). constructor.
  - constructor; [exact trm_reach|]. constructor; [exact I|]. constructor; [exact leica_reach|constructor].
Qed.
(** one overlong line in a later block and the object is spoiled: the antenna found by a fresh object is no longer
    found after an unsuccessful query *)
Definition spoiled : list ascii := atx_file h0 [r4] ++ header_line [] (lit "START OF ANTENNA") 20 ++ [NL].
Definition trm_serial : mem := match set_serial_nr trm (cbuf (lit "1441112501          ")) 0 with Val a => a | _ => [] end.
Theorem C78_full_refuted : ~ C78_full.
Proof.
  intro F. 
  destruct (C79_header_partial h0 Mixed (open_stream spoiled) (skipn (length (atxh_text h0)) spoiled) h0_ok eq_refl ltac:(vm_compute; reflexivity)) as (st0 & E & (G0 & R0) & D0).
  assert (S0 : sfail st0 = false) by (unfold good in G0; destruct (seof st0), (sfail st0); cbn in G0; congruence).
  assert (X : exists st1 a st2 b st3, ask year 10 100 zeros (eoh h0) st0 (QClosest leica) = Val (a, st1) /\
    ask year 10 100 zeros (eoh h0) st1 (QClosest trm_serial) = Val (AClosest 1 None, st2) /\
    ask year 10 100 zeros (eoh h0) st0 (QClosest trm_serial) = Val (AClosest (-1) b, st3)).
  { assert (D0' : sdata st0 = spoiled) by exact D0.
    rewrite !(ask_seek year 10 100 zeros (length (atxh_text h0)) st0 (open_stream spoiled)) by (first [assumption|reflexivity]).
    do 5 eexists. split; [vm_compute; reflexivity|]. split; vm_compute; reflexivity. }
  destruct X as (st1 & a & st2 & b & st3 & E1 & E2 & E3).
  assert (ZL : line_ok zeros) by (split; [reflexivity|exists []; reflexivity]).
  assert (TS : reach_ant trm_serial).
  { apply (ra_serial trm (cbuf (lit "1441112501          ")) 0 (lit "1441112501          ")); [exact trm_reach|reflexivity|reflexivity]. }
  pose proof (F year spoiled 10%nat 100%nat zeros [QClosest leica] (QClosest trm_serial) _ st1 (AClosest 1 None, st2) ZL E eq_refl) as Q.
  cbn [a_eoh a_stream] in Q. specialize (Q ltac:(constructor; [exact leica_reach|constructor; [exact TS|constructor]])).
  cbn [ask_all] in Q. rewrite E1 in Q. cbn [bind snd] in Q. specialize (Q eq_refl E2). rewrite E3 in Q. apply Val_inj in Q.
  apply (f_equal fst) in Q. cbn [fst] in Q. discriminate.
Qed.
Print Assumptions C78_full_refuted.
