(** ProofHeader: the observation file header (C54, C58, C55, C22). *)
From Verif Require Import Base BaseLemmas CNum CNumLemmas Stream ModelSatsys ModelObs ModelNvarstr
  ModelSatellite ModelAntenna ModelObsRnx SpecText SpecNum SpecObs SpecHeader ProofText ProofAntenna ProofNum
  ProofStream ProofObsTypes ProofObsRec.

Lemma labelled_overlay s n line buf : n = String.length s -> ~ In NUL (lit s) ->
  ~ In NUL line -> 60 <= length line ->
  strncmp_lit (overlay line buf) 60 s n = Val (labelled s line).
Proof. intros -> Hs Hn Hl. apply strncmp_lit_overlay; auto. Qed.

Lemma hl_length c lab j : length c <= 60 -> length (header_line c lab j) = 60 + length lab + j.
Proof.
  intro H. unfold header_line. rewrite !app_length, length_ljust by exact H. unfold blanks. rewrite repeat_length. lia.
Qed.
Lemma hl_clean c lab j : clean c -> clean lab -> clean (header_line c lab j).
Proof.
  intros Hc Hl. unfold header_line. apply clean_app. split.
  - unfold ljust. apply clean_app. split; [exact Hc|apply clean_blanks].
  - apply clean_app. split; [exact Hl|apply clean_blanks].
Qed.
Lemma labelled_hl s c lab j : length c <= 60 ->
  labelled s (header_line c lab j) = list_eqb (firstn (String.length s) (lab ++ blanks j)) (lit s).
Proof.
  intro H. unfold labelled, header_line. rewrite skipn_app_exact by (rewrite length_ljust; auto). reflexivity.
Qed.

Lemma word_spec s : before_first_blank s (word s).
Proof.
  induction s as [|c s IH]; cbn.
  - exists []. split; [reflexivity|]. split; [intros []|discriminate].
  - destruct (Ascii.eqb_spec c " "%char).
    + exists (c :: s). split; [reflexivity|]. split; [intros []|]. intros x t H. injection H as -> ->. exact e.
    + destruct IH as (t & E & N & H). exists t. split; [rewrite E at 1; reflexivity|]. split; [|exact H].
      intros [Hx|Hx]; [exact (n Hx)|exact (N Hx)].
Qed.
Lemma before_first_unique s r1 r2 : before_first_blank s r1 -> before_first_blank s r2 -> r1 = r2.
Proof.
  intros (t1 & E1 & N1 & H1) (t2 & E2 & N2 & H2). subst s. revert r2 E2 N2. induction r1 as [|c r1 IH]; intros r2 E2 N2.
  - destruct r2 as [|d r2]; [reflexivity|]. cbn in E2. destruct t1 as [|x t1]; [discriminate|].
    injection E2 as -> _. exfalso. apply N2. left. eapply H1. reflexivity.
  - destruct r2 as [|d r2].
    + cbn in E2. exfalso. apply N1. left. eapply H2. rewrite <- E2. reflexivity.
    + cbn in E2. injection E2 as -> E2. f_equal. apply IH; auto.
      * intro Hx. apply N1. right. exact Hx.
      * intro Hx. apply N2. right. exact Hx.
Qed.
Lemma rtrim_word line buf off n : ~ In NUL line -> off <= length line ->
  exists e, rtrim_start (overlay line buf) off (Some n) = Val (word (firstn n (skipn off line)), e).
Proof.
  intros Hn Ho. destruct (rtrim_start_spec (overlay line buf) off (Some n) (skipn off line)
    (cstr_overlay_off line buf off Hn Ho)) as (r & E & B).
  pose proof (before_first_unique _ _ _ (word_spec _) B) as Q. cbn [considered] in Q. rewrite Q. eauto.
Qed.

Lemma hl_columns c lab j k n : length c <= 60 -> k + n <= 60 ->
  firstn n (skipn k (header_line c lab j)) = columns k n c.
Proof.
  intros Hc Hk. unfold header_line, columns. rewrite skipn_app, firstn_app, skipn_length, length_ljust by exact Hc.
  replace (n - (60 - k)) with 0 by lia. cbn [firstn]. rewrite app_nil_r. reflexivity.
Qed.
Lemma word_pad c k : word (c ++ blanks k) = word c.
Proof.
  induction c as [|x c IH]; cbn.
  - destruct k; reflexivity.
  - rewrite IH. reflexivity.
Qed.
Lemma word_nonul s : ~ In NUL s -> ~ In NUL (word s).
Proof.
  intros H F. destruct (word_spec s) as (t & E & _). apply H. rewrite E. apply in_or_app. auto.
Qed.
Lemma columns_in c k n x : clean c -> In x (columns k n c) -> x <> NUL /\ x <> NL.
Proof.
  intros Hc H. unfold columns in H.
  assert (In x (ljust 60 c)).
  { rewrite <- (firstn_skipn k (ljust 60 c)). apply in_or_app. right.
    rewrite <- (firstn_skipn n (skipn k (ljust 60 c))). apply in_or_app. left. exact H. }
  assert (CL : clean (ljust 60 c)) by (unfold ljust; apply clean_app; split; [exact Hc|apply clean_blanks]).
  unfold clean in CL. rewrite Forall_forall in CL. apply CL. exact H0.
Qed.

(** coordinates *)
Lemma coord_stop n k r : k >= 1 -> num_stop n (blanks k ++ r).
Proof. intro H. destruct k; [lia|]. apply num_stop_blank. Qed.

Lemma three_read x y z lab j buf : coord_ok x -> coord_ok y -> coord_ok z -> clean lab ->
  char2double (overlay (header_line (three x y z) lab j) buf) 0 3 14 false
  = Val (true, [DFin (num_val x); DFin (num_val y); DFin (num_val z)], false).
Proof.
  intros (Hx & Lx) (Hy & Ly) (Hz & Lz) Hlab.
  assert (L3 : length (three x y z) = 42).
  { unfold three. rewrite !app_length, !length_rjust by lia. reflexivity. }
  assert (C3 : clean (three x y z)).
  { unfold three. repeat match goal with |- clean (_ ++ _) => apply clean_app; split end;
      apply rjust_clean; apply num_text_clean; assumption. }
  assert (CL : ~ In NUL (header_line (three x y z) lab j)) by (apply clean_nul, hl_clean; auto).
  assert (LL : length (header_line (three x y z) lab j) = 60 + length lab + j) by (apply hl_length; lia).
  set (tail := blanks 18 ++ lab ++ blanks j).
  assert (HE : header_line (three x y z) lab j = rjust 14 (num_text x) ++ rjust 14 (num_text y) ++ rjust 14 (num_text z) ++ tail).
  { unfold header_line, ljust. rewrite L3. unfold three, tail. rewrite <- !app_assoc. reflexivity. }
  assert (R : forall n r, coord_ok n -> num_stop n r ->
     strtod (rjust 14 (num_text n) ++ r) = (DFin (num_val n), 14, false)).
  { intros n r (Hn & Ln) Hs. unfold rjust. rewrite <- app_assoc. rewrite strtod_text by assumption.
    f_equal. f_equal. lia. }
  assert (ST : forall n m r, length (num_text m) <= 13 -> num_stop n (rjust 14 (num_text m) ++ r)).
  { intros n m r Hm. unfold rjust. rewrite <- app_assoc. apply coord_stop. lia. }
  assert (STT : forall n, num_stop n tail) by (intro n; apply coord_stop; lia).
  cbn [char2double].
  rewrite cstr_overlay_off by (auto; lia). cbn [bind skipn Nat.add]. rewrite HE at 1. rewrite R; [|split; auto|apply ST; lia].
  change (14 =? 0) with false. cbn [bind orb].
  rewrite cstr_overlay_off by (auto; lia). cbn [bind].
  assert (S1 : skipn 14 (header_line (three x y z) lab j) = rjust 14 (num_text y) ++ rjust 14 (num_text z) ++ tail).
  { rewrite HE. apply skipn_app_exact. rewrite length_rjust by lia. reflexivity. }
  rewrite S1. rewrite R; [|split; auto|apply ST; lia].
  change (14 =? 0) with false. cbn [bind orb].
  rewrite cstr_overlay_off by (auto; lia). cbn [bind].
  assert (S2 : skipn 28 (header_line (three x y z) lab j) = rjust 14 (num_text z) ++ tail).
  { replace (skipn 28 (header_line (three x y z) lab j)) with (skipn 14 (skipn 14 (header_line (three x y z) lab j)))
      by (rewrite skipn_skipn; reflexivity).
    rewrite S1. apply skipn_app_exact. rewrite length_rjust by lia. reflexivity. }
  rewrite S2. rewrite R; [|split; auto|apply STT].
  reflexivity.
Qed.

Lemma antenna_built s : antenna_name s = built_field s.
Proof.
  unfold antenna_name, built_field. destruct (length s <? 20) eqn:E; [|reflexivity].
  apply Nat.ltb_lt in E. unfold ljust, pad, blanks. rewrite (firstn_all2 (n := 20) s) by lia. reflexivity.
Qed.

Lemma fit_line c lab j : length c <= 60 -> j <= 4 -> length lab <= 20 -> length (header_line c lab j) < 85.
Proof. intros Hc Hj Hl. rewrite hl_length by exact Hc. lia. Qed.


Lemma forallb_blank l : forallb (fun c => ceqb c " "%char) l = true <-> l = blanks (length l).
Proof.
  induction l as [|c l IH]; cbn; [tauto|]. rewrite andb_true_iff, IH, ceqb_eq. unfold blanks. cbn.
  split; [intros [-> H]; f_equal; exact H|]. intro H. injection H as -> H. auto.
Qed.

Lemma columns_length c k n : length c <= 60 -> k + n <= 60 -> length (columns k n c) = n.
Proof. intros Hc Hk. unfold columns. rewrite firstn_length, skipn_length, length_ljust by exact Hc. lia. Qed.

Lemma empty_columns c lab j buf : clean c -> clean lab -> length c <= 60 ->
  string_is_empty (overlay (header_line c lab j) buf) 0 (Some 20)
  = Val (forallb (fun x => ceqb x " "%char) (columns 0 20 c)).
Proof.
  intros Hc Hlab Hl. unfold string_is_empty.
  assert (C : ~ In NUL (header_line c lab j)) by (apply clean_nul, hl_clean; auto).
  rewrite cstr_overlay by exact C. cbn [bind]. rewrite <- considered_cut.
  cbn [considered]. rewrite <- (hl_columns c lab j 0 20 Hl ltac:(lia)). reflexivity.
Qed.

Lemma ant_shape_built s : ~ In NUL s -> ant_shape (map Some (built_field s) ++ Some NUL :: uninit 20) (built_field s) None.
Proof.
  intro H. destruct (built_field_ok s H). constructor; auto.
Qed.

Ltac labs C L Hl :=
  repeat (rewrite labelled_overlay by
      (first [reflexivity | exact (clean_nul _ C) | exact L | (apply clean_nul; apply lit_clean; reflexivity)]);
    rewrite labelled_hl by exact Hl; cbn [bind];
    match goal with |- context [if list_eqb ?a ?b then _ else _] =>
       first [change (list_eqb a b) with false | change (list_eqb a b) with true] end; cbv iota).

Ltac start c lab j Hc Hl C L :=
  assert (C : clean (header_line c (lit lab) j)) by (apply hl_clean; [exact Hc|apply lit_clean; reflexivity]);
  assert (L : 60 <= length (header_line c (lit lab) j)) by (rewrite hl_length by exact Hl; lia);
  split; [exact C|]; split; [apply fit_line; [exact Hl|lia|cbn; lia]|];
  split; [rewrite labelled_hl by exact Hl; reflexivity|]; split; [exact L|].

(** one item of the header, read into the 85-byte line buffer *)
Lemma item_step strp i h h' st buf rest0 :
  item_means strp i h h' -> length buf = 85 -> at_rest st (item_more i ++ rest0) ->
  clean (item_line i) /\ length (item_line i) < 85 /\ labelled "END OF HEADER" (item_line i) = false /\
  60 <= length (item_line i) /\
  exists st', hdr_line strp h st (overlay (item_line i) buf) = Val (0%Z, h', st') /\ at_rest st' rest0.
Proof.
  intros H Hb Hst. destruct H; cbn [item_line item_more app] in *;
    try (match goal with H : content_ok _ _ |- _ => destruct H as (Hc & Hl & Hj) end).
  - (* MARKER NAME *)
    start c "MARKER NAME"%string j Hc Hl C L. exists st. split; [|exact Hst]. unfold hdr_line. labs C L Hl.
    destruct (rtrim_word (header_line c (lit "MARKER NAME") j) buf 0 60 (clean_nul _ C) ltac:(lia)) as (e & E).
    rewrite E. cbn [bind]. rewrite hl_columns by lia. unfold columns. cbn [skipn fst].
    rewrite (firstn_all2 (n := 60) (ljust 60 c)) by (rewrite length_ljust; auto). unfold ljust at 1.
    rewrite word_pad. reflexivity.
  - start c "MARKER NUMBER"%string j Hc Hl C L. exists st. split; [|exact Hst]. unfold hdr_line. labs C L Hl.
    destruct (rtrim_word (header_line c (lit "MARKER NUMBER") j) buf 0 20 (clean_nul _ C) ltac:(lia)) as (e & E).
    rewrite E. cbn [bind]. rewrite hl_columns by lia. reflexivity.
  - start c "REC # / TYPE / VERS"%string j Hc Hl C L. exists st. split; [|exact Hst]. unfold hdr_line. labs C L Hl.
    destruct (rtrim_word (header_line c (lit "REC # / TYPE / VERS") j) buf 0 20 (clean_nul _ C) ltac:(lia)) as (e & E).
    destruct (rtrim_word (header_line c (lit "REC # / TYPE / VERS") j) buf 20 20 (clean_nul _ C) ltac:(lia)) as (e2 & E2).
    rewrite E. cbn [bind]. rewrite E2. cbn [bind]. rewrite !hl_columns by lia. reflexivity.
  - start c "ANT # / TYPE"%string j Hc Hl C L. exists st. split; [|exact Hst]. unfold hdr_line. labs C L Hl.
    destruct (rtrim_word (header_line c (lit "ANT # / TYPE") j) buf 20 20 (clean_nul _ C) ltac:(lia)) as (e & E).
    rewrite E. cbn [bind fst]. rewrite hl_columns by lia.
    assert (NW : ~ In NUL (word (columns 20 20 c))).
    { apply word_nonul. intro F. apply (columns_in c 20 20 NUL Hc) in F. tauto. }
    rewrite (ant_of_cstr_spec _ _ (word (columns 20 20 c))) by (apply cstr_cbuf; exact NW). cbn [bind].
    rewrite empty_columns by (auto; apply lit_clean; reflexivity). cbn [bind].
    rewrite (proj2 (forallb_blank _)) by (rewrite H0; reflexivity). cbn [negb bind].
    unfold antenna_mem. rewrite antenna_built. reflexivity.
  - start c "ANT # / TYPE"%string j Hc Hl C L. exists st. split; [|exact Hst]. unfold hdr_line. labs C L Hl.
    destruct (rtrim_word (header_line c (lit "ANT # / TYPE") j) buf 20 20 (clean_nul _ C) ltac:(lia)) as (e & E).
    rewrite E. cbn [bind fst]. rewrite hl_columns by lia.
    assert (NW : ~ In NUL (word (columns 20 20 c))).
    { apply word_nonul. intro F. apply (columns_in c 20 20 NUL Hc) in F. tauto. }
    rewrite (ant_of_cstr_spec _ _ (word (columns 20 20 c))) by (apply cstr_cbuf; exact NW). cbn [bind].
    rewrite empty_columns by (auto; apply lit_clean; reflexivity). cbn [bind].
    destruct (forallb (fun x => ceqb x " "%char) (columns 0 20 c)) eqn:EB.
    { exfalso. apply H0. apply forallb_blank in EB. rewrite columns_length in EB by lia. exact EB. }
    cbn [negb bind].
    rewrite (set_serial_spec _ _ _ _ _ (header_line c (lit "ANT # / TYPE") j) (ant_shape_built _ NW)
      (cstr_overlay _ _ (clean_nul _ C))). cbn [bind].
    unfold antenna_mem. rewrite antenna_built.
    assert (EP : pad 20 (header_line c (lit "ANT # / TYPE") j) = columns 0 20 c).
    { unfold pad. replace (20 - length (header_line c (lit "ANT # / TYPE") j)) with 0 by lia. cbn [repeat].
      rewrite app_nil_r. rewrite <- (hl_columns c (lit "ANT # / TYPE") j 0 20 Hl ltac:(lia)). reflexivity. }
    rewrite EP. reflexivity.
  - assert (Hl : length (three x y z) <= 60).
    { destruct H, H0, H1. unfold three. rewrite !app_length, !length_rjust by lia. lia. }
    assert (Hc : clean (three x y z)).
    { destruct H, H0, H1. unfold three. repeat match goal with |- clean (_ ++ _) => apply clean_app; split end;
      apply rjust_clean; apply num_text_clean; assumption. }
    start (three x y z) "APPROX POSITION XYZ"%string j Hc Hl C L. exists st. split; [|exact Hst]. unfold hdr_line. labs C L Hl.
    rewrite three_read by (auto; apply lit_clean; reflexivity). reflexivity.
  - assert (Hl : length (three x y z) <= 60).
    { destruct H, H0, H1. unfold three. rewrite !app_length, !length_rjust by lia. lia. }
    assert (Hc : clean (three x y z)).
    { destruct H, H0, H1. unfold three. repeat match goal with |- clean (_ ++ _) => apply clean_app; split end;
      apply rjust_clean; apply num_text_clean; assumption. }
    start (three x y z) "ANTENNA: DELTA H/E/N"%string j Hc Hl C L. exists st. split; [|exact Hst]. unfold hdr_line. labs C L Hl.
    rewrite three_read by (auto; apply lit_clean; reflexivity). reflexivity.
  - assert (Hl : length (blanks 5 ++ [if b then "1"%char else "0"%char]) <= 60) by (cbn; lia).
    assert (Hc : clean (blanks 5 ++ [if b then "1"%char else "0"%char])).
    { apply clean_app. split; [apply clean_blanks|]. constructor; [|constructor]. destruct b; split; discriminate. }
    start (blanks 5 ++ [if b then "1"%char else "0"%char]) "RCV CLOCK OFFS APPL"%string j Hc Hl C L.
    exists st. split; [|exact Hst]. unfold hdr_line. labs C L Hl.
    rewrite cstr_overlay by exact (clean_nul _ C). cbn [bind].
    assert (E : strtol (header_line (blanks 5 ++ [if b then "1"%char else "0"%char]) (lit "RCV CLOCK OFFS APPL") j)
                = ((if b then 1 else 0)%Z, 6, false)) by (destruct b; reflexivity).
    rewrite E. destruct b; reflexivity.
  - start c "TIME OF FIRST OBS"%string j Hc Hl C L. exists st. split; [|exact Hst]. unfold hdr_line. labs C L Hl.
    rewrite cstr_overlay by exact (clean_nul _ C). cbn [bind]. rewrite H0. reflexivity.
  - (* OBS TYPES *)
    assert (Hf : length first <= 13).
    { inversion H3; subst; lia. }
    assert (Hl : length (codes_content (first_six letter count) first) <= 60).
    { unfold codes_content. rewrite app_length, flat_codes_length, first_six_length by exact H2. lia. }
    assert (Hc : clean (codes_content (first_six letter count) first)).
    { unfold codes_content. apply clean_app. split; [eapply first_six_clean; eauto|]. apply flat_codes_clean.
      inversion H3; subst; [assumption|]. apply Forall_app in H4. tauto. }
    assert (C : clean (header_line (codes_content (first_six letter count) first) LABEL_OBSTYPES j))
      by (apply hl_clean; [exact Hc|apply lit_clean; reflexivity]).
    assert (L : 60 <= length (header_line (codes_content (first_six letter count) first) LABEL_OBSTYPES j))
      by (rewrite hl_length by exact Hl; lia).
    split; [exact C|]. split; [rewrite hl_length by exact Hl; change (length LABEL_OBSTYPES) with 19; lia|].
    split; [rewrite labelled_hl by exact Hl; reflexivity|]. split; [exact L|].
    destruct (table_exact_set (h_tbl h) st buf letter sys count cs first conts j rest0) as (st' & E & R); auto.
    exists st'. split; [|exact R]. unfold hdr_line. labs C L Hl.
    unfold block_first in E. rewrite E. reflexivity.
  - split; [exact H|]. split; [lia|]. split; [apply H1; cbn; tauto|]. split; [lia|].
    exists st. split; [|exact Hst]. unfold hdr_line.
    assert (L : 60 <= length l) by lia.
    repeat (rewrite labelled_overlay by
      (first [reflexivity | exact (clean_nul _ H) | exact L | (apply clean_nul; apply lit_clean; reflexivity)]);
      rewrite H1 by (cbn; tauto); cbn [bind]; cbv iota).
    reflexivity.
Qed.

(** the loop over the items, up to END OF HEADER *)
Lemma loop_items strp : forall is k h h' st line je tail,
  items_mean strp is h h' -> at_rest st (items_text is ++ end_line je ++ NL :: tail) -> je <= 5 ->
  length is + 2 <= k ->
  (exists l buf, line = overlay l buf /\ length buf = 85 /\ clean l /\ 60 <= length l < 85 /\
     labelled "END OF HEADER" l = false) ->
  exists st', hdr_loop strp k h st line = Val (0%Z, h', st') /\ at_rest st' tail.
Proof.
  induction is as [|i is IH]; intros k h h' st line je tail Hm Hst Hj Hk (l & buf & -> & Lb & Cl & Ll & NE).
  - inversion Hm; subst. cbn [items_text flat_map app] in Hst.
    destruct k as [|[|k]]; [cbn in Hk; lia|cbn in Hk; lia|]. cbn [hdr_loop].
    rewrite labelled_overlay by (first [reflexivity | exact (clean_nul _ Cl) | lia | (apply clean_nul; apply lit_clean; reflexivity)]).
    rewrite NE. cbn [bind].
    assert (Ce : clean (end_line je)) by (apply hl_clean; [constructor|apply lit_clean; reflexivity]).
    assert (Le : length (end_line je) = 73 + je) by (unfold end_line; rewrite hl_length by (cbn; lia); reflexivity).
    assert (OL : length (overlay l buf) = 85) by (rewrite overlay_length; lia).
    destruct (getline_line st (overlay l buf) 85 (end_line je) tail Hst (clean_nl _ Ce) ltac:(lia) ltac:(lia))
      as (st1 & G & R1 & _). 
    change MAX_HEADER_CHARS with 85. rewrite G. cbn [bind].
    assert (HL : hdr_line strp h' st1 (overlay (end_line je) (overlay l buf)) = Val (0%Z, h', st1)).
    { unfold hdr_line, end_line. 
      assert (Hl : @length ascii [] <= 60) by (cbn; lia).
      assert (L : 60 <= length (header_line [] (lit "END OF HEADER") je)) by (fold (end_line je); lia).
      labs Ce L Hl. reflexivity. }
    rewrite HL. cbn [bind negb Z.eqb].
    rewrite labelled_overlay by (first [reflexivity | exact (clean_nul _ Ce) | lia | (apply clean_nul; apply lit_clean; reflexivity)]).
    unfold end_line at 1. rewrite labelled_hl by (cbn; lia).
    change (list_eqb (firstn (String.length "END OF HEADER") (lit "END OF HEADER" ++ blanks je)) (lit "END OF HEADER")) with true.
    cbn [bind]. eauto.
  - inversion Hm as [|? ? ? h1 ? Hi Hr]; subst.
    destruct k as [|k]; [cbn in Hk; lia|]. cbn [hdr_loop].
    rewrite labelled_overlay by (first [reflexivity | exact (clean_nul _ Cl) | lia | (apply clean_nul; apply lit_clean; reflexivity)]).
    rewrite NE. cbn [bind].
    assert (R0 : at_rest st (item_line i ++ NL :: item_more i ++ items_text is ++ end_line je ++ NL :: tail)).
    { destruct Hst as [G R]. split; [exact G|]. rewrite R. unfold items_text. cbn [flat_map]. rewrite <- !app_assoc. reflexivity. }
    assert (OL : length (overlay l buf) = 85) by (rewrite overlay_length; lia).
    (* item facts do not depend on the stream *)
    assert (F : clean (item_line i) /\ length (item_line i) < 85 /\ labelled "END OF HEADER" (item_line i) = false /\ 60 <= length (item_line i)).
    { assert (Q : at_rest (open_stream (item_more i)) (item_more i ++ [])) by (split; [reflexivity|rewrite app_nil_r; reflexivity]).
      destruct (item_step strp i h h1 _ (overlay l buf) [] Hi OL Q) as (A & B & C & D & _). auto. }
    destruct F as (Ci & Li & NEi & Li2).
    destruct (getline_line st (overlay l buf) 85 (item_line i) _ R0 (clean_nl _ Ci) Li ltac:(lia)) as (st1 & G & R1 & _).
    change MAX_HEADER_CHARS with 85. rewrite G. cbn [bind].
    destruct (item_step strp i h h1 st1 (overlay l buf) _ Hi OL R1) as (_ & _ & _ & _ & st2 & E & R2).
    rewrite E. cbn [bind negb Z.eqb].
    apply (IH k h1 h' st2 _ je tail Hr R2 Hj); [cbn in Hk; lia|].
    exists (item_line i), (overlay l buf). repeat split; auto.
Qed.

Lemma hdr_init_val : exists a, ant_default = Val a /\
  hdr_init = Val (mkHdr (DFin 0) Mixed [] [] [] [] a [DFin 0; DFin 0; DFin 0] [DFin 0; DFin 0; DFin 0] false None smap_empty).
Proof.
  unfold hdr_init. rewrite ant_default_spec. eexists. split; reflexivity.
Qed.

(** the header object before any item: version and system of the first line *)
Definition initial_header (h : obshdr) (v : Q) (sys : satsys) : Prop :=
  h_version h = DFin v /\ h_sys h = sys /\ h_name h = [] /\ h_number h = [] /\ h_rnumber h = [] /\ h_rtype h = [] /\
  ant_default = Val (h_ant h) /\ h_approx h = [DFin 0; DFin 0; DFin 0] /\ h_ecc h = [DFin 0; DFin 0; DFin 0] /\
  h_rcvoff h = false /\ h_start h = None /\ h_tbl h = smap_empty.

(** the whole header *)
Theorem header_exact strp v mid letter sys post second items j tail h0 h :
  first_line_ok v mid letter sys post -> clean second -> 60 <= length second <= 84 ->
  labelled "END OF HEADER" second = false -> j <= 5 -> length items <= 998 ->
  initial_header h0 (num_flt v) sys -> items_mean strp items h0 h ->
  exists o, obs_open strp (header_text v mid letter post second items j ++ tail) = Val o /\
    o_hdr o = h /\ at_rest (o_stream o) tail /\ o_eoh o = Some (spos (o_stream o)) /\
    o_bufsz o = max_obs (h_tbl h) * 16 + 4 /\ length (o_buf o) = o_bufsz o.
Proof.
  intros (Hv & Hne & Hv9 & Hmid & Lmid & Hlet & Hpost & Lpost) Csec Lsec NEsec Hj Hit Hinit Hmean.
  unfold obs_open. destruct hdr_init_val as (a & Ea & ->). cbn [bind].
  set (line1 := first_line v mid letter post).
  assert (Elen : length line1 = 41 + length post).
  { unfold line1, first_line. rewrite !app_length, length_rjust by exact Hv9. unfold blanks. rewrite repeat_length.
    cbn [length]. rewrite app_length. cbn [length]. lia. }
  assert (C1 : clean line1).
  { unfold line1, first_line. apply clean_app. split; [apply rjust_clean, num_text_clean; exact Hv|].
    apply clean_app. split; [apply clean_blanks|]. constructor; [split; discriminate|].
    apply clean_app. split; [exact Hmid|]. constructor; [eapply letters_clean; eauto|exact Hpost]. }
  set (d := header_text v mid letter post second items j ++ tail).
  assert (ED : d = line1 ++ NL :: second ++ NL :: items_text items ++ end_line j ++ NL :: tail).
  { unfold d, header_text. fold line1. rewrite <- !app_assoc. cbn [app]. rewrite <- !app_assoc. cbn [app].
    rewrite <- !app_assoc. reflexivity. }
  assert (A0 : at_rest (seekg (open_stream d) (Some 0)) (line1 ++ NL :: second ++ NL :: items_text items ++ end_line j ++ NL :: tail)).
  { split; [reflexivity|]. rewrite <- ED. reflexivity. }
  unfold read_header. change MAX_HEADER_CHARS with 85.
  destruct (getline_line _ (uninit 85) 85 line1 _ A0 (clean_nl _ C1) ltac:(lia) (le_n _)) as (st1 & G1 & R1 & _).
  rewrite G1. cbn [bind].
  rewrite cstr_overlay by exact (clean_nul _ C1). cbn [bind].
  assert (SV : strtof line1 = (DFin (num_flt v), 9, false)).
  { unfold line1, first_line, rjust. rewrite <- app_assoc. rewrite strtof_text; [|exact Hv|assumption|exact Hv9|apply num_stop_blank].
    f_equal. f_equal. lia. }
  rewrite SV. change (9 =? 0) with false. cbv iota.
  assert (P20 : nth_error line1 20 = Some "O"%char).
  { unfold line1, first_line. rewrite app_assoc. rewrite nth_error_app2; rewrite app_length, length_rjust by exact Hv9;
      [reflexivity|cbn; lia]. }
  rewrite (rd_overlay _ _ _ _ P20). cbn [bind]. change (negb (ceqb "O"%char "O"%char)) with false. cbv iota.
  assert (P40 : nth_error line1 40 = Some letter).
  { unfold line1, first_line.
    replace (rjust 9 (num_text v) ++ blanks 11 ++ "O"%char :: mid ++ letter :: post)
      with ((rjust 9 (num_text v) ++ blanks 11 ++ "O"%char :: mid) ++ letter :: post)
      by (rewrite <- !app_assoc; reflexivity).
    assert (L40 : length (rjust 9 (num_text v) ++ blanks 11 ++ "O"%char :: mid) = 40).
    { rewrite !app_length, length_rjust by exact Hv9. cbn. lia. }
    rewrite nth_error_app2 by lia. rewrite L40. reflexivity. }
  rewrite (rd_overlay _ _ _ _ P40). cbn [bind].
  apply char_to_satsys_spec in Hlet. rewrite Hlet.
  assert (OL : length (overlay line1 (uninit 85)) = 85) by (rewrite overlay_length; [reflexivity|change (length (uninit 85)) with 85; lia]).
  destruct (getline_line st1 (overlay line1 (uninit 85)) 85 second _ R1 (clean_nl _ Csec) ltac:(lia) ltac:(lia))
    as (st2 & G2 & R2 & _).
  rewrite G2. cbn [bind].
  match goal with |- context [hdr_loop strp MAX_HEADER_LINES ?H st2 _] => set (hx := H) end.
  assert (EH : hx = h0).
  { destruct Hinit as (I1 & I2 & I3 & I4 & I5 & I6 & I7 & I8 & I9 & I10 & I11 & I12).
    rewrite Ea in I7. apply Val_inj in I7.
    unfold hx. destruct h0. cbn in *. subst. reflexivity. }
  rewrite EH. clear hx EH.
  destruct (loop_items strp items MAX_HEADER_LINES h0 h st2 (overlay second (overlay line1 (uninit 85))) j tail Hmean R2 Hj)
    as (st3 & E3 & R3).
  { change MAX_HEADER_LINES with 1000. lia. }
  { exists second, (overlay line1 (uninit 85)). repeat split; auto; lia. }
  rewrite E3. cbn [bind negb Z.eqb]. unfold tellg. destruct R3 as [Gd Rr]. rewrite Gd. cbn [noexcept bind negb Z.eqb].
  eexists. split; [reflexivity|]. cbn [o_hdr o_stream o_eoh o_bufsz o_buf].
  split; [reflexivity|]. split; [split; assumption|]. split; [reflexivity|]. split; [reflexivity|].
  unfold uninit. apply repeat_length.
Qed.

(** ** the stream data and the end-of-header mark *)
Lemma getline_data st buf n st' b : getline st buf n = Val (st', b) -> sdata st' = sdata st.
Proof.
  unfold getline. destruct (good st).
  - destruct (take_line (n - 1) (rest st)) as [t e]. intro H. apply bind_val in H as (b' & _ & H). inv H.
    destruct t, e; reflexivity.
  - intro H. apply bind_val in H as (b' & _ & H). inv H. reflexivity.
Qed.

Lemma obstypes_data : forall k st line r acc st' res,
  obstypes_loop k st line r acc = Val (st', res) -> sdata st' = sdata st.
Proof.
  induction k as [|k IH]; intros st line r acc st' res H; cbn [obstypes_loop] in H.
  - inv H. reflexivity.
  - destruct (obscode_of_cstr line (7 + r * 4)); try discriminate; [|inv H; reflexivity].
    destruct (S r =? 13).
    + apply bind_val in H as ([s1 l1] & G & H). apply getline_data in G.
      apply bind_val in H as (same & _ & H). destruct (negb same); [inv H; exact G|].
      apply IH in H. congruence.
    + apply IH in H. exact H.
Qed.

Lemma resolve_data t st l code t' st' : resolve_obstypes t st l = Val (code, t', st') -> sdata st' = sdata st.
Proof.
  intro H. unfold resolve_obstypes in H. apply noexcept_val in H.
  apply bind_val in H as (line & _ & H). apply bind_val in H as (c & _ & H).
  apply bind_val in H as (sys & _ & H). destruct (t sys); [inv H; reflexivity|].
  apply bind_val in H as (s & _ & H). destruct (strtol s) as [[n k] er]. cbv zeta in H.
  destruct (er || (k =? 0)); [inv H; reflexivity|].
  apply bind_val in H as ([s1 res] & G & H). apply obstypes_data in G.
  destruct res; [inv H; exact G|]. destruct (_ =? _)%Z; inv H; exact G.
Qed.

Lemma hdr_line_data strp h st line code h' st' : hdr_line strp h st line = Val (code, h', st') -> sdata st' = sdata st.
Proof.
  unfold hdr_line. intro H.
  repeat match type of H with
  | bind _ _ = Val _ => apply bind_val in H as (? & ? & H); cbv zeta in H
  | match ?x with _ => _ end = Val _ => destruct x eqn:?
  | Val _ = Val _ => inv H
  end; try reflexivity; try (eapply resolve_data; eassumption).
Qed.

Lemma hdr_loop_data strp : forall k h st line code h' st',
  hdr_loop strp k h st line = Val (code, h', st') -> sdata st' = sdata st.
Proof.
  induction k as [|k IH]; intros h st line code h' st' H; cbn [hdr_loop] in H.
  - inv H. reflexivity.
  - apply bind_val in H as (e & _ & H). destruct e; [inv H; reflexivity|].
    apply bind_val in H as ([s1 l1] & G & H). apply getline_data in G.
    apply bind_val in H as ([[c h1] s2] & G2 & H). apply hdr_line_data in G2.
    destruct (negb (c =? 0)%Z).
    + inv H. congruence.
    + apply IH in H. congruence.
Qed.

(** what the constructor leaves *)
Theorem open_facts strp d o : obs_open strp d = Val o ->
  sdata (o_stream o) = d /\ o_bufsz o = max_obs (h_tbl (o_hdr o)) * 16 + 4 /\ length (o_buf o) = o_bufsz o /\
  match o_eoh o with
  | Some p => good (o_stream o) = true /\ p = spos (o_stream o)
  | None => sfail (o_stream o) = true
  end.
Proof.
  intro H. unfold obs_open in H. apply bind_val in H as (h0 & _ & H).
  apply bind_val in H as ([[[code h] p] st] & G & H).
  destruct (negb (code =? 0)%Z) eqn:Ec; [discriminate|]. inv H. cbn [o_stream o_hdr o_eoh o_buf o_bufsz].
  unfold read_header in G. apply noexcept_val in G. cbv zeta in G.
  apply bind_val in G as ([s1 l1] & G1 & G). apply getline_data in G1.
  apply bind_val in G as (s & _ & G). destruct (strtof s) as [[v n] er].
  destruct (n =? 0); [exfalso; apply Val_inj in G; injection G as <- _ _ _; discriminate Ec|].
  apply bind_val in G as (c20 & _ & G). destruct (negb (ceqb c20 "O"%char)); [exfalso; apply Val_inj in G; injection G as <- _ _ _; discriminate Ec|].
  apply bind_val in G as (c40 & _ & G). destruct (char_to_satsys c40); try discriminate; [|exfalso; apply Val_inj in G; injection G as <- _ _ _; discriminate Ec].
  apply bind_val in G as ([s2 l2] & G2 & G). apply getline_data in G2.
  apply bind_val in G as ([[c3 h3] s3] & G3 & G). apply hdr_loop_data in G3.
  destruct (negb (c3 =? 0)%Z) eqn:E3; [exfalso; apply Val_inj in G; injection G as <- _ _ _; congruence|].
  unfold tellg in G. assert (D : sdata s3 = d) by (rewrite G3, G2, G1; reflexivity).
  destruct (good s3) eqn:Eg; inv G.
  - split; [reflexivity|]. split; [reflexivity|]. split; [unfold uninit; apply repeat_length|]. auto.
  - split; [reflexivity|]. split; [reflexivity|]. split; [unfold uninit; apply repeat_length|]. reflexivity.
Qed.

Lemma max_obs_bound t s v : t s = Some v -> length v <= max_obs t.
Proof.
  intro H.
  set (f := fun mx k => match t k with Some v => if mx <? length v then length v else mx | None => mx end).
  assert (M : forall m k, m <= f m k).
  { intros m k. unfold f. destruct (t k) as [w|]; [destruct (Nat.ltb_spec m (length w))|]; lia. }
  assert (Ms : forall m, length v <= f m s).
  { intro m. unfold f. rewrite H. destruct (Nat.ltb_spec m (length v)); lia. }
  assert (G : forall l m, m <= fold_left f l m /\ (In s l -> length v <= fold_left f l m)).
  { induction l as [|k l IH]; intro m; cbn [fold_left In]; [split; [auto|tauto]|].
    destruct (IH (f m k)) as [I1 I2]. split; [specialize (M m k); lia|]. intros [->|Hi]; [|auto].
    specialize (Ms m). lia. }
  unfold max_obs. fold f. apply G. destruct s; cbn; tauto.
Qed.
