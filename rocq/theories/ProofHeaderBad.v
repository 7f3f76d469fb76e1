(** ProofHeaderBad: observation headers with an unreadable line *)
From Verif Require Import Base BaseLemmas CNum CNumLemmas Stream ModelSatsys ModelNvarstr ModelObs ModelAntenna ModelObsRnx SpecText SpecNum SpecObs SpecHeader SpecHeaderBad
  ProofText ProofNum ProofStream ProofAntenna ProofObsTypes ProofObsRec ProofHeader.

Lemma ceqb_false a b : a <> b -> ceqb a b = false.
Proof. intro H. unfold ceqb. destruct (Ascii.eqb_spec a b); congruence. Qed.
Lemma not_digit c : ~ digit c -> is_digit c = false.
Proof.
  unfold digit, is_digit. intro H. destruct (_ && _)%bool eqn:E; [|reflexivity]. exfalso. apply H. apply andb_true_iff in E as (A & B).
  apply Nat.leb_le in A. apply Nat.leb_le in B. lia.
Qed.
Lemma lower_in c : starts_no_number c -> ceqb "i" (lower c) = false /\ ceqb "n" (lower c) = false /\ ceqb "0" (lower c) = false.
Proof.
  intros (D & N & _). unfold lower.
  assert (Hd : forall k, (48 <= k <= 57)%nat -> nat_of_ascii c <> k) by (intros k Hk E; apply D; unfold digit; lia).
  assert (HI : nat_of_ascii c <> 73%nat /\ nat_of_ascii c <> 105%nat /\ nat_of_ascii c <> 78%nat /\ nat_of_ascii c <> 110%nat).
  { repeat split; intro E; apply N; rewrite <- (ascii_nat_embedding c), E; cbn; tauto. }
  assert (X : forall a, nat_of_ascii a <> nat_of_ascii c -> ceqb a c = false) by (intros a Ha; apply ceqb_false; congruence).
  destruct ((65 <=? nat_of_ascii c) && (nat_of_ascii c <=? 90))%bool eqn:E.
  - apply andb_true_iff in E as (A & B). apply Nat.leb_le in A. apply Nat.leb_le in B.
    assert (Y : forall a, nat_of_ascii a <> (nat_of_ascii c + 32)%nat -> ceqb a (ascii_of_nat (nat_of_ascii c + 32)) = false).
    { intros a Ha. apply ceqb_false. intros ->. apply Ha. apply nat_ascii_embedding. lia. }
    repeat split; apply Y; cbn; lia.
  - repeat split; apply X; cbn; try lia. specialize (Hd 48%nat). lia.
Qed.
Lemma strtod_none k c r : starts_no_number c -> strtod (blanks k ++ c :: r) = (DFin 0, O, false).
Proof.
  intro H. pose proof (lower_in c H) as (Li & Ln & L0). destruct H as (D & N & W). unfold strtod, strtonum.
  assert (S : skip_ws (blanks k ++ c :: r) = (k, c :: r)).
  { induction k; cbn [blanks repeat app skip_ws]; [rewrite W; reflexivity|]. unfold blanks in IHk. rewrite IHk. reflexivity. }
  rewrite S. assert (G : scan_sign (c :: r) = (false, O, c :: r)).
  { unfold scan_sign. rewrite !ceqb_false by (intros ->; apply N; cbn; tauto). reflexivity. }
  rewrite G. cbn [lit prefix_ci]. rewrite Li, Ln, L0. cbn [andb]. cbv iota.
  unfold scan_decimal. cbn [scan_digits]. rewrite (not_digit c D), ceqb_false by (intros ->; apply N; cbn; tauto). reflexivity.
Qed.
Lemma a_no_number : starts_no_number "A"%char.
Proof. split; [unfold digit; cbn; lia|]. split; [cbn; intuition discriminate|reflexivity]. Qed.
(** the line continues with the label, which starts no number either *)
Lemma bad_line_text ns k rest lab j : Forall coord_ok ns -> length (flat_map (fun n => rjust 14 (num_text n)) ns ++ blanks k ++ rest) <= 60 ->
  match rest with [] => True | c :: _ => starts_no_number c end -> (exists t, lab = "A"%char :: t) ->
  exists k' c r, k <= k' /\ header_line (flat_map (fun n => rjust 14 (num_text n)) ns ++ blanks k ++ rest) lab j = flat_map (fun n => rjust 14 (num_text n)) ns ++ blanks k' ++ c :: r /\ starts_no_number c.
Proof.
  intros F L R (t & ->). unfold header_line, ljust. destruct rest as [|c r].
  - rewrite app_nil_r in *. exists (k + (60 - length (flat_map (fun n => rjust 14 (num_text n)) ns ++ blanks k)))%nat, "A"%char, (t ++ blanks j).
    split; [lia|]. split; [|exact a_no_number].
    rewrite <- !app_assoc. f_equal. rewrite app_assoc. unfold blanks. rewrite <- repeat_app. reflexivity.
  - eexists k, c, _. split; [lia|]. split; [|exact R]. rewrite <- !app_assoc. cbn [app]. reflexivity.
Qed.
Lemma char2double_bad : forall ns buf pre k c r N, Forall coord_ok ns -> length ns < N -> (ns = [] \/ 1 <= k) -> starts_no_number c ->
  ~ In NUL (pre ++ flat_map (fun n => rjust 14 (num_text n)) ns ++ blanks k ++ c :: r) ->
  exists vs e, char2double (overlay (pre ++ flat_map (fun n => rjust 14 (num_text n)) ns ++ blanks k ++ c :: r) buf) (length pre) N 14 false = Val (false, vs, e).
Proof.
  induction ns as [|n ns IH]; intros buf pre k c r N F L K H NN; destruct N as [|N]; try (cbn in L; lia); cbn [char2double].
  - rewrite cstr_overlay_off by (auto; rewrite app_length; lia). cbn [bind flat_map app].
    rewrite skipn_app_exact by reflexivity. rewrite strtod_none by exact H. cbn [Nat.eqb]. eauto.
  - inversion F as [|? ? Cn F']; subst. rewrite cstr_overlay_off by (auto; rewrite app_length; lia). cbn [bind].
    rewrite skipn_app_exact by reflexivity. cbn [flat_map] in *. destruct Cn as (Hn & Ln). unfold rjust at 1. rewrite <- !app_assoc.
    rewrite strtod_text; [|exact Hn|].
    2:{ destruct ns as [|m ns]; cbn [flat_map app].
        - destruct K as [K|K]; [discriminate|]. apply coord_stop. lia.
        - inversion F' as [|? ? (Hm & Lm) _]; subst. unfold rjust. rewrite <- !app_assoc. apply coord_stop. lia. }
    replace (14 - length (num_text n) + length (num_text n))%nat with 14%nat by lia. change (14 =? 0) with false. cbv iota. cbn [orb bind].
    rewrite <- app_assoc in NN.
    destruct (IH buf (pre ++ rjust 14 (num_text n)) k c r N F' ltac:(cbn in L; lia) ltac:(destruct K as [K|K]; [discriminate|auto]) H) as (vs & e & E).
    { rewrite <- app_assoc. exact NN. }
    rewrite <- !app_assoc in E. rewrite app_length, length_rjust in E by lia. rewrite <- ?app_assoc. rewrite E. cbn [bind]. eauto.
Qed.

(** the unreadable line stops the header *)
Lemma bad_step strp c lab j h st buf : bad_line strp c lab j -> length buf = 85 ->
  clean (header_line c (lit lab) j) /\ length (header_line c (lit lab) j) < 85 /\
  exists code h', hdr_line strp h st (overlay (header_line c (lit lab) j) buf) = Val (code, h', st) /\ code <> 0%Z.
Proof.
  intros H Hb.
  assert (G : forall lab, (lab = "APPROX POSITION XYZ" \/ lab = "ANTENNA: DELTA H/E/N")%string -> content_ok c j -> bad_coords c ->
    clean (header_line c (lit lab) j) /\ length (header_line c (lit lab) j) < 85 /\
    exists code h', hdr_line strp h st (overlay (header_line c (lit lab) j) buf) = Val (code, h', st) /\ code <> 0%Z).
  { clear. intros lab Hlab (Hc & Hl & Hj) (ns & k & rest & Fn & Ln & K & E & R). subst c.
    assert (Cl : clean (lit lab)) by (destruct Hlab as [-> | ->]; apply lit_clean; reflexivity).
    assert (Al : exists t, lit lab = "A"%char :: t) by (destruct Hlab as [-> | ->]; eexists; reflexivity).
    assert (L20 : length (lit lab) <= 20) by (destruct Hlab as [-> | ->]; cbn; lia).
    set (c := flat_map (fun n => rjust 14 (num_text n)) ns ++ blanks k ++ rest) in *.
    assert (C : clean (header_line c (lit lab) j)) by (apply hl_clean; assumption).
    assert (L : 60 <= length (header_line c (lit lab) j)) by (rewrite hl_length by exact Hl; lia).
    split; [exact C|]. split; [apply fit_line; auto|].
    destruct (bad_line_text ns k rest (lit lab) j Fn Hl R Al) as (k' & x & r & Kk & E & Hx). fold c in E.
    assert (X : exists vs e, char2double (overlay (header_line c (lit lab) j) buf) 0 3 14 false = Val (false, vs, e)).
    { rewrite E. apply (char2double_bad ns buf [] k' x r 3 Fn); [lia|destruct K; [auto|right; lia]|exact Hx|].
      cbn [app]. rewrite <- E. apply clean_nul, C. }
    destruct X as (vs & e & X). destruct Hlab as [-> | ->]; unfold hdr_line; labs C L Hl; rewrite X; cbn [bind negb]; (eexists; eexists; split; [reflexivity|discriminate]). }
  destruct H as [c j Hc Hb'|c j Hc Hb'|ds j D N L (V0 & V1) J|c j (Hc & Hl & Hj) S].
  - apply G; auto.
  - apply G; auto.
  - assert (Hl : length (rjust 6 ds) <= 60) by (rewrite length_rjust by lia; lia).
    assert (Hc : clean (rjust 6 ds)) by (apply rjust_clean, digits_clean; exact D).
    assert (C : clean (header_line (rjust 6 ds) (lit "RCV CLOCK OFFS APPL") j)) by (apply hl_clean; [exact Hc|apply lit_clean; reflexivity]).
    assert (LL : 60 <= length (header_line (rjust 6 ds) (lit "RCV CLOCK OFFS APPL") j)) by (rewrite hl_length by exact Hl; lia).
    split; [exact C|]. split; [apply fit_line; auto; cbn; lia|]. unfold hdr_line. labs C LL Hl.
    rewrite cstr_overlay by exact (clean_nul _ C). cbn [bind].
    assert (E : strtol (header_line (rjust 6 ds) (lit "RCV CLOCK OFFS APPL") j) = (dec_val ds, 6, false) /\ (0 <= dec_val ds < 10 ^ Z.of_nat 6)%Z).
    { unfold header_line, ljust. rewrite <- !app_assoc. apply strtol_rjust; [split; auto|lia|]. rewrite length_rjust by lia. cbn. reflexivity. }
    destruct E as (E & B). rewrite E. change (10 ^ Z.of_nat 6)%Z with 1000000%Z in B.
    assert (I : to_i32 (dec_val ds) = dec_val ds) by (unfold to_i32; rewrite Z.mod_small; lia). rewrite I.
    destruct (Z.eqb_spec (dec_val ds) 0); [contradiction|]. destruct (Z.eqb_spec (dec_val ds) 1); [contradiction|]. cbn [orb andb negb Nat.eqb].
    eexists; eexists; split; [reflexivity|discriminate].
  - assert (C : clean (header_line c (lit "TIME OF FIRST OBS") j)) by (apply hl_clean; [exact Hc|apply lit_clean; reflexivity]).
    assert (L : 60 <= length (header_line c (lit "TIME OF FIRST OBS") j)) by (rewrite hl_length by exact Hl; lia).
    split; [exact C|]. split; [apply fit_line; auto; cbn; lia|]. unfold hdr_line. labs C L Hl.
    rewrite cstr_overlay by exact (clean_nul _ C). cbn [bind]. rewrite S. eexists; eexists; split; [reflexivity|discriminate].
Qed.

(** the loop over some items *)
Lemma loop_some strp : forall is k h h' st line more,
  items_mean strp is h h' -> at_rest st (items_text is ++ more) ->
  (exists l buf, line = overlay l buf /\ length buf = 85 /\ clean l /\ 60 <= length l < 85 /\ labelled "END OF HEADER" l = false) ->
  exists st' line', hdr_loop strp (length is + k) h st line = hdr_loop strp k h' st' line' /\ at_rest st' more /\
    (exists l buf, line' = overlay l buf /\ length buf = 85 /\ clean l /\ 60 <= length l < 85 /\ labelled "END OF HEADER" l = false).
Proof.
  induction is as [|i is IH]; intros k h h' st line more Hm Hst Hl.
  - inversion Hm; subst. exists st, line. cbn in *. auto.
  - destruct Hl as (l & buf & -> & Lb & Cl & Ll & NE). inversion Hm as [|? ? ? h1 ? Hi Hr]; subst.
    cbn [length Nat.add hdr_loop].
    rewrite labelled_overlay by (first [reflexivity | exact (clean_nul _ Cl) | lia | (apply clean_nul; apply lit_clean; reflexivity)]).
    rewrite NE. cbn [bind].
    assert (R0 : at_rest st (item_line i ++ NL :: item_more i ++ items_text is ++ more)).
    { destruct Hst as [G R]. split; [exact G|]. rewrite R. unfold items_text. cbn [flat_map]. rewrite <- !app_assoc. reflexivity. }
    assert (OL : length (overlay l buf) = 85) by (rewrite overlay_length; lia).
    assert (F : clean (item_line i) /\ length (item_line i) < 85 /\ labelled "END OF HEADER" (item_line i) = false /\ 60 <= length (item_line i)).
    { assert (Q : at_rest (open_stream (item_more i)) (item_more i ++ [])) by (split; [reflexivity|rewrite app_nil_r; reflexivity]).
      destruct (item_step strp i h h1 _ (overlay l buf) [] Hi OL Q) as (A & B & C & D & _). auto. }
    destruct F as (Ci & Li & NEi & Li2).
    destruct (getline_line st (overlay l buf) 85 (item_line i) _ R0 (clean_nl _ Ci) Li ltac:(lia)) as (st1 & G & R1 & _).
    change MAX_HEADER_CHARS with 85. rewrite G. cbn [bind].
    destruct (item_step strp i h h1 st1 (overlay l buf) _ Hi OL R1) as (_ & _ & _ & _ & st2 & E & R2).
    rewrite E. cbn [bind negb Z.eqb].
    apply (IH k h1 h' st2 _ more Hr R2). exists (item_line i), (overlay l buf). repeat split; auto.
Qed.
Theorem bad_header strp v mid letter sys post second items c lab j tail h0 h :
  first_line_ok v mid letter sys post -> clean second -> 60 <= length second <= 84 ->
  labelled "END OF HEADER" second = false -> length items <= 998 ->
  initial_header h0 (num_flt v) sys -> items_mean strp items h0 h -> bad_line strp c lab j ->
  obs_open strp (first_line v mid letter post ++ NL :: second ++ NL :: items_text items ++ header_line c (lit lab) j ++ NL :: tail) = Exn.
Proof.
  intros (Hv & Hne & Hv9 & Hmid & Lmid & Hlet & Hpost & Lpost) Csec Lsec NEsec Hit Hinit Hmean Hbad.
  unfold obs_open. destruct hdr_init_val as (a & Ea & ->). cbn [bind].
  set (line1 := first_line v mid letter post).
  assert (Elen : length line1 = 41 + length post).
  { unfold line1, first_line. rewrite !app_length, length_rjust by exact Hv9. unfold blanks. rewrite repeat_length.
    cbn [length]. rewrite app_length. cbn [length]. lia. }
  assert (C1 : clean line1).
  { unfold line1, first_line. apply clean_app. split; [apply rjust_clean, num_text_clean; exact Hv|].
    apply clean_app. split; [apply clean_blanks|]. constructor; [split; discriminate|].
    apply clean_app. split; [exact Hmid|]. constructor; [eapply letters_clean; eauto|exact Hpost]. }
  set (more := header_line c (lit lab) j ++ NL :: tail).
  set (d := line1 ++ NL :: second ++ NL :: items_text items ++ more).
  assert (A0 : at_rest (seekg (open_stream d) (Some 0)) (line1 ++ NL :: second ++ NL :: items_text items ++ more)).
  { split; [reflexivity|]. reflexivity. }
  unfold read_header. change MAX_HEADER_CHARS with 85.
  destruct (getline_line _ (uninit 85) 85 line1 _ A0 (clean_nl _ C1) ltac:(lia) (le_n _)) as (st1 & G1 & R1 & _).
  rewrite G1. cbn [bind].
  rewrite cstr_overlay by exact (clean_nul _ C1). cbn [bind].
  assert (SV : strtof line1 = (DFin (num_flt v), 9, false)).
  { unfold line1, first_line, rjust. rewrite <- app_assoc. rewrite strtof_text; [|exact Hv|assumption|exact Hv9|apply num_stop_blank].
    f_equal. f_equal. lia. }
  rewrite SV. change (9 =? 0) with false. cbv iota.
  assert (P20 : nth_error line1 20 = Some "O"%char).
  { unfold line1, first_line. rewrite app_assoc. rewrite nth_error_app2; rewrite app_length, length_rjust by exact Hv9;
      [reflexivity|cbn; lia]. }
  rewrite (rd_overlay _ _ _ _ P20). cbn [bind]. change (negb (ceqb "O"%char "O"%char)) with false. cbv iota.
  assert (P40 : nth_error line1 40 = Some letter).
  { unfold line1, first_line.
    replace (rjust 9 (num_text v) ++ blanks 11 ++ "O"%char :: mid ++ letter :: post)
      with ((rjust 9 (num_text v) ++ blanks 11 ++ "O"%char :: mid) ++ letter :: post)
      by (rewrite <- !app_assoc; reflexivity).
    assert (L40 : length (rjust 9 (num_text v) ++ blanks 11 ++ "O"%char :: mid) = 40).
    { rewrite !app_length, length_rjust by exact Hv9. cbn. lia. }
    rewrite nth_error_app2 by lia. rewrite L40. reflexivity. }
  rewrite (rd_overlay _ _ _ _ P40). cbn [bind].
  apply char_to_satsys_spec in Hlet. rewrite Hlet.
  assert (OL : length (overlay line1 (uninit 85)) = 85) by (rewrite overlay_length; [reflexivity|change (length (uninit 85)) with 85; lia]).
  destruct (getline_line st1 (overlay line1 (uninit 85)) 85 second _ R1 (clean_nl _ Csec) ltac:(lia) ltac:(lia))
    as (st2 & G2 & R2 & _).
  rewrite G2. cbn [bind].
  match goal with |- context [hdr_loop strp MAX_HEADER_LINES ?H st2 _] => set (hx := H) end.
  assert (EH : hx = h0).
  { destruct Hinit as (I1 & I2 & I3 & I4 & I5 & I6 & I7 & I8 & I9 & I10 & I11 & I12).
    rewrite Ea in I7. apply Val_inj in I7.
    unfold hx. destruct h0. cbn in *. subst. reflexivity. }
  rewrite EH. clear hx EH.
  assert (EM : MAX_HEADER_LINES = length items + S (1000 - length items - 1)) by (change MAX_HEADER_LINES with 1000; lia).
  rewrite EM.
  destruct (loop_some strp items (S (1000 - length items - 1)) h0 h st2 (overlay second (overlay line1 (uninit 85))) more Hmean R2)
    as (st3 & line3 & E3 & R3 & l3 & b3 & -> & Lb3 & Cl3 & Ll3 & NE3).
  { exists second, (overlay line1 (uninit 85)). repeat split; auto; lia. }
  rewrite E3. cbn [hdr_loop].
  rewrite labelled_overlay by (first [reflexivity | exact (clean_nul _ Cl3) | lia | (apply clean_nul; apply lit_clean; reflexivity)]).
  rewrite NE3. cbn [bind]. assert (OL3 : length (overlay l3 b3) = 85) by (rewrite overlay_length; lia).
  destruct (bad_step strp c lab j h st3 (overlay l3 b3) Hbad OL3) as (Cb & Lb & _).
  destruct (getline_line st3 (overlay l3 b3) 85 _ tail R3 (clean_nl _ Cb) Lb ltac:(lia)) as (st4 & G4 & _).
  change MAX_HEADER_CHARS with 85. rewrite G4. cbn [bind].
  destruct (bad_step strp c lab j h st4 (overlay l3 b3) Hbad OL3) as (_ & _ & code & h' & E & Nz). rewrite E. cbn [bind].
  destruct (Z.eqb_spec code 0); [contradiction|]. cbn [negb bind]. destruct (Z.eqb_spec code 0); [contradiction|]. cbn [negb noexcept bind].
  destruct (Z.eqb_spec code 0); [contradiction|]. reflexivity.
Qed.
