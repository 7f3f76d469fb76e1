(** PropertiesObs2: C53-C56, C58, C60, C61 *)
From Verif Require Import Base B64 ProofB64 BaseLemmas CNum CNumLemmas Stream ModelSatsys ModelObs ModelNvarstr
  ModelSatellite ModelAntenna ModelObsRnx ModelMove SpecText SpecNum SpecObs SpecHeader ProofText ProofAntenna
  ProofNum ProofStream ProofObsTypes ProofObsRec ProofCollect ProofEpoch ProofPlan ProofHeader ProofMove
  ProofObsMisc PropertiesObs.
Open Scope string_scope.
Open Scope list_scope.

(** ** C53 *)
Definition C53_full : Prop := forall ops, mrun m_init ops <> UB /\
  forall s, mrun m_init ops = Val s -> (forall i, var s i = None) -> m_live s = [].
Theorem C53_full_refuted : ~ C53_full.
Proof.
  intro F. destruct (F [MConstruct; MMoveConstruct 0; MDestroy 0; MDestroy 1]) as [G _]. apply G. reflexivity.
Qed.
(** whatever happened before: move from an object that has its buffer, destroy both, in either order *)
Theorem C53_move_double_free : forall s i b, var s i = Some (Some b) ->
  let j := length (m_vars s) in
  mrun s [MMoveConstruct i; MDestroy i; MDestroy j] = UB /\
  mrun s [MMoveConstruct i; MDestroy j; MDestroy i] = UB.
Proof. exact move_then_destroy_both. Qed.
Print Assumptions C53_move_double_free.
(** move assignment loses the target's buffer *)
Theorem C53_move_assign_leaks : forall s i j b c, owned s -> points s i b -> points s j c -> i <> j ->
  exists s', mstep s (MMoveAssign i j) = Val s' /\ In b (m_live s') /\ forall k, ~ points s' k b.
Proof. exact move_assign_leaks. Qed.
Print Assumptions C53_move_assign_leaks.
(** without moves every buffer is released exactly once *)
Theorem C53_no_moves_partial : forall ops, Forall moveless ops ->
  mrun m_init ops <> UB /\
  forall s, mrun m_init ops = Val s -> owned s /\ ((forall i, var s i = None) -> m_live s = []).
Proof.
  intros ops F. destruct (moveless_run ops m_init owned_init F) as [N O]. split; [exact N|].
  intros s E. split; [exact (O s E)|]. intro D. apply owned_all_dead; auto.
Qed.
Print Assumptions C53_no_moves_partial.
Example C53_example : exists s, mrun m_init [MConstruct; MConstruct; MDestroy 1; MDestroy 0] = Val s /\ m_live s = [] /\
  (exists s', mrun m_init [MConstruct; MConstruct] = Val s' /\ owned s' /\ points s' 0 0 /\ points s' 1 1).
Proof.
  eexists. split; [reflexivity|]. split; [reflexivity|]. eexists. split; [reflexivity|]. split.
  - eapply (moveless_run [MConstruct; MConstruct]); [exact owned_init|repeat constructor|reflexivity].
  - split; reflexivity.
Qed.

(** ** C54 *)
(** the header lines after the first, in order, and what they mean *)
Definition C54_full : Prop := forall strp v mid letter sys post items j tail h0 h,
  first_line_ok v mid letter sys post -> j <= 5 -> length items <= 998 ->
  initial_header h0 (num_flt v) sys -> items_mean strp items h0 h ->
  exists o, obs_open strp (first_line v mid letter post ++ NL :: items_text items ++ end_line j ++ NL :: tail) = Val o /\
    o_hdr o = h.
Definition v304 : numlit := mkNum None (lit "3") true (lit "04") None.
Lemma first_ok : first_line_ok v304 (lit "BSERVATION DATA    ") "M"%char Mixed [].
Proof.
  unfold first_line_ok, num_ok; concrete; [repeat constructor; discriminate|cbn; tauto].
Qed.
(** the second line of the file is never looked at *)
Theorem C54_full_refuted : ~ C54_full.
Proof.
  intro F. destruct hdr_init_val as (a & Ea & _).
  set (h0 := mkHdr (DFin (num_flt v304)) Mixed [] [] [] [] a [DFin 0; DFin 0; DFin 0] [DFin 0; DFin 0; DFin 0] false None smap_empty).
  assert (I : initial_header h0 (num_flt v304) Mixed) by (repeat split; exact Ea).
  assert (M : items_mean no_time [ILine (lit "DYNG") "MARKER NAME" 0] h0 (set_name h0 (lit "DYNG"))).
  { eapply ims_cons; [|apply ims_nil]. apply (im_name no_time (lit "DYNG") 0 h0).
    split; [repeat constructor; discriminate|]. split; cbn; lia. }
  destruct (F no_time v304 (lit "BSERVATION DATA    ") "M"%char Mixed [] [ILine (lit "DYNG") "MARKER NAME" 0] 0 [] h0 _ first_ok ltac:(lia) ltac:(cbn [length]; lia) I M) as (o & E & H).
  vm_compute in E. injection E as <-. vm_compute in H. discriminate.
Qed.
(** with a second line (of any content but the end mark), everything after it is read *)
Theorem C54_header_partial : forall strp v mid letter sys post second items j tail h0 h,
  first_line_ok v mid letter sys post -> clean second -> 60 <= length second <= 84 ->
  labelled "END OF HEADER" second = false -> j <= 5 -> length items <= 998 ->
  initial_header h0 (num_flt v) sys -> items_mean strp items h0 h ->
  exists o, obs_open strp (header_text v mid letter post second items j ++ tail) = Val o /\
    o_hdr o = h /\ at_rest (o_stream o) tail /\ o_eoh o = Some (spos (o_stream o)) /\
    o_bufsz o = max_obs (h_tbl h) * 16 + 4 /\ length (o_buf o) = o_bufsz o.
Proof. exact header_exact. Qed.
Print Assumptions C54_header_partial.
(** whatever the file: success means that one of its lines has END OF HEADER in columns 61-73 *)
Theorem C54_success_means_end : forall strp d o, obs_open strp d = Val o ->
  exists a b, d = a ++ b /\ (a = [] \/ exists a', a = a' ++ [NL]) /\
    firstn 13 (skipn 60 b) = lit "END OF HEADER" /\ ~ In NL (firstn 73 b).
Proof. exact open_end. Qed.
Print Assumptions C54_success_means_end.
(** a line shorter than 60 columns is taken under the label of the line before *)
Theorem C54_stale_label : forall strp h st prev buf l, clean prev -> length prev = 71 -> length buf = 85 ->
  labelled "MARKER NAME" prev = true -> clean l -> length l < 60 ->
  hdr_line strp h st (overlay l (overlay prev buf)) = Val (0%Z, set_name h (word l), st).
Proof.
  intros strp h st prev buf l Cp Lp Lb Hlab Cl Ll.
  assert (LO : length (overlay prev buf) = 85) by (rewrite overlay_length; lia).
  assert (E : strncmp_lit (overlay l (overlay prev buf)) 60 "MARKER NAME" 11 = Val true).
  { unfold strncmp_lit, strncmp_eq. rewrite skipn_overlay_short by lia.
    change (strncmp0 (skipn 60 (overlay prev buf)) (skipn 0 (cbuf (lit "MARKER NAME"))) 11)
      with (strncmp_lit (overlay prev buf) 60 "MARKER NAME" 11).
    rewrite labelled_overlay; [rewrite Hlab; reflexivity|reflexivity|vm_compute; intuition discriminate|apply clean_nul; exact Cp|lia]. }
  unfold hdr_line. rewrite E. cbn [bind].
  destruct (rtrim_word l (overlay prev buf) 0 60 (clean_nul _ Cl) ltac:(lia)) as (e & R). rewrite R. cbn [bind fst].
  rewrite skipn_O, firstn_all2 by lia. reflexivity.
Qed.
Print Assumptions C54_stale_label.
Example C54_example : exists o, obs_open no_time (text [hfirst; hpgm;
    "DYNG                                                        MARKER NAME";
    "12602M006                                                   MARKER NUMBER";
    "  4595220.0240  2039434.0770  3912625.9640                  APPROX POSITION XYZ"; hobs4; hend]) = Val o /\
  h_name (o_hdr o) = lit "DYNG" /\ h_number (o_hdr o) = lit "12602M006" /\
  h_tbl (o_hdr o) Gps = Some [c1c; l1c; c2w; mkCode CarrierPhase 2 "W"%char].
Proof. eexists. split; [vm_compute; reflexivity|]. split; [|split]; vm_compute; reflexivity. Qed.

(** ** C55 *)
Definition C55_full : Prop := forall strp d o0 o, obs_open strp d = Val o0 -> o_eoh o0 <> None -> history o0 o ->
  o_stream (obs_rewind o) = o_stream o0.
(** an epoch with a missing record: failbit stays set and the file cannot be rewound *)
Theorem C55_full_refuted : ~ C55_full.
Proof.
  intro F. set (d := text [hfirst; hpgm; hobs4; hend; e1; r1]).
  destruct (obs_open no_time d) as [o0| | | |] eqn:E; try (vm_compute in E; discriminate).
  destruct (read_next_epoch o0 plan1 (initialize_epoch_vector plan1)) as [r| | | |] eqn:R;
    try (vm_compute in E; injection E as <-; vm_compute in R; discriminate).
  assert (P : o_eoh o0 <> None) by (vm_compute in E; injection E as <-; discriminate).
  specialize (F no_time d o0 (er_obj r) E P (hist_read _ _ _ _ _ (hist_start o0) R)).
  vm_compute in E. injection E as <-. vm_compute in R. injection R as <-. vm_compute in F. discriminate.
Qed.
(** any history of reads and rewinds: unless failbit is set the stream is back where the header ended *)
Theorem C55_rewind_partial : forall strp d o0 o, obs_open strp d = Val o0 -> o_eoh o0 <> None -> history o0 o ->
  sfail (o_stream o) = false -> o_stream (obs_rewind o) = o_stream o0.
Proof. exact rewind_restores. Qed.
Print Assumptions C55_rewind_partial.
(** in particular right after end of file was reported *)
Theorem C55_rewind_after_eof : forall strp d o0 o plan out r, obs_open strp d = Val o0 -> o_eoh o0 <> None ->
  history o0 o -> read_next_epoch o plan out = Val r -> er_code r = (-1)%Z ->
  o_stream (obs_rewind (er_obj r)) = o_stream o0.
Proof. exact rewind_after_eof. Qed.
Print Assumptions C55_rewind_after_eof.
Theorem C55_stuck : forall o, sfail (o_stream o) = true ->
  spos (o_stream (obs_rewind o)) = spos (o_stream o) /\ sfail (o_stream (obs_rewind o)) = true.
Proof. exact rewind_stuck. Qed.
Print Assumptions C55_stuck.
Example C55_example : exists o0 r, obs_open no_time (text [hfirst; hpgm; hobs4; hend; e1; r1; r2]) = Val o0 /\
  o_eoh o0 <> None /\ read_next_epoch o0 plan1 (initialize_epoch_vector plan1) = Val r /\ er_code r = 0%Z /\
  sfail (o_stream (er_obj r)) = false.
Proof.
  eexists _, _. split; [vm_compute; reflexivity|]. split; [discriminate|]. split; [vm_compute; reflexivity|]. split; reflexivity.
Qed.

(** ** C56 (observation files) *)
Definition C56_full : Prop := forall strp d, obs_open strp d <> Term.
Theorem C56_full_refuted : ~ C56_full.
Proof.
  intro F. apply (F no_time (text [hfirst; hpgm;
    "X    1 C1C                                                  SYS / # / OBS TYPES"; hend])).
  vm_compute. reflexivity.
Qed.
(** a file cut after an OBS TYPES line *)
Theorem C56_truncated_refuted : ~ C56_full.
Proof. intro F. apply (F no_time (text [hfirst; hpgm; hobs4])). vm_compute. reflexivity. Qed.
Theorem C56_truncated_terminates : forall strp k h st line, length line = 85 -> at_rest st [] ->
  strncmp_lit line 60 "SYS / # / OBS TYPES" 19 = Val true ->
  hdr_loop strp (S k) h st line = Term.
Proof. exact truncated_terminates. Qed.
Print Assumptions C56_truncated_terminates.
(** the only way: an OBS TYPES label over a line that does not start with a system letter *)
Theorem C56_open_partial : forall strp d, obs_open strp d = Term ->
  exists l, length l = 85 /\ strncmp_lit l 60 "SYS / # / OBS TYPES" 19 = Val true /\
    exists c, rd l 0 = Val c /\ system_of c = None.
Proof.
  intros strp d E. destruct (open_term strp d) as [Q|[_ (l & L & B & C)]]; [rewrite E in Q; destruct Q|]. eauto.
Qed.
Print Assumptions C56_open_partial.
(** reading epochs: never an exception, never termination, for any object, plan and output vector *)
Theorem C56_epochs : forall o plan out,
  read_next_epoch o plan out = UB \/ exists r, read_next_epoch o plan out = Val r.
Proof.
  intros o plan out. pose proof (epoch_calm o plan out) as Q. destruct (read_next_epoch o plan out); cbn in Q; try contradiction; eauto.
Qed.
Print Assumptions C56_epochs.

(** ** C58: the radome of the ANT # / TYPE line *)
Definition C58_full : Prop := forall strp h st serial model radome j buf rest0,
  at_rest st rest0 ->
  length serial = 20 -> clean serial -> clean model -> length model <= 15 -> clean radome -> length radome = 4 ->
  ~ In " "%char model -> j <= 4 -> length buf = 85 ->
  exists h' st', hdr_line strp h st (overlay (header_line (serial ++ ljust 16 model ++ radome) (lit "ANT # / TYPE") j) buf)
    = Val (0%Z, h', st') /\ firstn 20 (h_ant h') = map Some (ljust 16 model ++ radome).
Lemma firstn_blanks n m : n <= m -> firstn n (blanks m) = blanks n.
Proof. unfold blanks. revert m. induction n as [|n IH]; intros [|m] H; cbn; auto; [lia|]. f_equal. apply IH. lia. Qed.
(** whatever the radome, the antenna of the header has radome NONE *)
Theorem C58_radome_lost : forall strp h st serial model radome j buf rest0,
  at_rest st rest0 ->
  length serial = 20 -> clean serial -> clean model -> length model <= 15 -> clean radome -> length radome = 4 ->
  ~ In " "%char model -> j <= 4 -> length buf = 85 ->
  exists h' st', hdr_line strp h st (overlay (header_line (serial ++ ljust 16 model ++ radome) (lit "ANT # / TYPE") j) buf)
    = Val (0%Z, h', st') /\ firstn 20 (h_ant h') = map Some (ljust 16 model ++ lit "NONE").
Proof.
  intros strp h st serial model radome j buf rest0 Rst Ls Cs Cm Lm Cr Lr Nb Hj Lb.
  set (c := serial ++ ljust 16 model ++ radome).
  assert (Lj : length (ljust 16 model) = 16) by (apply length_ljust; lia).
  assert (Lc : length c = 40) by (unfold c; rewrite !app_length; lia).
  assert (Cc : clean c).
  { unfold c. apply clean_app. split; [exact Cs|]. apply clean_app. split; [|exact Cr].
    unfold ljust. apply clean_app. split; [exact Cm|apply clean_blanks]. }
  assert (OK : content_ok c j) by (split; [exact Cc|split; [lia|exact Hj]]).
  assert (Col : columns 20 20 c = ljust 16 model ++ radome).
  { unfold columns, ljust at 1. unfold c at 1. rewrite <- !app_assoc. rewrite skipn_app_exact by auto.
    rewrite app_assoc. rewrite firstn_app. rewrite (firstn_all2 (n := 20)) by (rewrite app_length; lia).
    rewrite app_length, Lj, Lr, Nat.sub_diag, firstn_O, app_nil_r. reflexivity. }
  assert (W : word (columns 20 20 c) = model).
  { rewrite Col. unfold ljust. rewrite <- app_assoc. clear -Nb Lm.
    assert (G : forall m x, ~ In " "%char m -> word (m ++ " "%char :: x) = m).
    { induction m as [|a m IH]; intros x Hm; [reflexivity|]. cbn. destruct (Ascii.eqb_spec a " "%char) as [->|].
      - exfalso. apply Hm. left. reflexivity.
      - f_equal. apply IH. intro. apply Hm. right. assumption. }
    replace (16 - length model) with (S (15 - length model)) by lia. cbn [blanks repeat app]. apply G. exact Nb. }
  assert (N : firstn 20 (map Some (antenna_name model)) = map Some (ljust 16 model ++ lit "NONE")).
  { unfold antenna_name. destruct (Nat.ltb_spec (length model) 20); [|lia].
    assert (A : firstn 16 (ljust 20 model) = ljust 16 model).
    { unfold ljust. rewrite firstn_app, (firstn_all2 (n := 16) model) by lia. f_equal.
      apply firstn_blanks. lia. }
    rewrite A. rewrite firstn_all2; [reflexivity|]. rewrite map_length, app_length, Lj. cbn. lia. }
  assert (LN : length (antenna_name model) = 20).
  { unfold antenna_name. destruct (Nat.ltb_spec (length model) 20); [|lia]. rewrite app_length, firstn_length, length_ljust by lia. reflexivity. }
  assert (F20 : forall t, firstn 20 (map Some (antenna_name model) ++ t) = map Some (ljust 16 model ++ lit "NONE")).
  { intro t. rewrite firstn_app, map_length, LN, Nat.sub_diag, firstn_O, app_nil_r. exact N. }
  destruct (list_eq_dec ascii_dec (columns 0 20 c) (blanks 20)) as [B|B].
  - pose proof (im_ant strp c j h OK B) as IM.
    destruct (item_step strp _ _ _ st buf rest0 IM Lb Rst) as (_ & _ & _ & _ & st' & E & _).
    eexists _, st'. split; [exact E|]. cbn [set_antenna h_ant]. rewrite W. apply F20.
  - pose proof (im_ant_serial strp c j h OK B) as IM.
    destruct (item_step strp _ _ _ st buf rest0 IM Lb Rst) as (_ & _ & _ & _ & st' & E & _).
    eexists _, st'. split; [exact E|]. cbn [set_antenna h_ant]. rewrite W. apply F20.
Qed.
Print Assumptions C58_radome_lost.
Theorem C58_full_refuted : ~ C58_full.
Proof.
  intro F.
  assert (R : at_rest (open_stream []) []) by (split; reflexivity).
  destruct (F no_time (mkHdr (DFin 3) Mixed [] [] [] [] [] [] [] false None smap_empty) (open_stream [])
    (blanks 20) (lit "TRM57971.00") (lit "SCIT") 0 (uninit 85) [] R) as (h' & st' & E & H);
    try reflexivity; try (repeat constructor; discriminate); try (cbn; lia); try (vm_compute; intuition discriminate).
  vm_compute in E. injection E as <- _. vm_compute in H. discriminate.
Qed.
Example C58_example : exists h' st', hdr_line no_time (mkHdr (DFin 3) Mixed [] [] [] [] [] [] [] false None smap_empty) (open_stream [])
  (cbuf (lit "4551A12345          TRM57971.00     SCIT                    ANT # / TYPE        ") ++ uninit 4) = Val (0%Z, h', st') /\
  h_ant h' = map Some (lit "TRM57971.00     NONE4551A12345          ") ++ [Some NUL].
Proof. eexists _, _. split; [vm_compute; reflexivity|]. vm_compute. reflexivity. Qed.

(** ** C60: the marker value is also a possible observation *)
(** a field of column [col] that holds a number *)
Definition field_at (line : list ascii) (col : nat) (n : numlit) (s : ascii) : Prop :=
  obs_num_ok n /\ ind_char s /\ 3 + 16 * col + 16 <= length line /\
  firstn 16 (skipn (3 + 16 * col) line) = obs_field n " "%char s.
Definition C60_full : Prop := forall buf line col coef prn n s,
  holds buf line -> 3 <= length buf -> prn_of line = Some prn -> field_at line col n s ->
  sat_epoch_collect buf [[(col, coef)]] [DFin 0] = Val (0%Z, prn, [dadd (DFin 0) (dmul (DFin (num_val n)) coef)]).
Lemma field_cell line col n s : field_at line col n s ->
  cell_of line col = if Qeq_bool (num_val n) the_missing_value then CBlank else CValue (DFin (num_val n)).
Proof.
  intros (Hok & Is & L & E). unfold cell_of. rewrite E.
  destruct (Nat.ltb_spec (length line) (3 + 16 * col + 16)); [lia|].
  assert (Il : ind_char " "%char) by (left; auto).
  pose proof Hok as (Hn & Hd & He & Hl).
  destruct (length (num_text n)) as [|k] eqn:Ek.
  { exfalso. apply (num_text_nonempty n Hn). destruct (num_text n); [auto|discriminate]. }
  assert (NB : forallb (fun c => Ascii.eqb c " "%char) (firstn 14 (obs_field n " "%char s)) = false).
  { unfold obs_field. apply (field_nonblank n Hn). lia. }
  rewrite NB. unfold obs_field, rjust. rewrite <- app_assoc. rewrite strtod_text; auto; [|apply num_stop_blank].
  replace (14 - length (num_text n) + length (num_text n)) with (S 13) by lia. reflexivity.
Qed.
(** the number -999.99 is not told from a blank field: the coefficient is not applied, one field counts as missing *)
Theorem C60_sentinel : forall buf line col coef prn n s,
  holds buf line -> 3 <= length buf -> prn_of line = Some prn -> field_at line col n s ->
  (num_dec n == -99999 # 100)%Q ->
  sat_epoch_collect buf [[(col, coef)]] [DFin 0] = Val ((-1)%Z, prn, [DFin (b64 (-99999 # 100))]).
Proof.
  intros buf line col coef prn n s H L P Fd V.
  assert (C : cell_of line col = CBlank).
  { rewrite (field_cell _ _ _ _ Fd). replace (Qeq_bool (num_val n) the_missing_value) with true; [reflexivity|].
    symmetry. apply Qeq_bool_iff. unfold num_val. rewrite (b64_wd _ _ V). apply Qeq_refl. }
  assert (Nl : line <> []) by (intros ->; destruct Fd as (_ & _ & Q & _); cbn in Q; lia).
  pose proof (C23_values_exact_partial buf line [[(col, coef)]] [DFin 0] H Nl L (le_n _)) as Q. rewrite P in Q.
  unfold bad_request in Q. cbn [existsb fst map actual_value blank_total blank_count skipn length app orb snd] in Q. rewrite C in Q. exact Q.
Qed.
Print Assumptions C60_sentinel.
(** every other number is delivered *)
Theorem C60_other_partial : forall buf line col coef prn n s,
  holds buf line -> 3 <= length buf -> prn_of line = Some prn -> field_at line col n s ->
  ~ (num_val n == b64 (-99999 # 100))%Q ->
  sat_epoch_collect buf [[(col, coef)]] [DFin 0] = Val (0%Z, prn, [dadd (DFin 0) (dmul (DFin (num_val n)) coef)]).
Proof.
  intros buf line col coef prn n s H L P Fd V.
  assert (C : cell_of line col = CValue (DFin (num_val n))).
  { rewrite (field_cell _ _ _ _ Fd). destruct (Qeq_bool (num_val n) the_missing_value) eqn:Q; [|reflexivity].
    apply Qeq_bool_iff in Q. contradiction. }
  assert (Nl : line <> []) by (intros ->; destruct Fd as (_ & _ & Q & _); cbn in Q; lia).
  pose proof (C23_values_exact_partial buf line [[(col, coef)]] [DFin 0] H Nl L (le_n _)) as Q. rewrite P in Q.
  unfold bad_request in Q. cbn [existsb fst map actual_value blank_total blank_count skipn length app orb snd] in Q. rewrite C in Q. exact Q.
Qed.
Print Assumptions C60_other_partial.
Definition nmark : numlit := mkNum (Some "-"%char) (lit "999") true (lit "990") None.
Definition mark_line : list ascii := lit "G05" ++ obs_field nmark " "%char "7"%char.
Lemma mark_at : field_at mark_line 0 nmark "7"%char.
Proof.
  split; [unfold obs_num_ok, num_ok; concrete|]. split; [right; concrete|]. split; [vm_compute; lia|vm_compute; reflexivity].
Qed.
Lemma mark_holds : holds (cbuf mark_line) mark_line.
Proof. exists []. split; [reflexivity|]. vm_compute. intuition discriminate. Qed.
Theorem C60_full_refuted : ~ C60_full.
Proof.
  intro F. assert (L : 3 <= length (cbuf mark_line)) by (vm_compute; lia).
  specialize (F (cbuf mark_line) mark_line 0 (DFin 2) 5%Z nmark "7"%char mark_holds L eq_refl mark_at).
  vm_compute in F. discriminate.
Qed.
Example C60_example : (num_dec nmark == -99999 # 100)%Q /\ prn_of mark_line = Some 5%Z.
Proof. split; vm_compute; reflexivity. Qed.

(** ** C61: a whole file *)
(** a conforming header followed by any number of conforming epochs: the file opens, every epoch is
    delivered in order with return value 0, and one more call returns -1 *)
Theorem C61_whole_file : forall strp v mid letter sys post second items j eps h0 h plan out,
  first_line_ok v mid letter sys post -> clean second -> 60 <= length second <= 84 ->
  labelled "END OF HEADER" second = false -> j <= 5 -> length items <= 998 ->
  initial_header h0 (num_flt v) sys -> items_mean strp items h0 h ->
  Forall (fun ep => epoch_ok plan (max_obs (h_tbl h) * 16 + 4) (fst ep) (snd ep)) eps ->
  wide plan out -> Forall (fun ep => length (taken plan (snd ep)) <= length out) eps ->
  exists o rs last,
    obs_open strp (header_text v mid letter post second items j ++ file_text eps) = Val o /\ o_hdr o = h /\
    read_n (S (length eps)) o plan out = Val (rs ++ [last]) /\
    Forall2 (fun r ep => er_code r = 0%Z /\ (exists h, er_hdr r = Some h /\ header_of h (fst ep)) /\
               er_sats r = length (taken plan (snd ep)) /\ delivers (er_out r) (taken plan (snd ep))) rs eps /\
    er_code last = (-1)%Z /\ er_sats last = 0.
Proof.
  intros strp v mid letter sys post second items j eps h0 h plan out F1 C2 L2 N2 Hj Li I0 M Eps W T.
  destruct (header_exact strp v mid letter sys post second items j (file_text eps) h0 h F1 C2 L2 N2 Hj Li I0 M)
    as (o & Eo & Eh & R & _ & Bs & Lb).
  assert (Rd : ready o (file_text eps ++ [])).
  { rewrite app_nil_r. split; [exact R|]. split; [exact Lb|]. rewrite Bs. lia. }
  rewrite <- Bs in Eps.
  destruct (file_read plan eps o [] out Rd Eps W T) as (rs & Er & F2 & Rl).
  assert (G : forall n o' out' rs', read_n n o' plan out' = Val rs' -> ready (last (map er_obj rs') o') [] ->
     exists l, read_n (S n) o' plan out' = Val (rs' ++ [l]) /\ er_code l = (-1)%Z /\ er_sats l = 0).
  { clear. induction n as [|n IH]; intros o' out' rs' E R.
    - cbn in E. apply Val_inj in E. subst rs'. cbn in R. destruct (epoch_eof plan o' out' R) as (r & Er & E1 & E2 & _).
      exists r. cbn [read_n]. rewrite Er. split; [reflexivity|split; assumption].
    - cbn [read_n] in E. destruct (read_next_epoch o' plan out') as [r| | | |] eqn:E1; cbn [bind] in E; try discriminate.
      destruct (read_n n (er_obj r) plan (er_out r)) as [rs| | | |] eqn:E2; cbn [bind] in E; try discriminate.
      apply Val_inj in E. subst rs'. cbn [map] in R. rewrite last_cons in R.
      destruct (IH _ _ _ E2 R) as (l & El & Q). exists l. split; [|exact Q].
      change (read_n (S (S n)) o' plan out') with
        (do r <- read_next_epoch o' plan out'; do rs <- read_n (S n) (er_obj r) plan (er_out r); Val (r :: rs)).
      rewrite E1. cbn [bind]. rewrite El. reflexivity. }
  destruct (G _ _ _ _ Er Rl) as (l & El & Q1 & Q2).
  exists o, rs, l. auto 10.
Qed.
Print Assumptions C61_whole_file.
Example C61_example : exists items h0 h,
  first_line_ok v304 (lit "BSERVATION DATA    ") "M"%char Mixed [] /\ clean (lit hpgm) /\
  labelled "END OF HEADER" (lit hpgm) = false /\
  initial_header h0 (num_flt v304) Mixed /\ items_mean no_time items h0 h /\
  Forall (fun ep => epoch_ok plan1 (max_obs (h_tbl h) * 16 + 4) (fst ep) (snd ep))
    [(ep1, map lit [r1; r2]); (ep1, map lit [r1; r2])] /\
  wide plan1 (initialize_epoch_vector plan1) /\
  Forall (fun ep : epoch_src * list (list ascii) => length (taken plan1 (snd ep)) <= length (initialize_epoch_vector plan1))
    [(ep1, map lit [r1; r2]); (ep1, map lit [r1; r2])].
Proof.
  destruct hdr_init_val as (a & Ea & _).
  pose (cs := [c1c; l1c; c2w; mkCode CarrierPhase 2 "W"%char]).
  pose (h0 := mkHdr (DFin (num_flt v304)) Mixed [] [] [] [] a [DFin 0; DFin 0; DFin 0] [DFin 0; DFin 0; DFin 0] false None smap_empty).
  exists [IBlock "G"%char Gps (lit "4") cs cs [] 0], h0. eexists.
  split; [exact first_ok|]. split; [repeat constructor; discriminate|]. split; [reflexivity|].
  split; [repeat split; exact Ea|]. split.
  { eapply ims_cons; [|apply ims_nil]. apply im_block.
    - cbn; tauto.
    - concrete.
    - discriminate.
    - cbn; lia.
    - apply layout_last; [discriminate|cbn; lia].
    - repeat constructor; cbn; try discriminate; lia.
    - reflexivity.
    - lia.
    - cbn. discriminate.
    - reflexivity. }
  assert (OK : epoch_ok plan1 68 ep1 (map lit [r1; r2])).
  { split; [exact ep1_ok|]. split; [vm_compute; lia|]. split; [reflexivity|].
    split; [repeat constructor; vm_compute; intuition discriminate|]. split; [repeat constructor|].
    repeat constructor; vm_compute; discriminate. }
  split; [apply Forall_cons; [exact OK|]; apply Forall_cons; [exact OK|apply Forall_nil]|]. split; [apply C25_initial_vector|].
  assert (T : length (taken plan1 (map lit [r1; r2])) <= length (initialize_epoch_vector plan1)) by (vm_compute; lia).
  apply Forall_cons; [exact T|]. apply Forall_cons; [exact T|apply Forall_nil].
Qed.
