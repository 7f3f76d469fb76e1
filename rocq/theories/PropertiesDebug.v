(** PropertiesDebug: C86 (the debug build, which is the default, against the release build) *)
From Verif Require Import Base BaseLemmas CNum CNumLemmas Stream ModelSatsys ModelNvarstr ModelNav ModelDebug SpecText SpecNum SpecObs SpecHeader SpecNav SpecDebug
  ProofText ProofNum ProofStream ProofNav ProofNavBlock ProofNavFile ProofNavFind ProofNavList ProofDebug PropertiesNav.
Open Scope string_scope.
Open Scope list_scope.

(** a result of the release build, as the debug build returns it (the position is assigned) *)
Definition assigned_pos (o : outcome (option nat * navres)) : outcome (option (option nat) * navres) :=
  do x <- o; Val (Some (fst x), snd x).

(** ** C86: the two builds answer alike *)
Definition C86_full : Prop := forall k strp t st f e sys prn, good st = true ->
  read_next_record_dbg strp st f e = read_next_record strp st f e /\
  find_next_dbg k strp st f e sys prn = assigned_pos (find_next k strp st f e sys prn) /\
  find_next_valid_dbg k strp t st f e sys prn = assigned_pos (find_next_valid k strp t st f e sys prn).

(** peeking and skipping: alike on a good stream *)
Theorem C86_peek_skip : forall st, good st = true -> peak_satsys_dbg st = peak_satsys st /\ ignore_next_block_dbg st = ignore_next_block st.
Proof. intros st G. split; [apply peak_dbg, G|apply ignore_dbg, G]. Qed.
Print Assumptions C86_peek_skip.
Example C86_peek_skip_ex : peak_satsys_dbg (open_stream (block_text glo_b)) = (0%Z, Glonass, open_stream (block_text glo_b)).
Proof. reflexivity. Qed.

(** reading: alike, unless a record was read whose time of ephemeris is not a whole second: then the debug build stops *)
Theorem C86_read_partial : forall strp st f e, good st = true ->
  match read_next_record strp st f e with
  | Val r => (n_code r = 0%Z -> whole_toe (n_frame r)) /\ read_next_record_dbg strp st f e = Val r \/
             (n_code r = 0%Z /\ ~ whole_toe (n_frame r)) /\ stops (read_next_record_dbg strp st f e)
  | o => read_next_record_dbg strp st f e = o
  end.
Proof. exact read_dbg. Qed.
Print Assumptions C86_read_partial.

(** searching a file whose last line is complete: alike, or the debug build stops *)
Theorem C86_search_partial : forall k strp t st f e sys prn, good st = true -> ended (rest st) ->
  (find_next_dbg k strp st f e sys prn = assigned_pos (find_next k strp st f e sys prn) \/ stops (find_next_dbg k strp st f e sys prn)) /\
  (find_next_valid_dbg k strp t st f e sys prn = assigned_pos (find_next_valid k strp t st f e sys prn) \/ stops (find_next_valid_dbg k strp t st f e sys prn)).
Proof.
  intros k strp t st f e sys prn G E. unfold find_next_dbg, find_next_valid_dbg, find_next, find_next_valid, assigned_pos, tellg. rewrite G. cbn [negb]. split.
  - destruct (find_dbg k strp st f e sys prn G E) as [-> |S1]; [left; destruct (find_loop k strp st f e sys prn); reflexivity|right; apply stops_bind, S1].
  - destruct (valid_dbg k strp t st f e sys prn G E) as [-> |S1]; [left; destruct (valid_loop k strp t st f e sys prn); reflexivity|].
    right. apply stops_bind. destruct S1 as [-> | ->]; [left|right]; reflexivity.
Qed.
Print Assumptions C86_search_partial.

(** on conforming blocks whose times of ephemeris are whole seconds the builds agree *)
Theorem C86_conforming : forall strp cal bs k t st f sys prn, reads_dates strp cal -> Forall block_ok bs -> Forall toe_whole bs -> sys <> Irnss ->
  length (f_data f) = 31 -> at_rest st (blocks_text bs) ->
  find_next_dbg k strp st f 0 sys prn = assigned_pos (find_next k strp st f 0 sys prn) /\
  find_next_valid_dbg k strp t st f 0 sys prn = assigned_pos (find_next_valid k strp t st f 0 sys prn).
Proof.
  intros strp cal bs k t st f sys prn RD Ok W NI L At. unfold find_next_dbg, find_next_valid_dbg, find_next, find_next_valid, assigned_pos, tellg.
  rewrite (proj1 At). cbn [negb]. split.
  - rewrite (find_blocks_dbg strp cal sys prn RD NI k bs st f Ok W L At). destruct (find_loop k strp st f 0 sys prn); reflexivity.
  - rewrite (valid_blocks_dbg strp cal t sys prn RD NI k bs st f Ok W L At). destruct (valid_loop k strp t st f 0 sys prn); reflexivity.
Qed.
Print Assumptions C86_conforming.
(** the first block, if it is conforming, is read alike *)
Theorem C86_read_conforming : forall strp cal b tail st f, reads_dates strp cal -> block_ok b -> toe_whole b -> b_sys b <> Irnss ->
  length (f_data f) = 31 -> at_rest st (block_text b ++ tail) -> read_next_record_dbg strp st f 0 = read_next_record strp st f 0.
Proof. exact read_block_dbg. Qed.
Print Assumptions C86_read_conforming.
Lemma C86_whole : Forall toe_whole [glo_b; gps_b "05" fitn; sbs_b; gal_b].
Proof.
  apply Forall_cons; [split; [exists 172800%Z; split; [lia|reflexivity]|split; vm_compute; discriminate]|].
  apply Forall_cons; [exists 172800%Z; split; [lia|reflexivity]|].
  apply Forall_cons; [exact I|]. apply Forall_cons; [exists 172800%Z; split; [lia|reflexivity]|apply Forall_nil].
Qed.
Example C86_conforming_ex : let st := open_stream (blocks_text [glo_b; gps_b "05" fitn; sbs_b; gal_b]) in
  ended (rest st) /\ exists pos r, find_next_dbg 9 strp_fix st frame0 0 Gps 5 = Val (Some (Some pos), r) /\ n_code r = 0%Z /\ f_prn (n_frame r) = 5%Z.
Proof.
  intro st. split.
  - right. exists (removelast (blocks_text [glo_b; gps_b "05" fitn; sbs_b; gal_b])). vm_compute. reflexivity.
  - destruct (C86_conforming strp_fix civil [glo_b; gps_b "05" fitn; sbs_b; gal_b] 9 0 st frame0 Gps 5 strp_fix_reads) as (E & _).
    + repeat (apply Forall_cons; [first [exact glo_b_ok|exact (gps_b_ok "05" fitn (or_introl eq_refl) (or_introl eq_refl))|exact sbs_b_ok|exact gal_b_ok]|]). apply Forall_nil.
    + exact C86_whole.
    + discriminate.
    + reflexivity.
    + apply open_rest.
    + rewrite E. eexists _, _. vm_compute. auto.
Qed.

(** a time of ephemeris that is not a whole second: the release build goes on, the debug build stops *)
Definition halfn := nv "1" "728005000000" "05".
Definition half_b : nav_src := mkNavSrc "G"%char Gps (lit "05") date1 [nm1; n1; n0] 0
  [full n1 nm1 n1 n1; full nm1 n1 nm1 n1; full halfn n1 n1 nm1; full n1 n1 n1 nm1; full n1 n1 weekn n0; full n1 n0 nm1 n1; ([Some sown; Some fitn], 3)].
Theorem C86_fraction_refuted : exists r, read_next_record strp_fix (open_stream (block_text half_b)) frame0 0 = Val r /\ n_code r = 0%Z /\
  read_next_record_dbg strp_fix (open_stream (block_text half_b)) frame0 0 = Term.
Proof. eexists. split; [vm_compute; reflexivity|]. split; vm_compute; reflexivity. Qed.
Print Assumptions C86_fraction_refuted.
Theorem C86_full_refuted : ~ C86_full.
Proof.
  intro F. destruct C86_fraction_refuted as (r & E & _ & D).
  destruct (F 0 strp_fix 0%Z (open_stream (block_text half_b)) frame0 0%Z Gps 5%Z eq_refl) as (X & _). rewrite E, D in X. discriminate.
Qed.
Print Assumptions C86_full_refuted.
(** no newline after the last line: looking for an absent satellite ends with 10 in the debug build, -1 in the release build *)
Theorem C86_no_newline_refuted : forall strp, let st := open_stream (removelast (block_text glo_b)) in
  exists r r', find_next 9 strp st frame0 0 Gps (-1) = Val (Some 0, r) /\ n_code r = (-1)%Z /\
    find_next_dbg 9 strp st frame0 0 Gps (-1) = Val (Some (Some 0), r') /\ n_code r' = 10%Z.
Proof. intros strp st. eexists _, _. split; [vm_compute; reflexivity|]. split; [reflexivity|]. split; vm_compute; reflexivity. Qed.
Print Assumptions C86_no_newline_refuted.
(** a stream that is not good: an error and no position in the debug build; end of file in the release build *)
Theorem C86_not_good : forall k strp st f e sys prn, good st = false ->
  find_next_dbg k strp st f e sys prn = Val (None, mkNav 50 f st e) /\ read_next_record_dbg strp st f e = Val (mkNav 50 f st e) /\
  ignore_next_block_dbg st = Val (50%Z, st) /\ peak_satsys_dbg st = (10%Z, Mixed, st) /\
  fst (fst (peak_satsys st)) = (-1)%Z.
Proof.
  intros k strp st f e sys prn G. unfold find_next_dbg, read_next_record_dbg, ignore_next_block_dbg, peak_satsys_dbg. rewrite G. repeat (split; [reflexivity|]).
  unfold peak_satsys, peek_char, peek. rewrite G. reflexivity.
Qed.
Print Assumptions C86_not_good.
