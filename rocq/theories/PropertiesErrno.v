(** PropertiesErrno: C96, what the reader does must not depend on what the program did before *)
From Verif Require Import Base BaseLemmas CNum CNumLemmas Stream ModelSatsys ModelObs ModelNvarstr ModelSatellite ModelAntenna ModelObsRnx ModelErrno
  SpecText SpecNum SpecObs SpecHeader SpecErrno ProofText ProofNum ProofStream ProofAntenna ProofObsTypes ProofObsRec ProofCollect ProofEpoch ProofHeader
  ModelNav ProofNavList ProofErrno PropertiesObs PropertiesObs2.
Local Open Scope string_scope.
Local Open Scope list_scope.

(** opening a file gives the same answer whatever the program opened and read before *)
Definition C96_full : Prop := forall strp steps e d r1 e1 r2 e2, SpecErrno.history strp false steps e ->
  obs_open_e strp d e = Val (r1, e1) -> obs_open_e strp d false = Val (r2, e2) -> r1 = r2.

Definition good_file : list ascii := text [hfirst; hpgm;
    "DYNG                                                        MARKER NAME";
    "  4595220.0240  2039434.0770  3912625.9640                  APPROX POSITION XYZ"; hobs4; hend].
Lemma good_file_opens : exists o, obs_open no_time good_file = Val o /\ h_tbl (o_hdr o) Gps <> None.
Proof. eexists. split; [vm_compute; reflexivity|]. vm_compute. discriminate. Qed.
Lemma good_file_fits : version_fits good_file.
Proof. vm_compute. reflexivity. Qed.

(** any file with an observation type, accepted when it is opened first, is refused once errno is set *)
Theorem C96_open_set : forall strp d o s, obs_open strp d = Val o -> h_tbl (o_hdr o) s <> None ->
  exists e, obs_open_e strp d true = Val (None, e).
Proof. exact open_set. Qed.
Print Assumptions C96_open_set.

(** opening a file that does not exist is enough *)
Theorem C96_after_missing : forall strp d o s, version_fits d -> obs_open strp d = Val o -> h_tbl (o_hdr o) s <> None ->
  obs_open_e strp d false = Val (Some o, false) /\
  SpecErrno.history strp false [Missing] true /\ exists e, obs_open_e strp d true = Val (None, e).
Proof.
  intros strp d o s V E T. split; [|split].
  - pose proof (open_clear strp d V) as X. rewrite E in X. exact X.
  - apply h_missing, h_nil.
  - eapply open_set; eassumption.
Qed.
Print Assumptions C96_after_missing.
Example C96_after_missing_example : exists o, version_fits good_file /\ obs_open no_time good_file = Val o /\ h_tbl (o_hdr o) Gps <> None.
Proof. destruct good_file_opens as (o & E & T). exists o. split; [exact good_file_fits|]. split; assumption. Qed.

Theorem C96_full_refuted : ~ C96_full.
Proof.
  intro F. destruct C96_after_missing_example as (o & V & E & T). destruct (C96_after_missing _ _ _ _ V E T) as (A & H & e & B).
  specialize (F _ _ _ _ _ _ _ _ H B A). discriminate F.
Qed.
Print Assumptions C96_full_refuted.

(** nothing but the opening of a missing file is needed for [Missing]; a file with a coordinate that is no double does the same *)
Example C96_out_of_range : obs_open_e no_time (text [hfirst; hpgm;
    "        1e9999         0.000         0.000                  APPROX POSITION XYZ"; hobs4; hend]) false = Val (None, true).
Proof. vm_compute. reflexivity. Qed.

(** programs that only open files which are accepted: errno stays clear and everything is read as in a fresh program *)
Theorem C96_same_partial : forall strp steps e, SpecErrno.history strp false steps e -> Forall (calm strp) steps -> e = false /\
  (forall d, version_fits d -> forall o, obs_open strp d = Val o <-> exists e', obs_open_e strp d e = Val (Some o, e')) /\
  (forall o plan out r, read_next_epoch o plan out = Val r <-> exists e', read_next_epoch_e o plan out e = Val (r, e')).
Proof.
  intros strp steps e H C. assert (E : e = false).
  { cut (forall e0, SpecErrno.history strp e0 steps e -> Forall (calm strp) steps -> e0 = false -> e = false); [intro X; exact (X false H C eq_refl)|].
    clear. intros e0 H. induction H as [e0|e0 l e2 H IH|e0 d r e1 l e2 Hr H IH|e0 o plan out r e1 l e2 Hr H IH]; intros C E0; [exact E0|inversion C as [|? ? C1 C2]; subst; cbn [calm] in C1..].
    - contradiction.
    - destruct C1 as (V & o & Eo). pose proof (open_clear strp d V) as X. rewrite Eo in X. rewrite X in Hr. apply Val_inj in Hr. assert (e1 = false) by congruence. auto.
    - rewrite epoch_clear in Hr. unfold keep in Hr. apply bind_inv in Hr as (r' & _ & Hr). assert (e1 = false) by congruence. auto. }
  subst e. split; [reflexivity|]. split.
  - intros d V o. pose proof (open_clear strp d V) as X. split.
    + intro Eo. rewrite Eo in X. eauto.
    + intros (e' & Y). destruct (obs_open strp d) as [o'| | | |].
      * rewrite X in Y. congruence.
      * destruct X as (e2 & X). rewrite X in Y. discriminate.
      * rewrite X in Y. discriminate.
      * rewrite X in Y. discriminate.
      * rewrite X in Y. discriminate.
  - intros o plan out r. rewrite epoch_clear. unfold keep. destruct (read_next_epoch o plan out) as [r'| | | |]; cbn [bind].
    + split; [intro X; apply Val_inj in X; subst; eauto|intros (e' & X); congruence].
    + split; [intro X; discriminate X|intros (e' & X); discriminate X].
    + split; [intro X; discriminate X|intros (e' & X); discriminate X].
    + split; [intro X; discriminate X|intros (e' & X); discriminate X].
    + split; [intro X; discriminate X|intros (e' & X); discriminate X].
Qed.
Print Assumptions C96_same_partial.
Example C96_same_example : SpecErrno.history no_time false [Open good_file; Open good_file] false /\ Forall (calm no_time) [Open good_file; Open good_file].
Proof.
  destruct good_file_opens as (o & E & T). pose proof (open_clear no_time good_file good_file_fits) as X. rewrite E in X.
  split; [eapply h_open; [exact X|]; eapply h_open; [exact X|]; apply h_nil|]. constructor; [|constructor; [|constructor]]; (split; [exact good_file_fits|exists o; exact E]).
Qed.

(** a conforming file whose first numbers are coordinates: refused, and errno stays set for the next one *)
Definition starts_with_coordinates strp (d : list ascii) : Prop :=
  exists v mid letter sys post second pre x y z lab j items je tail h0 h1 h2,
  d = header_text v mid letter post second (pre ++ ILine (three x y z) lab j :: items) je ++ tail /\
  first_line_ok v mid letter sys post /\ clean second /\ 60 <= length second <= 84 /\ labelled "END OF HEADER" second = false /\
  length pre <= 990 /\ initial_header h0 (num_flt v) sys /\ items_mean strp pre h0 h1 /\ item_means strp (ILine (three x y z) lab j) h1 h2 /\
  coord_ok x /\ coord_ok y /\ coord_ok z /\ j <= 4 /\ (lab = "APPROX POSITION XYZ" \/ lab = "ANTENNA: DELTA H/E/N") /\ Forall number_free pre.
Lemma coordinates_set strp d : starts_with_coordinates strp d -> obs_open_e strp d true = Val (None, true).
Proof.
  intros (v & mid & letter & sys & post & second & pre & x & y & z & lab & j & items & je & tail & h0 & h1 & h2 & -> & A & B & C & D & E & F & G & H & X & Y & Z & J & L & N).
  exact (header_set strp v mid letter sys post second pre x y z lab j items je tail h0 h1 h2 A B C D E F G H X Y Z J L N).
Qed.
Theorem C96_forever : forall strp ds, Forall (starts_with_coordinates strp) ds ->
  SpecErrno.history strp true (map Open ds) true /\
  (forall steps e, SpecErrno.history strp true steps e -> steps = map Open ds -> e = true) /\
  forall d, In d ds -> obs_open_e strp d true = Val (None, true).
Proof.
  intros strp ds F. split; [|split].
  - induction F as [|d ds A F IH]; cbn [map]; [apply h_nil|]. eapply h_open; [exact (coordinates_set strp d A)|exact IH].
  - cut (forall e0 steps e, SpecErrno.history strp e0 steps e -> forall ds, Forall (starts_with_coordinates strp) ds -> e0 = true -> steps = map Open ds -> e = true); [intros X steps e H ES; exact (X true steps e H ds F eq_refl ES)|].
    clear. intros e0 steps e H. induction H as [e0|e0 l e2 H IH|e0 d r e1 l e2 Hr H IH|e0 o plan out r e1 l e2 Hr H IH]; intros ds F E0 ES; (destruct ds as [|d' ds]; cbn [map] in ES; try discriminate ES); [exact E0|].
    inversion F as [|? ? A F']; subst. assert (d = d') by congruence. subst d'. rewrite (coordinates_set strp d A) in Hr. assert (e1 = true) by congruence. subst e1.
    apply (IH ds F' eq_refl). congruence.
  - intros d I. apply coordinates_set. eapply Forall_forall; eassumption.
Qed.
Print Assumptions C96_forever.
Definition cx : numlit := mkNum None (lit "4595220") true (lit "0240") None.
Lemma cx_ok : coord_ok cx.
Proof. unfold coord_ok, num_ok; concrete. Qed.
Example C96_forever_example : exists d o, starts_with_coordinates no_time d /\ obs_open no_time d = Val o /\ h_tbl (o_hdr o) Gps <> None.
Proof.
  destruct hdr_init_val as (a & Ea & _).
  set (h0 := mkHdr (DFin (num_flt v304)) Mixed [] [] [] [] a [DFin 0; DFin 0; DFin 0] [DFin 0; DFin 0; DFin 0] false None smap_empty).
  assert (H0 : initial_header h0 (num_flt v304) Mixed) by (repeat split; exact Ea).
  exists (header_text v304 (lit "BSERVATION DATA    ") "M"%char [] (lit hpgm) ([ILine (lit "DYNG") "MARKER NAME" 0] ++ ILine (three cx cx cx) "APPROX POSITION XYZ" 0 :: [IOther (lit hobs4)]) 0 ++ []).
  eexists. split; [|split; [vm_compute; reflexivity|vm_compute; discriminate]].
  exists v304, (lit "BSERVATION DATA    "), "M"%char, Mixed, [], (lit hpgm), [ILine (lit "DYNG") "MARKER NAME" 0], cx, cx, cx, "APPROX POSITION XYZ", 0, [IOther (lit hobs4)], 0, [], h0. do 2 eexists.
  split; [reflexivity|]. split; [exact first_ok|]. split; [apply lit_clean; reflexivity|]. split; [cbn; lia|]. split; [reflexivity|]. split; [cbn; lia|].
  split; [exact H0|]. split; [eapply ims_cons; [|apply ims_nil]; apply im_name; split; [apply lit_clean; reflexivity|cbn; lia]|].
  split; [apply im_approx; [exact cx_ok|exact cx_ok|exact cx_ok|lia]|]. split; [exact cx_ok|]. split; [exact cx_ok|]. split; [exact cx_ok|]. split; [lia|]. split; [left; reflexivity|].
  constructor; [cbn; tauto|constructor].
Qed.

(** an epoch is lost: its header line is refused (22), nothing is stored, the next read starts at its first record; errno is clear again *)
Theorem C96_epoch_set : forall o plan out l tail, ready o (l ++ NL :: tail) -> clean l -> 35 <= length l -> length l < o_bufsz o -> hd_error l = Some ">"%char ->
  exists r, read_next_epoch_e o plan out true = Val (r, false) /\ er_code r = 22%Z /\ er_out r = out /\ er_sats r = 0 /\ er_hdr r = None /\ ready (er_obj r) tail.
Proof.
  intros o plan out l tail ((G & R) & Lb & H4) Cl L35 Lz Hd. destruct l as [|c l']; [cbn in L35; lia|]. cbn [hd_error] in Hd. assert (c = ">"%char) by congruence. subst c.
  set (l := ">"%char :: l') in *. unfold read_next_epoch_e, peek. rewrite G, R. unfold l at 1. cbn [app]. fold l.
  destruct (getline_line (o_stream o) (o_buf o) (o_bufsz o) l tail (conj G R) (clean_nl _ Cl) Lz ltac:(lia)) as (st1 & Gl & R1 & _). rewrite Gl. cbn [bind].
  unfold resolve_epoch_e. rewrite cstr_overlay by exact (clean_nul _ Cl). cbn [bind]. rewrite (rd_overlay l (o_buf o) 0 ">"%char eq_refl). cbn [bind].
  change (negb (ceqb ">" ">")) with false. cbn [orb]. apply Nat.ltb_ge in L35 as L36. rewrite L36. cbn [epoch_ints_e].
  assert (S2 : exists t, cstr (overlay l (o_buf o)) 2 = Val t) by (eexists; apply cstr_overlay_off; [exact (clean_nul _ Cl)|apply Nat.ltb_ge in L36; lia]).
  destruct S2 as (t & ->). cbn [bind]. destruct (strtol t) as ((v, n), er). cbn [orb bind].
  eexists. split; [reflexivity|]. cbn [er_code er_out er_sats er_hdr er_obj]. split; [reflexivity|]. split; [reflexivity|]. split; [reflexivity|]. split; [reflexivity|].
  unfold ready. cbn [o_stream o_buf o_bufsz]. split; [exact R1|]. split; [rewrite overlay_length; lia|exact H4].
Qed.
Print Assumptions C96_epoch_set.

(** navigation records: with errno clear before a call it is clear after it; with errno set no record is delivered *)
Lemma c2d_errno0 line off N e ok vs e1 : c2d line off N e = Val (ok, vs, e1) -> (ok = true -> e = 0%Z /\ e1 = 0%Z) /\ (e <> 0%Z -> e1 <> 0%Z).
Proof.
  unfold c2d. intro H. apply bind_inv in H as (((ok', vs'), b) & E & H). destruct (char2double_ok _ _ _ _ _ _ _ _ E) as (A & B).
  assert (ok' = ok) by congruence. subst ok'. assert (Q : e1 = if b then (if (e =? 0)%Z then ERANGE else e) else e) by congruence. clear H. split.
  - intros ->. specialize (A eq_refl). subst b. destruct (Z.eqb_spec e 0) as [->|N0]; [auto|]. cbn [negb] in B. discriminate (B eq_refl).
  - intro N0. destruct b; [|congruence]. destruct (Z.eqb_spec e 0); congruence.
Qed.
Lemma mid_errno : forall k ln st line f e r, mid_lines k ln st line f e = Val r ->
  match r with
  | inl x => n_code x <> 0%Z /\ (e = 0%Z -> n_errno x = 0%Z)
  | inr (_, _, _, e') => e = 0%Z -> e' = 0%Z
  end.
Proof.
  induction k as [|k IH]; intros ln st line f e r H; cbn [mid_lines] in H.
  - apply Val_inj in H. subst r. auto.
  - apply bind_inv in H as ((st1, line1) & _ & H). destruct (sfail st1); [apply Val_inj in H; subst r; cbn; split; [discriminate|auto]|].
    apply bind_inv in H as (line2 & _ & H). apply bind_inv in H as (((ok, vs), e1) & E & H). destruct (c2d_errno0 _ _ _ _ _ _ _ E) as (A & _).
    apply bind_inv in H as (d & _ & H). destruct ok.
    + specialize (IH _ _ _ _ _ _ H). destruct (A eq_refl) as (-> & ->). destruct r as [x|(((? & ?) & ?) & ?)]; [destruct IH as (I1 & I2); split; [exact I1|auto]|auto].
    + apply Val_inj in H. subst r. cbn. split; [discriminate|auto].
Qed.
Lemma record_errno strp st f e r : set_from_rnx3 strp st f e = Val r -> (e = 0%Z -> n_errno r = 0%Z) /\ (n_code r = 0%Z -> e = 0%Z).
Proof.
  unfold set_from_rnx3. intro H. apply noexcept_val in H. apply bind_inv in H as ((st1, line) & _ & H).
  destruct (sfail st1); [apply Val_inj in H; subst r; cbn; split; [auto|discriminate]|].
  apply bind_inv in H as (c0 & _ & H). apply bind_inv in H as (sys & _ & H). apply bind_inv in H as (s3 & _ & H). destruct (strp s3) as [toc|]; [|discriminate].
  apply bind_inv in H as (s1 & _ & H). destruct (strtol s1) as ((p, n), er).
  destruct ((to_i32 p =? 0)%Z || _) eqn:Q; [apply Val_inj in H; subst r; cbn; split; [auto|discriminate]|].
  assert (E1 : er = false). { destruct er; [|reflexivity]. rewrite Z.eqb_refl, Bool.orb_true_r in Q. discriminate. }
  subst er. apply bind_inv in H as (m23 & _ & H). apply bind_inv in H as (((ok, vs), e2) & E & H). destruct (c2d_errno0 _ _ _ _ _ _ _ E) as (A & _).
  apply bind_inv in H as (d1 & _ & H). destruct ok; cbn [negb] in H; [|apply Val_inj in H; subst r; cbn; split; [auto|discriminate]].
  destruct (A eq_refl) as (-> & ->). split; [|reflexivity]. intros _. destruct (lines_per_satsys sys) as (nl, last). destruct (_ <? 0)%Z; [apply Val_inj in H; subst r; reflexivity|].
  apply bind_inv in H as (m & Em & H). pose proof (mid_errno _ _ _ _ _ _ _ Em) as M. destruct m as [x|(((st2, line2), f5), e3)].
  { apply Val_inj in H. subst x. apply M. reflexivity. }
  specialize (M eq_refl). subst e3. apply bind_inv in H as ((st3, line3) & _ & H). destruct (sfail st3); [apply Val_inj in H; subst r; reflexivity|].
  apply bind_inv in H as (line4 & _ & H). apply bind_inv in H as (((ok, vs'), e4) & E4 & H). destruct (c2d_errno0 _ _ _ _ _ _ _ E4) as (B & _).
  apply bind_inv in H as (d2 & _ & H). destruct ok; cbn [negb] in H; [|apply Val_inj in H; subst r; reflexivity]. destruct (B eq_refl) as (_ & ->).
  apply bind_inv in H as (f7 & _ & H). destruct sys; try (apply Val_inj in H; subst r; reflexivity); apply bind_inv in H as (toe & _ & H); apply Val_inj in H; subst r; reflexivity.
Qed.
Theorem C96_nav : forall strp st f e r, read_next_record strp st f e = Val r ->
  (e = 0%Z -> n_errno r = 0%Z) /\ (e <> 0%Z -> n_code r <> 0%Z).
Proof.
  intros strp st f e r H. unfold read_next_record in H. destruct (peek st) as (st1, [c|]).
  - destruct (record_errno _ _ _ _ _ H) as (A & B). split; [exact A|]. intros N Z. apply N, B, Z.
  - destruct (seof st1); apply Val_inj in H; subst r; cbn; (split; [auto|discriminate]).
Qed.
Print Assumptions C96_nav.
Theorem C96_nav_find : forall fuel strp st f sys prn p r, find_next fuel strp st f 0 sys prn = Val (p, r) -> n_errno r = 0%Z.
Proof.
  intros fuel strp st f sys prn p r H. unfold find_next in H. destruct (tellg st) as (st0, p0). apply bind_inv in H as (x & E & H). assert (x = r) by congruence. subst x. clear H.
  revert st0 f E. induction fuel as [|k IH]; intros st0 f E; cbn [find_loop] in E; [discriminate|].
  destruct (peak_satsys st0) as ((status, s), st1). destruct (negb (status =? 0)%Z); [apply Val_inj in E; subst r; reflexivity|].
  destruct (satsys_eqb _ _).
  - apply bind_inv in E as (q & Eq & E). destruct (C96_nav _ _ _ _ _ Eq) as (A & _). specialize (A eq_refl).
    destruct (negb (n_code q =? 0)%Z); [apply Val_inj in E; subst r; exact A|]. destruct (_ || _); [apply Val_inj in E; subst q; exact A|]. rewrite A in E. eapply IH. exact E.
  - apply bind_inv in E as ((j, st2) & _ & E). destruct (negb (j =? 0)%Z); [apply Val_inj in E; subst r; reflexivity|]. eapply IH. exact E.
Qed.
Print Assumptions C96_nav_find.
Theorem C96_nav_valid : forall fuel strp t st f sys prn p r, find_next_valid fuel strp t st f 0 sys prn = Val (p, r) -> n_errno r = 0%Z.
Proof.
  intros fuel strp t st f sys prn p r H. unfold find_next_valid in H. destruct (tellg st) as (st0, p0). apply bind_inv in H as (x & E & H). assert (x = r) by congruence. subst x. clear H.
  apply noexcept_val in E. revert st0 f E. induction fuel as [|k IH]; intros st0 f E; cbn [valid_loop] in E; [discriminate|].
  destruct (peak_satsys st0) as ((status, s), st1). destruct (negb (status =? 0)%Z); [apply Val_inj in E; subst r; reflexivity|].
  destruct (satsys_eqb _ _).
  - apply bind_inv in E as (q & Eq & E). destruct (C96_nav _ _ _ _ _ Eq) as (A & _). specialize (A eq_refl).
    destruct (negb (n_code q =? 0)%Z); [apply Val_inj in E; subst r; exact A|]. cbv zeta in E. rewrite A in E.
    destruct (prn =? f_prn (n_frame q))%Z; [|eapply IH; exact E]. destruct (_ && _); [apply Val_inj in E; subst r; reflexivity|].
    apply bind_inv in E as (hh & _ & E). destruct (hh =? 0)%Z; [|eapply IH; exact E]. apply bind_inv in E as (fit & _ & E).
    destruct (negb _); (destruct (_ && _); [apply Val_inj in E; subst q; exact A|eapply IH; exact E]).
  - apply bind_inv in E as ((j, st2) & _ & E). destruct (negb (j =? 0)%Z); [apply Val_inj in E; subst r; reflexivity|]. eapply IH. exact E.
Qed.
Print Assumptions C96_nav_valid.
Example C96_epoch_set_example : exists o, ready o (lit e1 ++ NL :: text [r1; r2]) /\ clean (lit e1) /\ 35 <= length (lit e1) /\ length (lit e1) < o_bufsz o /\ hd_error (lit e1) = Some ">"%char /\
  exists r, read_next_epoch o plan1 (initialize_epoch_vector plan1) = Val r /\ er_code r <> 22%Z.
Proof.
  destruct hdr_init_val as (a & _). exists (mkObsFile (open_stream (text [e1; r1; r2])) (mkHdr (DFin 0) Mixed [] [] [] [] a [] [] false None smap_empty) None (uninit 68) 68).
  split; [split; [split; reflexivity|split; [reflexivity|cbn; lia]]|]. split; [apply lit_clean; reflexivity|]. split; [cbn; lia|]. split; [cbn; lia|]. split; [reflexivity|].
  eexists. split; [vm_compute; reflexivity|]. vm_compute. discriminate.
Qed.

(** the condition [version_fits] holds of every conforming file *)
Theorem C96_conforming_fits : forall v mid letter sys post second items je tail, first_line_ok v mid letter sys post ->
  version_fits (header_text v mid letter post second items je ++ tail).
Proof.
  intros v mid letter sys post second items je tail F. unfold header_text. rewrite <- !app_assoc. cbn [app]. apply (first_line_fits _ _ _ sys). exact F.
Qed.
Print Assumptions C96_conforming_fits.
Example C96_conforming_fits_example : first_line_ok v304 (lit "BSERVATION DATA    ") "M"%char Mixed [].
Proof. exact first_ok. Qed.
