(** ProofAntexPco: phase-centre offsets (C35). *)
From Verif Require Import Base BaseLemmas CNum CNumLemmas Stream ModelSatsys ModelObs ModelNvarstr ModelSatellite ModelAntenna
  ModelAntex SpecText SpecNum SpecObs SpecHeader SpecAntex SpecAntexObj ProofText ProofAntenna ProofNum ProofStream ProofObsTypes ProofObsRec ProofHeader ProofAntex
  ProofAntexFind ProofAntexSkip.
From Verif Require Import ProofSp3.

Lemma skip_until_lines : forall ls fuel st f e t buf n s k, k = String.length s -> ~ In NUL (lit s) -> length buf = n ->
  Forall (fun l => clean l /\ 60 <= length l < n /\ labelled s l = false) ls ->
  clean e -> 60 <= length e < n -> labelled s e = true -> length ls < fuel ->
  on st f (text_of (ls ++ [e]) ++ t) ->
  exists st' b, skip_until fuel st buf n s k = Val (st', overlay e b) /\ length b = n /\ on st' f t.
Proof.
  induction ls as [|l ls IH]; intros fuel st f e t buf n s k K Hs B F Ce Le He N H; (destruct fuel as [|fuel]; [cbn in N; lia|]); cbn [app] in H; cbn [skip_until].
  - destruct (on_text st f _ _ _ buf n H Ce ltac:(lia) ltac:(lia)) as (st1 & E & H1). rewrite E. cbn [bind]. rewrite (on_nofail _ _ _ H1).
    rewrite label_other by (first [exact K|exact Hs|lia]). rewrite He. cbn [bind]. exists st1, buf. auto.
  - inversion F as [|? ? (C & L & E0) F']; subst.
    destruct (on_text st f _ _ _ buf _ H C (proj2 L) ltac:(lia)) as (st1 & E & H1). rewrite E. cbn [bind]. rewrite (on_nofail _ _ _ H1).
    rewrite label_other by (first [reflexivity|exact Hs|lia]). rewrite E0. cbn [bind].
    assert (B1 : length (overlay l buf) = length buf) by (rewrite overlay_length; lia).
    destruct (IH fuel st1 f e t (overlay l buf) (length buf) s _ eq_refl Hs B1 F' Ce Le He ltac:(cbn in N; lia) H1) as (st' & b & E1 & Lb & H2).
    exists st', b. auto.
Qed.

Lemma rd_n_map s r : rd_n (map Some s ++ r) (length s) = Val s.
Proof. induction s as [|c s IH]; [destruct r; reflexivity|]. cbn [map app length rd_n]. rewrite IH. reflexivity. Qed.
Lemma rd_n_overlay a s b buf k n : length a = k -> length s = n -> rd_n (skipn k (overlay (a ++ s ++ b) buf)) n = Val s.
Proof.
  intros <- <-. unfold overlay. rewrite !map_app, <- !app_assoc. rewrite skipn_app_exact by (symmetry; apply map_length). apply rd_n_map.
Qed.

(** the numbers of the NORTH / EAST / UP line *)
Lemma stod_ten_field a n b buf k : length a = k -> num_ok n -> length (num_text n) <= 10 ->
  stod_ten (overlay (a ++ rjust 10 (num_text n) ++ b) buf) k = Val (DFin (num_val n)).
Proof.
  intros L H N. unfold stod_ten. rewrite rd_n_overlay by (first [exact L|apply length_rjust; exact N]). cbn [bind].
  unfold cbuf, cstr. cbn [skipn]. rewrite cstr0_app by (apply clean_nul, rjust_clean, num_text_clean, H). cbn [bind]. unfold stod.
  rewrite <- (app_nil_r (rjust 10 _)). rewrite strtod_rjust; [reflexivity|exact H|exact N|exact I].
Qed.

(** stoi of two digits *)
Lemma stoi_digits w ds : digits ds -> ds <> [] -> length ds <= w -> w <= 9 -> stoi (rjust w ds) = Val (dec_val ds).
Proof.
  intros D N L W. unfold stoi. rewrite <- (app_nil_r (rjust w ds)).
  destruct (ProofObsRec.strtol_rjust w ds [] (conj D (conj N L)) ltac:(lia) I) as (E & R). rewrite E.
  assert (w <> 0) by (destruct ds; [congruence|cbn in L; lia]). destruct w as [|w]; [congruence|]. cbn [orb].
  assert (10 ^ Z.of_nat (S w) <= 10 ^ 9)%Z by (apply Z.pow_le_mono_r; lia). change (10 ^ 9)%Z with 1000000000%Z in *.
  destruct (Z.gtb_spec (dec_val ds) 2147483647); [lia|]. destruct (Z.ltb_spec (dec_val ds) (-2147483648)); [lia|]. reflexivity.
Qed.


(** ** lines *)
Lemma fs_len60 q : freq_ok q -> length (blanks 3 ++ [q_letter q] ++ q_band q ++ q_stext q) = 60.
Proof. intros (_ & _ & L & _ & _ & _ & (_ & Ls) & _). rewrite !app_length, L, Ls. reflexivity. Qed.
Lemma fs_eq q : freq_ok q -> freq_start q = (blanks 3) ++ [q_letter q] ++ q_band q ++ q_stext q ++ lit "START OF FREQUENCY" ++ blanks (q_pad q).
Proof. intro H. unfold freq_start, header_line, ljust. rewrite fs_len60 by exact H. cbn [Nat.sub blanks repeat]. rewrite app_nil_r, <- !app_assoc. reflexivity. Qed.
Lemma digits_clean s : digits s -> clean s.
Proof. intro H. eapply Forall_impl; [|exact H]. intros c D. unfold digit in D. split; intros ->; cbn in D; lia. Qed.
Lemma fs_facts q : freq_ok q -> clean (freq_start q) /\ length (freq_start q) = 78 + q_pad q /\ labelled "START OF FREQUENCY" (freq_start q) = true.
Proof.
  intro H. pose proof (fs_len60 q H) as L. destruct H as (Hl & D & L2 & _ & _ & _ & (Cs & Ls) & _). split; [|split].
  - apply hl_clean; [|apply lit_ok; reflexivity]. apply clean_app. split; [apply clean_blanks|]. constructor; [eapply letters_clean; eauto|].
    apply clean_app. split; [apply digits_clean, D|exact Cs].
  - unfold freq_start. rewrite hl_length by lia. reflexivity.
  - unfold freq_start. rewrite labelled_hl by lia. reflexivity.
Qed.
Lemma fn_len60 q : freq_ok q -> length (rjust 10 (num_text (q_n q)) ++ rjust 10 (num_text (q_e q)) ++ rjust 10 (num_text (q_u q)) ++ q_ntext q) = 60.
Proof.
  intros (_ & _ & _ & (_ & A & _) & (_ & B & _) & (_ & C & _) & _ & (_ & Ln) & _).
  rewrite !app_length, !length_rjust by assumption. rewrite Ln. reflexivity.
Qed.
Lemma fn_eq q : freq_ok q -> freq_neu q = rjust 10 (num_text (q_n q)) ++ rjust 10 (num_text (q_e q)) ++ rjust 10 (num_text (q_u q)) ++ q_ntext q ++
  lit "NORTH / EAST / UP" ++ blanks (q_pad q).
Proof. intro H. unfold freq_neu, header_line, ljust. rewrite fn_len60 by exact H. cbn [Nat.sub blanks repeat]. rewrite app_nil_r, <- !app_assoc. reflexivity. Qed.
Lemma fn_facts q : freq_ok q -> clean (freq_neu q) /\ length (freq_neu q) = 77 + q_pad q /\ labelled "NORTH / EAST / UP" (freq_neu q) = true.
Proof.
  intro H. pose proof (fn_len60 q H) as L. destruct H as (Hl & D & L2 & (N1 & _) & (N2 & _) & (N3 & _) & _ & (Cs & Ls) & _). split; [|split].
  - apply hl_clean; [|apply lit_ok; reflexivity]. apply clean_app. split; [apply rjust_clean, num_text_clean, N1|].
    apply clean_app. split; [apply rjust_clean, num_text_clean, N2|]. apply clean_app. split; [apply rjust_clean, num_text_clean, N3|exact Cs].
  - unfold freq_neu. rewrite hl_length by lia. reflexivity.
  - unfold freq_neu. rewrite labelled_hl by lia. reflexivity.
Qed.
Lemma hl_facts s p : String.length s + p <= 24 -> clean (lit s) ->
  clean (header_line [] (lit s) p) /\ 60 <= length (header_line [] (lit s) p) <= 84 /\ labelled s (header_line [] (lit s) p) = true.
Proof.
  intros L C. assert (Q : length (lit s) = String.length s) by (clear; induction s; cbn; congruence).
  split; [apply hl_clean; [constructor|exact C]|]. split; [rewrite hl_length by (cbn; lia); lia|].
  rewrite labelled_hl by (cbn; lia). rewrite firstn_app, <- Q, Nat.sub_diag, firstn_O, app_nil_r, firstn_all. apply list_eqb_eq. reflexivity.
Qed.

(** one frequency: from its START line in the buffer to the line after END OF FREQUENCY *)
Definition grid_fuel (q : freq_src) : nat := length (q_grid q) + match q_rms q with Some ls => length ls | None => 0 end.

Lemma one_freq q fuel st f t hb gb n l : freq_ok q -> length hb = 85 -> length gb = 512 -> length (q_grid q) < fuel ->
  on st f (text_of (freq_neu q :: q_grid q ++ [header_line [] (lit "END OF FREQUENCY") (q_pad q)]) ++ t) ->
  exists st' h2 g2, on st' f t /\ length h2 = 85 /\ length g2 = 512 /\
  pco_loop (S n) fuel st (overlay (freq_start q) hb) gb l =
    (do r <- getline st' h2 ATX_HEADER_CHARS; let '(st4, h3) := r in pco_loop n fuel st4 h3 g2 (l ++ [freq_pco q])).
Proof.
  intros Hq Hb Gb Hf H. destruct (fs_facts q Hq) as (Cs & Ls & Es). destruct (fn_facts q Hq) as (Cn & Ln & En).
  pose proof Hq as (Hl & D & L2 & (N1 & M1 & _) & (N2 & M2 & _) & (N3 & M3 & _) & (_ & Lst) & (_ & Lnt) & Fg & _ & Hp).
  cbn [pco_loop]. rewrite (on_nofail _ _ _ H). rewrite label_other by (first [reflexivity|nonul_lit|lia]). rewrite Es. cbn [bind].
  assert (C3 : rd (overlay (freq_start q) hb) 3 = Val (q_letter q)) by (apply rd_overlay; rewrite fs_eq by exact Hq; reflexivity).
  rewrite C3. cbn [bind]. apply char_to_satsys_spec in Hl. rewrite Hl. cbn [bind].
  assert (B4 : stoi_at (overlay (freq_start q) hb) 4 2 = Val (dec_val (q_band q))).
  { unfold stoi_at. rewrite fs_eq by exact Hq. rewrite app_assoc. rewrite rd_n_overlay by (first [reflexivity|exact L2]). cbn [bind].
    replace (q_band q) with (rjust 2 (q_band q)) at 1 by (unfold rjust; rewrite L2; reflexivity).
    apply stoi_digits; [exact D|destruct (q_band q); discriminate|lia|lia]. }
  rewrite B4. cbn [bind].
  destruct (on_text st f _ _ _ (overlay (freq_start q) hb) 85 H Cn ltac:(lia) ltac:(rewrite overlay_length; lia)) as (st2 & E2 & H2).
  change ATX_HEADER_CHARS with 85. rewrite E2. cbn [bind]. rewrite (on_nofail _ _ _ H2).
  rewrite label_other by (first [reflexivity|nonul_lit|lia]). rewrite En. cbn [bind negb].
  set (hb1 := overlay (freq_start q) hb). assert (Lhb1 : length hb1 = 85) by (unfold hb1; rewrite overlay_length; lia).
  assert (S1 : stod_ten (overlay (freq_neu q) hb1) 0 = Val (DFin (num_val (q_n q)))).
  { rewrite fn_eq by exact Hq. apply (stod_ten_field []); auto. }
  assert (S2 : stod_ten (overlay (freq_neu q) hb1) 10 = Val (DFin (num_val (q_e q)))).
  { rewrite fn_eq by exact Hq. apply stod_ten_field; auto. apply length_rjust. exact M1. }
  assert (S3 : stod_ten (overlay (freq_neu q) hb1) 20 = Val (DFin (num_val (q_u q)))).
  { rewrite fn_eq by exact Hq. rewrite app_assoc. apply stod_ten_field; auto. rewrite app_length, !length_rjust by assumption. reflexivity. }
  rewrite S1, S2, S3. cbn [bind].
  destruct (hl_facts "END OF FREQUENCY" (q_pad q) ltac:(cbn; lia) ltac:(apply lit_ok; reflexivity)) as (Ce & Le & He).
  assert (FF : Forall (fun l => clean l /\ 60 <= length l < 512 /\ labelled "END OF FREQUENCY" l = false) (q_grid q)).
  { eapply Forall_impl; [|exact Fg]. intros x ((A & B) & C). repeat split; auto; lia. }
  destruct (skip_until_lines (q_grid q) fuel st2 f _ t gb 512 "END OF FREQUENCY" 16 eq_refl ltac:(nonul_lit) Gb FF Ce ltac:(lia) He Hf H2) as (st3 & b & E3 & Lb & H3).
  change ATX_GRID_CHARS with 512. rewrite E3. cbn [bind].
  exists st3, (overlay (freq_neu q) hb1), (overlay (header_line [] (lit "END OF FREQUENCY") (q_pad q)) b).
  split; [exact H3|]. split; [rewrite overlay_length; lia|]. split; [rewrite overlay_length; lia|]. reflexivity.
Qed.

(** all frequencies *)
Lemma all_freqs : forall qs q fuel st f t hb gb l, Forall freq_ok (q :: qs) -> length hb = 85 -> length gb = 512 ->
  Forall (fun q => grid_fuel q < fuel) (q :: qs) ->
  on st f (text_of (freq_neu q :: q_grid q ++ [header_line [] (lit "END OF FREQUENCY") (q_pad q)]) ++ text_of (rms_lines q) ++ text_of (flat_map freq_lines qs) ++ t) ->
  exists st', pco_loop (S (length qs)) fuel st (overlay (freq_start q) hb) gb l = Val (0%Z, l ++ map freq_pco (q :: qs), st') /\ sdata st' = f /\
    (forall l' t', t = l' ++ NL :: t' -> clean l' -> length l' <= 84 -> sfail st' = false).
Proof.
  induction qs as [|q' qs IH]; intros q fuel st f t hb gb l F Hb Gb Hf H.
  - inversion F as [|? ? Hq _]; subst. inversion Hf as [|? ? Fq _]; subst.
    destruct (one_freq q fuel st f _ hb gb 0 l Hq Hb Gb ltac:(unfold grid_fuel in Fq; lia) H) as (st1 & h2 & g2 & H1 & L2 & G2 & E).
    cbn [length]. rewrite E. change ATX_HEADER_CHARS with 85.
    destruct (getline_cases st1 h2 85 ltac:(lia) ltac:(lia)) as (st2 & l2 & E2 & _ & _ & D2 & _). rewrite E2. cbn [bind pco_loop].
    exists st2. split; [reflexivity|]. split; [rewrite D2; apply H1|]. intros l' t' -> Cl Ll.
    assert (NF : forall l0 t0, on st1 f (l0 ++ NL :: t0) -> clean l0 -> length l0 <= 84 -> sfail st2 = false).
    { intros l0 t0 Hl C0 L0. destruct (on_line st1 f l0 t0 h2 85 Hl C0 ltac:(lia) ltac:(lia)) as (st3 & E3 & H3). rewrite E3 in E2.
      apply Val_inj in E2. injection E2 as -> _. exact (on_nofail _ _ _ H3). }
    change (text_of (flat_map freq_lines [])) with (@nil ascii) in H1. cbn [app] in H1.
    unfold rms_lines in H1. destruct (q_rms q) as [rl|]; [|eapply NF; [exact H1|exact Cl|exact Ll]].
    rewrite text_of_one in H1. assert (Hp : q_pad q <= 6) by apply Hq.
    destruct (hl_facts "START OF FREQ RMS" (q_pad q) ltac:(cbn; lia) ltac:(apply lit_ok; reflexivity)) as (Cr & Lr & Er).
    eapply NF; [exact H1|exact Cr|lia].
  - inversion F as [|? ? Hq F']; subst. inversion Hf as [|? ? Fq Hf']; subst. inversion F' as [|? ? Hq' _]; subst. inversion Hf' as [|? ? Fq' _]; subst.
    destruct (one_freq q fuel st f _ hb gb (S (length qs)) l Hq Hb Gb ltac:(unfold grid_fuel in Fq; lia) H) as (st1 & h2 & g2 & H1 & L2 & G2 & E).
    cbn [length]. rewrite E. clear E.
    replace (l ++ map freq_pco (q :: q' :: qs)) with ((l ++ [freq_pco q]) ++ map freq_pco (q' :: qs)) by (rewrite <- app_assoc; reflexivity).
    destruct (fs_facts q' Hq') as (Cs & Ls & Es). assert (Hp' : q_pad q' <= 6) by apply Hq'.
    cbn [flat_map] in H1. rewrite text_of_app, <- app_assoc in H1.
    assert (HT : text_of (freq_lines q') ++ text_of (flat_map freq_lines qs) ++ t =
      freq_start q' ++ NL :: (text_of (freq_neu q' :: q_grid q' ++ [header_line [] (lit "END OF FREQUENCY") (q_pad q')]) ++ text_of (rms_lines q') ++ text_of (flat_map freq_lines qs) ++ t)).
    { unfold freq_lines at 1. rewrite !text_of_one. f_equal. f_equal. f_equal. f_equal. rewrite !text_of_app, <- !app_assoc. reflexivity. }
    rewrite HT in H1. clear HT.
    destruct (q_rms q) as [rl|] eqn:ER.
    + (* the line read is START OF FREQ RMS *)
      unfold rms_lines in H1 at 1. rewrite ER in H1.
      destruct (hl_facts "START OF FREQ RMS" (q_pad q) ltac:(pose proof Hq as (_ & _ & _ & _ & _ & _ & _ & _ & _ & _ & K); cbn; lia) ltac:(apply lit_ok; reflexivity)) as (Cr & Lr & Er).
      destruct (hl_facts "END OF FREQ RMS" (q_pad q) ltac:(pose proof Hq as (_ & _ & _ & _ & _ & _ & _ & _ & _ & _ & K); cbn; lia) ltac:(apply lit_ok; reflexivity)) as (Cx & Lx & Ex).
      destruct (on_text st1 f _ _ _ h2 85 H1 Cr ltac:(lia) ltac:(lia)) as (st2 & E2 & H2). change ATX_HEADER_CHARS with 85. rewrite E2. cbn [bind].
      cbn [pco_loop]. rewrite (on_nofail _ _ _ H2). rewrite label_other by (first [reflexivity|nonul_lit|lia]).
      assert (NF : labelled "START OF FREQUENCY" (header_line [] (lit "START OF FREQ RMS") (q_pad q)) = false) by (rewrite labelled_hl by (cbn; lia); reflexivity).
      rewrite NF. cbn [bind]. rewrite label_other by (first [reflexivity|nonul_lit|lia]). rewrite Er. cbn [bind].
      assert (FF : Forall (fun l => clean l /\ 60 <= length l < 512 /\ labelled "END OF FREQ RMS" l = false) rl).
      { pose proof Hq as (_ & _ & _ & _ & _ & _ & _ & _ & _ & Fr & _). rewrite ER in Fr. eapply Forall_impl; [|exact Fr]. intros x ((A & B) & C). repeat split; auto; lia. }
      assert (Fr' : length rl < fuel) by (unfold grid_fuel in Fq; rewrite ER in Fq; lia).
      destruct (skip_until_lines rl fuel st2 f _ _ g2 512 "END OF FREQ RMS" 15 eq_refl ltac:(nonul_lit) G2 FF Cx ltac:(lia) Ex Fr' H2) as (st3 & b & E3 & Lb & H3).
      change ATX_GRID_CHARS with 512. rewrite E3. cbn [bind].
      set (h3 := overlay (header_line [] (lit "START OF FREQ RMS") (q_pad q)) h2). assert (L3 : length h3 = 85) by (unfold h3; rewrite overlay_length; lia).
      destruct (on_line st3 f _ _ h3 85 H3 Cs ltac:(lia) ltac:(lia)) as (st4 & E4 & H4). change ATX_HEADER_CHARS with 85. rewrite E4. cbn [bind].
      rewrite (on_nofail _ _ _ H4). rewrite label_other by (first [reflexivity|nonul_lit|lia]). rewrite Es. cbn [bind].
      (* now the same as a loop entered with the START line in the buffer *)
      assert (B5 : length (overlay (header_line [] (lit "END OF FREQ RMS") (q_pad q)) b) = 512) by (rewrite overlay_length; lia).
      destruct (IH q' fuel st4 f t h3 _ (l ++ [freq_pco q]) F' L3 B5 Hf' H4) as (st' & E5 & D5).
      exists st'. split; [|exact D5]. rewrite <- E5. cbn [pco_loop]. rewrite (on_nofail _ _ _ H4).
      rewrite label_other by (first [reflexivity|nonul_lit|lia]). rewrite Es. cbn [bind]. reflexivity.
    + unfold rms_lines in H1 at 1. rewrite ER in H1. change (text_of []) with (@nil ascii) in H1. cbn [app] in H1.
      destruct (on_line st1 f _ _ h2 85 H1 Cs ltac:(lia) ltac:(lia)) as (st2 & E2 & H2). change ATX_HEADER_CHARS with 85. rewrite E2. cbn [bind].
      apply (IH q' fuel st2 f t h2 g2); auto.
Qed.

Lemma read_label st f l t buf s k : on st f (l ++ NL :: t) -> label_line l -> labelled s l = true -> length buf = 85 -> k = String.length s -> ~ In NUL (lit s) ->
  exists st', getline st buf 85 = Val (st', overlay l buf) /\ on st' f t /\ sfail st' = false /\ label (overlay l buf) s k = Val true /\ length (overlay l buf) = 85.
Proof.
  intros H (C & L) Lb B -> Hs. destruct (on_line st f l t buf 85 H C ltac:(lia) ltac:(lia)) as (st' & E & H1). exists st'.
  split; [exact E|]. split; [exact H1|]. split; [exact (on_nofail _ _ _ H1)|]. rewrite label_other by (first [reflexivity|exact Hs|lia]). rewrite Lb.
  split; [reflexivity|]. rewrite overlay_length; lia.
Qed.

Theorem collect_exact k fuel st f t l : pcob_ok k -> length (k_opt k) < fuel -> Forall (fun q => grid_fuel q < fuel) (k_freqs k) ->
  on st f (text_of (pcob_lines k) ++ t) ->
  exists st', collect_pco fuel st l = Val (0%Z, l ++ map freq_pco (k_freqs k), st') /\ sdata st' = f /\
    (forall l' t', t = l' ++ NL :: t' -> clean l' -> length l' <= 84 -> sfail st' = false).
Proof.
  intros (L1 & E1 & L2 & E2 & L3 & E3 & Fc & Dc & (Cc & Lc) & Hp & Fo & Nq & Fq) Hf Hg H.
  assert (L60 : length (rjust 6 (k_count k) ++ k_cmore k) = 60) by (rewrite app_length, length_rjust by apply Fc; rewrite Lc; reflexivity).
  set (cl := header_line (rjust 6 (k_count k) ++ k_cmore k) (lit "# OF FREQUENCIES") (k_cpad k)) in *.
  assert (L4 : label_line cl).
  { split; [apply hl_clean; [|apply lit_ok; reflexivity]; apply clean_app; split; [apply rjust_clean, digits_clean, Fc|exact Cc]|].
    unfold cl. rewrite hl_length by lia. cbn [lit length]. lia. }
  assert (E4 : labelled "# OF FREQUENCIES" cl = true) by (unfold cl; rewrite labelled_hl by lia; reflexivity).
  unfold pcob_lines in H. cbn [app] in H. fold cl in H. rewrite !text_of_one in H.
  unfold collect_pco. change ATX_HEADER_CHARS with 85.
  destruct (read_label st f _ _ (uninit 85) "METH / BY / # / DATE" 20 H L1 E1 (len_uninit 85) eq_refl ltac:(nonul_lit)) as (st1 & G1 & H1 & S1 & B1 & Q1).
  rewrite G1. cbn [bind]. rewrite S1, B1. cbn [bind negb].
  destruct (read_label st1 f _ _ _ "DAZI" 4 H1 L2 E2 Q1 eq_refl ltac:(nonul_lit)) as (st2 & G2 & H2 & S2 & B2 & Q2).
  rewrite G2. cbn [bind]. rewrite S2, B2. cbn [bind negb].
  destruct (read_label st2 f _ _ _ "ZEN1 / ZEN2 / DZEN" 18 H2 L3 E3 Q2 eq_refl ltac:(nonul_lit)) as (st3 & G3 & H3 & S3 & B3 & Q3).
  rewrite G3. cbn [bind]. rewrite S3, B3. cbn [bind negb].
  destruct (read_label st3 f _ _ _ "# OF FREQUENCIES" 16 H3 L4 E4 Q3 eq_refl ltac:(nonul_lit)) as (st4 & G4 & H4 & S4 & B4 & Q4).
  rewrite G4. cbn [bind]. rewrite S4, B4. cbn [bind negb].
  set (b3 := overlay (k_zen k) (overlay (k_dazi k) (overlay (k_meth k) (uninit 85)))) in *.
  assert (SI : stoi_at (overlay cl b3) 0 6 = Val (Z.of_nat (length (k_freqs k)))).
  { unfold stoi_at, cl, header_line, ljust. rewrite L60. cbn [Nat.sub blanks repeat]. rewrite app_nil_r, <- !app_assoc.
    match goal with |- context [overlay (rjust 6 (k_count k) ++ ?b) b3] =>
      pose proof (rd_n_overlay [] (rjust 6 (k_count k)) b b3 0 6 eq_refl (length_rjust 6 _ (proj2 (proj2 Fc)))) as X end.
    cbn [app] in X. rewrite X. cbn [bind]. rewrite <- Dc.
    destruct Fc as (A & B & C). apply stoi_digits; auto; lia. }
  rewrite SI. rewrite Nat2Z.id.
  destruct (k_freqs k) as [|q qs] eqn:Ek; [congruence|]. inversion Fq as [|? ? Hq Fq']; subst.
  destruct (fs_facts q Hq) as (Cs & Ls & Es). assert (Hp' : q_pad q <= 6) by apply Hq.
  assert (HT : text_of (k_opt k ++ flat_map freq_lines (q :: qs)) ++ t = text_of (k_opt k ++ [freq_start q]) ++
    (text_of (freq_neu q :: q_grid q ++ [header_line [] (lit "END OF FREQUENCY") (q_pad q)]) ++ text_of (rms_lines q) ++ text_of (flat_map freq_lines qs) ++ t)).
  { cbn [flat_map]. unfold freq_lines at 1. cbn [app]. rewrite (text_of_app (k_opt k)), (text_of_app (k_opt k)), <- !app_assoc. f_equal.
    rewrite !text_of_one. change (text_of []) with (@nil ascii). cbn [app]. f_equal. f_equal. f_equal. f_equal. rewrite !text_of_app, <- !app_assoc. f_equal.
    rewrite !text_of_one. change (text_of []) with (@nil ascii). cbn [app]. rewrite ?text_of_app, <- ?app_assoc. reflexivity. }
  rewrite HT in H4. clear HT.
  assert (FF : Forall (fun l => clean l /\ 60 <= length l < 85 /\ labelled "START OF FREQUENCY" l = false) (k_opt k)).
  { eapply Forall_impl; [|exact Fo]. intros x ((A & B) & C). repeat split; auto; lia. }
  destruct (skip_until_lines (k_opt k) fuel st4 f (freq_start q) _ (overlay cl b3) 85 "START OF FREQUENCY" 18 eq_refl ltac:(nonul_lit) Q4 FF Cs ltac:(lia) Es Hf H4) as (st5 & b & G5 & Lb & H5).
  rewrite G5. cbn [bind].
  destruct (all_freqs qs q fuel st5 f t b (uninit ATX_GRID_CHARS) l Fq Lb (len_uninit 512) Hg H5) as (st' & G6 & D6).
  cbn [length]. rewrite G6. exists st'. split; [reflexivity|exact D6].
Qed.

(** ** on every stream: what code 0 means *)
Lemma pco_grows : forall n fuel st h g l code l' st', pco_loop n fuel st h g l = Val (code, l', st') ->
  exists added, l' = l ++ added /\ length added <= n /\ (code = 0%Z -> length added = n).
Proof.
  induction n as [|n IH]; intros fuel st h g l code l' st' H; cbn [pco_loop] in H.
  - apply Val_inj in H. injection H as <- <- _. exists []. rewrite app_nil_r. auto.
  - apply bind_val in H as (a & _ & H). apply bind_val in H as (pre & Hpre & H). destruct pre as [[c st1]|[[st1 h1] g1]].
    + apply Val_inj in H. injection H as <- <- _. exists []. rewrite app_nil_r. split; [reflexivity|]. split; [cbn; lia|].
      intros ->. exfalso. destruct a; [discriminate|]. apply bind_val in Hpre as (rms & _ & Hpre). destruct rms.
      * apply bind_val in Hpre as ([s1 g1] & _ & Hpre). apply bind_val in Hpre as ([s2 h1] & _ & Hpre). apply bind_val in Hpre as (ok & _ & Hpre).
        destruct ok; apply Val_inj in Hpre; discriminate Hpre.
      * apply Val_inj in Hpre. discriminate Hpre.
    + apply bind_val in H as (c & _ & H). destruct (do ss <- char_to_satsys c; do bn <- stoi_at h1 4 2; Val (ss, bn)) as [[ss bn]| | | |]; try discriminate H.
      * apply bind_val in H as ([st2 h2] & _ & H). apply bind_val in H as (ok & _ & H). destruct ok; cbn [negb] in H.
        -- apply bind_val in H as (dn & _ & H). apply bind_val in H as (de & _ & H). apply bind_val in H as (du & _ & H).
           apply bind_val in H as ([st3 g2] & _ & H). apply bind_val in H as ([st4 h3] & _ & H).
           apply IH in H as (added & -> & L & Z0). rewrite <- app_assoc. eexists. split; [reflexivity|]. cbn [length app]. split; [lia|]. intro Hc. rewrite (Z0 Hc). reflexivity.
        -- apply Val_inj in H. injection H as <- <- _. exists []. rewrite app_nil_r. split; [reflexivity|]. split; [cbn; lia|discriminate].
      * apply Val_inj in H. injection H as <- <- _. exists []. rewrite app_nil_r. split; [reflexivity|]. split; [cbn; lia|discriminate].
Qed.
Theorem collect_counts fuel st f l1 l2 l3 l4 t l l' st' : label_line l1 -> label_line l2 -> label_line l3 -> label_line l4 ->
  on st f (text_of [l1; l2; l3; l4] ++ t) -> collect_pco fuel st l = Val (0%Z, l', st') ->
  exists n added, stoi (firstn 6 l4) = Val n /\ l' = l ++ added /\ length added = Z.to_nat n.
Proof.
  intros (C1 & L1) (C2 & L2) (C3 & L3) (C4 & L4) H HC. rewrite !text_of_one in H. change (text_of []) with (@nil ascii) in H. cbn [app] in H.
  unfold collect_pco in HC. change ATX_HEADER_CHARS with 85 in HC.
  destruct (on_line st f _ _ (uninit 85) 85 H C1 ltac:(lia) ltac:(rewrite len_uninit; lia)) as (st1 & E1 & H1). rewrite E1 in HC. cbn [bind] in HC.
  assert (B1 : length (overlay l1 (uninit 85)) = 85) by (rewrite overlay_length; rewrite len_uninit; lia).
  destruct (on_line st1 f _ _ _ 85 H1 C2 ltac:(lia) ltac:(rewrite B1; lia)) as (st2 & E2 & H2).
  assert (B2 : length (overlay l2 (overlay l1 (uninit 85))) = 85) by (rewrite overlay_length; rewrite B1; lia).
  destruct (on_line st2 f _ _ _ 85 H2 C3 ltac:(lia) ltac:(rewrite B2; lia)) as (st3 & E3 & H3).
  assert (B3 : length (overlay l3 (overlay l2 (overlay l1 (uninit 85)))) = 85) by (rewrite overlay_length; rewrite B2; lia).
  destruct (on_line st3 f _ _ _ 85 H3 C4 ltac:(lia) ltac:(rewrite B3; lia)) as (st4 & E4 & H4).
  assert (NE : forall (x : outcome (Z * list pco * stream)) v, noexcept x = Val v -> x = Val v) by (intros [| | | |] v Hv; try discriminate Hv; exact Hv).
  apply NE in HC.
  apply bind_val in HC as (k1 & _ & HC). destruct k1; cbn [negb] in HC; [|apply Val_inj in HC; discriminate HC]. rewrite E2 in HC. cbn [bind] in HC.
  apply bind_val in HC as (k2 & _ & HC). destruct k2; cbn [negb] in HC; [|apply Val_inj in HC; discriminate HC]. rewrite E3 in HC. cbn [bind] in HC.
  apply bind_val in HC as (k3 & _ & HC). destruct k3; cbn [negb] in HC; [|apply Val_inj in HC; discriminate HC]. rewrite E4 in HC. cbn [bind] in HC.
  apply bind_val in HC as (k4 & _ & HC). destruct k4; cbn [negb] in HC; [|apply Val_inj in HC; discriminate HC].
  assert (SI : stoi_at (overlay l4 (overlay l3 (overlay l2 (overlay l1 (uninit 85))))) 0 6 = stoi (firstn 6 l4)).
  { unfold stoi_at. pose proof (rd_n_overlay [] (firstn 6 l4) (skipn 6 l4) (overlay l3 (overlay l2 (overlay l1 (uninit 85)))) 0 6 eq_refl ltac:(rewrite firstn_length; lia)) as X.
    cbn [app] in X. rewrite firstn_skipn in X. rewrite X. reflexivity. }
  rewrite SI in HC. destruct (stoi (firstn 6 l4)) as [n| | | |] eqn:EN; try discriminate HC.
  apply bind_val in HC as ([st5 h5] & _ & HC). apply pco_grows in HC as (added & -> & _ & Z0). exists n, added. split; [reflexivity|]. split; [reflexivity|]. auto.
Qed.
