(** ProofNavMisc: blocks that are refused, although they conform or nearly so, and malformed blocks (C39, C67) *)
From Verif Require Import Base BaseLemmas CNum CNumLemmas Stream ModelSatsys ModelNvarstr ModelNav SpecText SpecNum SpecObs SpecNav
  ProofText ProofNum ProofStream ProofEpoch ProofObsMisc ProofNav ProofNavBlock ProofNavFile ProofNavFind ProofNavList.

Lemma c2d_errno : forall N m off M vs, char2double m off N M false = Val (true, vs, false) -> char2double m off N M true = Val (false, vs, true).
Proof.
  induction N; cbn [char2double]; intros m off M vs H; [injection H as <-; reflexivity|].
  apply bind_inv in H as (s & Es & H). rewrite Es. cbn [bind]. destruct (strtod s) as [[v n] er]. destruct (n =? 0); [discriminate|].
  apply bind_inv in H as ([[ok vs'] e'] & Er & H). injection H as -> <- ->. cbn [orb] in *. destruct er.
  { exfalso. revert Er. clear. generalize (off + M). revert vs'. induction N; cbn [char2double]; intros vs' o H; [discriminate|].
    apply bind_inv in H as (s & _ & H). destruct (strtod s) as [[v n] er]. destruct (n =? 0); [discriminate|].
    apply bind_inv in H as ([[ok w] e'] & Er & H). injection H as -> _ ->. exact (IHN _ _ Er). }
  rewrite (IHN _ _ _ _ Er). reflexivity.
Qed.
(** a conforming block is refused when errno was not 0 before the call; one line has been taken *)
Lemma head_errno strp cal b tail st f e : reads_dates strp cal -> block_ok b -> 3 <= length (f_data f) -> e <> 0%Z ->
  at_rest st (head_line b ++ NL :: tail) ->
  exists c g st', set_from_rnx3 strp st f e = Val (mkNav c g st' 0) /\ at_rest st' tail /\ (c = 2%Z \/ c = 3%Z).
Proof.
  intros RD Ok L3 Ne R. pose proof (head_clean b Ok) as C. pose proof (head23_length b Ok) as L23. pose proof (clk_length b Ok) as Lc.
  assert (Lh : length (head_line b) = 23 + length (clk_text b)) by (rewrite head_split, app_length; lia).
  destruct (getline_line st (uninit 128) 128 (head_line b) tail R (clean_nl _ C) ltac:(lia) ltac:(unfold uninit; rewrite repeat_length; lia))
    as (st1 & G & R1 & D & _ & _ & Fl).
  set (line1 := overlay (head23 b ++ map d2e (clk_text b)) (uninit 128)).
  
  assert (L1 : length line1 = 128).
  { unfold line1. rewrite overlay_length; unfold uninit; rewrite ?repeat_length, ?app_length, ?map_length; lia. }
  unfold set_from_rnx3. rewrite G. cbn [bind]. rewrite Fl.
  pose proof Ok as (Lt & NM & P & P0 & Dt & Lk & Fk & _).
  rewrite (rd_overlay _ _ 0 (b_letter b)) by reflexivity. cbn [bind]. rewrite (letter_sys _ _ Lt). cbn [bind].
  rewrite cstr_overlay_off by (try lia; apply clean_nul, C). cbn [bind].
  assert (E3 : skipn 3 (head_line b) = date_text (b_date b) ++ clk_text b).
  { rewrite head_split. unfold head23. rewrite <- !app_assoc. rewrite app_assoc. rewrite skipn_app, skipn_all2.
    - rewrite app_length, rjust_length by apply P. reflexivity.
    - rewrite app_length, rjust_length by apply P. cbn; lia. }
  rewrite E3. rewrite (RD (b_date b) (clk_text b) Dt).
  2:{ pose proof (clk_soft b Ok) as S. destruct (clk_text b) as [|c r]; [exact I|]. destruct S as [->|[->| ->]]; split; try discriminate; unfold digit; vm_compute; lia. }
  rewrite cstr_overlay_off by (try lia; apply clean_nul, C). cbn [bind].
  assert (E1 : skipn 1 (head_line b) = rjust 2 (b_prn b) ++ date_text (b_date b) ++ clk_text b).
  { rewrite head_split. unfold head23. rewrite <- !app_assoc. reflexivity. }
  rewrite E1. destruct (ProofObsRec.strtol_rjust 2 (b_prn b) (date_text (b_date b) ++ clk_text b) P ltac:(lia)) as [Es Bs]; [reflexivity|].
  rewrite Es. cbv iota beta.
  assert (Ei : to_i32 (dec_val (b_prn b)) = dec_val (b_prn b)).
  { unfold to_i32. rewrite Z.mod_small; [lia|]. change (10 ^ Z.of_nat 2)%Z with 100%Z in Bs. lia. }
  rewrite Ei. destruct (Z.eqb_spec (dec_val (b_prn b)) 0); [contradiction|]. cbn [orb].
  destruct (Z.eqb_spec e ERANGE) as [Ee|Ne2].
  { exists 2%Z. eexists. exists st1. cbn [noexcept]. split; [reflexivity|]. auto. }
  rewrite skipn_overlay by lia.
  assert (E23 : skipn 23 (head_line b) = clk_text b) by (rewrite head_split, skipn_app, skipn_all2, L23 by lia; reflexivity).
  rewrite E23. rewrite for2cpp_overlay by (apply clean_nul, clk_clean, Ok). cbn [bind].
  rewrite firstn_overlay by lia.
  assert (F23 : firstn 23 (head_line b) = head23 b) by (rewrite head_split, firstn_app, L23, firstn_O, app_nil_r, firstn_all2 by lia; reflexivity).
  rewrite F23. replace (skipn 23 (uninit 128)) with (skipn (length (head23 b)) (uninit 128)) by (rewrite L23; reflexivity). rewrite overlay_app. fold line1.
  assert (Ec : c2d line1 23 3 0 = Val (true, vals (b_clk b), 0%Z)).
  { unfold c2d. change (negb (0 =? 0)%Z) with false. rewrite (c2d_ok 3 (map Some (b_clk b)) (b_clk b) (b_pad b)); [reflexivity|apply clk_fields, Fk| |].
    - destruct (b_clk b) as [|n1 [|n2 [|n3 [|]]]]; try discriminate Lk. reflexivity.
    - intros j Hj. unfold line1. rewrite cstr_overlay_off.
      + f_equal. rewrite skipn_app, skipn_all2 by lia. cbn [app]. replace (23 + 19 * j - length (head23 b)) with (19 * j) by lia.
        unfold clk_text, ftext. rewrite skipn_map. rewrite skip_fields; [reflexivity|apply clk_fields, Fk|exact Hj].
      + intro I. apply in_app_or in I as [I|I]; [|revert I; apply d2e_not_nul, clean_nul, clk_clean, Ok].
        rewrite <- F23 in I. apply (clean_nul _ C). rewrite <- (firstn_skipn 23). apply in_or_app. left. exact I.
      + rewrite app_length, map_length. unfold clk_text. rewrite app_length, fields_length by (apply clk_fields, Fk). rewrite map_length in *. lia. }
  assert (Ec2 : c2d line1 23 3 e = Val (false, vals (b_clk b), e)).
  { unfold c2d in *. change (negb (0 =? 0)%Z) with false in Ec. apply bind_inv in Ec as ([[ok vs] er] & Ec & E2). injection E2 as -> -> E2.
    destruct er; [discriminate|]. destruct (Z.eqb_spec e 0); [contradiction|]. cbn [negb]. rewrite (c2d_errno _ _ _ _ _ Ec). cbn [bind]. destruct (Z.eqb_spec e 0); [contradiction|reflexivity]. }
  rewrite Ec2. cbn [bind]. rewrite put_val by (rewrite vals_length; cbn [set_prn set_toc set_sys f_data]; lia). cbn [bind negb noexcept].
  exists 3%Z. eexists. exists st1. split; [reflexivity|]. auto.
Qed.

Theorem errno_refused strp cal b tail st f e : reads_dates strp cal -> block_ok b -> length (f_data f) = 31 -> e <> 0%Z ->
  at_rest st (block_text b ++ tail) ->
  exists c g st', read_next_record strp st f e = Val (mkNav c g st' 0) /\ at_rest st' (text_of (map orbit_text (b_orb b)) ++ tail) /\ (c = 2%Z \/ c = 3%Z).
Proof.
  intros RD Ok L Ne At. pose proof At as (G & R). destruct (block_head b) as (t & Et). rewrite Et in R. cbn [app] in R.
  unfold read_next_record. rewrite (peek_some _ _ _ G R). unfold block_text, block_lines in At. rewrite text_of_cons' in At.
  apply (head_errno strp cal b); auto. lia.
Qed.

(** IRNSS: orbit line 5 ends with a spare; left blank, the block is refused *)
Lemma reads_blank fs N : N <> 0 -> Forall (fun o => o = None) (skipn (N - 1) fs) -> reads fs N = None.
Proof.
  revert fs. induction N; intros fs H F; [congruence|]. cbn [reads]. destruct N.
  - cbn [Nat.sub skipn] in F. assert (X : fill fs = None). { clear - F. induction F as [|o fs -> F IH]; [reflexivity|]. cbn. exact IH. } rewrite X. reflexivity.
  - destruct (fill fs); [|reflexivity]. rewrite IHN; [reflexivity|discriminate|]. replace (S (S N) - 1) with (S N) in F by lia. replace (S N - 1) with N by lia.
    destruct fs; [destruct N; constructor|exact F].
Qed.
Theorem irnss_refused strp cal b l tail st f : reads_dates strp cal -> block_ok b -> b_sys b = Irnss -> length (f_data f) = 31 ->
  nth_error (b_orb b) 4 = Some l -> (forall o, nth_error (fst l) 3 = Some o -> o = None) ->
  at_rest st (block_text b ++ tail) ->
  exists g st' lines, read_next_record strp st f 0 = Val (mkNav 6 g st' 0) /\ at_rest st' (text_of lines ++ tail) /\ length lines = 2.
Proof.
  intros RD Ok Es L Hl Sp At. pose proof At as (G & R). destruct (block_head b) as (t & Et). rewrite Et in R. cbn [app] in R.
  unfold read_next_record. rewrite (peek_some _ _ _ G R). unfold block_text, block_lines in At. rewrite text_of_cons' in At.
  destruct (head_exact strp cal b _ st f RD Ok ltac:(lia) At) as (st1 & line1 & R1 & D1 & L1 & E). rewrite E. clear E.
  pose proof Ok as (_ & _ & _ & _ & _ & Lk & _ & _ & O & _). rewrite Es in *. cbn [lines_per_satsys orbit_fields] in *. cbv zeta.
  change (Z.to_nat (8 - 1 - 1)) with 6.
  inversion O as [|q0 ? ? ? O0 F0]; subst. inversion F0 as [|q1 ? ? ? O1 F1]; subst. inversion F1 as [|q2 ? ? ? O2 F2]; subst. inversion F2 as [|q3 ? ? ? O3 F3]; subst.
  inversion F3 as [|q4 ? ? ? O4 F4]; subst. inversion F4 as [|q5 ? ? ? O5 F5]; subst. inversion F5 as [|q6 ? ? ? O6 F6]; subst. inversion F6; subst.
  match goal with H : _ = b_orb b |- _ => rename H into Eo end. rewrite <- Eo in *. cbn [nth_error] in Hl. injection Hl as ->.
  assert (F4' : Forall2 orbit_ok [q0; q1; q2; q3] [T4; T4; T4; T4]) by (repeat (apply Forall2_cons; [assumption|]); apply Forall2_nil).
  destruct (mids_read [q0; q1; q2; q3] [T4; T4; T4; T4] Irnss 0 F4' ltac:(cbn; repeat split)) as (nss & RA & _).
  set (f4 := mkFrame Irnss (dec_val (b_prn b)) (cal (date_vals (b_date b))) (f_toe f) (over (f_data f) 0 (vals (b_clk b)))).
  assert (Lf4 : length (f_data f4) = 31) by (unfold f4; cbn [f_data]; rewrite over_length; [exact L|rewrite vals_length; lia]).
  pose proof O4 as ((req & ex & El & Fr & _) & L44 & _).
  assert (Lr : length req = 3) by (clear - Fr; inversion Fr as [|? ? ? ? _ X]; subst; inversion X as [|? ? ? ? _ Y]; subst; inversion Y as [|? ? ? ? _ W]; subst; inversion W; reflexivity).
  destruct (mid_bad [q0; q1; q2; q3] 0 nss st1 line1 f4 l (text_of (map orbit_text [q5; q6]) ++ tail)) with (k := 6) as (f' & st' & -> & A & _); auto.
  - exact (wf_all _ _ F4').
  - eapply orbit_ok_wf; exact O4.
  - change (need (f_sys f4) (0 + length [q0; q1; q2; q3])) with 4. apply reads_blank; [discriminate|].
    change (4 - 1) with 3. pose proof (nth_skipn' 3 0 (fst l)) as N3. assert (Ls : length (skipn 3 (fst l)) <= 1) by (rewrite skipn_length; lia).
    destruct (skipn 3 (fst l)) as [|o [|o2 r]]; [constructor| |cbn in Ls; lia]. constructor; [|constructor]. apply Sp. symmetry. exact N3.
  - change (need (f_sys f4) (0 + length [q0; q1; q2; q3])) with 4. rewrite El, app_length, Lr. lia.
  - cbn [app map] in *. rewrite !text_of_cons' in *. exact R1.
  - rewrite Lf4. cbn. lia.

  - cbn [bind noexcept]. exists f', st', (map orbit_text [q5; q6]). auto.
Qed.

(** GPS: RINEX lets the fit interval be blank; the block is then refused *)
Theorem blank_fit_refused strp cal b mids ll l n tail st f : reads_dates strp cal -> block_ok b -> b_sys b = Gps -> length (f_data f) = 31 ->
  b_orb b = mids ++ [ll] -> orbit_wf l -> (exists r, fst l = Some n :: r /\ Forall (fun o => o = None) r) ->
  at_rest st (text_of (head_line b :: map orbit_text (mids ++ [l])) ++ tail) ->
  exists g st', read_next_record strp st f 0 = Val (mkNav 8 g st' 0) /\ at_rest st' tail.
Proof.
  intros RD Ok Es L Eo Wl (r & El & Fr) At. pose proof At as (G & R). rewrite text_of_cons' in At, R.
  unfold read_next_record. unfold head_line in R. cbn [app] in R. rewrite (peek_some _ _ _ G R). clear R.
  destruct (head_exact strp cal b _ st f RD Ok ltac:(lia) At) as (st1 & line1 & R1 & D1 & L1 & E). rewrite E. clear E.
  pose proof Ok as (_ & _ & _ & _ & _ & Lk & _ & _ & O & _). rewrite Es, Eo in *. cbn [lines_per_satsys orbit_fields] in *. cbv zeta.
  change (Z.to_nat (8 - 1 - 1)) with 6.
  change [T4; T4; T4; T4; T4; T4; [true; true]] with ([T4; T4; T4; T4; T4; T4] ++ [[true; true]]) in O.
  apply Forall2_app_inv_r in O as (m' & l' & Fm & Fl & E'). inversion Fl as [|x ? ? ? Ox Fx]; subst. inversion Fx; subst. apply app_inj_tail in E' as (<- & <-).
  destruct (mids_read mids _ Gps 0 Fm ltac:(cbn; repeat split)) as (nss & RA & _).
  assert (Lm : length mids = 6) by (clear - Fm; assert (X : length mids = length [T4; T4; T4; T4; T4; T4]) by (induction Fm; cbn; congruence); exact X).
  set (f4 := mkFrame Gps (dec_val (b_prn b)) (cal (date_vals (b_date b))) (f_toe f) (over (f_data f) 0 (vals (b_clk b)))).
  assert (Lf4 : length (f_data f4) = 31) by (unfold f4; cbn [f_data]; rewrite over_length; [exact L|rewrite vals_length; lia]).
  rewrite map_app in R1. unfold text_of in R1. rewrite flat_map_app in R1. fold (text_of (map orbit_text mids)) (text_of (map orbit_text [l])) in R1. rewrite <- app_assoc in R1.
  destruct (mid_exact mids 0 nss st1 line1 f4 (text_of (map orbit_text [l]) ++ tail)) as (st2 & line2 & Em & R2 & D2 & L2); auto.
  { exact (wf_all _ _ Fm). } { rewrite Lf4, Lm. cbn. lia. }
  rewrite Lm in Em. rewrite Em. cbn [bind]. cbn [map] in R2. rewrite text_of_cons' in R2. change (text_of [] ++ tail) with tail in R2.
  destruct (orbit_get _ _ _ _ Wl R2 L2) as (st3 & G3 & Fl3 & R3 & D3 & F3 & _). rewrite G3. cbn [bind]. rewrite Fl3, F3. cbn [bind].
  assert (Rn : reads (fst l) 2 = None) by (apply reads_blank; [discriminate|]; rewrite El; exact Fr).
  destruct (c2d_bad 2 (fst l) (snd l) (overlay (map d2e (orbit_text l)) line2) 4 (proj1 Wl) Rn) as (vs & Ec & Lv).
  { rewrite El. cbn. lia. } { intros j Hj. apply orbit_fields_at; assumption. }
  unfold c2d. change (negb (0 =? 0)%Z) with false. rewrite Ec. cbn [bind]. destruct (reads_all_len _ _ _ _ RA) as (Ln & F4).
  cbn [set_data f_data]. rewrite put_val. 2:{ rewrite over_all_length; [rewrite Lf4; lia|exact F4|rewrite Lf4; lia]. }
  cbn [bind negb noexcept]. eexists. eexists. split; [reflexivity|]. exact R3.
Qed.

(** ** malformed blocks *)
Lemma read_first strp st f e l t : at_rest st (l ++ NL :: t) -> l <> [] -> ~ In NL l -> length l < 128 ->
  exists st1, read_next_record strp st f e = set_from_rnx3 strp st f e /\
    getline st (uninit 128) 128 = Val (st1, overlay l (uninit 128)) /\ sfail st1 = false.
Proof.
  intros At Nn Nl Ll. pose proof At as (G & R). destruct l as [|c l']; [congruence|]. cbn [app] in R.
  destruct (getline_line st (uninit 128) 128 (c :: l') t At Nl Ll ltac:(unfold uninit; rewrite repeat_length; lia)) as (st1 & E & _ & _ & _ & _ & F).
  exists st1. unfold read_next_record. rewrite (peek_some _ _ _ G R). auto.
Qed.
(** an unknown letter ends the process *)
Theorem unknown_letter strp st f e c l t : at_rest st (c :: l ++ NL :: t) -> ~ In NL (c :: l) -> length l < 127 ->
  ~ In c (map fst satsys_letters) -> read_next_record strp st f e = Term.
Proof.
  intros At Nl Ll Nc. destruct (read_first strp st f e (c :: l) t At ltac:(discriminate) Nl ltac:(cbn; lia)) as (st1 & -> & G & F).
  unfold set_from_rnx3. rewrite G. cbn [bind]. rewrite F, (rd_overlay _ _ 0 c) by reflexivity. cbn [bind].
  assert (X : char_to_satsys c = Exn).
  { unfold char_to_satsys. repeat match goal with |- context[ceqb c ?x] => let E := fresh in destruct (ceqb c x) eqn:E; [apply ceqb_eq in E; subst c; exfalso; apply Nc; vm_compute; tauto|] end. reflexivity. }
  rewrite X. reflexivity.
Qed.
(** a date the date parser rejects ends the process *)
Theorem bad_date strp st f e c sys l t : at_rest st (c :: l ++ NL :: t) -> ~ In NL (c :: l) -> ~ In NUL (c :: l) -> 2 <= length l < 127 ->
  char_to_satsys c = Val sys -> strp (skipn 2 l) = None -> read_next_record strp st f e = Term.
Proof.
  intros At Nl Nu Ll Ec Es. destruct (read_first strp st f e (c :: l) t At ltac:(discriminate) Nl ltac:(cbn; lia)) as (st1 & -> & G & F).
  unfold set_from_rnx3. rewrite G. cbn [bind]. rewrite F, (rd_overlay _ _ 0 c) by reflexivity. cbn [bind]. rewrite Ec. cbn [bind].
  rewrite cstr_overlay_off by (auto; cbn; lia). cbn [bind]. change (skipn 3 (c :: l)) with (skipn 2 l). rewrite Es. reflexivity.
Qed.
(** a first line without room for the satellite number and date: reads uninitialised memory *)
Lemma overlay_uninit l k n : length l < n -> length l < k -> k < n -> cstr (overlay l (uninit n)) k = UB.
Proof.
  intros A B C. unfold cstr. rewrite skipn_overlay_short by (unfold uninit; rewrite ?repeat_length; lia).
  unfold uninit. replace n with (k + S (n - k - 1)) by lia. rewrite repeat_app, skipn_app, repeat_length, Nat.sub_diag, skipn_all2 by (rewrite repeat_length; lia). reflexivity.
Qed.
Theorem short_first strp st f e c sys l t : at_rest st (c :: l ++ NL :: t) -> ~ In NL (c :: l) -> length l < 2 ->
  char_to_satsys c = Val sys -> read_next_record strp st f e = UB.
Proof.
  intros At Nl Ll Ec. destruct (read_first strp st f e (c :: l) t At ltac:(discriminate) Nl ltac:(cbn; lia)) as (st1 & -> & G & F).
  unfold set_from_rnx3. rewrite G. cbn [bind]. rewrite F, (rd_overlay _ _ 0 c) by reflexivity. cbn [bind]. rewrite Ec. cbn [bind].
  rewrite overlay_uninit by (cbn; lia). reflexivity.
Qed.
(** too few lines left: never success *)
Theorem truncated_refused strp st f e r c t sys : read_next_record strp st f e = Val r -> rest st = c :: t -> char_to_satsys c = Val sys ->
  count_occ ascii_dec (rest st) NL + 1 < lines_of sys -> n_code r <> 0%Z.
Proof.
  intros H R Ec Lt Z0. destruct (read_as_ignore _ _ _ _ _ H Z0) as (_ & c' & t' & s' & R' & Ec' & _ & _ & _ & Tk).
  rewrite R in R'. injection R' as <- <-. rewrite Ec in Ec'. injection Ec' as <-.
  assert (X : forall ls, length ls = lines_of sys -> count_occ ascii_dec (text_of ls) NL >= lines_of sys).
  { intros ls <-. clear. induction ls as [|l ls IH]; [cbn; lia|]. unfold text_of in *. cbn [flat_map length]. rewrite !count_occ_app.
    change (count_occ ascii_dec [NL] NL) with 1. lia. }
  destruct Tk as (ls & Ll & _ & _ & _ & [(_ & E)|(_ & _ & E)]).
  - rewrite E, count_occ_app in Lt. specialize (X ls Ll). lia.
  - specialize (X ls Ll). rewrite <- E, count_occ_app in X. change (count_occ ascii_dec [NL] NL) with 1 in X. lia.
Qed.
