(** ProofBernFile: opening a SATELLIT file, sequences of lookups (C37, C80, C81). *)
From Verif Require Import Base BaseLemmas CNum CNumLemmas Stream ModelSatsys ModelNvarstr ModelSatellite ModelAntex ModelSp3 ModelBern
  SpecText SpecNum SpecObs SpecHeader SpecAntex SpecBern ProofText ProofAntenna ProofNum ProofStream ProofObsTypes ProofObsRec ProofHeader ProofAntex
  ProofAntexFind ProofAntexSkip ProofAntexHeader ProofBern.

(** comparison with a literal, for every content of the line *)
Lemma starts_any l buf s : ~ In NUL (lit s) -> starts_with (overlay l buf) s = Val (list_eqb (firstn (length (lit s)) l) (lit s)).
Proof.
  intro Hs. unfold starts_with, strncmp_lit, strncmp_eq, overlay, cbuf. rewrite !skipn_O. generalize (skipn (S (length l)) buf). generalize ([Some NUL]). revert Hs l.
  induction s as [|x s IH]; intros Hs l t r; [reflexivity|]. cbn [lit map app length].
  assert (X : ceqb x NUL = false) by (apply ceqb_neq; intro; apply Hs; left; congruence).
  destruct l as [|y l]; cbn [map app strncmp0 firstn list_eqb].
  - destruct (ceqb NUL x) eqn:E; [apply ceqb_eq in E; subst; discriminate|reflexivity].
  - destruct (ceqb y x) eqn:E; [|reflexivity]. apply ceqb_eq in E. subst. rewrite X. cbn [andb].
    apply IH. intro K. apply Hs. right. exact K.
Qed.
Definition beginsb (s : string) (l : list ascii) : bool := list_eqb (firstn (length (lit s)) l) (lit s).
Lemma beginsb_iff s l : beginsb s l = true <-> begins s l.
Proof. apply list_eqb_eq. Qed.
Lemma beginsb_no s l : ~ begins s l -> beginsb s l = false.
Proof. intro H. destruct (beginsb s l) eqn:E; [|reflexivity]. apply beginsb_iff in E. contradiction. Qed.
Lemma starts_b l buf s : ~ In NUL (lit s) -> starts_with (overlay l buf) s = Val (beginsb s l).
Proof. apply starts_any. Qed.
Lemma nonul_title : ~ In NUL (lit TITLE). Proof. nonul_lit. Qed.
Lemma nonul_part2 : ~ In NUL (lit PART2). Proof. nonul_lit. Qed.
Lemma nonul_cols1 : ~ In NUL (lit COLS1). Proof. nonul_lit. Qed.
Lemma nonul_cols2 : ~ In NUL (lit COLS2). Proof. nonul_lit. Qed.
Lemma title_part2 l : begins TITLE l -> beginsb PART2 l = false.
Proof.
  unfold begins, beginsb. intro H. destruct l as [|c l]; [discriminate H|]. cbn in H. injection H as -> _. reflexivity.
Qed.

(** ** Opening a well-formed file *)
Lemma sl_len l : sat_line l -> length l < 256.
Proof. intros (_ & L). lia. Qed.
Lemma part2_found : forall ls n st f buf l0 l t, Forall (fun l => sat_line l /\ ~ begins PART2 l) ls -> length ls < n -> sat_line l -> begins PART2 l -> 
  length buf = 256 -> length l0 < 256 -> beginsb PART2 l0 = false -> on st f (text_of (ls ++ [l]) ++ t) ->
  exists st' b, part2_loop (S n) st (overlay l0 buf) = Val (true, st', b) /\ length b = 256 /\ on st' f t.
Proof.
  induction ls as [|x ls IH]; intros n st f buf l0 l t Fl Hn Sl Bl Hb Hl0 B0 H; (destruct n as [|n]; [cbn in Hn; lia|]).
  - cbn [app] in H. assert (L0 : length (overlay l0 buf) = 256) by (rewrite overlay_length; lia). cbn [part2_loop]. rewrite (starts_b l0 buf SAT_LINE2 nonul_part2). fold PART2 in *. change SAT_LINE2 with PART2. rewrite B0. cbn [bind].
    destruct (on_text st f l [] t (overlay l0 buf) 256 H (proj1 Sl) (sl_len _ Sl) ltac:(lia)) as (st1 & E & H1).
    change MAX_SATELLIT_CHARS with 256. rewrite E. cbn [bind]. rewrite (starts_b l _ PART2 nonul_part2). rewrite (proj2 (beginsb_iff _ _) Bl). cbn [bind].
    destruct n; cbn [part2_loop]; [|]; eexists; eexists; (split; [reflexivity|]); (split; [rewrite overlay_length; pose proof (sl_len _ Sl); lia|exact H1]).
  - cbn [app] in H. inversion Fl as [|? ? (Sx & Nx) Fl']; subst. assert (L0 : length (overlay l0 buf) = 256) by (rewrite overlay_length; lia).
    cbn [part2_loop]. rewrite (starts_b l0 buf SAT_LINE2 nonul_part2). change SAT_LINE2 with PART2. rewrite B0. cbn [bind].
    destruct (on_text st f x (ls ++ [l]) t (overlay l0 buf) 256 H (proj1 Sx) (sl_len _ Sx) ltac:(lia)) as (st1 & E & H1).
    change MAX_SATELLIT_CHARS with 256. rewrite E. cbn [bind]. cbn [length] in Hn.
    apply (IH n st1 f (overlay l0 buf) x l t); auto; try lia; first [exact (sl_len _ Sx)|apply beginsb_no; exact Nx].
Qed.
Lemma open_on d : on (seekg (open_stream d) (Some 0)) d d.
Proof. split; [reflexivity|]. split; reflexivity. Qed.

Lemma init_ok h r : satl_ok h -> exists st, bern_initialize (open_stream (satl_text h ++ r)) = Val (0%Z, Some (length (satl_text h)), st) /\
  on st (satl_text h ++ r) r.
Proof.
  intros (S1 & B1 & F & L & S2 & B2 & S3 & S4 & B4 & S5 & B5 & S6). set (f := satl_text h ++ r).
  pose proof (open_on f) as H0. set (s0 := seekg (open_stream f) (Some 0)) in *. assert (I0 : inb s0) by (unfold inb; cbn; lia).
  assert (H0' : on s0 f (text_of (l_title h :: l_part1 h ++ [l_part2 h; l_dashes h; l_cols1 h; l_cols2 h; l_blank h]) ++ r)) by exact H0.
  destruct (on_text s0 f _ _ r (uninit 256) 256 H0' (proj1 S1) (sl_len _ S1) ltac:(rewrite len_uninit; lia)) as (st1 & E1 & H1).
  unfold bern_initialize. fold s0. change MAX_SATELLIT_CHARS with 256. rewrite E1. cbn [bind].
  rewrite (starts_b _ _ SAT_LINE1 nonul_title). change SAT_LINE1 with TITLE. rewrite (proj2 (beginsb_iff _ _) B1). cbn [bind negb].
  replace (l_part1 h ++ [l_part2 h; l_dashes h; l_cols1 h; l_cols2 h; l_blank h]) with ((l_part1 h ++ [l_part2 h]) ++ [l_dashes h; l_cols1 h; l_cols2 h; l_blank h]) in H1 by (rewrite <- app_assoc; reflexivity).
  rewrite text_of_app, <- app_assoc in H1.
  destruct (part2_found (l_part1 h) 999 st1 f (uninit 256) (l_title h) (l_part2 h) _ F ltac:(lia) S2 B2 (len_uninit 256) (sl_len _ S1) (title_part2 _ B1) H1) as (st2 & b2 & E2 & Lb2 & H2).
  change SATELLIT_LINES with 1000. rewrite E2. cbn [bind]. destruct H2 as (G2 & D2). rewrite G2. cbn [negb orb]. pose proof (conj G2 D2) as H2. clear G2 D2.
  destruct (on_text st2 f _ _ r b2 256 H2 (proj1 S3) (sl_len _ S3) ltac:(lia)) as (st3 & E3 & H3). rewrite E3. cbn [bind].
  assert (L3 : length (overlay (l_dashes h) b2) = 256) by (rewrite overlay_length; pose proof (sl_len _ S3); lia).
  destruct (on_text st3 f _ _ r (overlay (l_dashes h) b2) 256 H3 (proj1 S4) (sl_len _ S4) ltac:(lia)) as (st4 & E4 & H4). rewrite E4. cbn [bind].
  rewrite (starts_b _ _ SAT_HLN1 nonul_cols1). change SAT_HLN1 with COLS1. rewrite (proj2 (beginsb_iff _ _) B4). cbn [bind negb].
  assert (L4 : length (overlay (l_cols1 h) (overlay (l_dashes h) b2)) = 256) by (rewrite overlay_length; pose proof (sl_len _ S4); lia).
  destruct (on_text st4 f _ _ r (overlay (l_cols1 h) (overlay (l_dashes h) b2)) 256 H4 (proj1 S5) (sl_len _ S5) ltac:(lia)) as (st5 & E5 & H5). rewrite E5. cbn [bind].
  rewrite (starts_b _ _ SAT_HLN2 nonul_cols2). change SAT_HLN2 with COLS2. rewrite (proj2 (beginsb_iff _ _) B5). cbn [bind negb].
  match goal with |- context [getline st5 ?b 256] => assert (L5 : length b = 256) by (rewrite overlay_length; pose proof (sl_len _ S5); lia);
    destruct (on_text st5 f _ _ r b 256 H5 (proj1 S6) (sl_len _ S6) ltac:(lia)) as (st6 & E6 & H6) end.
  rewrite E6. cbn [bind]. change (text_of [] ++ r) with r in H6. rewrite (on_tellg _ _ _ H6).
  assert (I6 : inb st6).
  { assert (I1 : inb st1) by (eapply getline_inb; [exact I0|exact E1]). assert (I2 : inb st2).
    { clear - E2 I1. revert E2. generalize (overlay (l_title h) (uninit 256)). generalize 1000. intro n. revert st1 I1 st2 b2. induction n as [|n IH]; intros st1 I1 st2 b2 m E; cbn [part2_loop] in E.
      - destruct (starts_with m SAT_LINE2); try discriminate E.
      - destruct (starts_with m SAT_LINE2) as [b| | | |]; try discriminate E. cbn [bind] in E. destruct b; [apply Val_inj in E; injection E as <- _; exact I1|].
        destruct (getline st1 m MAX_SATELLIT_CHARS) as [[s' m']| | | |] eqn:G; try discriminate E. cbn [bind] in E. eapply IH; [|exact E]. eapply getline_inb; [exact I1|exact G]. }
    assert (I3 : inb st3) by (eapply getline_inb; [exact I2|exact E3]). assert (I4 : inb st4) by (eapply getline_inb; [exact I3|exact E4]).
    assert (I5 : inb st5) by (eapply getline_inb; [exact I4|exact E5]). eapply getline_inb; [exact I5|exact E6]. }
  exists st6. split; [|exact H6]. rewrite (on_spos _ _ _ H6 I6). unfold f. rewrite app_length. replace (length (satl_text h) + length r - length r) with (length (satl_text h)) by lia. reflexivity.
Qed.

(** ** Any file *)
Lemma getline_back st buf st' b : length buf = 256 -> getline st buf 256 = Val (st', b) ->
  exists l, b = overlay l buf /\ length l < 256 /\ ~ In NL l /\ sdata st' = sdata st /\ (l <> [] -> good st = true) /\
    (good st' = true -> good st = true /\ exists t, rest st = l ++ NL :: t /\ rest st' = t).
Proof.
  intros Hb E. destruct (getline_cases st buf 256 ltac:(lia) ltac:(lia)) as (s1 & l & E1 & L & N & D & C). rewrite E in E1. apply Val_inj in E1. injection E1 as -> ->.
  exists l. split; [reflexivity|]. split; [exact L|]. split; [exact N|]. split; [exact D|]. destruct C as [(G & El & F)|(G & C)].
  - split; [congruence|]. intro G'. unfold good in G'. rewrite F, andb_false_r in G'. discriminate.
  - split; [auto|]. intro G'. split; [exact G|]. destruct C as [(t & R & _ & R')|[(_ & X & _)|(_ & _ & X & _)]]; [eauto| |]; unfold good in G'; rewrite X, ?andb_false_r in G'; discriminate.
Qed.
Lemma part2_back : forall n st l0 buf found st' b, length buf = 256 -> length l0 < 256 -> part2_loop n st (overlay l0 buf) = Val (found, st', b) -> 
  exists ls, length b = 256 /\ sdata st' = sdata st /\ (good st' = true -> good st = true /\ rest st = text_of ls ++ rest st' /\ Forall (fun l => ~ In NL l) ls /\ length ls <= n /\
    (found = true -> length ls < n /\ begins PART2 (last (l0 :: ls) []) /\ Forall (fun l => ~ begins PART2 l) (removelast (l0 :: ls)))).
Proof.
  induction n as [|n IH]; intros st l0 buf found st' b Hb H0 E; cbn [part2_loop] in E; rewrite (starts_b l0 buf SAT_LINE2 nonul_part2) in E; change SAT_LINE2 with PART2 in E; cbn [bind] in E.
  - apply Val_inj in E. injection E as <- <- <-. exists []. split; [rewrite overlay_length; lia|]. split; [reflexivity|]. intro G. split; [exact G|]. split; [reflexivity|]. split; [constructor|]. split; [auto|discriminate].
  - destruct (beginsb PART2 l0) eqn:B.
    + apply Val_inj in E. injection E as <- <- <-. exists []. split; [rewrite overlay_length; lia|]. split; [reflexivity|]. intro G. split; [exact G|]. split; [reflexivity|]. split; [constructor|]. split; [cbn; lia|].
      intros _. split; [cbn; lia|]. split; [apply beginsb_iff; exact B|]. cbn. constructor.
    + assert (NB : ~ begins PART2 l0) by (intro X; apply beginsb_iff in X; congruence). change MAX_SATELLIT_CHARS with 256 in E.
      destruct (getline st (overlay l0 buf) 256) as [[s1 m1]| | | |] eqn:Eg; try discriminate E. cbn [bind] in E.
      assert (Lo : length (overlay l0 buf) = 256) by (rewrite overlay_length; lia).
      destruct (getline_back st _ s1 m1 Lo Eg) as (l & -> & Ll & Nl & D & _ & C).
      destruct (IH s1 l (overlay l0 buf) found st' b Lo Ll E) as (ls & Lb & D' & X).
      exists (l :: ls). split; [exact Lb|]. split; [congruence|]. intro G. destruct (X G) as (G1 & R1 & F1 & L1 & X1). destruct (C G1) as (G0 & t & R0 & Rt).
      split; [exact G0|]. split; [rewrite R0, text_of_one, <- R1, Rt; reflexivity|]. split; [constructor; assumption|]. cbn [length]. split; [lia|].
      intro Fd. destruct (X1 Fd) as (La & Bl & Fb). split; [lia|]. split; [exact Bl|]. change (removelast (l0 :: l :: ls)) with (l0 :: removelast (l :: ls)). constructor; assumption.
Qed.
Lemma init_total st : sdata st = sdata st -> exists r, bern_initialize st = Val r.
Proof.
  intros _. unfold bern_initialize. change MAX_SATELLIT_CHARS with 256.
  destruct (getline_total (seekg st (Some 0)) (uninit 256) 256 ltac:(lia) ltac:(rewrite len_uninit; lia)) as (s1 & l1 & E1 & L1 & _). rewrite E1. cbn [bind].
  rewrite (starts_b _ _ SAT_LINE1 nonul_title). cbn [bind]. destruct (beginsb SAT_LINE1 l1); cbn [negb]; [|eauto].
  assert (P : forall n st l0 buf, length buf = 256 -> length l0 < 256 -> exists found st' b, part2_loop n st (overlay l0 buf) = Val (found, st', b) /\ length b = 256).
  { clear. induction n as [|n IH]; intros st l0 buf B L; cbn [part2_loop]; rewrite (starts_b _ _ SAT_LINE2 nonul_part2); cbn [bind].
    - do 3 eexists. split; [reflexivity|]. rewrite overlay_length; lia.
    - destruct (beginsb SAT_LINE2 l0); [do 3 eexists; split; [reflexivity|rewrite overlay_length; lia]|].
      assert (length (overlay l0 buf) = 256) by (rewrite overlay_length; lia).
      destruct (getline_total st (overlay l0 buf) 256 ltac:(lia) ltac:(lia)) as (s1 & l & E & Ll & _). change MAX_SATELLIT_CHARS with 256. rewrite E. cbn [bind]. apply IH; assumption. }
  destruct (P SATELLIT_LINES s1 l1 (uninit 256) (len_uninit 256) L1) as (fd & s2 & b2 & E2 & B2). rewrite E2. cbn [bind].
  destruct (negb (good s2) || negb fd); [eauto|].
  destruct (getline_total s2 b2 256 ltac:(lia) ltac:(lia)) as (s3 & l3 & E3 & L3 & _). rewrite E3. cbn [bind]. assert (B3 : length (overlay l3 b2) = 256) by (rewrite overlay_length; lia).
  destruct (getline_total s3 (overlay l3 b2) 256 ltac:(lia) ltac:(lia)) as (s4 & l4 & E4 & L4 & _). rewrite E4. cbn [bind]. assert (B4 : length (overlay l4 (overlay l3 b2)) = 256) by (rewrite overlay_length; lia).
  rewrite (starts_b _ _ SAT_HLN1 nonul_cols1). cbn [bind]. destruct (beginsb SAT_HLN1 l4); cbn [negb]; [|eauto].
  destruct (getline_total s4 _ 256 ltac:(lia) ltac:(rewrite B4; lia)) as (s5 & l5 & E5 & L5 & _). rewrite E5. cbn [bind]. 
  rewrite (starts_b _ _ SAT_HLN2 nonul_cols2). cbn [bind]. destruct (beginsb SAT_HLN2 l5); cbn [negb]; [|eauto].
  assert (B5 : length (overlay l5 (overlay l4 (overlay l3 b2))) = 256) by (rewrite overlay_length; lia).
  destruct (getline_total s5 _ 256 ltac:(lia) ltac:(rewrite B5; lia)) as (s6 & l6 & E6 & L6 & _). rewrite E6. cbn [bind].
  destruct (tellg s6). eauto.
Qed.
Lemma last_app1 {A} (l : list A) a x d : last (a :: l ++ [x]) d = x.
Proof. revert a. induction l as [|b l IH]; intro a; [reflexivity|]. apply IH. Qed.
Lemma removelast_app1 {A} (l : list A) a x : removelast (a :: l ++ [x]) = a :: l.
Proof. revert a. induction l as [|b l IH]; intro a; [reflexivity|]. cbn [app]. change (removelast (a :: b :: l ++ [x])) with (a :: removelast (b :: l ++ [x])). rewrite IH. reflexivity. Qed.

(** what is known when the file is accepted and the position of the first record recorded *)
Lemma init_sound d p st : bern_initialize (open_stream d) = Val (0%Z, Some p, st) ->
  exists title part1 part2 dashes cols1 cols2 blank r, d = text_of ([title] ++ part1 ++ [part2; dashes; cols1; cols2; blank]) ++ r /\
    Forall (fun l => ~ In NL l) ([title] ++ part1 ++ [part2; dashes; cols1; cols2; blank]) /\
    begins TITLE title /\ Forall (fun l => ~ begins PART2 l) part1 /\ length part1 <= 998 /\ begins PART2 part2 /\ begins COLS1 cols1 /\ begins COLS2 cols2 /\
    p = length (text_of ([title] ++ part1 ++ [part2; dashes; cols1; cols2; blank])) /\ good st = true /\ sdata st = d.
Proof.
  unfold bern_initialize. change MAX_SATELLIT_CHARS with 256. set (s0 := seekg (open_stream d) (Some 0)). intro E.
  assert (I0 : inb s0) by (unfold inb; cbn; lia).
  destruct (getline s0 (uninit 256) 256) as [[s1 b1]| | | |] eqn:E1; try discriminate E. cbn [bind] in E.
  destruct (getline_back _ _ _ _ (len_uninit 256) E1) as (l1 & -> & L1 & N1 & D1 & _ & C1). rewrite (starts_b _ _ SAT_LINE1 nonul_title) in E. change SAT_LINE1 with TITLE in E. cbn [bind] in E.
  destruct (beginsb TITLE l1) eqn:B1; cbn [negb] in E; [|apply Val_inj in E; discriminate E]. apply beginsb_iff in B1.
  change SATELLIT_LINES with 1000 in E. destruct (part2_loop 1000 s1 (overlay l1 (uninit 256))) as [[[fd s2] b2]| | | |] eqn:E2; try discriminate E. cbn [bind] in E.
  destruct (part2_back 1000 s1 l1 (uninit 256) fd s2 b2 (len_uninit 256) L1 E2) as (ls & Lb2 & D2 & C2).
  destruct (good s2) eqn:G2; [|cbn [negb orb] in E; apply Val_inj in E; discriminate E]. destruct fd; [|cbn [negb orb] in E; apply Val_inj in E; discriminate E]. cbn [negb orb] in E.
  destruct (C2 eq_refl) as (G1 & R1 & F1 & _ & X1). destruct (X1 eq_refl) as (La & Bl & Fb). clear C2 X1. destruct (C1 G1) as (_ & t1 & R0 & Rt1).
  destruct (getline s2 b2 256) as [[s3 b3]| | | |] eqn:E3; try discriminate E. cbn [bind] in E. destruct (getline_back _ _ _ _ Lb2 E3) as (l3 & -> & L3 & N3 & D3 & _ & C3).
  assert (B3 : length (overlay l3 b2) = 256) by (rewrite overlay_length; lia).
  destruct (getline s3 _ 256) as [[s4 b4]| | | |] eqn:E4; try discriminate E. cbn [bind] in E. destruct (getline_back _ _ _ _ B3 E4) as (l4 & -> & L4 & N4 & D4 & Z4 & C4).
  rewrite (starts_b _ _ SAT_HLN1 nonul_cols1) in E. change SAT_HLN1 with COLS1 in E. cbn [bind] in E. destruct (beginsb COLS1 l4) eqn:B4; cbn [negb] in E; [|apply Val_inj in E; discriminate E].
  assert (Bb4 : length (overlay l4 (overlay l3 b2)) = 256) by (rewrite overlay_length; lia).
  destruct (getline s4 _ 256) as [[s5 b5]| | | |] eqn:E5; try discriminate E. cbn [bind] in E. destruct (getline_back _ _ _ _ Bb4 E5) as (l5 & -> & L5 & N5 & D5 & Z5 & C5).
  rewrite (starts_b _ _ SAT_HLN2 nonul_cols2) in E. change SAT_HLN2 with COLS2 in E. cbn [bind] in E. destruct (beginsb COLS2 l5) eqn:B5; cbn [negb] in E; [|apply Val_inj in E; discriminate E].
  assert (Bb5 : length (overlay l5 (overlay l4 (overlay l3 b2))) = 256) by (rewrite overlay_length; lia).
  destruct (getline s5 _ 256) as [[s6 b6]| | | |] eqn:E6; try discriminate E. cbn [bind] in E. destruct (getline_back _ _ _ _ Bb5 E6) as (l6 & -> & L6 & N6 & D6 & Z6 & C6).
  unfold tellg in E. destruct (good s6) eqn:G6; [|apply Val_inj in E; discriminate E]. apply Val_inj in E. injection E as Ep Es. subst st.
  destruct (C6 eq_refl) as (G5 & t6 & R6 & Rt6). destruct (C5 G5) as (G4 & t5 & R5 & Rt5). destruct (C4 G4) as (G3 & t4 & R4 & Rt4). destruct (C3 G3) as (_ & t3 & R3 & Rt3).
  assert (Ls : exists part1 part2, ls = part1 ++ [part2]).
  { destruct ls as [|x ls] using rev_ind; [|eauto]. exfalso. cbn in Bl. apply beginsb_iff in Bl. rewrite (title_part2 _ B1) in Bl. discriminate. }
  destruct Ls as (p1 & p2 & ->). rewrite last_app1 in Bl. rewrite removelast_app1 in Fb. apply Forall_app in F1 as (F1a & F1b). apply Forall_inv in F1b. apply Forall_inv_tail in Fb.
  exists l1, p1, p2, l3, l4, l5, l6, (rest s6).
  assert (Ed : d = text_of ([l1] ++ p1 ++ [p2; l3; l4; l5; l6]) ++ rest s6).
  { change d with (rest s0) at 1. cbn [app]. rewrite text_of_one, R0. f_equal. f_equal. replace (p1 ++ [p2; l3; l4; l5; l6]) with ((p1 ++ [p2]) ++ [l3; l4; l5; l6]) by (rewrite <- app_assoc; reflexivity).
    rewrite <- Rt1, R1, (text_of_app (p1 ++ [p2])), <- app_assoc. apply f_equal. rewrite !text_of_one, R3, <- Rt3, R4, <- Rt4, R5, <- Rt5, R6, <- Rt6. reflexivity. }
  assert (Ds : sdata s6 = d) by (rewrite D6, D5, D4, D3, D2, D1; reflexivity).
  assert (I6 : inb s6).
  { assert (I1 : inb s1) by (eapply getline_inb; [exact I0|exact E1]). assert (I2 : inb s2).
    { clear - E2 I1. revert E2. generalize (overlay l1 (uninit 256)). generalize 1000. intro n. revert s1 I1. induction n as [|n IH]; intros s1 I1 m E; cbn [part2_loop] in E.
      - destruct (starts_with m SAT_LINE2); try discriminate E.
      - destruct (starts_with m SAT_LINE2) as [b| | | |]; try discriminate E. cbn [bind] in E. destruct b; [apply Val_inj in E; injection E as <- _; exact I1|].
        destruct (getline s1 m MAX_SATELLIT_CHARS) as [[s' m']| | | |] eqn:G; try discriminate E. cbn [bind] in E. eapply IH; [|exact E]. eapply getline_inb; [exact I1|exact G]. }
    assert (I3 : inb s3) by (eapply getline_inb; [exact I2|exact E3]). assert (I4 : inb s4) by (eapply getline_inb; [exact I3|exact E4]).
    assert (I5 : inb s5) by (eapply getline_inb; [exact I4|exact E5]). eapply getline_inb; [exact I5|exact E6]. }
  split; [exact Ed|]. split; [constructor; [exact N1|]; apply Forall_app; split; [exact F1a|]; repeat (constructor; [assumption|]); constructor|].
  split; [exact B1|]. split; [assumption|]. rewrite app_length in La. cbn [length] in La. split; [lia|]. split; [exact Bl|]. split; [apply beginsb_iff; exact B4|]. split; [apply beginsb_iff; exact B5|].
  split; [|split; [exact G6|exact Ds]].
  assert (O : on s6 d (rest s6)) by (split; [exact G6|]; split; [exact Ds|]; unfold rest; rewrite Ds; reflexivity).
  rewrite <- Ep, (on_spos _ _ _ O I6). rewrite Ed at 1. rewrite app_length. lia.
Qed.

(** ** Rejections *)
Lemma init_title d : ~ begins TITLE d -> exists st, bern_initialize (open_stream d) = Val (10%Z, Some 0, st).
Proof.
  intro N. unfold bern_initialize. change MAX_SATELLIT_CHARS with 256.
  destruct (getline_cases (seekg (open_stream d) (Some 0)) (uninit 256) 256 ltac:(lia) ltac:(rewrite len_uninit; lia)) as (s1 & l & E & L & _ & _ & C). rewrite E. cbn [bind].
  rewrite (starts_b _ _ SAT_LINE1 nonul_title). change SAT_LINE1 with TITLE. rewrite beginsb_no; [cbn [bind negb]; eauto|].
  intro B. apply N. destruct C as [(G & _)|(_ & C)]; [discriminate G|]. change (rest (seekg (open_stream d) (Some 0))) with d in C. unfold begins in *.
  assert (Ln : length (lit TITLE) <= length l) by (rewrite <- B, firstn_length; lia).
  destruct C as [(t & -> & _)|[(-> & _)|(_ & (c & t & _ & ->) & _)]]; [| exact B|]; rewrite firstn_app, B; (replace (length (lit TITLE) - length l) with 0 by lia); rewrite firstn_O, app_nil_r; reflexivity.
Qed.
Lemma part2_miss : forall ls n st f buf l0, Forall (fun l => sat_line l /\ ~ begins PART2 l) ls -> length buf = 256 -> length l0 < 256 -> beginsb PART2 l0 = false ->
  on st f (text_of ls) -> exists found st' b, part2_loop n st (overlay l0 buf) = Val (found, st', b) /\ (found = true -> good st' = false) /\ found = false.
Proof.
  assert (Bad : forall n st buf l0, length buf = 256 -> length l0 < 256 -> beginsb PART2 l0 = false -> good st = false ->
    exists st' b, part2_loop n st (overlay l0 buf) = Val (false, st', b)).
  { induction n as [|n IH]; intros st buf l0 Hb H0 B G; cbn [part2_loop]; rewrite (starts_b l0 buf SAT_LINE2 nonul_part2); change SAT_LINE2 with PART2; rewrite B; cbn [bind]; [eauto|].
    assert (L0 : length (overlay l0 buf) = 256) by (rewrite overlay_length; lia). change MAX_SATELLIT_CHARS with 256.
    destruct (getline_cases st (overlay l0 buf) 256 ltac:(lia) ltac:(lia)) as (s1 & l & E & L & _ & _ & [(_ & -> & F)|(X & _)]); [|congruence]. rewrite E. cbn [bind].
    apply IH; auto. unfold good. rewrite F, andb_false_r. reflexivity. }
  induction ls as [|x ls IH]; intros n st f buf l0 Fl Hb H0 B H; (destruct n as [|n]; cbn [part2_loop]; rewrite (starts_b l0 buf SAT_LINE2 nonul_part2); change SAT_LINE2 with PART2; rewrite B; cbn [bind];
    [do 3 eexists; split; [reflexivity|]; split; [discriminate|reflexivity]|]); assert (L0 : length (overlay l0 buf) = 256) by (rewrite overlay_length; lia); change MAX_SATELLIT_CHARS with 256.
  - destruct (on_end st f (overlay l0 buf) 256 H ltac:(lia) ltac:(lia)) as (s1 & E & Sf & _). rewrite E. cbn [bind].
    destruct (Bad n s1 (overlay l0 buf) [] L0 ltac:(cbn; lia) eq_refl ltac:(unfold good; rewrite Sf, andb_false_r; reflexivity)) as (s' & b & ->).
    do 3 eexists. split; [reflexivity|]. split; [discriminate|reflexivity].
  - inversion Fl as [|? ? (Sx & Nx) Fl']; subst. rewrite <- (app_nil_r (text_of (x :: ls))) in H. destruct (on_text st f x ls [] (overlay l0 buf) 256 H (proj1 Sx) (sl_len _ Sx) ltac:(lia)) as (st1 & E & H1). rewrite E. cbn [bind].
    rewrite app_nil_r in H1. apply (IH n st1 f); auto; first [exact (sl_len _ Sx)|apply beginsb_no; exact Nx].
Qed.
Lemma init_no_part2 title ls : sat_line title -> begins TITLE title -> Forall (fun l => sat_line l /\ ~ begins PART2 l) ls ->
  exists st, bern_initialize (open_stream (text_of (title :: ls))) = Val (11%Z, Some 0, st).
Proof.
  intros S1 B1 F. set (f := text_of (title :: ls)). assert (H0 : on (seekg (open_stream f) (Some 0)) f (text_of (title :: ls) ++ [])) by (rewrite app_nil_r; apply open_on).
  destruct (on_text _ f _ _ [] (uninit 256) 256 H0 (proj1 S1) (sl_len _ S1) ltac:(rewrite len_uninit; lia)) as (st1 & E1 & H1).
  unfold bern_initialize. change MAX_SATELLIT_CHARS with 256. rewrite E1. cbn [bind].
  rewrite (starts_b _ _ SAT_LINE1 nonul_title). change SAT_LINE1 with TITLE. rewrite (proj2 (beginsb_iff _ _) B1). cbn [bind negb]. rewrite app_nil_r in H1.
  destruct (part2_miss ls SATELLIT_LINES st1 f (uninit 256) title F (len_uninit 256) (sl_len _ S1) (title_part2 _ B1) H1) as (fd & s2 & b2 & -> & _ & ->). cbn [bind negb]. rewrite orb_true_r. eauto.
Qed.
Lemma init_cols title part1 part2 dashes cols1 cols2 r :
  sat_line title -> begins TITLE title -> Forall (fun l => sat_line l /\ ~ begins PART2 l) part1 -> length part1 <= 998 ->
  sat_line part2 -> begins PART2 part2 -> sat_line dashes -> sat_line cols1 -> sat_line cols2 ->
  (~ begins COLS1 cols1 -> exists st, bern_initialize (open_stream (text_of ([title] ++ part1 ++ [part2; dashes; cols1; cols2]) ++ r)) = Val (12%Z, Some 0, st)) /\
  (begins COLS1 cols1 -> ~ begins COLS2 cols2 -> exists st, bern_initialize (open_stream (text_of ([title] ++ part1 ++ [part2; dashes; cols1; cols2]) ++ r)) = Val (13%Z, Some 0, st)) /\
  (begins COLS1 cols1 -> begins COLS2 cols2 -> r = [] -> exists st, bern_initialize (open_stream (text_of ([title] ++ part1 ++ [part2; dashes; cols1; cols2]) ++ r)) = Val (0%Z, None, st) /\ sfail st = true).
Proof.
  intros S1 B1 F L S2 B2 S3 S4 S5. set (f := text_of ([title] ++ part1 ++ [part2; dashes; cols1; cols2]) ++ r). pose proof (open_on f) as H0. set (s0 := seekg (open_stream f) (Some 0)) in *.
  assert (H0' : on s0 f (text_of (title :: part1 ++ [part2; dashes; cols1; cols2]) ++ r)) by exact H0.
  destruct (on_text s0 f _ _ r (uninit 256) 256 H0' (proj1 S1) (sl_len _ S1) ltac:(rewrite len_uninit; lia)) as (st1 & E1 & H1).
  unfold bern_initialize. fold s0. change MAX_SATELLIT_CHARS with 256. rewrite E1. cbn [bind].
  rewrite (starts_b _ _ SAT_LINE1 nonul_title). change SAT_LINE1 with TITLE. rewrite (proj2 (beginsb_iff _ _) B1). cbn [bind negb].
  replace (part1 ++ [part2; dashes; cols1; cols2]) with ((part1 ++ [part2]) ++ [dashes; cols1; cols2]) in H1 by (rewrite <- app_assoc; reflexivity).
  rewrite text_of_app, <- app_assoc in H1.
  destruct (part2_found part1 999 st1 f (uninit 256) title part2 _ F ltac:(lia) S2 B2 (len_uninit 256) (sl_len _ S1) (title_part2 _ B1) H1) as (st2 & b2 & E2 & Lb2 & H2).
  change SATELLIT_LINES with 1000. rewrite E2. cbn [bind]. destruct H2 as (G2 & D2). rewrite G2. cbn [negb orb]. pose proof (conj G2 D2) as H2. clear G2 D2.
  destruct (on_text st2 f _ _ r b2 256 H2 (proj1 S3) (sl_len _ S3) ltac:(lia)) as (st3 & E3 & H3). rewrite E3. cbn [bind].
  assert (L3 : length (overlay dashes b2) = 256) by (rewrite overlay_length; pose proof (sl_len _ S3); lia).
  destruct (on_text st3 f _ _ r (overlay dashes b2) 256 H3 (proj1 S4) (sl_len _ S4) ltac:(lia)) as (st4 & E4 & H4). rewrite E4. cbn [bind].
  rewrite (starts_b _ _ SAT_HLN1 nonul_cols1). change SAT_HLN1 with COLS1.
  split; [intro N; rewrite (beginsb_no _ _ N); cbn [bind negb]; eauto|].
  assert (L4 : length (overlay cols1 (overlay dashes b2)) = 256) by (rewrite overlay_length; pose proof (sl_len _ S4); lia).
  destruct (on_text st4 f _ _ r (overlay cols1 (overlay dashes b2)) 256 H4 (proj1 S5) (sl_len _ S5) ltac:(lia)) as (st5 & E5 & H5).
  split; intro B4; rewrite (proj2 (beginsb_iff _ _) B4); cbn [bind negb]; rewrite E5; cbn [bind];
  rewrite (starts_b _ _ SAT_HLN2 nonul_cols2); change SAT_HLN2 with COLS2.
  - intro N; rewrite (beginsb_no _ _ N); cbn [bind negb]; eauto.
  - intros B5 Er. rewrite (proj2 (beginsb_iff _ _) B5). cbn [bind negb]. change (text_of [] ++ r) with r in H5. rewrite Er in H5.
    match goal with |- context [getline st5 ?b 256] => assert (L5 : length b = 256) by (rewrite overlay_length; pose proof (sl_len _ S5); lia);
      destruct (on_end st5 f b 256 H5 ltac:(lia) ltac:(lia)) as (st6 & E6 & Sf & _) end.
    rewrite E6. cbn [bind]. unfold tellg, good. rewrite Sf, andb_false_r. eexists. split; reflexivity.
Qed.

(** ** Lookups *)
Section Lookup.
  Variable strp : list ascii -> option Z.
  Lemma lookup_first st part2 svn eph i t f : item_ok i -> on (seekg st part2) f (item_line i ++ NL :: t) ->
    get_frequency_channel strp st part2 svn eph false = after strp svn eph 1000 (uninit 256) (seekg st part2).
  Proof.
    intros Hi H. destruct (item_clean i Hi) as (C & L & NP). unfold get_frequency_channel, after. change MAX_SATELLIT_CHARS with 256.
    destruct (on_line _ f _ _ (uninit 256) 256 H C ltac:(lia) ltac:(rewrite len_uninit; lia)) as (st1 & E & H1). rewrite E. cbn [bind].
    rewrite strlen_overlay by exact C. cbn [bind]. destruct (Nat.ltb_spec (length (item_line i)) 10); [lia|]. rewrite starts_overlay by (first [exact C|nonul_lit]). change (length (lit "PART 3")) with 6. rewrite NP. cbn [bind]. change SATELLIT_LINES with 1000. generalize 1000. intro. reflexivity.
  Qed.
  Variables svn eph : Z.
  Lemma hit_dec i : item_ok i -> hit strp svn eph i \/ ~ hit strp svn eph i.
  Proof.
    destruct i as [n|l]; cbn [hit]; intro H; [|auto]. destruct (Z.eq_dec (dec_val (n_svn n)) svn) as [E|N]; [|right; intros (X & _); contradiction].
    unfold covers. destruct (strp (start_text n)) as [a|] eqn:Ea; [|right; intros (_ & (a & X & _) & _); discriminate].
    destruct (Z_le_gt_dec a eph); [|right; intros (_ & (a' & X & Y) & _); injection X as <-; lia].
    destruct (blankb (n_stop n)) eqn:B; [apply blankb_all in B; left; split; [exact E|]; split; [eauto|auto]|].
    assert (NB : ~ all_blank (n_stop n)) by (intro X; apply blankb_all in X; congruence).
    destruct (strp (stop_text n)) as [b|] eqn:Eb; [|right; intros (_ & _ & [X|(b & X & _)]); [contradiction|discriminate]].
    destruct (Z_lt_ge_dec eph b); [left; split; [exact E|]; split; [eauto|right; eauto]|right; intros (_ & _ & [X|(b' & X & Y)]); [contradiction|injection X as <-; lia]].
  Qed.
  Lemma first_hit_dec : forall l, Forall item_ok l -> (exists a n b, l = a ++ inl n :: b /\ Forall (fun i => ~ hit strp svn eph i) a /\ hit strp svn eph (inl n)) \/ Forall (fun i => ~ hit strp svn eph i) l.
  Proof.
    induction l as [|i l IH]; intro F; [right; constructor|]. inversion F; subst. destruct (hit_dec i) as [Hh|Nh]; [assumption| |].
    - destruct i as [n|]; [|contradiction]. left. exists [], n, l. split; [reflexivity|]. split; [constructor|exact Hh].
    - destruct IH as [(a & n & b & -> & Fa & Hn)|Fn]; [assumption| |right; constructor; assumption]. left. exists (i :: a), n, b. split; [reflexivity|]. split; [constructor; assumption|exact Hn].
  Qed.
  Lemma lookup_answer pre items e st : items <> [] -> Forall item_ok items -> Forall (dates_for strp svn) items ->
    (exists l t, e = l ++ NL :: t /\ end_line l) \/ e = [] -> sfail st = false -> sdata st = pre ++ text_of (map item_line items) ++ e ->
    exists r, get_frequency_channel strp st (Some (length pre)) svn eph false = Val r /\ reply strp svn eph items (b_code r) (b_out r) /\ b_errno r = false /\
      sdata (b_stream r) = sdata st /\ (e <> [] -> sfail (b_stream r) = false).
  Proof.
    intros Ne Fo Fd He Sf Sd. set (f := pre ++ text_of (map item_line items) ++ e) in *.
    pose proof (seek_on st f (length pre) Sf Sd) as H. unfold f in H at 2. rewrite skipn_app_exact in H by reflexivity.
    assert (Eg : get_frequency_channel strp st (Some (length pre)) svn eph false = after strp svn eph 1000 (uninit 256) (seekg st (Some (length pre)))).
    { destruct items as [|i items']; [congruence|]. inversion Fo; subst. cbn [map] in H. rewrite text_of_one in H. eapply lookup_first; [|exact H]. assumption. }
    rewrite Eg. clear Eg. set (s0 := seekg st (Some (length pre))) in *.
    rewrite <- (firstn_skipn 1000 items) in Fo, Fd. apply Forall_app in Fo as (Fo1 & Fo2). apply Forall_app in Fd as (Fd1 & Fd2).
    destruct (first_hit_dec _ Fo1) as [(a & n & b & El & Fa & Hn)|Fn].
    - assert (La : length a < 1000). { pose proof (firstn_le_length 1000 items) as X. rewrite El, app_length in X. cbn [length] in X. lia. }
      assert (Ei : items = a ++ inl n :: (b ++ skipn 1000 items)) by (rewrite <- (firstn_skipn 1000 items) at 1; rewrite El, <- app_assoc; reflexivity).
      rewrite El in Fo1, Fd1. assert (P : forall Q : item -> Prop, Forall Q (a ++ inl n :: b) -> Forall Q (a ++ [inl n])).
      { intros Q X. apply Forall_app in X as (X1 & X2). inversion X2; subst. apply Forall_app. split; [exact X1|constructor; [assumption|constructor]]. }
      rewrite Ei in H. destruct (search_hit strp svn eph a n (b ++ skipn 1000 items) 1000 s0 f (uninit 256) e (P _ Fo1) (P _ Fd1) Fa Hn La (len_uninit 256) H) as (st' & E & H').
      eexists. split; [exact E|]. cbn. split; [|split; [reflexivity|split; [rewrite Sd; apply H'|intros _; exact (on_nofail _ _ _ H')]]].
      left. exists n. split; [|split; reflexivity]. exists a, (b ++ skipn 1000 items). auto.
    - destruct (skipn 1000 items) as [|i more] eqn:Sk.
      + assert (Ei : firstn 1000 items = items) by (rewrite <- (firstn_skipn 1000 items) at 2; rewrite Sk, app_nil_r; reflexivity).
        rewrite Ei in *. assert (Li : length items <= 1000) by (rewrite <- Ei, firstn_length; lia).
        destruct (search_none strp svn eph items 1000 s0 f (uninit 256) e Fo1 Fd1 Fn Li (len_uninit 256) H He) as (st' & E & D & G & _).
        eexists. split; [exact E|]. cbn [b_code b_out b_errno b_stream]. split; [right; rewrite Ei; auto|]. split; [reflexivity|]. split; [rewrite Sd; exact D|exact G].
      + assert (Li : length (firstn 1000 items) = 1000). { apply firstn_length_le. destruct (Nat.le_gt_cases 1000 (length items)); [assumption|]. rewrite skipn_all2 in Sk by lia. discriminate. }
        assert (H' : on s0 f (text_of (map item_line (firstn 1000 items)) ++ item_line i ++ NL :: text_of (map item_line more) ++ e)).
        { rewrite <- (firstn_skipn 1000 items), Sk, map_app in H. cbn [map] in H. rewrite text_of_app, <- app_assoc, text_of_one in H. exact H. }
        inversion Fo2; subst. destruct (search_limit strp svn eph (firstn 1000 items) 1000 s0 f (uninit 256) i _ ltac:(apply Forall_app; split; [exact Fo1|constructor; [assumption|constructor]]) Fd1 Fn Li (len_uninit 256) H') as (st' & E & D & G).
        eexists. split; [exact E|]. cbn [b_code b_out b_errno b_stream]. split; [right; auto|]. split; [reflexivity|]. split; [rewrite Sd; exact D|auto].
  Qed.
  (** errno already ERANGE: the first MW record is refused *)
  Lemma stale_loop : forall a n b m st f x buf e, Forall other_ok a -> sensor_ok n -> length a < m -> length buf = 256 -> other_ok x ->
    on st f (text_of (a ++ sensor_line n :: b) ++ e) ->
    exists st', channel_loop strp (S m) st (overlay x buf) svn eph true = Val (mkBern 2 None false st').
  Proof.
    induction a as [|y a IH]; intros n b m st f x buf e Fa Hn Hm B Ox H; (destruct m as [|m]; [cbn in Hm; lia|]); cbn [app] in H; destruct Ox as (C & L & NM & NP);
      assert (Lo : length (overlay x buf) = 256) by (rewrite overlay_length; lia);
      (destruct (nth_error x 5) as [c5|] eqn:E5; [|apply nth_error_None in E5; lia]); (destruct (nth_error x 6) as [c6|] eqn:E6; [|apply nth_error_None in E6; lia]);
      (assert (M : (if ceqb c5 "M" then Val (ceqb c6 "W") else Val false) = Val false) by
        (destruct (ceqb c5 "M") eqn:X; [|reflexivity]; destruct (ceqb c6 "W") eqn:Y; [|reflexivity]; apply ceqb_eq in X, Y; subst; exfalso; apply NM; split; assumption)).
    - pose proof (sensor_short n Hn) as Ls. destruct (on_text st f _ _ _ (overlay x buf) 256 H (sensor_clean n Hn) ltac:(lia) ltac:(lia)) as (st1 & E & H1).
      remember (S m) as m' eqn:Em. cbn [channel_loop]. rewrite (rd_overlay _ _ _ _ E5), (rd_overlay _ _ _ _ E6). cbn [bind]. rewrite M. cbn [bind negb]. change MAX_SATELLIT_CHARS with 256. rewrite E. cbn [bind].
      rewrite strlen_overlay by (apply sensor_clean; exact Hn). cbn [bind]. pose proof (sensor_len n Hn). destruct (Nat.ltb_spec (length (sensor_line n)) 10); [lia|].
      rewrite starts_overlay by (first [apply sensor_clean; exact Hn|nonul_lit]). change (length (lit "PART 3")) with 6. rewrite not_part3 by exact Hn. cbn [bind].
      subst m'. cbn [channel_loop]. rewrite rd5, rd6 by exact Hn. cbn [bind]. change (ceqb "M" "M") with true. cbn iota. cbn [bind]. change (ceqb "W" "W") with true. cbn [negb]. cbn iota.
      destruct (svn_read n Hn (overlay x buf)) as (ES & _). rewrite ES. cbn [bind]. eexists. reflexivity.
    - inversion Fa as [|? ? Oy Fa']; subst. pose proof Oy as (Cy & Ly & _ & Py). destruct (on_text st f _ _ _ (overlay x buf) 256 H Cy ltac:(lia) ltac:(lia)) as (st1 & E & H1).
      remember (S m) as m' eqn:Em. cbn [channel_loop]. rewrite (rd_overlay _ _ _ _ E5), (rd_overlay _ _ _ _ E6). cbn [bind]. rewrite M. cbn [bind negb]. change MAX_SATELLIT_CHARS with 256. rewrite E. cbn [bind].
      rewrite strlen_overlay by exact Cy. cbn [bind]. destruct (Nat.ltb_spec (length y) 10); [lia|].
      rewrite starts_overlay by (first [exact Cy|nonul_lit]). change (length (lit "PART 3")) with 6.
      assert (P3 : list_eqb (firstn 6 y) (lit "PART 3") = false) by (destruct (list_eqb _ _) eqn:X; [apply list_eqb_eq in X; contradiction|reflexivity]). rewrite P3. cbn [bind].
      subst m'. cbn [length] in Hm. eapply (IH n b m st1 f y (overlay x buf) e); auto. lia.
  Qed.
  Lemma stale_lookup pre a n b e st : Forall other_ok a -> sensor_ok n -> length a < 1000 -> sfail st = false -> sdata st = pre ++ text_of (a ++ sensor_line n :: b) ++ e ->
    exists st', get_frequency_channel strp st (Some (length pre)) svn eph true = Val (mkBern 2 None false st').
  Proof.
    intros Fa Hn La Sf Sd. set (f := pre ++ text_of (a ++ sensor_line n :: b) ++ e) in *.
    pose proof (seek_on st f (length pre) Sf Sd) as H. unfold f in H at 2. rewrite skipn_app_exact in H by reflexivity. unfold get_frequency_channel. change MAX_SATELLIT_CHARS with 256.
    destruct a as [|x a]; cbn [app] in H.
    - pose proof (sensor_short n Hn) as Ls. destruct (on_text _ f _ _ _ (uninit 256) 256 H (sensor_clean n Hn) ltac:(lia) ltac:(rewrite len_uninit; lia)) as (st1 & E & H1).
      rewrite E. cbn [bind]. change SATELLIT_LINES with (S 999). generalize 999. intro m.
      cbn [channel_loop]. rewrite rd5, rd6 by exact Hn. cbn [bind]. change (ceqb "M" "M") with true. cbn iota. cbn [bind]. change (ceqb "W" "W") with true. cbn [negb]. cbn iota.
      destruct (svn_read n Hn (uninit 256)) as (ES & _). rewrite ES. cbn [bind]. eexists. reflexivity.
    - inversion Fa as [|? ? Ox Fa']; subst. pose proof Ox as (C & L & _). destruct (on_text _ f _ _ _ (uninit 256) 256 H C ltac:(lia) ltac:(rewrite len_uninit; lia)) as (st1 & E & H1).
      rewrite E. cbn [bind]. change SATELLIT_LINES with (S 999). cbn [length] in La. eapply (stale_loop a n b 999 st1 f x (uninit 256) e); auto; first [lia|apply len_uninit].
  Qed.
  (** a first line of less than five characters: line[5] was never written *)
  Lemma short_lookup pre l t st errno : clean l -> length l < 5 -> sfail st = false -> sdata st = pre ++ l ++ NL :: t ->
    get_frequency_channel strp st (Some (length pre)) svn eph errno = UB.
  Proof.
    intros C L Sf Sd. set (f := pre ++ l ++ NL :: t) in *. pose proof (seek_on st f (length pre) Sf Sd) as H. unfold f in H at 2. rewrite skipn_app_exact in H by reflexivity.
    unfold get_frequency_channel. change MAX_SATELLIT_CHARS with 256.
    destruct (on_line _ f _ _ (uninit 256) 256 H C ltac:(lia) ltac:(rewrite len_uninit; lia)) as (st1 & E & _). rewrite E. cbn [bind]. change SATELLIT_LINES with (S 999). generalize 999. intro m. cbn [channel_loop].
    assert (R : rd (overlay l (uninit 256)) 5 = UB) by (do 5 (destruct l as [|? l]; [reflexivity|]); cbn in L; lia). rewrite R. reflexivity.
  Qed.
  Lemma failed_lookup st part2 errno : sfail st = true -> get_frequency_channel strp st part2 svn eph errno = UB.
  Proof.
    intro F. unfold get_frequency_channel, seekg. rewrite F. unfold getline, good. cbn [seof sfail negb andb].
    change MAX_SATELLIT_CHARS with 256. change [Some NUL] with (map Some (@nil ascii) ++ [Some NUL]). rewrite wr_bytes_overlay by (rewrite len_uninit; cbn; lia). cbn [bind].
    change SATELLIT_LINES with (S 999). generalize 999. intro m. reflexivity.
  Qed.
End Lookup.
