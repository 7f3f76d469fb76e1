(** ProofNavFile: positions, peeking, searching (for C38, C40-C42) *)
From Verif Require Import Base BaseLemmas CNum CNumLemmas Stream ModelSatsys ModelNvarstr ModelNav SpecText SpecNum SpecObs SpecNav
  ProofText ProofNum ProofStream ProofEpoch ProofNav ProofNavBlock.

(** ** getline as seen by the caller that checks failbit *)
Lemma getline_ok st buf st1 b1 : length buf = 128 -> getline st buf 128 = Val (st1, b1) -> sfail st1 = false ->
  good st = true /\ exists l, b1 = overlay l buf /\ ~ In NL l /\ length l < 128 /\ sdata st1 = sdata st /\
    ((good st1 = true /\ rest st = l ++ NL :: rest st1) \/ (seof st1 = true /\ l <> [] /\ rest st = l /\ rest st1 = [])).
Proof.
  intros Lb G F. unfold getline in G. destruct (good st) eqn:Gd.
  2:{ change [Some NUL] with (map Some [] ++ [Some NUL]) in G. rewrite wr_bytes_overlay in G by (cbn; lia). cbn [bind] in G. injection G as <- _. discriminate. }
  split; [reflexivity|]. destruct (take_line (128 - 1) (rest st)) as [t e] eqn:T.
  pose proof (take_line_inv _ _ _ _ T) as (Ht & Hl & He). rewrite wr_bytes_overlay in G by lia. cbn [bind] in G.
  assert (Gf : seof st = false /\ sfail st = false) by (unfold good in Gd; destruct (seof st), (sfail st); try discriminate; auto).
  exists t. destruct e.
  - destruct He as [r Er]. assert (R : rest (advance st (length t + 1)) = r).
    { replace (length t + 1) with (length (t ++ [NL])) by (rewrite app_length; reflexivity). apply rest_advance. rewrite Er, <- app_assoc. reflexivity. }
    assert (E1 : st1 = advance st (length t + 1)) by (destruct t; injection G as <- _; reflexivity).
    assert (E2 : b1 = overlay t buf) by (destruct t; injection G as _ <-; reflexivity).
    subst st1 b1. split; [reflexivity|]. split; [exact Ht|]. split; [lia|]. split; [reflexivity|]. left. split; [exact Gd|]. rewrite R. exact Er.
  - destruct t as [|c t]; [injection G as <- _; discriminate|].
    assert (E1 : st1 = set_eof (advance st (length (c :: t) + 0))) by (injection G as <- _; reflexivity).
    assert (E2 : b1 = overlay (c :: t) buf) by (injection G as _ <-; reflexivity).
    subst st1 b1. split; [reflexivity|]. split; [exact Ht|]. split; [lia|]. split; [reflexivity|]. right. split; [reflexivity|]. split; [discriminate|].
    split; [exact He|]. change (rest (set_eof (advance st (length (c :: t) + 0)))) with (rest (advance st (length (c :: t) + 0))).
    rewrite Nat.add_0_r. apply rest_advance. rewrite He, app_nil_r. reflexivity.
  - destruct t; injection G as <- _; discriminate.
Qed.
(** the stream after getline does not depend on the buffer *)
Lemma getline_indep st b1 b2 : length b1 = 128 -> length b2 = 128 ->
  exists st' m1 m2, getline st b1 128 = Val (st', m1) /\ getline st b2 128 = Val (st', m2) /\ length m1 = 128 /\ length m2 = 128.
Proof.
  intros L1 L2. unfold getline. destruct (good st).
  - destruct (take_line (128 - 1) (rest st)) as [t e] eqn:T. pose proof (take_line_inv _ _ _ _ T) as (_ & Hl & _).
    rewrite !wr_bytes_overlay by lia. cbn [bind]. eexists _, _, _. split; [reflexivity|]. split; [reflexivity|].
    rewrite !overlay_length by lia. auto.
  - change [Some NUL] with (map Some [] ++ [Some NUL]). rewrite !wr_bytes_overlay by (cbn; lia). cbn [bind].
    eexists _, _, _. split; [reflexivity|]. split; [reflexivity|]. rewrite !overlay_length by (cbn; lia). auto.
Qed.
Lemma for2cpp_len : forall m m', for2cpp m = Val m' -> length m' = length m.
Proof.
  intros m m' H. apply for2cpp_val in H as (s & r & -> & _ & ->). rewrite !app_length, !map_length. reflexivity.
Qed.

(** ** C38: lines taken *)
Lemma skip_takes : forall k st line st', length line = 128 -> good st = true -> skip_lines k st line = Val (false, st') -> takes k st st'.
Proof.
  induction k; cbn [skip_lines]; intros st line st' Lb Gd H.
  - injection H as <-. exists []. split; [reflexivity|]. split; [constructor|]. split; [reflexivity|].
    split; [unfold good in Gd; destruct (sfail st), (seof st); try discriminate; reflexivity|]. left. auto.
  - destruct (getline_indep st line line Lb Lb) as (st1 & m1 & _ & G & _ & Lm & _). rewrite G in H. cbn [bind] in H.
    destruct (sfail st1) eqn:Fl; [discriminate|].
    destruct (getline_ok _ _ _ _ Lb G Fl) as (_ & l & Em & Nl & Ll & D1 & C).
    destruct C as [(G1 & R)|(E1 & Nn & R & R1)].
    + destruct (IHk st1 m1 st' Lm G1 H) as (ls & L & F & D & Sf & C). exists (l :: ls). split; [cbn; lia|]. split; [constructor; assumption|].
      split; [congruence|]. split; [exact Sf|].
      destruct C as [(G2 & R2)|(E2 & R2 & R3)]; [left|right]; (split; [assumption|]).
      * rewrite R, R2. unfold text_of. cbn [flat_map]. rewrite <- !app_assoc. reflexivity.
      * split; [exact R2|]. rewrite R. unfold text_of in *. cbn [flat_map]. rewrite <- R3, <- !app_assoc. reflexivity.
    + destruct k; cbn [skip_lines] in H.
      * injection H as <-. exists [l]. split; [reflexivity|]. split; [constructor; [exact Nl|constructor]|]. split; [exact D1|]. split; [exact Fl|].
        right. split; [exact E1|]. split; [exact R1|]. rewrite R. unfold text_of. cbn [flat_map]. rewrite app_nil_r. reflexivity.
      * exfalso. destruct (getline_indep st1 m1 m1 Lm Lm) as (st2 & m2 & _ & G2 & _). rewrite G2 in H. cbn [bind] in H.
        destruct (sfail st2) eqn:Fl2; [discriminate|]. destruct (getline_ok _ _ _ _ Lm G2 Fl2) as (Gd1 & _).
        unfold good in Gd1. rewrite E1 in Gd1. discriminate.
Qed.
Lemma mid_skip : forall k ln st line f e st2 line2 f2 e2, length line = 128 ->
  mid_lines k ln st line f e = Val (inr (st2, line2, f2, e2)) ->
  length line2 = 128 /\ f_sys f2 = f_sys f /\ f_prn f2 = f_prn f /\ f_toc f2 = f_toc f /\
  forall line', length line' = 128 -> exists line'', length line'' = 128 /\ forall j, skip_lines (k + j) st line' = skip_lines j st2 line''.
Proof.
  induction k; cbn [mid_lines]; intros ln st line f e st2 line2 f2 e2 Lb H.
  - injection H as <- <- <- <-. split; [exact Lb|]. repeat (split; [reflexivity|]). intros line' L'. exists line'. split; [exact L'|]. reflexivity.
  - destruct (getline_indep st line line Lb Lb) as (st1 & m1 & _ & G & _ & Lm & _). rewrite G in H. cbn [bind] in H.
    destruct (sfail st1) eqn:Fl; [discriminate|].
    destruct (for2cpp m1) as [m1'| | | |] eqn:Ef; try discriminate. cbn [bind] in H. apply for2cpp_len in Ef. rewrite Lm in Ef.
    destruct (c2d _ _ _ _) as [[[ok vs] e1]| | | |]; try discriminate. cbn [bind] in H.
    destruct (put _ _ _) as [d| | | |]; try discriminate. cbn [bind] in H. destruct ok; [|discriminate].
    destruct (IHk _ _ _ _ _ _ _ _ _ Ef H) as (L2 & E1 & E2 & E3 & A). split; [exact L2|]. cbn [set_data f_sys f_prn f_toc] in E1, E2, E3.
    repeat (split; [assumption|]). intros line' L'.
    destruct (getline_indep st line line' Lb L') as (st1' & x1 & x2 & G1 & G2 & _ & Lx). rewrite G in G1.
    assert (st1' = st1) by congruence. subst st1'. destruct (A x2 Lx) as (line'' & L'' & A'). exists line''. split; [exact L''|].
    intro j. cbn [Nat.add skip_lines]. rewrite G2. cbn [bind]. rewrite Fl. apply A'.
Qed.
Definition lines_of (s : satsys) : nat := Z.to_nat (fst (lines_per_satsys s)).
(** a successful read: the letter decides, and the lines are those ignore_next_block would skip *)
Lemma read_zero strp st f e r : good st = true -> set_from_rnx3 strp st f e = Val r -> n_code r = 0%Z ->
  exists c t sys, rest st = c :: t /\ char_to_satsys c = Val sys /\ sys <> Mixed /\ f_sys (n_frame r) = sys /\
    skip_lines (lines_of sys) st (uninit 128) = Val (false, n_stream r).
Proof.
  intros Gd H Z0. unfold set_from_rnx3 in H. match type of H with noexcept ?x = _ => set (body := x) in H end.
  assert (Hb : body = Val r) by (destruct body; cbn in H; congruence). clear H. subst body. rename Hb into H.
  assert (Lu : length (uninit 128) = 128) by (unfold uninit; apply repeat_length).
  destruct (getline_indep st (uninit 128) (uninit 128) Lu Lu) as (st1 & m1 & _ & G & _ & Lm & _). rewrite G in H. cbn [bind] in H.
  destruct (sfail st1) eqn:Fl; [injection H as <-; discriminate|].
  destruct (getline_ok _ _ _ _ Lu G Fl) as (_ & l & Em & Nl & Ll & D1 & C). subst m1.
  rewrite ProofEpoch.rd0_overlay in H. cbn [bind] in H.
  destruct l as [|c l].
  { change (char_to_satsys NUL) with (@Exn satsys) in H. discriminate. }
  assert (R0 : exists t, rest st = c :: t) by (destruct C as [(_ & R)|(_ & _ & R & _)]; rewrite R; eexists; reflexivity).
  destruct R0 as (t & R0). destruct (char_to_satsys c) as [sys| | | |] eqn:Es; try discriminate. cbn [bind] in H.
  exists c, t, sys. split; [exact R0|]. split; [exact Es|].
  destruct (cstr _ 3) as [s3| | | |]; try discriminate. cbn [bind] in H. destruct (strp s3) as [toc|]; [|discriminate].
  destruct (cstr _ 1) as [s1| | | |]; try discriminate. cbn [bind] in H. destruct (strtol s1) as [[p np] er].
  destruct (_ || _)%bool; [injection H as <-; discriminate|].
  destruct (for2cpp _) as [m23| | | |] eqn:Ef; try discriminate. cbn [bind] in H. apply for2cpp_len in Ef.
  assert (L1 : length (firstn 23 (overlay (c :: l) (uninit 128)) ++ m23) = 128).
  { rewrite app_length, Ef, firstn_length, skipn_length, Lm. lia. }
  set (line1 := firstn 23 (overlay (c :: l) (uninit 128)) ++ m23) in *.
  destruct (c2d line1 23 3 _) as [[[ok vs] e2]| | | |]; try discriminate. cbn [bind] in H.
  destruct (put _ 0 vs) as [d1| | | |]; try discriminate. cbn [bind] in H. destruct ok; cbn [negb] in H; [|injection H as <-; discriminate].
  unfold lines_of. destruct (lines_per_satsys sys) as [nl last] eqn:El. cbn [fst]. destruct (Z.ltb_spec (nl - 1) 0); [injection H as <-; discriminate|].
  set (k := Z.to_nat (nl - 1 - 1)) in *.
  assert (Hnl : sys <> Mixed /\ Z.to_nat nl = S (k + 1)).
  { destruct sys; injection El as <- <-; try (split; [discriminate|reflexivity]). lia. }
  destruct Hnl as (Hm & Hn).
  destruct (mid_lines k 0 st1 line1 _ e2) as [[res|[[[st2 line2] f5] e3]]| | | |] eqn:Emid; try discriminate; cbn [bind] in H.
  { exfalso. assert (Ec : n_code res = 5%Z \/ n_code res = 6%Z).
    { clear - Emid. revert Emid. match goal with |- mid_lines ?k ?ln ?st ?line ?f ?e = _ -> _ => generalize k ln st line f e end.
      clear. induction k; cbn [mid_lines]; intros ln st line f e H; [discriminate|].
      destruct (getline st line 128) as [[sx mx]| | | |]; try discriminate. cbn [bind] in H. destruct (sfail sx); [injection H as <-; auto|].
      destruct (for2cpp mx); try discriminate. cbn [bind] in H. destruct (c2d _ _ _ _) as [[[ok vs] ee]| | | |]; try discriminate. cbn [bind] in H.
      destruct (put _ _ _); try discriminate. cbn [bind] in H. destruct ok; [eapply IHk; exact H|injection H as <-; auto]. }
    injection H as <-. lia. }
  destruct (mid_skip _ _ _ _ _ _ _ _ _ _ L1 Emid) as (L2 & S1 & _ & _ & A). cbn [f_sys set_data set_prn set_toc set_sys] in S1.
  destruct (getline_indep st2 line2 line2 L2 L2) as (st3 & m3 & _ & G3 & _ & L3 & _). rewrite G3 in H. cbn [bind] in H.
  destruct (sfail st3) eqn:Fl3; [injection H as <-; discriminate|].
  destruct (for2cpp m3) as [m4| | | |]; try discriminate. cbn [bind] in H.
  destruct (c2d m4 4 last e3) as [[[ok vs'] e4]| | | |]; try discriminate. cbn [bind] in H.
  destruct (put _ _ vs') as [d2| | | |]; try discriminate. cbn [bind] in H. destruct ok; cbn [negb] in H; [|injection H as <-; discriminate].
  assert (Hsys : f_sys (n_frame r) = sys /\ n_stream r = st3).
  { destruct (satsys_eqb sys Glonass).
    - destruct (scale_at _ _) as [d7| | | |]; try discriminate. cbn [bind] in H.
      destruct sys; try (destruct (toe2date _); try discriminate; cbn [bind] in H); injection H as <-; split; try reflexivity; exact S1.
    - cbn [bind] in H. destruct sys; try (destruct (toe2date _); try discriminate; cbn [bind] in H); injection H as <-; split; try reflexivity; exact S1. }
  destruct Hsys as (Hs & Hst). split; [exact Hm|]. split; [exact Hs|].
  rewrite Hn. cbn [skip_lines]. rewrite G. cbn [bind]. rewrite Fl.
  destruct (A (overlay (c :: l) (uninit 128)) Lm) as (line'' & L'' & A'). rewrite A'. cbn [skip_lines].
  destruct (getline_indep st2 line2 line'' L2 L'') as (sx & x1 & x2 & X1 & X2 & _ & _). rewrite G3 in X1.
  assert (sx = st3) by congruence. subst sx. rewrite X2. cbn [bind]. rewrite Fl3, Hst. reflexivity.
Qed.
Lemma char_not_ff c sys : char_to_satsys c = Val sys -> ceqb c CFF = false.
Proof. intro H. destruct (ceqb c CFF) eqn:E; [|reflexivity]. apply ceqb_eq in E. subst. discriminate. Qed.
Lemma peek_some st c t : good st = true -> rest st = c :: t -> peek st = (st, Some c).
Proof. intros G R. unfold peek. rewrite G, R. reflexivity. Qed.
Lemma peek_inv st st1 c : peek st = (st1, Some c) -> st1 = st /\ good st = true /\ exists t, rest st = c :: t.
Proof. unfold peek. destruct (good st); [|discriminate]. destruct (rest st); [discriminate|]. intro H. injection H as <- <-. eauto. Qed.
Theorem read_as_ignore strp st f e r : read_next_record strp st f e = Val r -> n_code r = 0%Z ->
  good st = true /\ exists c t sys, rest st = c :: t /\ char_to_satsys c = Val sys /\ sys <> Mixed /\ f_sys (n_frame r) = sys /\
    ignore_next_block st = Val (0%Z, n_stream r) /\ takes (lines_of sys) st (n_stream r).
Proof.
  intros H Z0. unfold read_next_record in H. destruct (peek st) as [st1 [c|]] eqn:P.
  2:{ destruct (seof st1); injection H as <-; discriminate. }
  apply peek_inv in P as (-> & Gd & t & R). split; [exact Gd|].
  destruct (read_zero _ _ _ _ _ Gd H Z0) as (c' & t' & sys & R' & Es & Nm & Fs & Sk). exists c', t', sys.
  split; [exact R'|]. split; [exact Es|]. split; [exact Nm|]. split; [exact Fs|].
  assert (Lu : length (uninit 128) = 128) by (unfold uninit; apply repeat_length).
  split; [|apply (skip_takes _ _ _ _ Lu Gd Sk)].
  unfold ignore_next_block, peek_char. rewrite (peek_some _ _ _ Gd R'). cbv iota beta. rewrite (char_not_ff _ _ Es), Es.
  change (Z.to_nat (fst (lines_per_satsys sys))) with (lines_of sys). rewrite Sk. reflexivity.
Qed.
Theorem ignore_zero st st' : ignore_next_block st = Val (0%Z, st') ->
  good st = true /\ exists c t sys, rest st = c :: t /\ char_to_satsys c = Val sys /\ takes (lines_of sys) st st'.
Proof.
  unfold ignore_next_block, peek_char. intro H. destruct (peek st) as [st1 [c|]] eqn:P.
  2:{ change (ceqb CFF CFF) with true in H. discriminate. }
  apply peek_inv in P as (-> & Gd & t & R). split; [exact Gd|].
  destruct (ceqb c CFF); [discriminate|]. destruct (char_to_satsys c) as [sys| | | |] eqn:Es; try discriminate.
  destruct (skip_lines _ _ _) as [[bad st2]| | | |] eqn:Sk; try discriminate. cbn [bind] in H.
  destruct bad; [discriminate|]. injection H as <-. exists c, t, sys. split; [exact R|]. split; [exact Es|].
  apply (skip_takes _ _ (uninit 128)); [unfold uninit; apply repeat_length|exact Gd|exact Sk].
Qed.
Theorem ignore_mixed st t : at_rest st ("M"%char :: t) -> ignore_next_block st = Val (0%Z, st).
Proof. intros [G R]. unfold ignore_next_block, peek_char. rewrite (peek_some _ _ _ G R). reflexivity. Qed.
Lemma takes_rest n st st' : takes n st st' -> n <> 0 -> rest st <> [] -> length (rest st') < length (rest st).
Proof.
  intros (ls & L & _ & _ & _ & [(_ & R)|(_ & R & _)]) Hn Hr.
  - rewrite R, app_length. destruct ls as [|l ls]; [cbn in L; congruence|]. unfold text_of. cbn [flat_map]. rewrite !app_length. cbn. lia.
  - rewrite R. destruct (rest st); [congruence|cbn; lia].
Qed.
