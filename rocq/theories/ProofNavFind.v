(** ProofNavFind: peak_satsys, find_next, find_next_valid (for C40-C42, C66) *)
From Verif Require Import Base BaseLemmas CNum CNumLemmas Stream ModelSatsys ModelNvarstr ModelNav SpecText SpecNum SpecObs SpecNav
  ProofText ProofNum ProofStream ProofEpoch ProofObsMisc ProofNav ProofNavBlock ProofNavFile.

Lemma good_same st : good st = true -> sclear (set_eof st) = st.
Proof. unfold good, sclear, clear_bits, set_eof. destruct st as [d p [] []]; cbn; try discriminate. reflexivity. Qed.
Lemma good_bits st : good st = true -> seof st = false /\ sfail st = false.
Proof. unfold good. destruct (seof st), (sfail st); try discriminate; auto. Qed.
Lemma satsys_eqb_eq a b : satsys_eqb a b = true <-> a = b.
Proof. destruct a, b; cbn; split; congruence. Qed.

(** ** peeking *)
Theorem peak_keeps st s sys st' : peak_satsys st = (s, sys, st') -> sdata st' = sdata st /\ spos st' = spos st.
Proof.
  unfold peak_satsys, peek_char, peek. destruct (good st).
  - destruct (rest st) as [|c t].
    + change (ceqb CFF CFF) with true. intro H. injection H as _ _ <-. auto.
    + destruct (ceqb c CFF); [intro H; injection H as _ _ <-; auto|]. destruct (char_to_satsys c); intro H; injection H as _ _ <-; auto.
  - change (ceqb CFF CFF) with true. intro H. injection H as _ _ <-. auto.
Qed.
Lemma peak_good st : good st = true ->
  peak_satsys st = match rest st with
                   | [] => ((-1)%Z, Mixed, st)
                   | c :: _ => if ceqb c CFF then ((-1)%Z, Mixed, st) else match char_to_satsys c with Val s => (0%Z, s, st) | _ => (1%Z, Mixed, st) end
                   end.
Proof.
  intro G. unfold peak_satsys, peek_char, peek. rewrite G. destruct (rest st) as [|c t].
  - change (ceqb CFF CFF) with true. rewrite good_same by exact G. reflexivity.
  - destruct (ceqb c CFF); [|destruct (char_to_satsys c); reflexivity]. f_equal. unfold sclear, clear_bits. destruct (good_bits _ G) as (A & B).
    destruct st; cbn in *; subst; reflexivity.
Qed.
Lemma peak_zero st sys st1 : peak_satsys st = (0%Z, sys, st1) ->
  st1 = st /\ good st = true /\ exists c t, rest st = c :: t /\ char_to_satsys c = Val sys.
Proof.
  unfold peak_satsys, peek_char. destruct (peek st) as [st2 [c|]] eqn:P; [|change (ceqb CFF CFF) with true; discriminate].
  apply peek_inv in P as (-> & G & t & R). destruct (ceqb c CFF); [discriminate|]. destruct (char_to_satsys c) eqn:E; try discriminate.
  intro H. injection H as <- <-. split; [reflexivity|]. split; [exact G|]. exists c, t. auto.
Qed.

(** ** find_next *)
Lemma find_zero : forall k strp st f e sys prn r, find_loop k strp st f e sys prn = Val r -> n_code r = 0%Z ->
  f_sys (n_frame r) = sys /\ (prn = (-1)%Z \/ f_prn (n_frame r) = prn).
Proof.
  induction k; cbn [find_loop]; intros strp st f e sys prn r H Z0; [discriminate|].
  destruct (peak_satsys st) as [[s cs] st1] eqn:P. destruct (Z.eqb_spec s 0) as [->|Ns]; cbn [negb] in H.
  2:{ injection H as <-. cbn in Z0. congruence. }
  destruct (peak_zero _ _ _ P) as (-> & G & c & t & R & Ec).
  destruct (satsys_eqb cs sys) eqn:Es.
  - apply satsys_eqb_eq in Es. subst cs. destruct (read_next_record strp st f e) as [r1| | | |] eqn:Er; try discriminate. cbn [bind] in H.
    destruct (Z.eqb_spec (n_code r1) 0) as [E0|N0]; cbn [negb] in H; [|injection H as <-; cbn in Z0; congruence].
    destruct (read_as_ignore _ _ _ _ _ Er E0) as (_ & c' & t' & s' & R' & Ec' & _ & Fs & _).
    rewrite R in R'. injection R' as <- <-. rewrite Ec in Ec'. injection Ec' as <-.
    destruct (Z.eqb_spec prn (-1)) as [Ep|Np]; cbn [orb] in H; [injection H as <-; auto|].
    destruct (Z.eqb_spec prn (f_prn (n_frame r1))) as [Ep|Np']; [injection H as <-; auto|]. exact (IHk _ _ _ _ _ _ _ H Z0).
  - destruct (ignore_next_block st) as [[j st2]| | | |]; try discriminate. cbn [bind] in H.
    destruct (Z.eqb_spec j 0) as [->|Nj]; cbn [negb] in H; [exact (IHk _ _ _ _ _ _ _ H Z0)|]. injection H as <-. cbn in Z0. congruence.
Qed.
(** after a return the stream is not failed; the content is the same *)
Lemma skip_data : forall k st line b st', length line = 128 -> skip_lines k st line = Val (b, st') -> sdata st' = sdata st.
Proof.
  induction k; cbn [skip_lines]; intros st line b st' L H; [injection H as _ <-; reflexivity|].
  destruct (getline_total st line 128 ltac:(lia) ltac:(lia)) as (s1 & l & G & Ll & _ & D). rewrite G in H. cbn [bind] in H.
  destruct (sfail s1); [injection H as _ <-; exact D|]. rewrite <- D. eapply IHk; [|exact H]. rewrite overlay_length; lia.
Qed.
Lemma ignore_data st j st' : ignore_next_block st = Val (j, st') -> sdata st' = sdata st.
Proof.
  unfold ignore_next_block, peek_char, peek. intro H.
  assert (Lu : length (uninit 128) = 128) by (unfold uninit; apply repeat_length).
  destruct (good st); [|change (ceqb CFF CFF) with true in H; injection H as _ <-; reflexivity].
  destruct (rest st) as [|c t]; [change (ceqb CFF CFF) with true in H; injection H as _ <-; reflexivity|].
  destruct (ceqb c CFF); [injection H as _ <-; reflexivity|]. destruct (char_to_satsys c); try (injection H as _ <-; reflexivity).
  destruct (skip_lines _ _ _) as [[b s2]| | | |] eqn:Sk; try discriminate. cbn [bind] in H. injection H as _ <-. eapply skip_data; [exact Lu|exact Sk].
Qed.
Lemma mid_data : forall k ln st line f e r, length line = 128 -> mid_lines k ln st line f e = Val r ->
  match r with inl x => sdata (n_stream x) = sdata st | inr (st2, line2, _, _) => sdata st2 = sdata st /\ length line2 = 128 end.
Proof.
  induction k; cbn [mid_lines]; intros ln st line f e r L H; [injection H as <-; auto|].
  destruct (getline_total st line 128 ltac:(lia) ltac:(lia)) as (s1 & l & G & Ll & _ & D). rewrite G in H. cbn [bind] in H.
  destruct (sfail s1); [injection H as <-; exact D|].
  destruct (for2cpp _) as [m| | | |] eqn:Ef; try discriminate. cbn [bind] in H. apply for2cpp_len in Ef. rewrite overlay_length in Ef by lia.
  destruct (c2d _ _ _ _) as [[[ok vs] e1]| | | |]; try discriminate. cbn [bind] in H. destruct (put _ _ _); try discriminate. cbn [bind] in H.
  destruct ok; [|injection H as <-; exact D]. apply IHk in H; [|lia]. rewrite D in H. exact H.
Qed.
Lemma set_data_same strp st f e r : set_from_rnx3 strp st f e = Val r -> sdata (n_stream r) = sdata st.
Proof.
  unfold set_from_rnx3. match goal with |- noexcept ?x = _ -> _ => set (body := x) end. intro H0.
  assert (H : body = Val r) by (destruct body; cbn in H0; congruence). clear H0. subst body.
  assert (Lu : length (uninit 128) = 128) by (unfold uninit; apply repeat_length).
  destruct (getline_total st (uninit 128) 128 ltac:(lia) ltac:(lia)) as (s1 & l & G & Ll & _ & D). rewrite G in H. cbn [bind] in H.
  destruct (sfail s1); [injection H as <-; exact D|].
  destruct (rd _ 0) as [c0| | | |]; try discriminate. cbn [bind] in H. destruct (char_to_satsys c0) as [sys| | | |]; try discriminate. cbn [bind] in H.
  destruct (cstr _ 3) as [s3| | | |]; try discriminate. cbn [bind] in H. destruct (strp s3) as [toc|]; [|discriminate].
  destruct (cstr _ 1) as [c1| | | |]; try discriminate. cbn [bind] in H. destruct (strtol c1) as [[p np] er].
  destruct (_ || _)%bool; [injection H as <-; exact D|].
  destruct (for2cpp _) as [m23| | | |] eqn:Ef; try discriminate. cbn [bind] in H. apply for2cpp_len in Ef.
  assert (L1 : length (firstn 23 (overlay l (uninit 128)) ++ m23) = 128).
  { rewrite app_length, Ef, firstn_length, skipn_length, overlay_length by lia. lia. }
  destruct (c2d _ 23 3 _) as [[[ok vs] e2]| | | |]; try discriminate. cbn [bind] in H.
  destruct (put _ 0 vs) as [d1| | | |]; try discriminate. cbn [bind] in H. destruct ok; cbn [negb] in H; [|injection H as <-; exact D].
  destruct (lines_per_satsys sys) as [nl last]. destruct (_ <? 0)%Z; [injection H as <-; exact D|].
  destruct (mid_lines _ _ _ _ _ _) as [m| | | |] eqn:Em; try discriminate. cbn [bind] in H. apply mid_data in Em; [|exact L1].
  destruct m as [res|[[[st2 line2] f5] e3]]; [injection H as <-; congruence|]. destruct Em as (D2 & L2).
  destruct (getline_total st2 line2 128 ltac:(lia) ltac:(lia)) as (s3' & l3 & G3 & _ & _ & D3). rewrite G3 in H. cbn [bind] in H.
  destruct (sfail s3'); [injection H as <-; cbn; congruence|].
  destruct (for2cpp _); try discriminate. cbn [bind] in H. destruct (c2d _ 4 _ _) as [[[ok vs'] e4]| | | |]; try discriminate. cbn [bind] in H.
  destruct (put _ _ vs'); try discriminate. cbn [bind] in H. destruct ok; cbn [negb] in H; [|injection H as <-; cbn; congruence].
  destruct (satsys_eqb sys Glonass).
  - destruct (scale_at _ _); try discriminate. cbn [bind] in H.
    destruct sys; try (destruct (toe2date _); try discriminate; cbn [bind] in H); injection H as <-; cbn; congruence.
  - cbn [bind] in H. destruct sys; try (destruct (toe2date _); try discriminate; cbn [bind] in H); injection H as <-; cbn; congruence.
Qed.
Lemma read_data strp st f e r : read_next_record strp st f e = Val r -> sdata (n_stream r) = sdata st.
Proof.
  unfold read_next_record, peek. destruct (good st).
  - destruct (rest st); [|apply set_data_same]. intro H. cbn in H. injection H as <-. reflexivity.
  - intro H. destruct (seof (set_fail st)); injection H as <-; reflexivity.
Qed.
Lemma peak_fail st s sys st' : peak_satsys st = (s, sys, st') -> sfail st' = false.
Proof.
  unfold peak_satsys, peek_char. destruct (peek st) as [st2 [c|]] eqn:P.
  - apply peek_inv in P as (-> & G & _). apply good_bits in G as (_ & G). destruct (ceqb c CFF); [intro H; injection H as _ _ <-; reflexivity|].
    destruct (char_to_satsys c); intro H; injection H as _ _ <-; exact G.
  - change (ceqb CFF CFF) with true. intro H. injection H as _ _ <-. reflexivity.
Qed.
Lemma find_stream : forall k strp st f e sys prn r, find_loop k strp st f e sys prn = Val r ->
  sfail (n_stream r) = false /\ sdata (n_stream r) = sdata st.
Proof.
  induction k; cbn [find_loop]; intros strp st f e sys prn r H; [discriminate|].
  destruct (peak_satsys st) as [[s cs] st1] eqn:P. pose proof (peak_fail _ _ _ _ P) as Pf. destruct (peak_keeps _ _ _ _ P) as (Pd & _).
  destruct (s =? 0)%Z; cbn [negb] in H; [|injection H as <-; auto]. rewrite <- Pd.
  destruct (satsys_eqb cs sys).
  - destruct (read_next_record strp st1 f e) as [r1| | | |] eqn:Er; try discriminate. cbn [bind] in H. pose proof (read_data _ _ _ _ _ Er) as D.
    destruct (Z.eqb_spec (n_code r1) 0) as [E0|N0]; cbn [negb] in H; [|injection H as <-; auto].
    destruct (read_as_ignore _ _ _ _ _ Er E0) as (_ & c' & t' & s' & _ & _ & _ & _ & _ & (ls & _ & _ & _ & Sf & _)).
    destruct (_ || _)%bool; [injection H as <-; auto|]. rewrite <- D. exact (IHk _ _ _ _ _ _ _ H).
  - destruct (ignore_next_block st1) as [[j st2]| | | |] eqn:Ei; try discriminate. cbn [bind] in H. pose proof (ignore_data _ _ _ Ei) as D.
    destruct (j =? 0)%Z; cbn [negb] in H; [|injection H as <-; auto]. rewrite <- D. exact (IHk _ _ _ _ _ _ _ H).
Qed.
Theorem find_rewind k strp st f e sys prn pos r eoh : good st = true -> find_next k strp st f e sys prn = Val (pos, r) ->
  pos = Some (spos st) /\ nav_rewind eoh pos (n_stream r) = st.
Proof.
  intros G H. unfold find_next, tellg in H. rewrite G in H.
  destruct (find_loop k strp st f e sys prn) as [r1| | | |] eqn:E; try discriminate. cbn [bind] in H. injection H as <- <-.
  split; [reflexivity|]. destruct (find_stream _ _ _ _ _ _ _ _ E) as (Sf & D). unfold nav_rewind, seekg. rewrite Sf, D.
  destruct (good_bits _ G) as (A & B). destruct st; cbn in *; subst; reflexivity.
Qed.
(** -1: at the end of the file, or at a byte 0xFF *)
Definition seen_all (st : stream) : Prop := sfail st = false /\ (seof st = true -> rest st = []).
Lemma seen_good st : good st = true -> seen_all st.
Proof. intro G. apply good_bits in G as (A & B). split; [exact B|congruence]. Qed.
Lemma takes_seen n st st' : takes n st st' -> seen_all st'.
Proof. intros (ls & _ & _ & _ & Sf & [(G & _)|(E & R & _)]); [apply seen_good, G|]. split; auto. Qed.
Lemma mid_code : forall k ln st line f e x, mid_lines k ln st line f e = Val (inl x) -> n_code x = 5%Z \/ n_code x = 6%Z.
Proof.
  induction k; cbn [mid_lines]; intros ln st line f e x H; [discriminate|].
  destruct (getline st line 128) as [[sx mx]| | | |]; try discriminate; cbn [bind] in H; destruct (sfail sx); [injection H as <-; cbn; lia|].
  destruct (for2cpp mx); try discriminate; cbn [bind] in H; destruct (c2d _ _ _ _) as [[[ok vs] ee]| | | |]; try discriminate; cbn [bind] in H.
  destruct (put _ _ _); try discriminate; cbn [bind] in H; destruct ok; [eapply IHk; exact H|injection H as <-; cbn; lia].
Qed.
Lemma set_code strp st f e r : set_from_rnx3 strp st f e = Val r -> (0 <= n_code r <= 8)%Z.
Proof.
  unfold set_from_rnx3. match goal with |- noexcept ?x = _ -> _ => set (body := x) end. intro H0.
  assert (H : body = Val r) by (destruct body; cbn in H0; congruence). clear H0. subst body.
  repeat match goal with
  | H : Val _ = Val _ |- _ => injection H as <-; cbn; try lia
  | H : bind ?o _ = Val _ |- _ => destruct o eqn:?; try discriminate; cbn [bind] in H
  | H : (let '(_, _) := ?x in _) = Val _ |- _ => destruct x
  | H : (if ?b then _ else _) = Val _ |- _ => destruct b
  | H : match ?x with Some _ => _ | None => _ end = Val _ |- _ => destruct x; try discriminate
  | H : match ?x with inl _ => _ | inr _ => _ end = Val _ |- _ => destruct x
  | H : match ?x with Gps => _ | _ => _ end = Val _ |- _ => destruct x
  end.
  all: match goal with H : mid_lines _ _ _ _ _ _ = Val (inl _) |- _ => apply mid_code in H; lia end.
Qed.
(** [nf]: not out of fuel *)
Definition nf {A} (x : outcome A) : Prop := x <> Fuel.
Lemma nf_calm {A} (x : outcome A) : calm x -> nf x.
Proof. destruct x; cbn; unfold nf; intros; try discriminate; contradiction. Qed.
Lemma nf_bind {A B} (x : outcome A) (g : A -> outcome B) : nf x -> (forall a, x = Val a -> nf (g a)) -> nf (bind x g).
Proof. destruct x; cbn; unfold nf; intros; try discriminate; try contradiction; auto. Qed.
Lemma nf_val {A} (a : A) : nf (Val a).
Proof. unfold nf. discriminate. Qed.
Ltac isv := solve [unfold nf; intros; discriminate].
Lemma nf_noexcept {A} (x : outcome A) : nf x -> nf (noexcept x).
Proof. destruct x; unfold nf; cbn; congruence. Qed.
Lemma nf_for2cpp m : nf (for2cpp m).
Proof. induction m as [|[c|] m IH]; cbn [for2cpp]; try (unfold nf; isv). destruct (ceqb c NUL); [unfold nf; isv|]. apply nf_bind; [exact IH|intros; apply nf_val]. Qed.
Lemma nf_c2d m o n e : nf (c2d m o n e).
Proof. unfold c2d. apply nf_bind; [apply nf_calm, calm_c2d|]. intros [[a b] c] _. isv. Qed.
Lemma nf_put d o v : nf (put d o v).
Proof. unfold put, nf. destruct (_ <=? _); isv. Qed.
Lemma nf_slot d i : nf (slot d i).
Proof. unfold slot, nf. destruct (nth_error _ _); isv. Qed.
Lemma nf_trunc lo hi v : nf (trunc_in lo hi v).
Proof. unfold trunc_in, nf. destruct v; try isv. destruct (_ && _)%bool; isv. Qed.
Lemma nf_char c : nf (char_to_satsys c).
Proof. unfold nf, char_to_satsys. repeat match goal with |- context[if ?b then _ else _] => destruct b; try isv end. Qed.
Lemma nf_scale ix : forall d, nf (scale_at ix d).
Proof.
  induction ix; intro d; cbn [scale_at]; [isv|]. apply nf_bind; [apply nf_slot|intros v _]. apply nf_bind; [apply nf_put|intros; apply IHix].
Qed.
Lemma nf_toe f : nf (toe2date f).
Proof.
  unfold toe2date, gps_toe, bds_toe, glo_toe, to_int, to_long. cbv zeta.
  destruct (f_sys f); try isv; repeat (apply nf_bind; [first [apply nf_slot|apply nf_trunc]|intros ? _]); isv.
Qed.
Lemma nf_mid : forall k ln st line f e, nf (mid_lines k ln st line f e).
Proof.
  induction k; intros ln st line f e; cbn [mid_lines]; [isv|]. apply nf_bind; [apply nf_calm, calm_getline|intros [s1 l1] _].
  destruct (sfail s1); [isv|]. apply nf_bind; [apply nf_for2cpp|intros l2 _]. apply nf_bind; [apply nf_c2d|intros [[ok vs] e1] _].
  apply nf_bind; [apply nf_put|intros d _]. destruct ok; [apply IHk|isv].
Qed.
Lemma nf_set strp st f e : nf (set_from_rnx3 strp st f e).
Proof.
  unfold set_from_rnx3. apply nf_noexcept. apply nf_bind; [apply nf_calm, calm_getline|intros [s1 l1] _].
  destruct (sfail s1); [isv|]. apply nf_bind; [apply nf_calm, calm_rd|intros c0 _]. apply nf_bind; [apply nf_char|intros sys _]. cbv zeta.
  apply nf_bind; [apply nf_calm, calm_cstr|intros s3 _]. destruct (strp s3); [|isv]. apply nf_bind; [apply nf_calm, calm_cstr|intros c1 _].
  destruct (strtol c1) as [[p np] er]. destruct (_ || _)%bool; [isv|]. apply nf_bind; [apply nf_for2cpp|intros m _].
  apply nf_bind; [apply nf_c2d|intros [[ok vs] e2] _]. apply nf_bind; [apply nf_put|intros d _]. destruct ok; cbn [negb]; [|isv].
  destruct (lines_per_satsys sys) as [nl last]. destruct (_ <? 0)%Z; [isv|]. apply nf_bind; [apply nf_mid|intros [x|[[[a b] c] d']] _]; [isv|].
  apply nf_bind; [apply nf_calm, calm_getline|intros [s3' l3] _]. destruct (sfail s3'); [isv|].
  apply nf_bind; [apply nf_for2cpp|intros l4 _]. apply nf_bind; [apply nf_c2d|intros [[ok vs'] e4] _]. apply nf_bind; [apply nf_put|intros d2 _].
  destruct ok; cbn [negb]; [|isv]. apply nf_bind.
  - destruct (satsys_eqb sys Glonass); [|isv]. apply nf_bind; [apply nf_scale|intros; isv].
  - intros f7 _. destruct sys; try isv; (apply nf_bind; [apply nf_toe|intros; isv]).
Qed.
Lemma nf_read strp st f e : nf (read_next_record strp st f e).
Proof. unfold read_next_record. destruct (peek st) as [s1 [c|]]; [apply nf_set|]. destruct (seof s1); isv. Qed.
Lemma nf_skip : forall k st line, nf (skip_lines k st line).
Proof.
  induction k; intros; cbn [skip_lines]; [isv|]. apply nf_bind; [apply nf_calm, calm_getline|intros [s1 l1] _].
  destruct (sfail s1); [isv|apply IHk].
Qed.
Lemma nf_ignore st : nf (ignore_next_block st).
Proof.
  unfold ignore_next_block. destruct (peek_char st) as [s1 c]. destruct (ceqb c CFF); [isv|].
  destruct (char_to_satsys c); try isv. apply nf_bind; [apply nf_skip|intros [b s2] _; isv].
Qed.
Lemma find_minus : forall k strp st f e sys prn r, seen_all st -> find_loop k strp st f e sys prn = Val r -> n_code r = (-1)%Z ->
  rest (n_stream r) = [] \/ exists t, rest (n_stream r) = CFF :: t.
Proof.
  induction k; cbn [find_loop]; intros strp st f e sys prn r Sn H Z1; [discriminate|].
  destruct (peak_satsys st) as [[s cs] st1] eqn:P.
  destruct (Z.eqb_spec s 0) as [->|Ns]; cbn [negb] in H.
  2:{ injection H as <-. cbn in Z1. subst s. destruct (good st) eqn:G.
      - rewrite (peak_good _ G) in P. destruct (rest st) as [|c t] eqn:R; [injection P as _ <-; left; exact R|].
        destruct (ceqb c CFF) eqn:Ec; [apply ceqb_eq in Ec; subst c; injection P as _ <-; right; exists t; exact R|].
        destruct (char_to_satsys c); discriminate.
      - left. destruct Sn as (Sf & Se). unfold good in G. rewrite Sf in G. destruct (seof st) eqn:E; [|discriminate].
        destruct (peak_keeps _ _ _ _ P) as (A & B). unfold rest. cbn [n_stream]. rewrite A, B. apply Se. reflexivity. }
  destruct (peak_zero _ _ _ P) as (-> & G & c & t & R & Ec).
  destruct (satsys_eqb cs sys).
  - destruct (read_next_record strp st f e) as [r1| | | |] eqn:Er; try discriminate. cbn [bind] in H.
    destruct (Z.eqb_spec (n_code r1) 0) as [E0|N0]; cbn [negb] in H.
    + destruct (read_as_ignore _ _ _ _ _ Er E0) as (_ & c' & t' & s' & _ & _ & _ & _ & _ & Tk).
      destruct (_ || _)%bool; [injection H as <-; cbn in Z1; congruence|]. exact (IHk _ _ _ _ _ _ _ (takes_seen _ _ _ Tk) H Z1).
    + injection H as <-. cbn [n_code] in Z1. exfalso. unfold read_next_record in Er. rewrite (peek_some _ _ _ G R) in Er.
      pose proof (set_code _ _ _ _ _ Er). lia.
  - destruct (ignore_next_block st) as [[j st2]| | | |] eqn:Ei; try discriminate. cbn [bind] in H.
    destruct (Z.eqb_spec j 0) as [->|Nj]; cbn [negb] in H.
    + destruct (ignore_zero _ _ Ei) as (_ & c' & t' & s' & _ & _ & Tk). exact (IHk _ _ _ _ _ _ _ (takes_seen _ _ _ Tk) H Z1).
    + injection H as <-. cbn [n_code] in Z1. subst j. exfalso. unfold ignore_next_block, peek_char in Ei. rewrite (peek_some _ _ _ G R) in Ei.
      rewrite (char_not_ff _ _ Ec), Ec in Ei. destruct (skip_lines _ _ _) as [[b sx]| | | |]; try discriminate. cbn [bind] in Ei.
      destruct b; discriminate.
Qed.
(** 'M' blocks: the loop never ends *)
Theorem find_hangs strp st f e sys prn t : at_rest st ("M"%char :: t) -> sys <> Mixed -> forall k, find_loop k strp st f e sys prn = Fuel.
Proof.
  intros At Ns. pose proof At as (G & R). induction k; [reflexivity|]. cbn [find_loop]. rewrite (peak_good _ G), R.
  change (ceqb "M" CFF) with false. change (char_to_satsys "M") with (Val Mixed). cbn [Z.eqb negb].
  destruct (satsys_eqb Mixed sys) eqn:E; [apply satsys_eqb_eq in E; congruence|]. rewrite (ignore_mixed _ _ At). cbn [bind Z.eqb negb]. exact IHk.
Qed.
Lemma text_of_end ls : text_of ls = [] \/ exists a, text_of ls = a ++ [NL].
Proof.
  destruct ls as [|l ls]; [left; reflexivity|right]. destruct (exists_last (l := l :: ls)) as (x & y & E); [discriminate|]. rewrite E.
  unfold text_of. rewrite flat_map_app. cbn [flat_map]. rewrite app_nil_r, app_assoc. eexists. reflexivity.
Qed.
Lemma no_mixed_takes n st st' : takes n st st' -> no_mixed_line (rest st) -> no_mixed_line (rest st').
Proof.
  intros (ls & _ & _ & _ & _ & [(_ & R)|(_ & R & _)]) N.
  - intros a b E Ha. apply (N (text_of ls ++ a) b); [rewrite R, E, app_assoc; reflexivity|].
    destruct Ha as [->|(a' & ->)]; [rewrite app_nil_r; apply text_of_end|]. right. exists (text_of ls ++ a'). rewrite app_assoc. reflexivity.
  - rewrite R. intros a b E _. symmetry in E. apply app_eq_nil in E as (_ & ->). exact I.
Qed.
Theorem find_returns : forall k strp st f e sys prn, (sys = Mixed \/ no_mixed_line (rest st)) -> length (rest st) < k ->
  find_loop k strp st f e sys prn <> Fuel.
Proof.
  induction k; intros strp st f e sys prn Hm Hk; [lia|]. cbn [find_loop].
  destruct (peak_satsys st) as [[s cs] st1] eqn:P. destruct (Z.eqb_spec s 0) as [->|Ns]; cbn [negb]; [|discriminate].
  destruct (peak_zero _ _ _ P) as (-> & G & c & t & R & Ec).
  destruct (satsys_eqb cs sys) eqn:Es.
  - destruct (read_next_record strp st f e) as [r1| | | |] eqn:Er; try discriminate; cbn [bind].
    + destruct (Z.eqb_spec (n_code r1) 0) as [E0|N0]; cbn [negb]; [|discriminate]. destruct (_ || _)%bool; [discriminate|].
      destruct (read_as_ignore _ _ _ _ _ Er E0) as (_ & c' & t' & s' & R' & _ & Nm & _ & _ & Tk).
      apply IHk; [destruct Hm as [Hm|Hm]; [left; exact Hm|right; eapply no_mixed_takes; eauto]|].
      assert (length (rest (n_stream r1)) < length (rest st)); [|lia]. eapply takes_rest; [exact Tk|destruct s'; try congruence; discriminate|congruence].
    + exfalso. exact (nf_read _ _ _ _ Er).
  - destruct (ignore_next_block st) as [[j st2]| | | |] eqn:Ei; try discriminate; cbn [bind]; [|exfalso; exact (nf_ignore _ Ei)].
    destruct (Z.eqb_spec j 0) as [->|Nj]; cbn [negb]; [|discriminate].
    destruct (ignore_zero _ _ Ei) as (_ & c' & t' & s' & R' & Ec' & Tk). rewrite R in R'. injection R' as <- <-. rewrite Ec in Ec'. injection Ec' as <-.
    assert (Nm : cs <> Mixed).
    { intros ->. destruct Hm as [->|Hm]; [discriminate|]. specialize (Hm [] (rest st) eq_refl (or_introl eq_refl)). rewrite R in Hm.
      apply Hm. revert Ec. clear. unfold char_to_satsys.
      repeat match goal with |- context[ceqb c ?x] => destruct (ceqb c x) eqn:?; [try discriminate|] end; try discriminate; intros _.
      apply ceqb_eq; assumption. }
    apply IHk; [destruct Hm as [Hm|Hm]; [left; exact Hm|right; eapply no_mixed_takes; eauto]|].
    assert (length (rest st2) < length (rest st)); [|lia]. eapply takes_rest; [exact Tk|destruct cs; try congruence; discriminate|congruence].
Qed.
