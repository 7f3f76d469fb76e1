(** ProofAntexTerm: the antenna lookups end on every file (C31, C32, C35). *)
From Verif Require Import Base BaseLemmas CNum CNumLemmas Stream ModelSatsys ModelObs ModelNvarstr ModelSatellite ModelAntenna
  ModelAntex SpecText SpecNum SpecObs SpecHeader SpecAntex ProofText ProofAntenna ProofNum ProofStream ProofObsTypes ProofObsRec ProofHeader ProofAntex
  ProofAntexFind ProofAntexSkip ProofObsMisc ProofNav ProofNavFind.

Lemma nf_label m s n : nf (label m s n).
Proof. destruct (label_cases m s n) as [-> |(b & ->)]; isv. Qed.
Lemma nf_getline st m n : nf (getline st m n).
Proof. apply nf_calm, calm_getline. Qed.
Lemma nf_rd m i : nf (rd m i).
Proof. apply nf_calm, calm_rd. Qed.
Lemma nf_cstr m i : nf (cstr m i).
Proof. apply nf_calm, calm_cstr. Qed.
Lemma nf_strlen m i : nf (strlen m i).
Proof. unfold strlen. apply nf_bind; [apply nf_cstr|intros; isv]. Qed.
Lemma nf_wrb m o s : nf (wr_bytes m o s).
Proof. unfold wr_bytes. destruct (_ <=? _); isv. Qed.
Lemma nf_wr m o s : nf (wr m o s).
Proof. unfold wr. destruct (_ <? _); isv. Qed.
Lemma nf_memset m o c n : nf (memset m o c n).
Proof. apply nf_wrb. Qed.
Lemma nf_memcpy d o s p n : nf (memcpy d o s p n).
Proof. unfold memcpy. destruct (_ <=? _); [apply nf_wrb|isv]. Qed.
Lemma nf_strncmp0 : forall n a b, nf (strncmp0 a b n).
Proof.
  induction n; intros a b; cbn [strncmp0]; [isv|]. destruct a as [|[x|] a]; try isv. destruct b as [|[y|] b]; try isv.
  destruct (ceqb x y); [|isv]. destruct (ceqb x NUL); [isv|apply IHn].
Qed.
Lemma nf_rdn : forall n m, nf (rd_n m n).
Proof. induction n; intros m; cbn [rd_n]; destruct m as [|[c|] m]; cbn [rd_n]; try isv. apply nf_bind; [apply IHn|intros; isv]. Qed.
Lemma nf_stoi s : nf (stoi s).
Proof. unfold stoi. destruct (strtol s) as [[v [|n]] er]; [isv|]. destruct (_ || _)%bool; isv. Qed.
Lemma nf_stod s : nf (stod s).
Proof. unfold stod. destruct (strtod s) as [[v [|n]] er]; [isv|]. destruct er; isv. Qed.
Lemma nf_stoi_at m k n : nf (stoi_at m k n).
Proof. unfold stoi_at. apply nf_bind; [apply nf_rdn|intros; apply nf_stoi]. Qed.
Lemma nf_stod_ten m k : nf (stod_ten m k).
Proof. unfold stod_ten. apply nf_bind; [apply nf_rdn|intros s _]. apply nf_bind; [apply nf_cstr|intros; apply nf_stod]. Qed.
Lemma nf_nonblank : forall n m i, nf (some_nonblank m i n).
Proof. induction n; intros m i; cbn [some_nonblank]; [isv|]. apply nf_bind; [apply nf_rd|intros c _]. destruct (negb _); [isv|apply IHn]. Qed.
Lemma nf_ant m i : nf (ant_of_cstr m i).
Proof.
  unfold ant_of_cstr, copy_from_cstr, set_none_radome. apply nf_bind; [|intros; apply nf_wr]. apply nf_bind; [apply nf_strlen|intros n _].
  apply nf_bind; [apply nf_memcpy|intros x _]. destruct (_ <? _); [|isv]. apply nf_bind; [apply nf_memset|intros; apply nf_memcpy].
Qed.
Lemma nf_serial m c i : nf (set_serial_nr m c i).
Proof.
  unfold set_serial_nr. apply nf_bind; [apply nf_memset|intros n1 _]. apply nf_bind; [apply nf_strlen|intros n _].
  apply nf_bind; [apply nf_memcpy|intros; apply nf_wr].
Qed.
Lemma nf_hs0 : forall m, nf (has_serial_loop m).
Proof. induction m as [|[c|] m IH]; cbn [has_serial_loop]; try isv. destruct (ceqb c NUL); [isv|]. destruct (negb _); [isv|exact IH]. Qed.
Lemma nf_same a b : nf (ant_is_same a b).
Proof.
  unfold ant_is_same. apply nf_bind; [apply nf_hs0|intros x _]. destruct (negb x); [isv|]. apply nf_bind; [apply nf_hs0|intros y _].
  destruct (negb y); [isv|apply nf_strncmp0].
Qed.
Lemma nf_skipa st : nf (skip_rest_of_antenna st).
Proof.
  unfold skip_rest_of_antenna. generalize (uninit ATX_GRID_CHARS). generalize ATX_ANTENNA_LINES. intro n. revert st.
  induction n as [|n IH]; intros st m; cbn [skip_loop]; [isv|]. apply nf_bind; [apply nf_getline|intros [s l] _]. apply nf_bind; [apply nf_label|intros e _].
  destruct n; [isv|]. destruct e; [isv|apply IH].
Qed.
Lemma nf_type st c : nf (read_next_antenna_type st c).
Proof.
  unfold read_next_antenna_type. apply nf_bind; [apply nf_getline|intros [s l] _]. apply nf_bind; [destruct (sfail s); [isv|apply nf_label]|intros b _].
  destruct b; cbn [negb]; [|destruct (seof s); isv]. apply nf_bind; [apply nf_getline|intros [s2 l2] _]. apply nf_bind; [destruct (sfail s2); [isv|apply nf_label]|intros b _].
  destruct b; cbn [negb]; [|isv]. apply nf_bind; [apply nf_ant|intros a _]. apply nf_bind; [apply nf_nonblank|intros b _].
  apply nf_bind; [destruct b; [apply nf_serial|isv]|intros a' _]. apply nf_bind; [destruct c; [apply nf_bind; [apply nf_memcpy|intros; isv]|isv]|intros; isv].
Qed.

(** a read that does not fail consumes at least one character *)
Lemma getline_takes st buf n st' b : 1 <= n -> n <= length buf -> getline st buf n = Val (st', b) ->
  length b = length buf /\ sdata st' = sdata st /\ length (rest st') <= length (rest st) /\ (sfail st' = false -> length (rest st') < length (rest st)).
Proof.
  intros Hn Hb H. destruct (getline_cases st buf n Hn Hb) as (st1 & l & E & Ll & N & D & C). rewrite E in H. apply Val_inj in H.
  pose proof (f_equal fst H) as H1. pose proof (f_equal snd H) as H2. cbn [fst snd] in H1, H2. subst st' b.
  split; [rewrite overlay_length; lia|]. split; [exact D|].
  assert (P : length (rest st1) <= length (rest st)).
  { unfold getline in E. destruct (good st) eqn:G.
    - destruct (take_line (n - 1) (rest st)) as [t e]. destruct (wr_bytes _ _ _); try discriminate. cbn [bind] in E. apply Val_inj in E.
      pose proof (f_equal fst E) as E1. cbn [fst] in E1. subst st1. unfold rest.
      assert (forall s, length (skipn (spos s) (sdata s)) = length (sdata s) - spos s) by (intro; apply skipn_length).
      destruct t, e; cbn [advance set_eof set_fail sdata spos]; rewrite !skipn_length; lia.
    - destruct (wr_bytes _ _ _); try discriminate. cbn [bind] in E. apply Val_inj in E. pose proof (f_equal fst E) as E1. cbn [fst] in E1. subst st1. unfold rest. cbn. lia. }
  split; [exact P|]. intro Sf. destruct C as [(_ & _ & X)|(_ & [(t & R & _ & R1)|[(R & _ & X)|(_ & _ & X & _)]])]; try congruence.
  - rewrite R, R1, app_length. cbn. lia.
  - destruct l as [|c l]; [congruence|]. rewrite R. unfold getline in E. destruct (good st) eqn:G.
    + destruct (take_line (n - 1) (rest st)) as [t e] eqn:T. destruct (wr_bytes _ _ _) eqn:W; try discriminate. cbn [bind] in E. apply Val_inj in E.
      pose proof (f_equal fst E) as E1. cbn [fst] in E1.
      assert (Q : spos st1 >= spos st + length t) by (subst st1; destruct t, e; cbn [advance set_eof set_fail sdata spos]; lia).
      unfold rest in *. assert (Hlt : length t > 0).
      { destruct t; [|cbn; lia]. destruct e; subst st1; cbn [sfail set_fail set_eof advance] in Sf; try congruence.
        apply take_line_inv in T as (_ & _ & t' & T). rewrite R in T. cbn in T. injection T as -> _. exfalso. apply N. left. reflexivity. }
      pose proof (f_equal (@length ascii) R) as LR. rewrite skipn_length in LR. rewrite skipn_length, D. cbn [length] in *. lia.
    + destruct (wr_bytes _ _ _); try discriminate. cbn [bind] in E. apply Val_inj in E. pose proof (f_equal fst E) as E1. cbn [fst] in E1. subst st1. cbn in Sf. discriminate.
Qed.
Lemma rest_le st : length (rest st) <= length (sdata st).
Proof. unfold rest. rewrite skipn_length. lia. Qed.
Lemma tellg_rest st : rest (fst (tellg st)) = rest st /\ sdata (fst (tellg st)) = sdata st.
Proof. unfold tellg. destruct (good st); split; reflexivity. Qed.

Lemma type_takes st c z cur c' st' : read_next_antenna_type st c = Val (z, Some cur, c', st') ->
  sdata st' = sdata st /\ length (rest st') < length (rest st).
Proof.
  unfold read_next_antenna_type. change ATX_HEADER_CHARS with 85. intro H.
  destruct (getline st (uninit 85) 85) as [[s1 l1]| | | |] eqn:E1; try discriminate. cbn [bind] in H.
  destruct (getline_takes st (uninit 85) 85 s1 l1 ltac:(lia) ltac:(rewrite len_uninit; lia) E1) as (L1 & D1 & P1 & Q1). rewrite len_uninit in L1.
  destruct (sfail s1) eqn:F1.
  { cbn [bind negb] in H. destruct (seof s1); discriminate. }
  destruct (label_cases l1 "START OF ANTENNA" 16) as [X|([|] & X)]; rewrite X in H; cbn [bind negb] in H; [discriminate| |destruct (seof s1); discriminate].
  destruct (getline s1 l1 85) as [[s2 l2]| | | |] eqn:E2; try discriminate. cbn [bind] in H.
  destruct (getline_takes s1 l1 85 s2 l2 ltac:(lia) ltac:(rewrite L1; lia) E2) as (L2 & D2 & P2 & Q2).
  specialize (Q1 eq_refl).
  assert (H' : s2 = st'). 
  { destruct (if sfail s2 then _ else _) as [b| | | |]; try discriminate. cbn [bind] in H. destruct b; cbn [negb] in H; [|discriminate].
    destruct (ant_of_cstr l2 0) as [a| | | |]; try discriminate. cbn [bind] in H. destruct (some_nonblank l2 20 20) as [b| | | |]; try discriminate. cbn [bind] in H.
    destruct (if b then _ else _) as [a'| | | |]; try discriminate. cbn [bind] in H. 
    destruct (match c with Some m => _ | None => _ end) as [x| | | |]; try discriminate. cbn [bind] in H. apply Val_inj in H. exact (f_equal snd H). }
  subst s2. split; [congruence|lia].
Qed.
Lemma skipa_takes st z st' : skip_rest_of_antenna st = Val (z, st') -> sdata st' = sdata st /\ length (rest st') <= length (rest st).
Proof.
  unfold skip_rest_of_antenna. change ATX_GRID_CHARS with 512.
  assert (L : length (uninit 512) = 512) by apply len_uninit. revert L. generalize (uninit 512). generalize ATX_ANTENNA_LINES. intro n. revert st.
  induction n as [|n IH]; intros st m L H; cbn [skip_loop] in H. { apply Val_inj in H. apply (f_equal snd) in H. cbn in H. subst. auto. }
  change ATX_GRID_CHARS with 512 in H. destruct (getline st m 512) as [[s1 l1]| | | |] eqn:E; try discriminate. cbn [bind] in H.
  destruct (getline_takes st m 512 s1 l1 ltac:(lia) ltac:(lia) E) as (L1 & D1 & P1 & _).
  destruct (label l1 _ _) as [b| | | |]; try discriminate. cbn [bind] in H. destruct n.
  - apply Val_inj in H. apply (f_equal snd) in H. cbn in H. subst. auto.
  - destruct b; [apply Val_inj in H; apply (f_equal snd) in H; cbn in H; subst; auto|]. destruct (IH s1 l1 ltac:(lia) H). split; [congruence|lia].
Qed.

Lemma closest_loop_ends : forall fuel st a best bpos s2, length (rest st) < fuel -> nf (closest_loop fuel st a best bpos s2).
Proof.
  induction fuel as [|fuel IH]; intros st a best bpos s2 H; [lia|]. cbn [closest_loop]. apply nf_bind; [apply nf_type|].
  assert (CE : forall z x y w s, nf (closest_end z x y w s)).
  { intros z x y w s. unfold closest_end. destruct (z >? 0)%Z; [isv|]. destruct x as [q|]; [|isv]. destruct (q =? 0)%Z; isv. }
  intros [[[z ca] c'] s1] E. destruct ca as [cur|]; [|apply CE]. apply type_takes in E as (D1 & P1).
  apply nf_bind; [apply nf_same|intros same _]. destruct same; [destruct (tellg s1); isv|].
  apply nf_bind; [apply nf_strncmp0|intros cm _]. apply nf_bind; [destruct cm; [apply nf_bind; [apply nf_hs0|intros; isv]|isv]|intros keep _].
  pose proof (tellg_rest s1) as (T1 & T2). destruct (tellg s1) as [s1' p]. cbn [fst] in T1, T2.
  assert (K : exists st2 b2 p2, (if keep then (s1', cur, p) else (s1, best, bpos)) = (st2, b2, p2) /\ rest st2 = rest s1) by (destruct keep; do 3 eexists; split; reflexivity || assumption).
  destruct K as (st2 & b2 & p2 & K & R2). rewrite K. apply nf_bind; [apply nf_skipa|]. intros [z2 s3] E3. apply skipa_takes in E3 as (D3 & P3).
  destruct (z2 =? 0)%Z; [|apply CE]. apply IH. rewrite R2 in P3. lia.
Qed.
Lemma seekg_data st p : sdata (seekg st p) = sdata st.
Proof. unfold seekg. destruct (sfail st), p; reflexivity. Qed.
Theorem closest_ends fuel st eoh a : length (sdata st) < fuel -> nf (find_closest_antenna_match fuel st eoh a).
Proof.
  intro H. unfold find_closest_antenna_match. apply nf_bind; [unfold ant_default; apply nf_bind; [apply nf_memset|intros; apply nf_wr]|intros best _].
  apply closest_loop_ends. pose proof (rest_le (seekg st eoh)) as R. rewrite seekg_data in R. lia.
Qed.

Lemma skip_until_ends : forall fuel st buf n s k, 1 <= n -> n <= length buf -> length (rest st) < fuel -> nf (skip_until fuel st buf n s k).
Proof.
  induction fuel as [|fuel IH]; intros st buf n s k Hn Hb H; [lia|]. cbn [skip_until]. apply nf_bind; [apply nf_getline|]. intros [s1 b1] E.
  destruct (getline_takes st buf n s1 b1 Hn Hb E) as (L1 & _ & _ & Q). destruct (sfail s1); [isv|]. apply nf_bind; [apply nf_label|intros e _].
  destruct e; [isv|]. specialize (Q eq_refl). apply IH; lia.
Qed.
Lemma skip_until_keeps : forall fuel st buf n s k st' b, 1 <= n -> n <= length buf -> skip_until fuel st buf n s k = Val (st', b) ->
  sdata st' = sdata st /\ length b = length buf.
Proof.
  induction fuel as [|fuel IH]; intros st buf n s k st' b Hn Hb H; [discriminate|]. cbn [skip_until] in H.
  destruct (getline st buf n) as [[s1 b1]| | | |] eqn:E; try discriminate. cbn [bind] in H.
  destruct (getline_takes st buf n s1 b1 Hn Hb E) as (L1 & D1 & _ & _).
  assert (R : Val (s1, b1) = Val (st', b) -> sdata st' = sdata st /\ length b = length buf).
  { intro X. apply Val_inj in X. pose proof (f_equal fst X). pose proof (f_equal snd X). cbn in *. subst. auto. }
  destruct (sfail s1); [auto|]. destruct (label b1 s k) as [e| | | |]; try discriminate. cbn [bind] in H. destruct e; [auto|].
  destruct (IH s1 b1 n s k st' b Hn ltac:(lia) H). split; [congruence|lia].
Qed.
Lemma pco_loop_ends : forall n fuel st h g l, length (sdata st) < fuel -> length h = 85 -> length g = 512 -> nf (pco_loop n fuel st h g l).
Proof.
  induction n as [|n IH]; intros fuel st h g l Hf Hh Hg; cbn [pco_loop]; [isv|]. change ATX_GRID_CHARS with 512. change ATX_HEADER_CHARS with 85.
  apply nf_bind; [destruct (sfail st); [isv|apply nf_label]|intros at_start _].
  match goal with |- nf (bind ?pre _) => assert (P : nf pre /\ forall x, pre = Val (inr x) -> sdata (fst (fst x)) = sdata st /\ length (snd (fst x)) = 85 /\ length (snd x) = 512) end.
  { destruct at_start.
    - split; [isv|]. intros x E. apply Val_inj in E. injection E as <-. auto.
    - split.
      + apply nf_bind; [apply nf_label|intros rms _]. destruct rms; [|isv].
        apply nf_bind; [apply skip_until_ends; [lia|lia|pose proof (rest_le st); lia]|intros [s1 g1] _].
        apply nf_bind; [apply nf_getline|intros [s2 h1] _]. apply nf_bind; [destruct (sfail s2); [isv|apply nf_label]|intros ok _]. destruct ok; isv.
      + intros x E. destruct (label h "START OF FREQ RMS" 17) as [rms| | | |]; try discriminate. cbn [bind] in E. destruct rms; [|discriminate].
        destruct (skip_until fuel st g 512 "END OF FREQ RMS" 15) as [[s1 g1]| | | |] eqn:K; try discriminate. cbn [bind] in E.
        apply skip_until_keeps in K as (D1 & Lg); [|lia|lia].
        destruct (getline s1 h 85) as [[s2 h1]| | | |] eqn:G; try discriminate. cbn [bind] in E.
        destruct (getline_takes s1 h 85 s2 h1 ltac:(lia) ltac:(lia) G) as (Lh & D2 & _).
        destruct (if sfail s2 then _ else _) as [ok| | | |]; try discriminate. cbn [bind] in E. destruct ok; [|discriminate]. apply Val_inj in E. injection E as <-.
        cbn [fst snd]. split; [congruence|]. split; congruence. }
  destruct P as (P1 & P2). apply nf_bind; [exact P1|]. intros [[code s1]|[[s1 h1] g1]] E; [isv|]. destruct (P2 _ E) as (D1 & Lh1 & Lg1). cbn [fst snd] in *. clear P1 P2 E.
  apply nf_bind; [apply nf_rd|intros c _]. destruct (do ss <- char_to_satsys c; do bn <- stoi_at h1 4 2; Val (ss, bn)) as [[ss bn]| | | |] eqn:EX; try isv.
  2:{ exfalso. assert (N : nf (do ss <- char_to_satsys c; do bn <- stoi_at h1 4 2; Val (ss, bn))).
      { apply nf_bind; [apply nf_char|intros ss _]. apply nf_bind; [apply nf_stoi_at|intros; isv]. } exact (N EX). }
  destruct (getline s1 h1 85) as [[s2 h2]| | | |] eqn:G; try isv; [|exfalso; exact (nf_getline _ _ _ G)]. cbn [bind].
  destruct (getline_takes s1 h1 85 s2 h2 ltac:(lia) ltac:(lia) G) as (Lh2 & D2 & _).
  apply nf_bind; [destruct (sfail s2); [isv|apply nf_label]|intros ok _]. destruct ok; cbn [negb]; [|isv].
  do 3 (apply nf_bind; [apply nf_stod_ten|intros ? _]). cbv zeta.
  apply nf_bind; [apply skip_until_ends; [lia|lia|pose proof (rest_le s2); rewrite D2, D1 in *; lia]|]. intros [s3 g2] K. apply skip_until_keeps in K as (D3 & Lg); [|lia|lia].
  destruct (getline s3 h2 85) as [[s4 h3]| | | |] eqn:G2; try isv; [|exfalso; exact (nf_getline _ _ _ G2)]. cbn [bind].
  destruct (getline_takes s3 h2 85 s4 h3 ltac:(lia) ltac:(lia) G2) as (Lh3 & D4 & _). apply IH; congruence.
Qed.
Theorem collect_ends fuel st l : length (sdata st) < fuel -> nf (collect_pco fuel st l).
Proof.
  intro Hf. unfold collect_pco. apply nf_noexcept. change ATX_HEADER_CHARS with 85. change ATX_GRID_CHARS with 512.
  assert (step : forall s h (k : stream * mem -> outcome (Z * list pco * stream)), length h = 85 -> length (sdata s) < fuel ->
    (forall s' h', length h' = 85 -> length (sdata s') < fuel -> nf (k (s', h'))) -> nf (bind (getline s h 85) k)).
  { intros s h k Lh Ls K. apply nf_bind; [apply nf_getline|]. intros [s' h'] E. destruct (getline_takes s h 85 s' h' ltac:(lia) ltac:(lia) E) as (L & D & _). apply K; congruence. }
  apply step; [apply len_uninit|exact Hf|]. intros s1 h1 L1 D1. apply nf_bind; [destruct (sfail s1); [isv|apply nf_label]|intros b _]. destruct b; cbn [negb]; [|isv].
  apply step; [assumption..|]. intros s2 h2 L2 D2. apply nf_bind; [destruct (sfail s2); [isv|apply nf_label]|intros b _]. destruct b; cbn [negb]; [|isv].
  apply step; [assumption..|]. intros s3 h3 L3 D3. apply nf_bind; [destruct (sfail s3); [isv|apply nf_label]|intros b _]. destruct b; cbn [negb]; [|isv].
  apply step; [assumption..|]. intros s4 h4 L4 D4. apply nf_bind; [destruct (sfail s4); [isv|apply nf_label]|intros b _]. destruct b; cbn [negb]; [|isv].
  destruct (stoi_at h4 0 6) as [nfq| | | |] eqn:E; try isv; [|exfalso; exact (nf_stoi_at _ _ _ E)].
  apply nf_bind; [apply skip_until_ends; [lia|lia|pose proof (rest_le s4); lia]|]. intros [s5 h5] K. apply skip_until_keeps in K as (D5 & L5); [|lia|lia].
  apply pco_loop_ends; [rewrite D5; assumption|congruence|apply len_uninit].
Qed.
Lemma closest_data : forall fuel st a best bpos s2 r, closest_loop fuel st a best bpos s2 = Val r -> sdata (snd r) = sdata st.
Proof.
  assert (CE : forall z x y w s r, closest_end z x y w s = Val r -> snd r = s).
  { intros z x y w s r. unfold closest_end. destruct (z >? 0)%Z; [intro H; apply Val_inj in H; subst; reflexivity|]. destruct x as [q|]; [|discriminate].
    destruct (q =? 0)%Z; intro H; apply Val_inj in H; subst; reflexivity. }
  induction fuel as [|fuel IH]; intros st a best bpos s2 r H; [discriminate|]. cbn [closest_loop] in H.
  destruct (read_next_antenna_type st None) as [[[[z ca] c'] s1]| | | |] eqn:E; try discriminate. cbn [bind] in H.
  assert (D1 : sdata s1 = sdata st).
  { destruct ca as [cur|]; [apply type_takes in E; apply E|]. unfold read_next_antenna_type in E. change ATX_HEADER_CHARS with 85 in E.
    destruct (getline st (uninit 85) 85) as [[t1 l1]| | | |] eqn:E1; try discriminate. cbn [bind] in E.
    destruct (getline_takes st (uninit 85) 85 t1 l1 ltac:(lia) ltac:(rewrite len_uninit; lia) E1) as (L1 & D1 & _). rewrite len_uninit in L1.
    destruct (if sfail t1 then _ else _) as [b| | | |]; try discriminate. cbn [bind] in E. destruct b; cbn [negb] in E.
    - destruct (getline t1 l1 85) as [[t2 l2]| | | |] eqn:E2; try discriminate. cbn [bind] in E.
      destruct (getline_takes t1 l1 85 t2 l2 ltac:(lia) ltac:(rewrite L1; lia) E2) as (L2 & D2 & _).
      destruct (if sfail t2 then _ else _) as [b| | | |]; try discriminate. cbn [bind] in E. destruct b; cbn [negb] in E.
      + destruct (ant_of_cstr l2 0) as [x| | | |]; try discriminate. cbn [bind] in E. destruct (some_nonblank l2 20 20) as [b| | | |]; try discriminate. cbn [bind] in E.
        destruct (if b then _ else _) as [a'| | | |]; discriminate.
      + apply Val_inj in E. apply (f_equal snd) in E. cbn in E. congruence.
    - destruct (seof t1); apply Val_inj in E; apply (f_equal snd) in E; cbn in E; subst s1; [exact D1|congruence]. }
  destruct ca as [cur|]; [|apply CE in H; congruence].
  destruct (ant_is_same cur a) as [same| | | |]; try discriminate. cbn [bind] in H.
  pose proof (tellg_rest s1) as (T1 & T2). destruct (tellg s1) as [s1' p]. cbn [fst] in T1, T2.
  destruct same; [apply Val_inj in H; subst r; cbn; congruence|].
  destruct (compare_model cur a) as [cm| | | |]; try discriminate. cbn [bind] in H. destruct (if cm then _ else _) as [keep| | | |]; try discriminate. cbn [bind] in H.
  assert (K : exists st2 b2 p2, (if keep then (s1', cur, p) else (s1, best, bpos)) = (st2, b2, p2) /\ sdata st2 = sdata s1) by (destruct keep; do 3 eexists; split; reflexivity || assumption).
  destruct K as (st2 & b2 & p2 & K & R2). rewrite K in H. destruct (skip_rest_of_antenna st2) as [[z2 s3]| | | |] eqn:E3; try discriminate. cbn [bind] in H.
  apply skipa_takes in E3 as (D3 & _). destruct (z2 =? 0)%Z; [apply IH in H; congruence|apply CE in H; congruence].
Qed.
Theorem pco_rcv_ends fuel st eoh a must : length (sdata st) < fuel -> nf (get_antenna_pco_rcv fuel st eoh a must).
Proof.
  intro H. unfold get_antenna_pco_rcv. apply nf_bind; [apply closest_ends; exact H|]. intros [[z out] s1] E.
  assert (D : sdata s1 = sdata st).
  { unfold find_closest_antenna_match in E. destruct ant_default; try discriminate. cbn [bind] in E. apply closest_data in E. rewrite seekg_data in E. exact E. }
  destruct (z >? 0)%Z; [isv|]. destruct (_ && _)%bool; [isv|]. apply collect_ends. rewrite seekg_data. congruence.
Qed.

Lemma skip_returns : forall st,
  (exists code st', skip_rest_of_antenna st = Val (code, st') /\ (code = 0 \/ code = 1)%Z /\
     (newlines (rest st) <= 5000 + newlines (rest st'))%nat) \/ skip_rest_of_antenna st = UB.
Proof.
  intro st. unfold skip_rest_of_antenna. change ATX_GRID_CHARS with 512.
  pose proof (skip_total ATX_ANTENNA_LINES st (uninit 512) (len_uninit 512)) as T.
  destruct (skip_loop ATX_ANTENNA_LINES st (uninit 512)) as [[code st']| | | |] eqn:E; try contradiction; [left|right; reflexivity].
  exists code, st'. split; [reflexivity|]. split; [apply T|]. change ATX_ANTENNA_LINES with 5000 in E. clear T.
  assert (L : length (uninit 512) = 512) by apply len_uninit. revert L E. generalize (uninit 512), 5000. intros m n. revert st m.
  assert (NA : forall x y, newlines (x ++ y) = (newlines x + newlines y)) by (induction x; intros; cbn; [reflexivity|rewrite IHx; lia]).
  assert (N0 : forall x, ~ In NL x -> newlines x = 0).
  { induction x as [|c x IH]; intro N; [reflexivity|]. cbn [newlines]. destruct (Ascii.eqb_spec c NL) as [->|_]; [exfalso; apply N; left; reflexivity|]. apply IH. intro. apply N. right. assumption. }
  induction n as [|n IH]; intros st m L E; cbn [skip_loop] in E. { apply Val_inj in E. apply (f_equal snd) in E. cbn in E. subst. lia. }
  change ATX_GRID_CHARS with 512 in E. destruct (getline_cases st m 512 ltac:(lia) ltac:(lia)) as (s1 & l & G & Ll & N & D1 & C). pose proof G as G0. rewrite G in E. cbn [bind] in E.
  assert (S1 : (newlines (rest st) <= 1 + newlines (rest s1))).
  { destruct C as [(Gd & _ & _)|(Gd & [(t & R & _ & R1)|[(R & _ & _)|(L5 & (c & t & Nc & R) & _)]])].
    - unfold getline in G. rewrite Gd in G. destruct (wr_bytes _ _ _); try discriminate. cbn [bind] in G. apply Val_inj in G. apply (f_equal fst) in G. cbn [fst] in G. subst s1.
      change (rest (set_fail st)) with (rest st). lia.
    - rewrite R, R1, NA. cbn. rewrite N0 by exact N. lia.
    - rewrite R, N0 by exact N. lia.
    - assert (Q : rest s1 = c :: t).
      { unfold getline in G. rewrite Gd in G. destruct (take_line (512 - 1) (rest st)) as [l' e] eqn:T. destruct (wr_bytes _ _ _) eqn:W; try discriminate. cbn [bind] in G. apply Val_inj in G.
        pose proof (take_line_inv _ _ _ _ T) as TI. rewrite R in TI. destruct TI as (N' & L' & TI).
        apply (f_equal fst) in G. cbn [fst] in G. subst s1.
        assert (X : l' = l /\ e = LFull).
        { destruct e.
          - destruct TI as (t' & TI). exfalso. assert (NN : newlines (l ++ c :: t) <> 0) by (rewrite TI, NA; cbn; lia).
            assert (length l' < length l \/ length l' = length l) as [X|X] by lia.
            + assert (nth_error (l ++ c :: t) (length l') = Some NL) as Y by (rewrite TI, nth_error_app2, Nat.sub_diag by lia; reflexivity).
              rewrite nth_error_app1 in Y by exact X. apply nth_error_In in Y. exact (N Y).
            + assert (nth_error (l ++ c :: t) (length l') = Some NL) as Y by (rewrite TI, nth_error_app2, Nat.sub_diag by lia; reflexivity).
              rewrite nth_error_app2, X, Nat.sub_diag in Y by lia. injection Y as ->. congruence.
          - exfalso. apply (f_equal (@length ascii)) in TI. rewrite app_length in TI. cbn in TI. lia.
          - destruct TI as (Lf & c' & t' & Nc' & TI). split; [|reflexivity].
            apply (f_equal (firstn 511)) in TI. rewrite !firstn_app in TI. change (512 - 1) with 511 in *. rewrite L5, Lf, Nat.sub_diag, !firstn_O, !app_nil_r, !firstn_all2 in TI by lia. congruence. }
        destruct X as (-> & ->). unfold rest in *. destruct l; [cbn in L5; lia|]. cbn [set_fail advance sdata spos]. 
        rewrite Nat.add_0_r. rewrite Nat.add_comm, <- skipn_skipn, R. apply skipn_app_exact. reflexivity. }
      rewrite R, Q, NA. rewrite (N0 l) by exact N. lia. }
  destruct (label _ _ _) as [b| | | |]; try discriminate. cbn [bind] in E.
  assert (RET : forall z, Val (z, s1) = Val (code, st') -> (newlines (rest st) <= S n + newlines (rest st'))).
  { intros z X. apply Val_inj in X. apply (f_equal snd) in X. cbn in X. subst. lia. }
  destruct n as [|n]; [exact (RET _ E)|]. destruct b; [exact (RET _ E)|]. specialize (IH s1 (overlay l m) ltac:(rewrite overlay_length; lia) E). lia.
Qed.

Lemma skip_nothing : skip_rest_of_antenna (open_stream []) = UB.
Proof.
  assert (G : forall n, skip_loop (S n) (open_stream []) (uninit 512) = UB).
  { intro n. cbn [skip_loop]. change ATX_GRID_CHARS with 512.
    change (getline (open_stream []) (uninit 512) 512) with (@Val (stream * mem) (set_fail (set_eof (open_stream [])), Some NUL :: uninit 511)).
    reflexivity. }
  exact (G 4999).
Qed.
