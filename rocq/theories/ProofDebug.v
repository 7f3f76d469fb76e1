(** ProofDebug: the debug build (for C86) *)
From Verif Require Import Base BaseLemmas CNum CNumLemmas Stream ModelSatsys ModelNvarstr ModelNav ModelDebug SpecText SpecNum SpecObs SpecNav SpecDebug
  ProofText ProofNum ProofStream ProofEpoch ProofNav ProofNavBlock ProofNavFile ProofNavFind ProofNavList.

Lemma qleb_neg a b : negb (Qle_bool a b) = true <-> (b < a)%Q.
Proof.
  rewrite negb_true_iff. split.
  - intro H. apply Qnot_le_lt. intro L. apply Qle_bool_iff in L. congruence.
  - intro H. destruct (Qle_bool a b) eqn:E; [|reflexivity]. apply Qle_bool_iff in E. exfalso. apply (Qlt_irrefl a). apply Qle_lt_trans with b; assumption.
Qed.
(** truncation towards zero *)
Lemma tr_of q z : ((0 <= z)%Z /\ (inject_Z z <= q)%Q /\ (q < inject_Z (z + 1))%Q) \/ ((z <= 0)%Z /\ (q <= inject_Z z)%Q /\ (inject_Z (z - 1) < q)%Q) -> tr q = z.
Proof.
  unfold tr, Qle, Qlt. cbn [Qnum Qden inject_Z]. rewrite !Z.mul_1_r.
  set (n := Qnum q). set (d := QDen q). assert (Hd : (0 < d)%Z) by (unfold d; lia).
  intros [(A & B & C)|(A & B & C)].
  - assert (0 <= n)%Z by nia. rewrite Z.quot_div_nonneg by lia. symmetry. apply Z.div_unique with (n - z * d)%Z; lia.
  - assert (n <= 0)%Z by nia. replace n with (- - n)%Z by lia. rewrite Z.quot_opp_l by lia. rewrite Z.quot_div_nonneg by lia.
    assert (E : (- z = - n / d)%Z) by (apply Z.div_unique with (- n - (- z) * d)%Z; lia). lia.
Qed.
Lemma tr_bounds q : ((0 <= tr q)%Z /\ (inject_Z (tr q) <= q)%Q /\ (q < inject_Z (tr q + 1))%Q) \/ ((tr q <= 0)%Z /\ (q <= inject_Z (tr q))%Q /\ (inject_Z (tr q - 1) < q)%Q).
Proof.
  unfold tr, Qle, Qlt. cbn [Qnum Qden inject_Z]. rewrite !Z.mul_1_r.
  set (n := Qnum q). set (d := QDen q). assert (Hd : (0 < d)%Z) by (unfold d; lia).
  destruct (Z.le_gt_cases 0 n) as [H|H].
  - left. rewrite Z.quot_div_nonneg by lia. pose proof (Z.mul_div_le n d Hd). pose proof (Z.mul_succ_div_gt n d Hd). pose proof (Z.div_pos n d H Hd). lia.
  - right. replace n with (- - n)%Z by lia. rewrite Z.quot_opp_l by lia. rewrite Z.quot_div_nonneg by lia.
    pose proof (Z.mul_div_le (-n) d Hd). pose proof (Z.mul_succ_div_gt (-n) d Hd). assert (0 <= -n)%Z by lia. pose proof (Z.div_pos (-n) d ltac:(lia) Hd). lia.
Qed.
Lemma to_int_spec v : match to_int v with Val z => exists q, v = DFin q /\ z = tr q /\ (-2147483648 <= z <= 2147483647)%Z | UB => True | _ => False end.
Proof.
  unfold to_int, trunc_in. destruct v as [q| |]; try exact I. fold (tr q).
  destruct ((-2147483648 <=? tr q) && (tr q <=? 2147483647))%Z eqn:E; [|exact I].
  apply andb_true_iff in E as (A & B). apply Z.leb_le in A. apply Z.leb_le in B. eauto.
Qed.
Lemma to_int_val q : (-2147483648 <= tr q <= 2147483647)%Z -> to_int (DFin q) = Val (tr q).
Proof.
  intro H. unfold to_int, trunc_in. fold (tr q). destruct (Z.leb_spec (-2147483648) (tr q)); [|lia]. destruct (Z.leb_spec (tr q) 2147483647); [reflexivity|lia].
Qed.
Lemma sub_swap a b e : (b - a < e)%Q <-> (b < a + e)%Q.
Proof. split; intro H; [setoid_replace b with ((b - a) + a)%Q by ring; setoid_replace (a + e)%Q with (e + a)%Q by ring; apply Qplus_lt_l; exact H
  |apply (Qplus_lt_l _ _ a); setoid_replace (b - a + a)%Q with b by ring; setoid_replace (e + a)%Q with (a + e)%Q by ring; exact H]. Qed.
Lemma le_sub_lt a b e : (a <= b)%Q -> (0 < e)%Q -> (a - b < e)%Q.
Proof. intros H E. apply sub_swap. apply Qle_lt_trans with b; [exact H|]. setoid_replace b with (b + 0)%Q at 1 by ring. apply Qplus_lt_r. exact E. Qed.
Definition eps : Q := 1 # 1000000000000000.
Lemma eps_pos : (0 < eps)%Q. Proof. reflexivity. Qed.
Lemma eps_one a : (a + eps < a + 1)%Q. Proof. apply Qplus_lt_r. reflexivity. Qed.
Lemma assert_whole_iff v : (assert_whole v = Val tt <-> whole v) /\ (assert_whole v <> Val tt -> stops (assert_whole v)).
Proof.
  unfold assert_whole, whole. fold eps. pose proof (to_int_spec v) as T. destruct (to_int v) as [z| | | |] eqn:E; try contradiction.
  - destruct T as (q & -> & Ez & R). cbn [bind]. destruct (negb (Qle_bool eps (q - inject_Z z))) eqn:A; destruct (negb (Qle_bool eps (inject_Z z - q))) eqn:B; cbn [andb].
    2,3,4: split; [split; [discriminate|]|intros _; left; reflexivity].
    + split; [|congruence]. split; [intros _|reflexivity]. apply qleb_neg in A. apply qleb_neg in B. exists q, z. split; [reflexivity|]. split; [exact R|].
      destruct (tr_bounds q) as [(P & L & _)|(P & L & _)]; rewrite <- Ez in P, L; [left|right]; auto.
    + intros (q' & z' & Eq & _ & C). injection Eq as <-. exfalso.
      assert (Et : tr q = z').
      { apply tr_of. destruct C as [(P & L & S1)|(P & L & S1)]; [left|right]; (split; [exact P|split; [exact L|]]); apply sub_swap in S1.
        - rewrite inject_Z_plus. apply Qlt_trans with (inject_Z z' + eps)%Q; [exact S1|apply eps_one].
        - unfold Z.sub. rewrite inject_Z_plus. apply (Qplus_lt_l _ _ 1). setoid_replace (inject_Z z' + inject_Z (- (1)) + 1)%Q with (inject_Z z') by (rewrite inject_Z_opp; cbn; ring).
          apply Qlt_trans with (q + eps)%Q; [exact S1|apply eps_one]. }
      rewrite <- Et, <- Ez in C. apply negb_false_iff, Qle_bool_iff in B. destruct C as [(_ & L & _)|(_ & _ & L)].
      * apply (Qlt_irrefl eps). apply Qle_lt_trans with (inject_Z z - q)%Q; [exact B|]. apply le_sub_lt; [exact L|apply eps_pos].
      * apply (Qlt_irrefl eps). apply Qle_lt_trans with (inject_Z z - q)%Q; [exact B|exact L].
    + intros (q' & z' & Eq & _ & C). injection Eq as <-. exfalso.
      assert (Et : tr q = z').
      { apply tr_of. destruct C as [(P & L & S1)|(P & L & S1)]; [left|right]; (split; [exact P|split; [exact L|]]); apply sub_swap in S1.
        - rewrite inject_Z_plus. apply Qlt_trans with (inject_Z z' + eps)%Q; [exact S1|apply eps_one].
        - unfold Z.sub. rewrite inject_Z_plus. apply (Qplus_lt_l _ _ 1). setoid_replace (inject_Z z' + inject_Z (- (1)) + 1)%Q with (inject_Z z') by (rewrite inject_Z_opp; cbn; ring).
          apply Qlt_trans with (q + eps)%Q; [exact S1|apply eps_one]. }
      rewrite <- Et, <- Ez in C. apply negb_false_iff, Qle_bool_iff in A. destruct C as [(_ & _ & L)|(_ & L & _)].
      * apply (Qlt_irrefl eps). apply Qle_lt_trans with (q - inject_Z z)%Q; [exact A|exact L].
      * apply (Qlt_irrefl eps). apply Qle_lt_trans with (q - inject_Z z)%Q; [exact A|]. apply le_sub_lt; [exact L|apply eps_pos].
    + intros (q' & z' & Eq & _ & C). injection Eq as <-. exfalso.
      apply negb_false_iff, Qle_bool_iff in A. apply negb_false_iff, Qle_bool_iff in B.
      assert (X : (eps + eps <= 0)%Q). { setoid_replace 0%Q with ((q - inject_Z z) + (inject_Z z - q))%Q by ring. apply Qplus_le_compat; assumption. }
      vm_compute in X. apply X. reflexivity.
  - cbn [bind]. split; [split; [discriminate|]|intros _; right; reflexivity]. intros (q & z & -> & R & C). exfalso.
    assert (Et : tr q = z).
      { apply tr_of. destruct C as [(P & L & S1)|(P & L & S1)]; [left|right]; (split; [exact P|split; [exact L|]]); apply sub_swap in S1.
        - rewrite inject_Z_plus. apply Qlt_trans with (inject_Z z + eps)%Q; [exact S1|apply eps_one].
        - unfold Z.sub. rewrite inject_Z_plus. apply (Qplus_lt_l _ _ 1). setoid_replace (inject_Z z + inject_Z (- (1)) + 1)%Q with (inject_Z z) by (rewrite inject_Z_opp; cbn; ring).
          apply Qlt_trans with (q + eps)%Q; [exact S1|apply eps_one]. }
    rewrite to_int_val in E by lia. discriminate.
Qed.
Lemma intable_iff v : (exists z, to_int v = Val z) <-> intable v.
Proof.
  pose proof (to_int_spec v) as T. split.
  - intros (z & E). rewrite E in T. destruct T as (q & -> & Ez & R). exists q. split; [reflexivity|].
    assert (P : forall a b, (a <= b)%Z -> (inject_Z a <= inject_Z b)%Q) by (intros; rewrite <- Zle_Qle; assumption).
    destruct (tr_bounds q) as [(A & B & C)|(A & B & C)]; rewrite <- Ez in *; split.
    + apply Qlt_le_trans with (inject_Z z); [rewrite <- Zlt_Qlt; lia|exact B].
    + apply Qlt_le_trans with (inject_Z (z + 1)); [exact C|apply P; lia].
    + apply Qle_lt_trans with (inject_Z (z - 1)); [apply P; lia|exact C].
    + apply Qle_lt_trans with (inject_Z z); [exact B|rewrite <- Zlt_Qlt; lia].
  - intros (q & -> & A & B). exists (tr q). apply to_int_val. destruct (tr_bounds q) as [(C & D & E)|(C & D & E)].
    + split; [lia|]. apply Z.lt_succ_r. rewrite Zlt_Qlt. apply Qle_lt_trans with q; assumption.
    + split; [|lia]. apply Z.lt_succ_r. rewrite Zlt_Qlt. unfold Z.succ. apply (Qplus_lt_l _ _ (inject_Z (-1))). rewrite <- !inject_Z_plus.
      replace (tr q + 1 + -1)%Z with (tr q) by lia. apply Qlt_le_trans with q; [exact A|exact D].
Qed.
Lemma slot_cases d i : (exists v, slot d i = Val v /\ nth_error d i = Some v) \/ (slot d i = UB /\ nth_error d i = None).
Proof. unfold slot. destruct (nth_error d i); eauto. Qed.
Lemma aw_slot d i : (bind (slot d i) assert_whole = Val tt <-> exists v, nth_error d i = Some v /\ whole v) /\
  (bind (slot d i) assert_whole = Val tt \/ stops (bind (slot d i) assert_whole)).
Proof.
  destruct (slot_cases d i) as [(v & -> & ->)|(-> & ->)]; cbn [bind].
  - destruct (assert_whole_iff v) as (A & B). split.
    + rewrite A. split; [eauto|]. intros (w & E & W). injection E as <-. exact W.
    + destruct (assert_whole v) as [[]| | | |] eqn:E; [left; reflexivity|right; apply B; congruence..].
  - split; [split; [discriminate|intros (v & E & _); discriminate]|right; right; reflexivity].
Qed.
Lemma toe_asserts_iff g : (toe_asserts g = Val tt <-> whole_toe g) /\ (toe_asserts g = Val tt \/ stops (toe_asserts g)).
Proof.
  unfold toe_asserts, whole_toe. destruct (f_sys g); try (split; [split; auto|left; reflexivity]); try apply aw_slot.
  destruct (aw_slot (f_data g) 2) as (A & B). destruct (slot_cases (f_data g) 2) as [(v & E2 & N2)|(E2 & N2)]; rewrite E2, N2 in *; cbn [bind] in *.
  2:{ split; [|right; right; reflexivity]. split; [discriminate|]. intros ((v & E & _) & _). discriminate. }
  destruct (assert_whole v) as [[]| | | |] eqn:Ea; cbn [bind] in *.
  2-5: split; [split; [discriminate|intros (H & _); apply A in H; discriminate]|right; destruct B as [B|B]; [discriminate|destruct B as [B|B]; [try (left; reflexivity); discriminate|try (right; reflexivity); discriminate]]].
  destruct (slot_cases (f_data g) 6) as [(h & E6 & N6)|(E6 & N6)]; rewrite E6, N6; cbn [bind].
  2:{ split; [|right; right; reflexivity]. split; [discriminate|]. intros (_ & v' & E & _). discriminate. }
  pose proof (to_int_spec h) as T. pose proof (intable_iff h) as (I1 & I2). destruct (to_int h) as [z| | | |] eqn:Ez; try contradiction; cbn [bind].
  - split; [|left; reflexivity]. split; [intros _|reflexivity]. split; [apply A; reflexivity|]. exists h. split; [reflexivity|]. apply I1. eauto.
  - split; [|right; right; reflexivity]. split; [discriminate|]. intros (_ & h' & E & H). injection E as <-. destruct (I2 H) as (z & X). discriminate.
Qed.
(** ** One record *)
Lemma set_dbg strp st f e : good st = true ->
  match set_from_rnx3 strp st f e with
  | Val r => (n_code r = 0%Z -> whole_toe (n_frame r)) /\ set_from_rnx3_dbg strp st f e = Val r \/
             (n_code r = 0%Z /\ ~ whole_toe (n_frame r)) /\ stops (set_from_rnx3_dbg strp st f e)
  | o => set_from_rnx3_dbg strp st f e = o
  end.
Proof.
  intro G. unfold set_from_rnx3_dbg. rewrite G. cbn [negb]. destruct (set_from_rnx3 strp st f e) as [r| | | |]; try reflexivity. cbn [bind].
  destruct (Z.eqb_spec (n_code r) 0) as [Z0|Z1]; [|left; split; [congruence|reflexivity]].
  destruct (toe_asserts_iff (n_frame r)) as (A & [B|B]).
  - left. rewrite B. cbn [bind]. split; [intros _; apply A, B|reflexivity].
  - right. split; [split; [exact Z0|]|].
    + intro W. apply A in W. rewrite W in B. destruct B; discriminate.
    + destruct B as [-> | ->]; cbn [bind]; [left|right]; reflexivity.
Qed.
Lemma read_dbg strp st f e : good st = true ->
  match read_next_record strp st f e with
  | Val r => (n_code r = 0%Z -> whole_toe (n_frame r)) /\ read_next_record_dbg strp st f e = Val r \/
             (n_code r = 0%Z /\ ~ whole_toe (n_frame r)) /\ stops (read_next_record_dbg strp st f e)
  | o => read_next_record_dbg strp st f e = o
  end.
Proof.
  intro G. unfold read_next_record_dbg, read_next_record. rewrite G. cbn [negb]. unfold peek. rewrite G. destruct (rest st) as [|c t] eqn:R.
  - change (seof (set_eof st)) with true. left. split; [discriminate|reflexivity].
  - apply set_dbg, G.
Qed.
(** ** Searches *)
Lemma text_ended_split ls d tl : d = text_of ls ++ tl -> ended d -> ended tl.
Proof.
  intros -> [E|(a & E)].
  - apply app_eq_nil in E as (_ & ->). left. reflexivity.
  - destruct tl as [|c tl] using rev_ind; [left; reflexivity|]. right. rewrite app_assoc in E. apply app_inj_tail in E as (_ & ->). eauto.
Qed.
Lemma skip_good : forall k st line st', length line = 128 -> good st = true -> ended (rest st) -> skip_lines k st line = Val (false, st') -> good st' = true /\ ended (rest st').
Proof.
  intros k st line st' L G E H. destruct (skip_takes k st line st' L G H) as (ls & _ & F & _ & Sf & [(G' & R)|(Eo & R' & R)]).
  - split; [exact G'|]. eapply text_ended_split; eassumption.
  - (* the last line was ended by the end of the file *)
    revert st line L G E H F R. revert ls. induction k; cbn [skip_lines]; intros ls st line L G E H F R.
    + injection H as <-. unfold good in G. rewrite Eo in G. discriminate.
    + destruct (getline_indep st line line L L) as (st1 & m1 & _ & Gl & _ & Lm & _). rewrite Gl in H. cbn [bind] in H.
      destruct (sfail st1) eqn:Fl; [discriminate|]. destruct (getline_ok _ _ _ _ L Gl Fl) as (_ & l & _ & Nl & _ & _ & [(G1 & R1)|(_ & Nn & R1 & _)]).
      * assert (E1 : ended (rest st1)). { apply (text_ended_split [l] (rest st)); [|exact E]. unfold text_of. cbn. rewrite R1, app_nil_r, <- app_assoc. reflexivity. }
        destruct (skip_takes k st1 m1 st' Lm G1 H) as (ls1 & _ & F1 & _ & _ & [(G' & R2)|(_ & _ & R2)]).
        -- unfold good in G'. rewrite Eo in G'. discriminate.
        -- exact (IHk ls1 st1 m1 Lm G1 E1 H F1 R2).
      * exfalso. rewrite R1 in E. destruct E as [->|(a & ->)]; [congruence|]. apply Nl. apply in_or_app. right. left. reflexivity.
Qed.
Lemma read_keeps strp st f e r : good st = true -> ended (rest st) -> read_next_record strp st f e = Val r -> n_code r = 0%Z ->
  good (n_stream r) = true /\ ended (rest (n_stream r)).
Proof.
  intros G E H Z0. unfold read_next_record in H. destruct (peek st) as [st1 [c|]] eqn:P.
  2:{ destruct (seof st1); injection H as <-; discriminate. }
  apply peek_inv in P as (-> & _ & t & R). destruct (read_zero _ _ _ _ _ G H Z0) as (c' & t' & sys & _ & _ & _ & _ & Sk).
  eapply skip_good; [|exact G|exact E|exact Sk]. unfold uninit; apply repeat_length.
Qed.
Lemma ignore_keeps st st' : good st = true -> ended (rest st) -> ignore_next_block st = Val (0%Z, st') -> good st' = true /\ ended (rest st').
Proof.
  intros G E H. unfold ignore_next_block, peek_char in H. destruct (peek st) as [st1 [c|]] eqn:P.
  2:{ change (ceqb CFF CFF) with true in H. discriminate. }
  apply peek_inv in P as (-> & _ & t & R). destruct (ceqb c CFF); [discriminate|]. destruct (char_to_satsys c) as [sys| | | |]; try discriminate.
  destruct (skip_lines _ _ _) as [[bad st2]| | | |] eqn:Sk; try discriminate. cbn [bind] in H.
  destruct bad; [discriminate|]. injection H as <-. eapply skip_good; [|exact G|exact E|exact Sk]. unfold uninit; apply repeat_length.
Qed.
Lemma peak_dbg st : good st = true -> peak_satsys_dbg st = peak_satsys st.
Proof. intro G. unfold peak_satsys_dbg. rewrite G. reflexivity. Qed.
Lemma ignore_dbg st : good st = true -> ignore_next_block_dbg st = ignore_next_block st.
Proof. intro G. unfold ignore_next_block_dbg. rewrite G. reflexivity. Qed.
Lemma stops_bind {A B} (o : outcome A) (k : A -> outcome B) : stops o -> stops (bind o k).
Proof. intros [-> | ->]; [left|right]; reflexivity. Qed.
Lemma find_dbg : forall k strp st f e sys prn, good st = true -> ended (rest st) ->
  find_loop_dbg k strp st f e sys prn = find_loop k strp st f e sys prn \/ stops (find_loop_dbg k strp st f e sys prn).
Proof.
  induction k; cbn [find_loop find_loop_dbg]; intros strp st f e sys prn G E; [left; reflexivity|].
  rewrite (peak_dbg _ G). destruct (peak_satsys st) as [[s cs] st1] eqn:P. destruct (Z.eqb_spec s 0) as [->|Ns]; cbn [negb]; [|left; reflexivity].
  destruct (peak_zero _ _ _ P) as (-> & _).
  destruct (satsys_eqb cs sys).
  - pose proof (read_dbg strp st f e G) as R. destruct (read_next_record strp st f e) as [r| | | |] eqn:Er; try (rewrite R; left; reflexivity).
    destruct R as [(_ & ->)|(_ & R)]; [|right; apply stops_bind, R]. cbn [bind].
    destruct (Z.eqb_spec (n_code r) 0) as [Z0|Z1]; cbn [negb]; [|left; reflexivity]. destruct (_ || _)%bool; [left; reflexivity|].
    destruct (read_keeps _ _ _ _ _ G E Er Z0). apply IHk; assumption.
  - rewrite (ignore_dbg _ G). destruct (ignore_next_block st) as [[j st2]| | | |] eqn:Ei; try (left; reflexivity). cbn [bind].
    destruct (Z.eqb_spec j 0) as [->|Z1]; cbn [negb]; [|left; reflexivity]. destruct (ignore_keeps _ _ G E Ei). apply IHk; assumption.
Qed.
Lemma valid_dbg : forall k strp t st f e sys prn, good st = true -> ended (rest st) ->
  valid_loop_dbg k strp t st f e sys prn = valid_loop k strp t st f e sys prn \/ stops (valid_loop_dbg k strp t st f e sys prn).
Proof.
  induction k; cbn [valid_loop valid_loop_dbg]; intros strp t st f e sys prn G E; [left; reflexivity|].
  rewrite (peak_dbg _ G). destruct (peak_satsys st) as [[s cs] st1] eqn:P. destruct (Z.eqb_spec s 0) as [->|Ns]; cbn [negb]; [|left; reflexivity].
  destruct (peak_zero _ _ _ P) as (-> & _).
  destruct (satsys_eqb cs sys).
  - pose proof (read_dbg strp st f e G) as R. destruct (read_next_record strp st f e) as [r| | | |] eqn:Er; try (rewrite R; left; reflexivity).
    destruct R as [(_ & ->)|(_ & R)]; [|right; apply stops_bind, R]. cbn [bind]. cbv zeta.
    destruct (Z.eqb_spec (n_code r) 0) as [Z0|Z1]; cbn [negb]; [|left; reflexivity].
    destruct (read_keeps _ _ _ _ _ G E Er Z0) as (G' & E').
    assert (IH := IHk strp t (n_stream r) (n_frame r) (n_errno r) sys prn G' E').
    destruct (prn =? f_prn (n_frame r))%Z; [|exact IH].
    destruct (_ && _)%bool; [left; reflexivity|]. destruct (sv_health (n_frame r)) as [h| | | |]; try (left; reflexivity). cbn [bind].
    destruct (h =? 0)%Z; [|exact IH]. destruct (fit_interval (n_frame r)) as [fit| | | |]; try (left; reflexivity). cbn [bind].
    destruct (negb _); destruct (_ && _)%bool; try exact IH; left; reflexivity.
  - rewrite (ignore_dbg _ G). destruct (ignore_next_block st) as [[j st2]| | | |] eqn:Ei; try (left; reflexivity). cbn [bind].
    destruct (Z.eqb_spec j 0) as [->|Z1]; cbn [negb]; [|left; reflexivity]. destruct (ignore_keeps _ _ G E Ei). apply IHk; assumption.
Qed.
(** ** Conforming files *)
Lemma whole_block cal g b : is_block cal g b -> block_ok b -> toe_whole b -> whole_toe g.
Proof.
  intros B Ok W. pose proof B as (Es & _). unfold toe_whole, whole_toe in *. rewrite Es.
  assert (X : forall i n, number_at b i = Some n -> si_value (b_sys b) i n = num_val n -> nth_error (f_data g) i = Some (DFin (si_value (b_sys b) i n)) -> whole_num (number_at b i) ->
    exists v, nth_error (f_data g) i = Some v /\ whole v).
  { intros i n N Sv D Wn. rewrite N in Wn. destruct Wn as (z & R & Ez). exists (DFin (num_val n)). split; [rewrite D, Sv; reflexivity|].
    exists (num_val n), z. split; [reflexivity|]. split; [exact R|].
    assert (E1 : (num_val n - inject_Z z == 0)%Q) by (rewrite Ez; ring). assert (E2 : (inject_Z z - num_val n == 0)%Q) by (rewrite Ez; ring).
    destruct (Z.le_ge_cases 0 z); [left|right]; (split; [assumption|split; [rewrite Ez; apply Qle_refl|]]); [rewrite E1|rewrite E2]; reflexivity. }
  destruct (b_sys b) eqn:Eb; try exact I.
  - destruct (block_num cal g b 11 B Ok ltac:(rewrite Eb; reflexivity)) as (n & N & D). rewrite Eb in D. apply (X 11 n); auto.
  - destruct W as (W2 & W6). destruct (block_num cal g b 2 B Ok ltac:(rewrite Eb; reflexivity)) as (n & N & D). rewrite Eb in D.
    destruct (block_num cal g b 6 B Ok ltac:(rewrite Eb; reflexivity)) as (m & N6 & D6). rewrite Eb in D6.
    split; [apply (X 2 n); auto|]. exists (DFin (num_val m)). split; [exact D6|]. exists (num_val m). split; [reflexivity|].
    rewrite N6 in W6. destruct W6 as (A & C). split; [apply Qlt_le_trans with (inject_Z (-2147483648)); [reflexivity|exact A]|apply Qle_lt_trans with (inject_Z 2147483647); [exact C|reflexivity]].
  - destruct (block_num cal g b 11 B Ok ltac:(rewrite Eb; reflexivity)) as (n & N & D). rewrite Eb in D. apply (X 11 n); auto.
  - destruct (block_num cal g b 11 B Ok ltac:(rewrite Eb; reflexivity)) as (n & N & D). rewrite Eb in D. apply (X 11 n); auto.
Qed.
Lemma read_block_dbg strp cal b tail st f : reads_dates strp cal -> block_ok b -> toe_whole b -> b_sys b <> Irnss -> length (f_data f) = 31 ->
  at_rest st (block_text b ++ tail) -> read_next_record_dbg strp st f 0 = read_next_record strp st f 0.
Proof.
  intros RD Ok W NI L At. destruct (read_block strp cal b tail st f RD Ok NI L At) as (g & st' & E & _ & _ & B & _).
  pose proof (read_dbg strp st f 0 (proj1 At)) as R. rewrite E in *. destruct R as [(_ & R)|((_ & N) & _)]; [exact R|].
  exfalso. apply N. apply (whole_block cal g b); assumption.
Qed.
Lemma find_blocks_dbg strp cal sys prn : reads_dates strp cal -> sys <> Irnss ->
  forall k bs st f, Forall block_ok bs -> Forall toe_whole bs -> length (f_data f) = 31 -> at_rest st (blocks_text bs) ->
  find_loop_dbg k strp st f 0 sys prn = find_loop k strp st f 0 sys prn.
Proof.
  intros RD NI. induction k; intros bs st f Ok W L At; [reflexivity|]. cbn [find_loop find_loop_dbg]. rewrite (peak_dbg _ (proj1 At)).
  destruct Ok as [|b bs Ob Ok]; [|inversion W as [|? ? Wb W']; subst].
  - destruct At as (G & R). unfold peak_satsys, peek_char, peek. rewrite G. cbn in R. rewrite R. reflexivity.
  - unfold blocks_text in At. cbn [flat_map] in At. fold (blocks_text bs) in At. rewrite (block_peak _ _ _ Ob At). cbn [Z.eqb negb].
    destruct (satsys_eqb (b_sys b) sys) eqn:Es.
    + apply satsys_eqb_eq in Es. rewrite (read_block_dbg strp cal b (blocks_text bs) st f RD Ob Wb ltac:(congruence) L At).
      destruct (read_block strp cal b (blocks_text bs) st f RD Ob ltac:(congruence) L At) as (g & st' & -> & A & D & B & _).
      cbn [bind n_code Z.eqb negb n_frame n_stream n_errno]. destruct (_ || _)%bool; [reflexivity|]. apply IHk with bs; auto. apply (is_block_data _ _ _ B).
    + rewrite (ignore_dbg _ (proj1 At)). destruct (ignore_block b st _ Ob At) as (st' & -> & A & D). cbn [bind Z.eqb negb]. apply IHk with bs; auto.
Qed.
Lemma valid_blocks_dbg strp cal t sys prn : reads_dates strp cal -> sys <> Irnss ->
  forall k bs st f, Forall block_ok bs -> Forall toe_whole bs -> length (f_data f) = 31 -> at_rest st (blocks_text bs) ->
  valid_loop_dbg k strp t st f 0 sys prn = valid_loop k strp t st f 0 sys prn.
Proof.
  intros RD NI. induction k; intros bs st f Ok W L At; [reflexivity|]. cbn [valid_loop valid_loop_dbg]. rewrite (peak_dbg _ (proj1 At)).
  destruct Ok as [|b bs Ob Ok]; [|inversion W as [|? ? Wb W']; subst].
  - destruct At as (G & R). unfold peak_satsys, peek_char, peek. rewrite G. cbn in R. rewrite R. reflexivity.
  - unfold blocks_text in At. cbn [flat_map] in At. fold (blocks_text bs) in At. rewrite (block_peak _ _ _ Ob At). cbn [Z.eqb negb].
    destruct (satsys_eqb (b_sys b) sys) eqn:Es.
    + apply satsys_eqb_eq in Es. rewrite (read_block_dbg strp cal b (blocks_text bs) st f RD Ob Wb ltac:(congruence) L At).
      destruct (read_block strp cal b (blocks_text bs) st f RD Ob ltac:(congruence) L At) as (g & st' & -> & A & D & B & _).
      cbn [bind n_code Z.eqb negb n_frame n_stream n_errno]. cbv zeta. rewrite (IHk bs st' g) by (auto; apply (is_block_data _ _ _ B)). reflexivity.
    + rewrite (ignore_dbg _ (proj1 At)). destruct (ignore_block b st _ Ob At) as (st' & -> & A & D). cbn [bind Z.eqb negb]. apply IHk with bs; auto.
Qed.
