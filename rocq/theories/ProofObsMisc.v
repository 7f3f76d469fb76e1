(** ProofObsMisc: C22, C54 (what success means), C55, C56 for the observation reader. *)
From Verif Require Import Base BaseLemmas CNum CNumLemmas Stream ModelSatsys ModelObs ModelNvarstr
  ModelSatellite ModelAntenna ModelObsRnx SpecText SpecNum SpecObs SpecHeader ProofText ProofAntenna ProofNum
  ProofStream ProofObsTypes ProofObsRec ProofCollect ProofEpoch ProofHeader.

(** ** what reading leaves unchanged *)
Lemma collect_data k plan : forall st buf bufsz out pos j n out' st' buf',
  collect_loop k plan st buf bufsz out pos = Val (j, n, out', st', buf') -> sdata st' = sdata st.
Proof.
  induction k as [|k IH]; intros st buf bufsz out pos j n out' st' buf' H; cbn [collect_loop] in H.
  - injection H as _ _ _ <- _. auto.
  - apply bind_val in H as ([st1 b1] & G & H). apply getline_data in G.
    apply bind_val in H as (c0 & _ & H).
    destruct (char_to_satsys c0) as [s| | | |]; try discriminate.
    2:{ injection H as _ _ _ <- _. auto. }
    destruct (plan s); [|apply IH in H; congruence].
    destruct (nth_error out pos) as [[sat vals]|]; [|discriminate].
    apply bind_val in H as ([[code prn] v'] & _ & H). destruct (code >? 0)%Z; [|apply IH in H; congruence].
    injection H as _ _ _ <- _. auto.
Qed.

Definition same_file (o o' : obsfile) : Prop :=
  sdata (o_stream o') = sdata (o_stream o) /\ o_hdr o' = o_hdr o /\ o_eoh o' = o_eoh o /\ o_bufsz o' = o_bufsz o.

Lemma peek_data st st' c : peek st = (st', c) -> sdata st' = sdata st /\ (c <> None -> st' = st).
Proof.
  unfold peek. destruct (good st); [destruct (rest st)|]; intro H; injection H as <- <-; split; auto; congruence.
Qed.

Lemma read_same o plan out r : read_next_epoch o plan out = Val r -> same_file o (er_obj r).
Proof.
  intro H. unfold read_next_epoch in H. destruct (peek (o_stream o)) as [st0 c] eqn:P.
  apply peek_data in P as [P _]. unfold same_file. destruct c as [ch|].
  - apply bind_val in H as ([st1 buf1] & G & H). apply getline_data in G.
    apply bind_val in H as ([j hdr] & _ & H). destruct hdr as [h|].
    + apply bind_val in H as ([[[[j2 n] out'] st2] buf2] & C & H). apply collect_data in C.
      destruct (negb (j2 =? 0)%Z); [apply Val_inj in H; subst r; cbn; repeat split; congruence|].
      destruct (seof st2); apply Val_inj in H; subst r; cbn; repeat split; congruence.
    + apply Val_inj in H; subst r; cbn; repeat split; congruence.
  - destruct (seof st0); apply Val_inj in H; subst r; cbn; repeat split; congruence.
Qed.

(** histories of reads and rewinds *)
Inductive history (o0 : obsfile) : obsfile -> Prop :=
| hist_start : history o0 o0
| hist_read o plan out r : history o0 o -> read_next_epoch o plan out = Val r -> history o0 (er_obj r)
| hist_rewind o : history o0 o -> history o0 (obs_rewind o).

Lemma same_refl o : same_file o o.
Proof. repeat split. Qed.
Lemma same_trans a b c : same_file a b -> same_file b c -> same_file a c.
Proof. unfold same_file. intuition congruence. Qed.
Lemma rewind_same o : same_file o (obs_rewind o).
Proof. unfold same_file, obs_rewind, seekg. cbn. destruct (sfail (o_stream o)), (o_eoh o); repeat split. Qed.
Lemma history_same o0 o : history o0 o -> same_file o0 o.
Proof.
  induction 1 as [|o plan out r H IH E|o H IH]; [apply same_refl| |].
  - eapply same_trans; [exact IH|eapply read_same; eauto].
  - eapply same_trans; [exact IH|apply rewind_same].
Qed.

(** a rewound stream is the stream the constructor left, unless failbit is set *)
Theorem rewind_restores strp d o0 o : obs_open strp d = Val o0 -> o_eoh o0 <> None -> history o0 o ->
  sfail (o_stream o) = false -> o_stream (obs_rewind o) = o_stream o0.
Proof.
  intros Ho Hp Hh Hf. apply open_facts in Ho as (D & _ & _ & Q). apply history_same in Hh as (S1 & _ & S3 & _).
  unfold obs_rewind. cbn [o_stream]. rewrite S3. destruct (o_eoh o0) as [p|]; [|congruence]. destruct Q as [G ->].
  unfold seekg. rewrite Hf. rewrite S1. unfold good in G. destruct (o_stream o0) as [da po eo fa]; cbn in *.
  destruct eo, fa; try discriminate. reflexivity.
Qed.

Theorem rewind_after_eof strp d o0 o plan out r : obs_open strp d = Val o0 -> o_eoh o0 <> None -> history o0 o ->
  read_next_epoch o plan out = Val r -> er_code r = (-1)%Z ->
  o_stream (obs_rewind (er_obj r)) = o_stream o0.
Proof.
  intros Ho Hp Hh Hr Hc. apply (rewind_restores strp d o0 (er_obj r)); auto; [eapply hist_read; eauto|].
  (* code -1 goes through clear() *)
  unfold read_next_epoch in Hr. destruct (peek (o_stream o)) as [st0 [ch|]].
  - apply bind_val in Hr as ([st1 buf1] & G & H). apply bind_val in H as ([j hdr] & Hj & H).
    apply resolve_epoch_codes in Hj. destruct hdr as [h|].
    + apply bind_val in H as ([[[[j2 n] out'] st2] buf2] & C & H). apply collect_codes in C.
      destruct (negb (j2 =? 0)%Z); [apply Val_inj in H; subst r; cbn [er_code] in Hc; lia|].
      destruct (seof st2); apply Val_inj in H; subst r; [reflexivity|cbn [er_code] in Hc; lia].
    + apply Val_inj in H; subst r. cbn [er_code] in Hc. destruct Hj as [[_ Hj]|(x & Hx & _)]; [lia|discriminate].
  - destruct (seof st0); apply Val_inj in Hr; subst r; [reflexivity|cbn [er_code] in Hc; lia].
Qed.

(** failbit set: the rewind does nothing, now and ever *)
Theorem rewind_stuck o : sfail (o_stream o) = true ->
  spos (o_stream (obs_rewind o)) = spos (o_stream o) /\ sfail (o_stream (obs_rewind o)) = true.
Proof. intro H. unfold obs_rewind, seekg. cbn. rewrite H. auto. Qed.

(** ** C22 *)
Theorem record_fits strp d o sys codes line st tail :
  obs_open strp d = Val o -> h_tbl (o_hdr o) sys = Some codes -> clean line ->
  length line <= 3 + 16 * length codes -> at_rest st (line ++ NL :: tail) ->
  exists st', getline st (o_buf o) (o_bufsz o) = Val (st', overlay line (o_buf o)) /\ at_rest st' tail.
Proof.
  intros Ho Ht Hc Hl Hs. apply open_facts in Ho as (_ & B & Lb & _). apply max_obs_bound in Ht.
  destruct (getline_line st (o_buf o) (o_bufsz o) line tail Hs (clean_nl _ Hc)) as (st' & E & R & _); [lia|lia|].
  exists st'. auto.
Qed.

Lemma epoch_base_length e k : epoch_src_ok e -> length k = 3 -> length (epoch_base e k) = 35.
Proof.
  intros (_ & Hy & (_ & _ & Hm) & (_ & _ & Hd) & (_ & _ & Hh) & (_ & _ & Hmi) & _ & Hs & _) Hk.
  unfold epoch_base. rewrite !app_length, Hy, !length_rjust, Hk by lia. reflexivity.
Qed.
Lemma epoch_line_length e : epoch_src_ok e ->
  length (epoch_line e) = 35 + match s_off e with Some _ => 21 | None => 0 end + s_pad e.
Proof.
  intro H. unfold epoch_line. rewrite !app_length. rewrite epoch_base_length.
  2: exact H.
  2:{ destruct H as (_ & _ & _ & _ & _ & _ & _ & _ & _ & (_ & _ & Hn) & _). apply length_rjust. exact Hn. }
  destruct H as (_ & _ & _ & _ & _ & _ & _ & _ & _ & _ & Ho).
  unfold blanks at 2. rewrite repeat_length. destruct (s_off e) as [n|]; [|reflexivity].
  destruct Ho as [_ Ho]. rewrite app_length, length_rjust by exact Ho. reflexivity.
Qed.

Theorem epoch_fits strp d o e st tail :
  obs_open strp d = Val o -> epoch_src_ok e -> s_pad e = 0 ->
  (match s_off e with Some _ => 4 | None => 2 end <= max_obs (h_tbl (o_hdr o))) ->
  at_rest st (epoch_line e ++ NL :: tail) ->
  exists st', getline st (o_buf o) (o_bufsz o) = Val (st', overlay (epoch_line e) (o_buf o)) /\ at_rest st' tail.
Proof.
  intros Ho He Hp Hm Hs. apply open_facts in Ho as (_ & B & Lb & _).
  pose proof (epoch_line_length e He) as L. rewrite Hp in L.
  assert (length (epoch_line e) < o_bufsz o) by (destruct (s_off e); lia).
  destruct (getline_line st (o_buf o) (o_bufsz o) (epoch_line e) tail Hs (clean_nl _ (epoch_line_clean e He))) as (st' & E & R & _); [lia|lia|].
  exists st'. auto.
Qed.

(** one observation type, or none: every epoch is refused and the stream is left failed *)
Theorem epoch_too_long o e tail plan out :
  at_rest (o_stream o) (epoch_line e ++ NL :: tail) -> epoch_src_ok e -> length (o_buf o) = o_bufsz o ->
  4 <= o_bufsz o <= 20 ->
  exists r, read_next_epoch o plan out = Val r /\ er_code r = 21%Z /\ sfail (o_stream (er_obj r)) = true.
Proof.
  intros [G R] He Lb Hb. unfold read_next_epoch.
  destruct (epoch_line_head e) as [x Ex].
  assert (P : peek (o_stream o) = (o_stream o, Some ">"%char)).
  { unfold peek. rewrite G, R, Ex. reflexivity. }
  rewrite P. pose proof (epoch_line_length e He) as L.
  set (k := o_bufsz o - 1). 
  assert (Hk : 3 <= k <= 19) by (unfold k; lia).
  destruct (skipn k (epoch_line e)) as [|c y] eqn:Es.
  { apply (f_equal (@length _)) in Es. rewrite skipn_length in Es. change (length (@nil ascii)) with 0 in Es. lia. }
  assert (Hsplit : epoch_line e = firstn k (epoch_line e) ++ c :: y) by (rewrite <- Es; symmetry; apply firstn_skipn).
  assert (CL : ~ In NL (epoch_line e)) by (apply clean_nl, epoch_line_clean; exact He).
  assert (CN : ~ In NUL (epoch_line e)) by (apply clean_nul, epoch_line_clean; exact He).
  assert (TL : take_line k (epoch_line e ++ NL :: tail) = (firstn k (epoch_line e), LFull)).
  { rewrite Hsplit at 1. rewrite <- app_assoc. cbn [app]. apply take_line_full.
    - intro F. apply CL. rewrite Hsplit. apply in_app_or in F as [F|[F|[]]]; apply in_or_app; [left; exact F|right; left; exact F].
    - rewrite firstn_length. lia. }
  unfold getline. rewrite G, R. fold k. rewrite TL.
  assert (LF : length (firstn k (epoch_line e)) = k) by (rewrite firstn_length; lia).
  rewrite wr_bytes_overlay by (rewrite LF, Lb; unfold k; lia). cbn [bind].
  assert (NF : ~ In NUL (firstn k (epoch_line e))).
  { intro F. apply CN. rewrite Hsplit. apply in_or_app. left. exact F. }
  rewrite epoch_line_reject; [|exact NF|right; rewrite LF; lia]. cbn [bind].
  eexists. split; [reflexivity|]. cbn [er_code er_obj o_stream]. split; [reflexivity|].
  destruct (firstn k (epoch_line e)) eqn:Ef; [change (length (@nil ascii)) with 0 in LF; lia|]. reflexivity.
Qed.

(** ** C54: success means that an END OF HEADER line was met *)
(** a line of [d] that carries the label in columns 61-73 *)
Definition end_line_in (d : list ascii) : Prop :=
  exists a b, d = a ++ b /\ (a = [] \/ exists a', a = a' ++ [NL]) /\
    firstn 13 (skipn 60 b) = lit "END OF HEADER" /\ ~ In NL (firstn 73 b).

Definition line_start (s : stream) : Prop :=
  good s = true -> exists a, sdata s = a ++ rest s /\ (a = [] \/ exists a', a = a' ++ [NL]).

Lemma skipn_eq_app {A} n (l x y : list A) : skipn n l = x ++ y -> exists a, l = a ++ x ++ y.
Proof. intro H. exists (firstn n l). rewrite <- H. symmetry. apply firstn_skipn. Qed.

Lemma getline_line_start st buf n st' b : line_start st -> getline st buf n = Val (st', b) -> line_start st'.
Proof.
  intros I H G'. unfold getline in H. destruct (good st) eqn:G.
  - specialize (I G) as (a & Ea & _).
    destruct (take_line (n - 1) (rest st)) as [t e] eqn:T.
    pose proof (take_line_inv _ _ _ _ T) as (Ht & Hl & He).
    apply bind_val in H as (b' & _ & H). injection H as <- _.
    destruct e.
    + destruct He as [r Er].
      assert (R : rest (advance st (length t + 1)) = r).
      { replace (length t + 1) with (length (t ++ [NL])) by (rewrite app_length; reflexivity).
        apply rest_advance. rewrite Er, <- app_assoc. reflexivity. }
      exists (a ++ t ++ [NL]). split; [|right; exists (a ++ t); rewrite app_assoc; reflexivity].
      assert (Q : sdata st = (a ++ t ++ [NL]) ++ r) by (rewrite Ea, Er, <- !app_assoc; reflexivity).
      destruct t; cbn [sdata advance] in *; rewrite ?Q; (rewrite <- R at 1; reflexivity).
    + exfalso. unfold good in G'. destruct t; cbn in G'; rewrite ?andb_false_r in G'; discriminate.
    + exfalso. unfold good in G'. destruct t; cbn in G'; rewrite ?andb_false_r in G'; discriminate.
  - apply bind_val in H as (b' & _ & H). injection H as <- _. unfold good in G'. cbn in G'.
    rewrite andb_false_r in G'. discriminate.
Qed.

Lemma strncmp0_true s : ~ In NUL s -> forall a t, strncmp0 a (map Some s ++ t) (length s) = Val true ->
  firstn (length s) a = map Some s.
Proof.
  induction s as [|c s IH]; intros Hn a t H; [reflexivity|]. cbn in H.
  destruct a as [|[x|] a]; try discriminate. destruct (ceqb x c) eqn:E; [|discriminate].
  apply ceqb_eq in E. subst x. destruct (ceqb c NUL) eqn:E.
  - apply ceqb_eq in E. exfalso. apply Hn. left. auto.
  - change (ceqb c zero) with (ceqb c NUL) in H. rewrite E in H. cbn. rewrite (IH ltac:(intro; apply Hn; right; auto) a t H). reflexivity.
Qed.

Definition END := lit "END OF HEADER".
Lemma END_length : length END = 13. Proof. reflexivity. Qed.
Lemma END_nonul : ~ In NUL END. Proof. cbn. intuition discriminate. Qed.

Lemma end_label m : strncmp_lit m 60 "END OF HEADER" 13 = Val true -> firstn 13 (skipn 60 m) = map Some END.
Proof. intro H. apply (strncmp0_true END END_nonul _ _ H). Qed.

Definition window_ok (d : list ascii) (m : mem) : Prop :=
  strncmp_lit m 60 "END OF HEADER" 13 = Val true -> end_line_in d.

Lemma skipn_overlay_short t buf k : length t < k -> k <= length buf -> skipn k (overlay t buf) = skipn k buf.
Proof.
  intros H Hb. unfold overlay. rewrite skipn_app, map_length.
  rewrite (skipn_all2 (map Some t)) by (rewrite map_length; lia).
  replace (k - length t) with (S (k - length t - 1)) by lia. rewrite skipn_cons, app_nil_l.
  rewrite skipn_skipn. f_equal. lia.
Qed.

Lemma getline_window st buf st' b : length buf = 85 -> line_start st -> window_ok (sdata st) buf ->
  getline st buf 85 = Val (st', b) -> window_ok (sdata st) b /\ length b = 85.
Proof.
  intros Lb I W H. unfold getline in H. destruct (good st) eqn:G.
  - specialize (I G) as (a & Ea & Ha). change (85 - 1) with 84 in H.
    destruct (take_line 84 (rest st)) as [t e] eqn:T.
    pose proof (take_line_inv _ _ _ _ T) as (Ht & Hl & He).
    rewrite wr_bytes_overlay in H by lia. cbn [bind] in H. injection H as _ <-.
    split; [|rewrite overlay_length; lia]. intro Hs.
    destruct (Nat.lt_ge_cases (length t) 60) as [L60|L60].
    + apply W. unfold strncmp_lit, strncmp_eq in *. rewrite skipn_overlay_short in Hs by lia. exact Hs.
    + apply end_label in Hs. unfold overlay in Hs. rewrite skipn_app, map_length in Hs.
      replace (60 - length t) with 0 in Hs by lia. rewrite skipn_O, skipn_map in Hs.
      assert (Er : exists y, rest st = t ++ y).
      { destruct e; [destruct He as [r ->]; eauto|exists []; rewrite app_nil_r; auto|].
        destruct He as (_ & c & r & _ & ->). eauto. }
      destruct Er as [y Er].
      destruct (Nat.lt_ge_cases (length t) 73) as [L73|L73].
      * exfalso. assert (Q : nth_error (map Some END) (length t - 60) = Some (Some NUL)).
        { rewrite <- Hs. rewrite firstn_app, map_length, skipn_length.
          rewrite nth_error_app2 by (rewrite firstn_length, map_length, skipn_length; lia).
          rewrite firstn_length, map_length, skipn_length.
          replace (length t - 60 - Nat.min 13 (length t - 60)) with 0 by lia.
          replace (13 - (length t - 60)) with (S (12 - (length t - 60))) by lia. reflexivity. }
        apply nth_error_In, in_map_iff in Q as (c & Hc & Hin). injection Hc as ->. exact (END_nonul Hin).
      * rewrite firstn_app, map_length, skipn_length in Hs. replace (13 - (length t - 60)) with 0 in Hs by lia.
        rewrite app_nil_r, firstn_map in Hs.
        exists a, (rest st). split; [exact Ea|]. split; [exact Ha|]. rewrite Er. split.
        -- rewrite skipn_app. replace (60 - length t) with 0 by lia. rewrite skipn_O, firstn_app, skipn_length.
           replace (13 - (length t - 60)) with 0 by lia. rewrite firstn_O, app_nil_r.
           clear -Hs. revert Hs. generalize (firstn 13 (skipn 60 t)). fold END. generalize END.
           induction l as [|x l IH]; intros [|z k] Hs; try discriminate; [reflexivity|].
           cbn in Hs. injection Hs as <- Hs. f_equal. apply IH. exact Hs.
        -- rewrite firstn_app. replace (73 - length t) with 0 by lia. rewrite firstn_O, app_nil_r.
           intro F. apply Ht. rewrite <- (firstn_skipn 73 t). apply in_or_app. left. exact F.
  - change [Some NUL] with (map Some (@nil ascii) ++ [Some NUL]) in H. rewrite wr_bytes_overlay in H by (cbn; lia).
    cbn [bind] in H. injection H as _ <-. split; [|rewrite overlay_length; cbn; lia].
    intro Hs. apply W. unfold strncmp_lit, strncmp_eq in *. rewrite skipn_overlay_short in Hs by (cbn; lia). exact Hs.
Qed.

Lemma obstypes_ls : forall k st line r acc st' res, line_start st ->
  obstypes_loop k st line r acc = Val (st', res) -> line_start st'.
Proof.
  induction k as [|k IH]; intros st line r acc st' res I H; cbn [obstypes_loop] in H.
  - injection H as <- _. exact I.
  - destruct (obscode_of_cstr line (7 + r * 4)); try discriminate; [|injection H as <- _; exact I].
    destruct (S r =? 13).
    + apply bind_val in H as ([s1 l1] & G & H). apply (getline_line_start _ _ _ _ _ I) in G.
      apply bind_val in H as (same & _ & H). destruct (negb same); [injection H as <- _; exact G|].
      eapply IH; eauto.
    + eapply IH; eauto.
Qed.
Lemma resolve_ls t st l code t' st' : line_start st -> resolve_obstypes t st l = Val (code, t', st') -> line_start st'.
Proof.
  intros I H. unfold resolve_obstypes in H. apply noexcept_val in H.
  apply bind_val in H as (line & _ & H). apply bind_val in H as (c & _ & H).
  apply bind_val in H as (sys & _ & H). destruct (t sys); [injection H as _ _ <-; exact I|].
  apply bind_val in H as (s & _ & H). destruct (strtol s) as [[n k] er]. cbv zeta in H.
  destruct (er || (k =? 0)); [injection H as _ _ <-; exact I|].
  apply bind_val in H as ([s1 res] & G & H). apply (obstypes_ls _ _ _ _ _ _ _ I) in G.
  destruct res; [injection H as _ _ <-; exact G|]. destruct (_ =? _)%Z; injection H as _ _ <-; exact G.
Qed.
Lemma hdr_line_ls strp h st line code h' st' : line_start st ->
  hdr_line strp h st line = Val (code, h', st') -> line_start st'.
Proof.
  unfold hdr_line. intros I H.
  repeat match type of H with
  | bind _ _ = Val _ => apply bind_val in H as (? & ? & H); cbv zeta in H
  | match ?x with _ => _ end = Val _ => destruct x eqn:?
  | Val _ = Val _ => injection H as _ _ <-
  end; try exact I; try (eapply resolve_ls; eassumption).
Qed.

Lemma hdr_loop_end strp : forall k h st line h' st', line_start st -> length line = 85 -> window_ok (sdata st) line ->
  hdr_loop strp k h st line = Val (0%Z, h', st') -> end_line_in (sdata st).
Proof.
  induction k as [|k IH]; intros h st line h' st' I L W H; cbn [hdr_loop] in H; [discriminate|].
  apply bind_val in H as (e & E & H). destruct e; [exact (W E)|].
  apply bind_val in H as ([s1 l1] & G & H). 
  pose proof (getline_data _ _ _ _ _ G) as D1. pose proof (getline_line_start _ _ _ _ _ I G) as I1.
  destruct (getline_window _ _ _ _ L I W G) as [W1 L1].
  apply bind_val in H as ([[c h1] s2] & G2 & H).
  pose proof (hdr_line_data _ _ _ _ _ _ _ G2) as D2. pose proof (hdr_line_ls _ _ _ _ _ _ _ I1 G2) as I2.
  destruct (negb (c =? 0)%Z) eqn:Ec; [injection H as -> _ _; discriminate|].
  apply IH in H; auto; rewrite D2, D1 in *; auto.
Qed.

Theorem open_end strp d o : obs_open strp d = Val o -> end_line_in d.
Proof.
  intro H. unfold obs_open in H. apply bind_val in H as (h0 & _ & H).
  apply bind_val in H as ([[[code h] p] st] & G & H).
  destruct (negb (code =? 0)%Z) eqn:Ec; [discriminate|]. clear H.
  assert (C0 : code = 0%Z) by (apply negb_false_iff in Ec; apply Z.eqb_eq in Ec; exact Ec). clear Ec.
  unfold read_header in G. apply noexcept_val in G. cbv zeta in G.
  assert (I0 : line_start (seekg (open_stream d) (Some 0))).
  { intros _. exists []. split; [reflexivity|left; reflexivity]. }
  apply bind_val in G as ([s1 l1] & G1 & G).
  assert (W0 : window_ok d (uninit MAX_HEADER_CHARS)) by (intro F; vm_compute in F; discriminate).
  pose proof (getline_data _ _ _ _ _ G1) as D1. pose proof (getline_line_start _ _ _ _ _ I0 G1) as I1.
  destruct (getline_window _ (uninit MAX_HEADER_CHARS) _ _ eq_refl I0 W0 G1) as [W1 L1].
  apply bind_val in G as (s & _ & G). destruct (strtof s) as [[v n] er].
  destruct (n =? 0); [exfalso; apply Val_inj in G; injection G as <- _ _ _; discriminate|].
  apply bind_val in G as (c20 & _ & G). destruct (negb (ceqb c20 "O"%char)); [exfalso; apply Val_inj in G; injection G as <- _ _ _; discriminate|].
  apply bind_val in G as (c40 & _ & G). destruct (char_to_satsys c40); try discriminate; [|exfalso; apply Val_inj in G; injection G as <- _ _ _; discriminate].
  apply bind_val in G as ([s2 l2] & G2 & G).
  assert (W1' : window_ok (sdata s1) l1) by (rewrite D1; exact W1).
  pose proof (getline_data _ _ _ _ _ G2) as D2. pose proof (getline_line_start _ _ _ _ _ I1 G2) as I2.
  destruct (getline_window _ _ _ _ L1 I1 W1' G2) as [W2 L2].
  apply bind_val in G as ([[c3 h3] s3] & G3 & G).
  destruct (negb (c3 =? 0)%Z) eqn:E3.
  - exfalso. apply Val_inj in G. injection G as <- _ _ _. subst c3. discriminate.
  - apply negb_false_iff, Z.eqb_eq in E3. subst c3. rewrite <- D2 in W2. apply hdr_loop_end in G3; auto.
    rewrite D2, D1 in G3. exact G3.
Qed.

(** ** C56: what can terminate the program *)
Definition calm {A} (x : outcome A) : Prop := match x with Val _ | UB => True | _ => False end.
Lemma calm_bind {A B} (x : outcome A) (f : A -> outcome B) : calm x -> (forall a, calm (f a)) -> calm (bind x f).
Proof. destruct x; cbn; auto. Qed.
Lemma calm_noexcept {A} (x : outcome A) : calm x -> calm (noexcept x).
Proof. destruct x; cbn; auto. Qed.
Lemma calm_cstr0 m : calm (cstr0 m).
Proof. induction m as [|[c|] m IH]; cbn [cstr0]; try exact I. destruct (ceqb c NUL); [exact I|]. apply calm_bind; auto. intros; exact I. Qed.
Lemma calm_cstr m k : calm (cstr m k).
Proof. apply calm_cstr0. Qed.
Lemma calm_rd m k : calm (rd m k).
Proof. unfold rd. destruct (nth_error m k) as [[]|]; exact I. Qed.
Lemma calm_wr m k c : calm (wr m k c).
Proof. unfold wr. destruct (_ <? _); exact I. Qed.
Lemma calm_wrb m k c : calm (wr_bytes m k c).
Proof. unfold wr_bytes. destruct (_ <=? _); exact I. Qed.
Lemma calm_memcpy a b c d e : calm (memcpy a b c d e).
Proof. unfold memcpy. destruct (_ <=? _); [apply calm_wrb|exact I]. Qed.
Lemma calm_memset a b c d : calm (memset a b c d).
Proof. apply calm_wrb. Qed.
Lemma calm_strncmp0 n : forall a b, calm (strncmp0 a b n).
Proof.
  induction n as [|n IH]; intros a b; cbn [strncmp0]; [exact I|]. destruct a as [|[x|] a], b as [|[y|] b]; try exact I.
  destruct (ceqb x y); [|exact I]. destruct (ceqb x NUL); [exact I|apply IH].
Qed.
Lemma calm_strncmp_lit m k s n : calm (strncmp_lit m k s n).
Proof. apply calm_strncmp0. Qed.
Lemma calm_strlen m k : calm (strlen m k).
Proof. unfold strlen. apply calm_bind; [apply calm_cstr|intro; exact I]. Qed.
Lemma calm_getline s b n : calm (getline s b n).
Proof.
  unfold getline. destruct (good s); [destruct (take_line (n - 1) (rest s))|]; (apply calm_bind; [apply calm_wrb|intro; exact I]).
Qed.
Lemma calm_empty m o s : calm (string_is_empty m o s).
Proof. unfold string_is_empty. apply calm_bind; [apply calm_cstr|intro; exact I]. Qed.
Lemma calm_rtrim m o s : calm (rtrim_start m o s).
Proof. unfold rtrim_start. apply calm_bind; [apply calm_cstr|intro a]. cbv zeta. destruct (_ =? 0); exact I. Qed.
Lemma calm_c2d N : forall m off M e, calm (char2double m off N M e).
Proof.
  induction N as [|N IH]; intros; cbn; [exact I|]. apply calm_bind; [apply calm_cstr|intro s].
  destruct (strtod s) as [[v n] er]. destruct (n =? 0); [exact I|]. apply calm_bind; [apply IH|intros [[ok vs] e']; exact I].
Qed.
Lemma calm_vset l k x : calm (vset l k x).
Proof. unfold vset. destruct (_ <? _); exact I. Qed.

Ltac calmly :=
  repeat first
  [ exact I
  | match goal with
    | |- calm (bind _ _) => apply calm_bind; [|intro]
    | |- calm (cstr _ _) => apply calm_cstr
    | |- calm (rd _ _) => apply calm_rd
    | |- calm (wr _ _ _) => apply calm_wr
    | |- calm (wr_bytes _ _ _) => apply calm_wrb
    | |- calm (memcpy _ _ _ _ _) => apply calm_memcpy
    | |- calm (memset _ _ _ _) => apply calm_memset
    | |- calm (strncmp_lit _ _ _ _) => apply calm_strncmp_lit
    | |- calm (strlen _ _) => apply calm_strlen
    | |- calm (getline _ _ _) => apply calm_getline
    | |- calm (string_is_empty _ _ _) => apply calm_empty
    | |- calm (rtrim_start _ _ _) => apply calm_rtrim
    | |- calm (char2double _ _ _ _ _) => apply calm_c2d
    | |- calm (vset _ _ _) => apply calm_vset
    | |- calm (let _ := _ in _) => cbv zeta
    | |- calm (match ?x with _ => _ end) => destruct x
    end ].

Lemma calm_raw r m : calm (raw_resolve r m).
Proof. unfold raw_resolve. calmly. Qed.
Lemma calm_epoch_ints k : forall m s, calm (epoch_ints k m s).
Proof. induction k as [|k IH]; intros; cbn; calmly. apply IH. Qed.
Lemma calm_epoch m : calm (resolve_epoch m).
Proof. unfold resolve_epoch. calmly. apply calm_epoch_ints. Qed.
Lemma calm_pairs prs : forall buf len raw tb st v, calm (collect_pairs buf len prs raw tb st v).
Proof.
  induction prs as [|[col coef] prs IH]; intros; cbn [collect_pairs]; [exact I|]. cbv zeta. destruct (_ <=? _); [|apply IH].
  apply calm_bind; [apply calm_memcpy|intro tb']. apply calm_bind; [apply calm_raw|]. intros [e raw']. destruct (negb _); [exact I|].
  destruct (negb _); apply IH.
Qed.
Lemma calm_obs reqs : forall buf len raw tb st k vals, calm (collect_obs buf len reqs raw tb st k vals).
Proof.
  induction reqs as [|prs reqs IH]; intros; cbn [collect_obs]; [exact I|]. apply calm_bind; [apply calm_pairs|].
  intros [[[[raw' tb'] st'] v]|]; [|exact I]. apply calm_bind; [apply calm_vset|intro; apply IH].
Qed.
Lemma calm_sat buf reqs vals : calm (sat_epoch_collect buf reqs vals).
Proof. unfold sat_epoch_collect. calmly. apply calm_obs. Qed.
Lemma calm_loop k plan : forall st buf sz out pos, calm (collect_loop k plan st buf sz out pos).
Proof.
  induction k as [|k IH]; intros; cbn [collect_loop]; [exact I|]. apply calm_bind; [apply calm_getline|]. intros [st1 b1].
  apply calm_bind; [apply calm_rd|intro c]. pose proof (system_of_spec c) as Q. destruct (system_of c); rewrite Q; [|exact I].
  destruct (plan s); [|apply IH]. destruct (nth_error out pos) as [[sat vals]|]; [|exact I].
  apply calm_bind; [apply calm_sat|]. intros [[code prn] v]. destruct (_ >? _)%Z; [exact I|apply IH].
Qed.

(** reading epochs never terminates the program and never throws *)
Theorem epoch_calm o plan out : calm (read_next_epoch o plan out).
Proof.
  unfold read_next_epoch. destruct (peek (o_stream o)) as [st0 [c|]]; [|destruct (seof st0); exact I].
  apply calm_bind; [apply calm_getline|]. intros [st1 b1]. apply calm_bind; [apply calm_epoch|]. intros [j [h|]]; [|exact I].
  apply calm_bind; [apply calm_loop|]. intros [[[[j2 n] out'] st2] b2]. destruct (negb _); [exact I|]. destruct (seof st2); exact I.
Qed.

(** the only cause of termination in the constructor: an OBS TYPES label over a first character
    that is no system letter *)
Definition bad_types (line : mem) : Prop :=
  strncmp_lit line 60 "SYS / # / OBS TYPES" 19 = Val true /\ exists c, rd line 0 = Val c /\ system_of c = None.

(** no Term and no Fuel; exceptions allowed *)
Definition soft {A} (x : outcome A) : Prop := match x with Val _ | UB | Exn => True | _ => False end.
Lemma calm_soft {A} (x : outcome A) : calm x -> soft x.
Proof. destruct x; cbn; auto. Qed.
Lemma soft_bind {A B} (x : outcome A) (f : A -> outcome B) : soft x -> (forall a, soft (f a)) -> soft (bind x f).
Proof. destruct x; cbn; auto. Qed.
Lemma soft_obscode m k : soft (obscode_of_cstr m k).
Proof.
  unfold obscode_of_cstr. apply soft_bind; [apply calm_soft, calm_cstr|intro s]. destruct (_ <? 2); [exact I|].
  apply soft_bind; [apply calm_soft, calm_rd|intro c]. apply soft_bind.
  - unfold char_to_obstype. repeat match goal with |- soft (if ?b then _ else _) => destruct b end; exact I.
  - intro ot. apply soft_bind; [apply calm_soft, calm_rd|intro c1]. cbv zeta. destruct (2 <? _); [|exact I].
    apply soft_bind; [apply calm_soft, calm_rd|intro c2]. destruct (negb _); exact I.
Qed.
Lemma calm_obstypes k : forall st line r acc, calm (obstypes_loop k st line r acc).
Proof.
  induction k as [|k IH]; intros; cbn [obstypes_loop]; [exact I|].
  pose proof (soft_obscode line (7 + r * 4)) as Q. destruct (obscode_of_cstr line (7 + r * 4)); cbn in Q; try contradiction; try exact I.
  cbv zeta. destruct (_ =? 13); [|apply IH]. apply calm_bind; [apply calm_getline|intros [s1 l1]].
  apply calm_bind; [apply calm_strncmp_lit|intro b]. destruct (negb b); [exact I|apply IH].
Qed.

Lemma nth_firstn_lt {A} (l : list A) k j : j < k -> nth_error (firstn k l) j = nth_error l j.
Proof.
  revert l j. induction k as [|k IH]; intros l j H; [lia|]. destruct l as [|x l]; [destruct j; reflexivity|].
  destruct j as [|j]; [reflexivity|]. cbn. apply IH. lia.
Qed.

Lemma resolve_term t st l : length l = 85 ->
  calm (resolve_obstypes t st l) \/
  (resolve_obstypes t st l = Term /\ exists c, rd l 0 = Val c /\ system_of c = None).
Proof.
  intro L. unfold resolve_obstypes.
  assert (M : memcpy (uninit MAX_HEADER_CHARS) 0 l 0 MAX_HEADER_CHARS = Val l).
  { unfold memcpy, wr_bytes, MAX_HEADER_CHARS. rewrite L. cbn [Nat.add Nat.leb skipn].
    rewrite (firstn_all2 (n := 85) l) by lia. rewrite L. change (length (uninit 85)) with 85. cbn [Nat.leb firstn app Nat.add].
    change (skipn 85 (uninit 85)) with (@nil (option ascii)). rewrite app_nil_r. reflexivity. }
  rewrite M. cbn [bind]. destruct (rd l 0) as [c| | | |] eqn:R; cbn [bind noexcept]; try (left; exact I).
  2-4: unfold rd in R; destruct (nth_error l 0) as [[]|]; discriminate.
  pose proof (system_of_spec c) as Q. destruct (system_of c) eqn:S1; rewrite Q; cbn [bind noexcept].
  - left. apply calm_noexcept. destruct (t s); [exact I|]. apply calm_bind; [apply calm_cstr|intro x].
    destruct (strtol x) as [[v n] er]. cbv zeta. destruct (_ || _); [exact I|]. apply calm_bind; [apply calm_obstypes|].
    intros [s1 [code|v']]; [exact I|]. destruct (_ =? _)%Z; exact I.
  - right. split; [reflexivity|]. eauto.
Qed.

Lemma calm_ant_of m k : calm (ant_of_cstr m k).
Proof. unfold ant_of_cstr, copy_from_cstr, set_none_radome. calmly. Qed.
Lemma calm_set_serial a m k : calm (set_serial_nr a m k).
Proof. unfold set_serial_nr. calmly. Qed.
Lemma calm_ant_default : calm ant_default.
Proof. unfold ant_default. calmly. Qed.

Lemma hdr_line_term strp h st line : length line = 85 ->
  calm (hdr_line strp h st line) \/ (hdr_line strp h st line = Term /\ bad_types line).
Proof.
  intro L. unfold hdr_line.
  assert (C : forall s n, exists b, strncmp_lit line 60 s n = Val b \/ strncmp_lit line 60 s n = UB).
  { intros s n. pose proof (calm_strncmp_lit line 60 s n) as Q. destruct (strncmp_lit line 60 s n) as [b| | | |]; try contradiction; [exists b|exists true]; auto. }
  repeat match goal with
  | |- context[bind (strncmp_lit line 60 ?s ?n) _] =>
      let E := fresh "E" in destruct (C s n) as [[|] [E|E]]; rewrite E; cbn [bind]; try (left; exact I)
  end; try (left; calmly; try apply calm_ant_of; try apply calm_set_serial; fail).
  all: try (left; calmly; fail).
  destruct (resolve_term (h_tbl h) st line L) as [Q|[Q B]].
  - left. apply calm_bind; [exact Q|]. intros [[code t'] st']. exact I.
  - right. rewrite Q. split; [reflexivity|]. split; auto.
Qed.

Lemma getline_length st buf n st' b : getline st buf n = Val (st', b) -> length b = length buf.
Proof.
  assert (W : forall m s r, wr_bytes m 0 s = Val r -> length r = length m).
  { intros m s r H. unfold wr_bytes in H. destruct (Nat.leb_spec (0 + length s) (length m)); [|discriminate].
    apply Val_inj in H. subst r. cbn [firstn app]. rewrite app_length, skipn_length. lia. }
  unfold getline. destruct (good st); [destruct (take_line (n - 1) (rest st))|]; intro H;
    apply bind_val in H as (b' & Hb & H); injection H as _ <-; eapply W; eauto.
Qed.

Lemma hdr_loop_term strp : forall k h st line, length line = 85 ->
  calm (hdr_loop strp k h st line) \/ (hdr_loop strp k h st line = Term /\ exists l, length l = 85 /\ bad_types l).
Proof.
  induction k as [|k IH]; intros h st line L; cbn [hdr_loop]; [left; exact I|].
  pose proof (calm_strncmp_lit line 60 "END OF HEADER" 13) as Q0.
  destruct (strncmp_lit line 60 "END OF HEADER" 13) as [[|]| | | |]; try contradiction; cbn [bind]; try (left; exact I).
  pose proof (calm_getline st line MAX_HEADER_CHARS) as Q1.
  destruct (getline st line MAX_HEADER_CHARS) as [[s1 l1]| | | |] eqn:G; try contradiction; cbn [bind]; try (left; exact I).
  apply getline_length in G. rewrite L in G.
  destruct (hdr_line_term strp h s1 l1 G) as [Q|[Q B]].
  - destruct (hdr_line strp h s1 l1) as [[[c h1] s2]| | | |]; try contradiction; cbn [bind]; try (left; exact I).
    destruct (negb _); [left; exact I|]. apply IH. exact G.
  - rewrite Q. right. split; [reflexivity|]. eauto.
Qed.

(** construction: an object, an exception (from the constructor, not noexcept), undefined behaviour,
    or termination, the last only through a bad OBS TYPES line *)
Theorem open_term strp d : soft (obs_open strp d) \/
  (obs_open strp d = Term /\ exists l, length l = 85 /\ bad_types l).
Proof.
  unfold obs_open, hdr_init. pose proof calm_ant_default as QA.
  destruct ant_default as [a| | | |]; try contradiction; cbn [bind]; [|left; exact I].
  set (h0 := mkHdr _ _ _ _ _ _ _ _ _ _ _ _). clearbody h0. unfold read_header. cbv zeta.
  set (st1 := seekg (open_stream d) (Some 0)). clearbody st1.
  pose proof (calm_getline st1 (uninit MAX_HEADER_CHARS) MAX_HEADER_CHARS) as Q1.
  destruct (getline st1 (uninit MAX_HEADER_CHARS) MAX_HEADER_CHARS) as [[s2 l2]| | | |] eqn:G1; try contradiction; cbn [bind noexcept]; [|left; exact I].
  apply getline_length in G1. change (length (uninit MAX_HEADER_CHARS)) with 85 in G1.
  pose proof (calm_cstr l2 0) as Q2. destruct (cstr l2 0) as [x| | | |]; try contradiction; cbn [bind noexcept]; [|left; exact I].
  destruct (strtof x) as [[v n] er]. destruct (n =? 0); [left; exact I|].
  pose proof (calm_rd l2 20) as Q3. destruct (rd l2 20) as [c20| | | |]; try contradiction; cbn [bind noexcept]; [|left; exact I].
  destruct (negb (ceqb c20 "O"%char)); [left; exact I|].
  pose proof (calm_rd l2 40) as Q4. destruct (rd l2 40) as [c40| | | |]; try contradiction; cbn [bind noexcept]; [|left; exact I].
  pose proof (system_of_spec c40) as Q5. destruct (system_of c40); rewrite Q5; cbn [bind noexcept]; [|left; exact I].
  pose proof (calm_getline s2 l2 MAX_HEADER_CHARS) as Q6.
  destruct (getline s2 l2 MAX_HEADER_CHARS) as [[s3 l3]| | | |] eqn:G2; try contradiction; cbn [bind noexcept]; [|left; exact I].
  apply getline_length in G2. rewrite G1 in G2.
  match goal with |- context[hdr_loop strp MAX_HEADER_LINES ?hh s3 l3] => destruct (hdr_loop_term strp MAX_HEADER_LINES hh s3 l3 G2) as [Q|[Q B]];
    [destruct (hdr_loop strp MAX_HEADER_LINES hh s3 l3) as [[[c h1] s4]| | | |]; try contradiction; cbn [bind noexcept]; try (left; exact I)|] end.
  - left. destruct (negb (c =? 0)%Z) eqn:Ec; cbn [noexcept bind]; [rewrite Ec; exact I|].
    destruct (tellg s4) as [s5 p]. cbn [noexcept bind]. exact I.
  - right. rewrite Q. cbn [bind noexcept]. eauto.
Qed.

(** a header that stops after an OBS TYPES line terminates the program: the failing getline leaves
    an empty string in front of the old label *)
Theorem truncated_terminates strp k h st line : length line = 85 -> at_rest st [] ->
  strncmp_lit line 60 "SYS / # / OBS TYPES" 19 = Val true ->
  hdr_loop strp (S k) h st line = Term.
Proof.
  intros L [G R] E.
  assert (W : firstn 19 (skipn 60 line) = map Some LABEL_OBSTYPES).
  { apply (strncmp0_true LABEL_OBSTYPES) in E; [exact E|]. cbn. intuition discriminate. }
  assert (Sp : skipn 60 line = map Some LABEL_OBSTYPES ++ skipn 79 line).
  { rewrite <- W. replace 79 with (19 + 60) by reflexivity. rewrite <- skipn_skipn. symmetry. apply firstn_skipn. }
  cbn [hdr_loop]. unfold strncmp_lit at 1, strncmp_eq. rewrite Sp. cbn [strncmp0 map app LABEL_OBSTYPES lit cbuf skipn].
  cbn [ceqb Ascii.eqb Bool.eqb bind].
  unfold getline at 1. rewrite G, R. rewrite (take_line_eof _ []) by (auto; cbn; lia).
  rewrite wr_bytes_overlay by (cbn; lia). cbn [bind].
  set (st1 := set_fail _). clearbody st1.
  assert (S1 : skipn 60 (overlay [] line) = map Some LABEL_OBSTYPES ++ skipn 79 line) by (rewrite skipn_overlay_short; [exact Sp|cbn; lia|lia]).
  unfold hdr_line, strncmp_lit, strncmp_eq. rewrite S1.
  repeat (cbn [strncmp0 map app LABEL_OBSTYPES lit cbuf skipn]; cbn [ceqb Ascii.eqb Bool.eqb bind]).
  assert (LO : length (overlay [] line) = 85) by (rewrite overlay_length; cbn; lia).
  destruct (resolve_term (h_tbl h) st1 (overlay [] line) LO) as [Q|[Q _]].
  - exfalso. unfold resolve_obstypes in Q.
    assert (M : memcpy (uninit MAX_HEADER_CHARS) 0 (overlay [] line) 0 MAX_HEADER_CHARS = Val (overlay [] line)).
    { unfold memcpy, wr_bytes, MAX_HEADER_CHARS. rewrite LO. cbn [Nat.add Nat.leb skipn].
      rewrite (firstn_all2 (n := 85) (overlay [] line)) by lia. rewrite LO. change (length (uninit 85)) with 85. cbn [Nat.leb firstn app Nat.add].
      change (skipn 85 (uninit 85)) with (@nil (option ascii)). rewrite app_nil_r. reflexivity. }
    rewrite M in Q. cbn [bind] in Q. rewrite rd0_overlay in Q. cbn [bind] in Q. exact Q.
  - rewrite Q. reflexivity.
Qed.
