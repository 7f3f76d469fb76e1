(** PropertiesRewind: C87 (rewinding SP3 and navigation objects after any use) *)
From Verif Require Import Base BaseLemmas CNum CNumLemmas Stream ModelSatsys ModelNvarstr ModelNav ModelSp3 SpecText SpecNum SpecObs SpecHeader SpecNav SpecSp3
  ProofText ProofNum ProofStream ProofNav ProofNavBlock ProofNavFile ProofNavFind ProofNavList ProofSp3File PropertiesNav PropertiesSp3.
From Verif Require ProofEpoch ProofObsMisc.
Open Scope string_scope.
Open Scope list_scope.

(** ** The uses of an object, in any order *)
(** an Sp3c object: get_next_epoch and rewind *)
Inductive sp3_used (g : sp3hdr) (st0 : stream) : stream -> Prop :=
| sp3_fresh : sp3_used g st0 st0
| sp3_epoch st k vec q : sp3_used g st0 st -> sp3_next_epoch k st vec = Val q -> sp3_used g st0 (q_stream q)
| sp3_back st pos : sp3_used g st0 st -> sp3_used g st0 (sp3_rewind g st pos).
(** a NavigationRnx object *)
Inductive nav_used (strp : strp_t) (eoh : option nat) (st0 : stream) : stream -> Prop :=
| nav_fresh : nav_used strp eoh st0 st0
| nav_read st f e r : nav_used strp eoh st0 st -> read_next_record strp st f e = Val r -> nav_used strp eoh st0 (n_stream r)
| nav_skip st j st' : nav_used strp eoh st0 st -> ignore_next_block st = Val (j, st') -> nav_used strp eoh st0 st'
| nav_peak st s sys st' : nav_used strp eoh st0 st -> peak_satsys st = (s, sys, st') -> nav_used strp eoh st0 st'
| nav_find st k f e sys prn p r : nav_used strp eoh st0 st -> find_next k strp st f e sys prn = Val (p, r) -> nav_used strp eoh st0 (n_stream r)
| nav_valid st k t f e sys prn p r : nav_used strp eoh st0 st -> find_next_valid k strp t st f e sys prn = Val (p, r) -> nav_used strp eoh st0 (n_stream r)
| nav_back st pos : nav_used strp eoh st0 st -> nav_used strp eoh st0 (nav_rewind eoh pos st).

(** ** Lemmas *)
Lemma peek_data st st1 c : peek st = (st1, c) -> sdata st1 = sdata st.
Proof. unfold peek. destruct (good st); [destruct (rest st)|]; intro H; injection H as <- _; reflexivity. Qed.
Lemma tell_data st st1 p : tellg st = (st1, p) -> sdata st1 = sdata st.
Proof. unfold tellg. destruct (good st); intro H; injection H as <- _; reflexivity. Qed.
Lemma date_code : forall n line i k c, (0 <= i)%Z -> sp3_date n line i k = Val (inl c) -> (0 <= c)%Z.
Proof.
  induction n; intros line i k c P H; cbn [sp3_date] in H; [discriminate|]. apply bind_inv in H as ([[v u] er] & _ & H).
  destruct (_ || _)%bool; [assert (c = (5 + i)%Z) by congruence; lia|]. apply bind_inv in H as ([c'|vs] & E & H); [|discriminate].
  apply Val_inj in H. injection H as <-. apply IHn in E; [exact E|lia].
Qed.
Lemma header_code line j : sp3_epoch_header line = Val (inl j) -> (0 <= j)%Z.
Proof.
  unfold sp3_epoch_header. intro H. apply bind_inv in H as (c0 & _ & H). destruct (negb _); [apply Val_inj in H; injection H as <-; lia|].
  apply bind_inv in H as (c1 & _ & H). destruct (negb _); [apply Val_inj in H; injection H as <-; lia|].
  apply bind_inv in H as ([[y u] er] & _ & H). destruct (_ || _)%bool; [apply Val_inj in H; injection H as <-; lia|].
  apply bind_inv in H as ([c|ds] & E & H); [apply Val_inj in H; injection H as <-; apply date_code in E; [exact E|lia]|].
  apply bind_inv in H as ([[v u'] er'] & _ & H). destruct (_ || _)%bool; [apply Val_inj in H; injection H as <-; lia|].
  apply bind_inv in H as (us & _ & H). discriminate.
Qed.
Lemma seekg_data st p : sdata (seekg st p) = sdata st.
Proof. unfold seekg. destruct (sfail st); [reflexivity|]. destruct p; reflexivity. Qed.
Lemma loop_data : forall k st line t vec it f q, sp3_loop k st line t vec it f = Val q -> sdata (q_stream q) = sdata st.
Proof.
  induction k as [|k IH]; intros st line t vec it f q H; [discriminate|]. cbn [sp3_loop] in H. destruct (peek st) as [st1 c] eqn:P. apply peek_data in P.
  destruct (match c with Some x => ceqb x "*" | None => false end); [apply Val_inj in H; subst q; exact P|].
  apply bind_inv in H as ((st2 & line2) & G & H). apply sp3_getline_data in G. apply bind_inv in H as (c0 & _ & H). destruct (ceqb c0 "P").
  - apply bind_inv in H as ([j|r] & _ & H); [apply Val_inj in H; subst q; cbn; congruence|]. apply bind_inv in H as (v & _ & H). apply IH in H. congruence.
  - apply bind_inv in H as ([] & _ & H); [apply Val_inj in H; subst q; cbn; congruence|]. apply IH in H. congruence.
Qed.
Lemma epoch_data k st vec q : sp3_next_epoch k st vec = Val q -> sdata (q_stream q) = sdata st.
Proof.
  unfold sp3_next_epoch. destruct (negb (good st)); [intro H; apply Val_inj in H; subst q; reflexivity|]. intro H.
  apply bind_inv in H as ((st1 & line) & G & H). apply sp3_getline_data in G. apply bind_inv in H as ([j|t] & _ & H).
  - apply Val_inj in H. subst q. exact G.
  - apply loop_data in H. congruence.
Qed.
Lemma sp3_used_data g st0 st : sp3_used g st0 st -> sdata st = sdata st0.
Proof.
  induction 1 as [|st k vec q _ IH E|st pos _ IH]; [reflexivity|apply epoch_data in E; congruence|]. rewrite <- IH. unfold sp3_rewind. destruct pos; apply seekg_data.
Qed.
Lemma nav_used_data strp eoh st0 st : nav_used strp eoh st0 st -> sdata st = sdata st0.
Proof.
  induction 1 as [|st f e r _ IH E|st j st' _ IH E|st s sys st' _ IH E|st k f e sys prn p r _ IH E|st k t f e sys prn p r _ IH E|st pos _ IH]; [reflexivity|..].
  - apply read_data in E. congruence.
  - apply ignore_data in E. congruence.
  - apply peak_keeps in E as (E & _). congruence.
  - unfold find_next in E. destruct (tellg st) as [st1 q] eqn:T. apply bind_inv in E as (r1 & E & H). apply Val_inj in H. injection H as _ <-.
    apply find_stream in E as (_ & D). apply tell_data in T. congruence.
  - unfold find_next_valid in E. destruct (tellg st) as [st1 q] eqn:T. apply bind_inv in E as (r1 & E & H). apply Val_inj in H. injection H as _ <-.
    destruct (valid_loop k strp t st1 f e sys prn) as [r2| | | |] eqn:V; try discriminate. cbn in E. apply Val_inj in E. subst r2.
    destruct k; [discriminate|]. assert (X : sdata (n_stream r1) = sdata st1).
    { destruct (good st1) eqn:G; [apply (valid_stream _ _ _ _ _ _ _ _ _ G V)|].
      cbn [valid_loop] in V. destruct (peak_satsys st1) as [[s cs] st2] eqn:P.
      assert (s = (-1)%Z) by (unfold peak_satsys, peek_char, peek in P; rewrite G in P; change (ceqb CFF CFF) with true in P; injection P as <- _ _; reflexivity).
      subst s. cbn [Z.eqb negb] in V. apply Val_inj in V. subst r1. apply peak_keeps in P as (P & _). exact P. }
    apply tell_data in T. congruence.
  - rewrite <- IH. unfold nav_rewind. destruct pos; apply seekg_data.
Qed.
Lemma back_at st0 st : good st0 = true -> sdata st = sdata st0 -> sfail st = false -> seekg st (Some (spos st0)) = st0.
Proof. intros G D F. unfold seekg. rewrite F, D. apply good_bits in G as (A & B). destruct st0; cbn in *; subst; reflexivity. Qed.
Lemma tell_good st st1 p : tellg st = (st1, Some p) -> good st1 = true /\ p = spos st1.
Proof. unfold tellg. destruct (good st) eqn:G; [|discriminate]. intro H. injection H as <- <-. auto. Qed.
(** an object knows where its header ended *)
Lemma sp3_opened w m d g st0 : sp3_open w m d = Val (g, st0) -> g_eoh g <> None -> good st0 = true /\ g_eoh g = Some (spos st0).
Proof.
  intros H N. unfold sp3_open in H. apply bind_inv in H as ([c|o] & H & E); [discriminate|]. apply Val_inj in E. subst o. unfold sp3_read_header in H.
  repeat match type of H with
  | bind _ _ = Val _ => let E := fresh in apply bind_inv in H as (? & E & H); clear E
  | (let '(_, _) := ?x in _) = Val _ => destruct x eqn:?
  | (if ?b then _ else _) = Val _ => destruct b; try discriminate
  | match ?x with inl _ => _ | inr _ => _ end = Val _ => destruct x; try discriminate
  end.
  apply Val_inj in H. injection H as <- <-. cbn [g_eoh] in N |- *.
  match goal with E : tellg _ = (_, ?p) |- _ => destruct p as [p|]; [|congruence]; destruct (tell_good _ _ _ E) as (A & ->); auto end.
Qed.
Lemma nav_opened d o : nav_open d = Val o -> v_eoh o <> None -> good (v_stream o) = true /\ v_eoh o = Some (spos (v_stream o)).
Proof.
  intros H N. unfold nav_open in H. apply bind_inv in H as ([c|o'] & H & E); [discriminate|]. apply Val_inj in E. subst o'. unfold nav_read_header in H.
  apply bind_inv in H as ((st1 & line) & _ & H). apply bind_inv in H as (s & _ & H). destruct (strtof s) as [[v n] er]. destruct (n =? 0)%nat; [discriminate|].
  apply bind_inv in H as (c20 & _ & H). destruct (negb _); [discriminate|]. apply bind_inv in H as (c40 & _ & H).
  destruct (char_to_satsys c40) as [sys| | | |]; try discriminate. apply bind_inv in H as ((st2 & line1) & _ & H). apply bind_inv in H as ([st3|] & _ & H); [|discriminate].
  destruct (tellg st3) as [st4 p] eqn:T. apply Val_inj in H. injection H as <-. cbn [v_eoh v_stream] in *.
  destruct p as [p|]; [|congruence]. destruct (tell_good _ _ _ T) as (A & ->). auto.
Qed.

(** ** C87 *)
(** after any use, rewinding returns to the first epoch (block): what follows is as from a fresh object *)
Definition C87_full : Prop :=
  (forall w m d g st0 st, sp3_open w m d = Val (g, st0) -> g_eoh g <> None -> sp3_used g st0 st -> sp3_rewind g st None = st0) /\
  (forall strp d o st, nav_open d = Val o -> v_eoh o <> None -> nav_used strp (v_eoh o) (v_stream o) st -> nav_rewind (v_eoh o) None st = v_stream o).
Theorem C87_sp3_partial : forall w m d g st0 st, sp3_open w m d = Val (g, st0) -> g_eoh g <> None -> sp3_used g st0 st ->
  sfail st = false -> sp3_rewind g st None = st0.
Proof.
  intros w m d g st0 st H N U F. destruct (sp3_opened w m d g st0 H N) as (G & E). unfold sp3_rewind. rewrite E. apply back_at; [exact G|apply (sp3_used_data g), U|exact F].
Qed.
Print Assumptions C87_sp3_partial.
(** failbit set: rewinding does not move the stream *)
Theorem C87_sp3_stuck : forall g st, sfail st = true -> spos (sp3_rewind g st None) = spos st /\ sfail (sp3_rewind g st None) = true.
Proof. intros g st F. unfold sp3_rewind, seekg. rewrite F. auto. Qed.
Print Assumptions C87_sp3_stuck.
(** no run of 128 characters without a newline *)
Definition short_lines (d : list ascii) : Prop := forall a b c, d = a ++ b ++ c -> length b = 128 -> In NL b.
Lemma take_full : forall k l t, take_line k l = (t, LFull) -> exists b c, l = b ++ c /\ length b = S k /\ ~ In NL b.
Proof.
  induction k; intros l t H; destruct l as [|x l]; cbn [take_line] in H; try discriminate; destruct (ceqb x NL) eqn:E; try discriminate.
  - exists [x], l. split; [reflexivity|]. split; [reflexivity|]. intros [->|[]]. rewrite ceqb_refl in E. discriminate.
  - destruct (take_line k l) as [t' e] eqn:T. injection H as <- ->. destruct (IHk l t' T) as (b & c & -> & L & N). exists (x :: b), c.
    split; [reflexivity|]. split; [cbn; lia|]. intros [->|I]; [rewrite ceqb_refl in E; discriminate|contradiction].
Qed.
Lemma eof_line st line st2 line2 : length line = 128 -> short_lines (sdata st) -> getline st line 128 = Val (st2, line2) -> strncmp_lit line2 0 "EOF" 3 = Val true -> sfail st2 = false.
Proof.
  intros L S G E. unfold getline in G. destruct (good st) eqn:Gd.
  - destruct (take_line (128 - 1) (rest st)) as [t e] eqn:T. apply bind_inv in G as (b & Eb & G). apply Val_inj in G. apply good_bits in Gd as (A & B).
    destruct e.
    + destruct t; injection G as <- _; exact B.
    + destruct t as [|x t]; injection G as <- <-; [|exact B]. exfalso. cbn [map app] in Eb.
      destruct line as [|y line]; [discriminate|]. cbn in Eb. apply Val_inj in Eb. subst b. cbn in E. discriminate.
    + exfalso. destruct (take_full _ _ _ T) as (b' & c & R & Lb & N). apply N. apply (S (firstn (spos st) (sdata st)) b' c); [|exact Lb].
      rewrite <- R. unfold rest. symmetry. apply firstn_skipn.
  - exfalso. apply bind_inv in G as (b & Eb & G). apply Val_inj in G. injection G as _ <-.
    destruct line as [|y line]; [discriminate|]. cbn in Eb. apply Val_inj in Eb. subst b. cbn in E. discriminate.
Qed.
Lemma loop_eof : forall k st line t vec it f q, length line = 128 -> short_lines (sdata st) -> sp3_loop k st line t vec it f = Val q -> q_code q = (-1)%Z -> sfail (q_stream q) = false.
Proof.
  induction k as [|k IH]; intros st line t vec it f q L S H Q; [discriminate|]. cbn [sp3_loop] in H. destruct (peek st) as [st1 c] eqn:P. apply peek_data in P.
  destruct (match c with Some x => ceqb x "*" | None => false end); [apply Val_inj in H; subst q; discriminate|].
  apply bind_inv in H as ((st2 & line2) & G & H). change MAX_RECORD_CHARS with 128 in G. rewrite <- P in S.
  pose proof (sp3_getline_data _ _ _ _ _ G) as D. pose proof (getline_len _ _ _ _ _ G) as L2. rewrite L in L2.
  apply bind_inv in H as (c0 & R0 & H). destruct (ceqb c0 "P") eqn:Ec.
  - apply bind_inv in H as ([j|r] & Ep & H).
    + apply Val_inj in H. subst q. cbn in Q. apply ceqb_eq in Ec. subst c0. pose proof (position_code line2 f j R0 Ep). lia.
    + apply bind_inv in H as (v & _ & H). apply IH in H; try assumption. rewrite D. exact S.
  - apply bind_inv in H as ([] & Ee & H); [|apply IH in H; try assumption; rewrite D; exact S].
    apply Val_inj in H. subst q. cbn. exact (eof_line st1 line st2 line2 L S G Ee).
Qed.
(** a call that returned 0 or -1 (lines shorter than 128 characters): rewinding works *)
Theorem C87_sp3_after : forall w m d g st0 st k vec q, sp3_open w m d = Val (g, st0) -> g_eoh g <> None -> sp3_used g st0 st ->
  short_lines (sdata st0) -> sp3_next_epoch k st vec = Val q -> q_code q = 0%Z \/ q_code q = (-1)%Z -> sp3_rewind g (q_stream q) None = st0.
Proof.
  intros w m d g st0 st k vec q H N U S E C. apply (C87_sp3_partial w m d); try assumption; [exact (sp3_epoch g st0 st k vec q U E)|].
  rewrite <- (sp3_used_data _ _ _ U) in S. destruct C as [C|C].
  - destruct (sp3_zero_any _ _ _ _ E C) as (_ & _ & _ & _ & _ & (G & _) & _). apply good_bits, G.
  - unfold sp3_next_epoch in E. destruct (negb (good st)); [apply Val_inj in E; subst q; discriminate|].
    apply bind_inv in E as ((st1 & line) & G & E). change MAX_RECORD_CHARS with 128 in G. pose proof (sp3_getline_data _ _ _ _ _ G) as D. pose proof (getline_len _ _ _ _ _ G) as L.
    unfold uninit in L. rewrite repeat_length in L. apply bind_inv in E as ([j|t] & Eh & E).
    + apply Val_inj in E. subst q. cbn in C. apply header_code in Eh. lia.
    + refine (loop_eof k st1 line t vec 0 0%Z q L _ E C). rewrite D. exact S.
Qed.
Print Assumptions C87_sp3_after.
(** ** navigation objects *)
Theorem C87_nav_partial : forall strp d o st, nav_open d = Val o -> v_eoh o <> None -> nav_used strp (v_eoh o) (v_stream o) st ->
  sfail st = false -> nav_rewind (v_eoh o) None st = v_stream o.
Proof.
  intros strp d o st H N U F. destruct (nav_opened d o H N) as (G & E). unfold nav_rewind. rewrite E in *. apply back_at; [exact G|apply (nav_used_data strp _ _ _ U)|exact F].
Qed.
Print Assumptions C87_nav_partial.
(** after a search, whatever it returned, and after a block was read or skipped, or the end was met *)
Theorem C87_nav_after : forall strp d o st, nav_open d = Val o -> v_eoh o <> None -> nav_used strp (v_eoh o) (v_stream o) st ->
  (forall k f e sys prn p r, find_next k strp st f e sys prn = Val (p, r) -> nav_rewind (v_eoh o) None (n_stream r) = v_stream o) /\
  (forall k t f e sys prn p r, good st = true -> find_next_valid k strp t st f e sys prn = Val (p, r) -> nav_rewind (v_eoh o) None (n_stream r) = v_stream o) /\
  (forall s sys st', peak_satsys st = (s, sys, st') -> nav_rewind (v_eoh o) None st' = v_stream o) /\
  (forall f e r, read_next_record strp st f e = Val r -> n_code r = 0%Z \/ n_code r = (-1)%Z -> nav_rewind (v_eoh o) None (n_stream r) = v_stream o).
Proof.
  intros strp d o st H N U. split; [|split; [|split]].
  - intros k f e sys prn p r E. apply (C87_nav_partial strp d); try assumption; [eapply nav_find; eassumption|].
    unfold find_next in E. destruct (tellg st) as [st1 q]. apply bind_inv in E as (r1 & E & H'). apply Val_inj in H'. injection H' as _ <-. apply find_stream in E. tauto.
  - intros k t f e sys prn p r G E. apply (C87_nav_partial strp d); try assumption; [eapply nav_valid; eassumption|].
    unfold find_next_valid, tellg in E. rewrite G in E. apply bind_inv in E as (r1 & E & H'). apply Val_inj in H'. injection H' as _ <-.
    destruct (valid_loop k strp t st f e sys prn) as [r2| | | |] eqn:V; try discriminate. cbn in E. apply Val_inj in E. subst r2. apply (valid_stream _ _ _ _ _ _ _ _ _ G V).
  - intros s sys st' E. apply (C87_nav_partial strp d); try assumption; [eapply nav_peak; eassumption|]. eapply peak_fail; eassumption.
  - intros f e r E C. apply (C87_nav_partial strp d); try assumption; [eapply nav_read; eassumption|]. destruct C as [C|C].
    + destruct (read_as_ignore _ _ _ _ _ E C) as (_ & _ & _ & _ & _ & _ & _ & _ & _ & (ls & _ & _ & _ & Sf & _)). exact Sf.
    + unfold read_next_record in E. destruct (peek st) as [st1 [c|]]; [apply set_code in E; lia|]. destruct (seof st1); apply Val_inj in E; subst r; [reflexivity|discriminate].
Qed.
Print Assumptions C87_nav_after.
(** ** Refuted: one call after the last epoch, or a block cut short, and the object cannot be rewound *)
Definition items1 := [PPos pos1; POther (lit "EP  55  55  55"); PPos pos1].
Definition sp3_file1 : list ascii := sp3h_text hdr1 ++ sp3_epoch_text ep1 items1 ++ lit "EOF" ++ [NL].
Theorem C87_sp3_refuted : exists g st0 q1 q2, sp3_open cal1 mjd1 sp3_file1 = Val (g, st0) /\ g_eoh g <> None /\
  sp3_next_epoch 9 st0 (repeat sp3rec_new 4) = Val q1 /\ q_code q1 = (-1)%Z /\ sp3_next_epoch 9 (q_stream q1) (q_vec q1) = Val q2 /\
  sp3_used g st0 (q_stream q2) /\ sp3_rewind g (q_stream q2) None <> st0.
Proof.
  destruct (sp3_open cal1 mjd1 sp3_file1) as [[g st0]| | | |] eqn:E; try (vm_compute in E; discriminate).
  destruct (sp3_next_epoch 9 st0 (repeat sp3rec_new 4)) as [q1| | | |] eqn:E1; try (vm_compute in E; injection E as <- <-; vm_compute in E1; discriminate).
  destruct (sp3_next_epoch 9 (q_stream q1) (q_vec q1)) as [q2| | | |] eqn:E2; try (vm_compute in E; injection E as <- <-; vm_compute in E1; injection E1 as <-; vm_compute in E2; discriminate).
  exists g, st0, q1, q2. split; [reflexivity|].
  assert (U : sp3_used g st0 (q_stream q2)) by (eapply sp3_epoch; [eapply sp3_epoch; [apply sp3_fresh|exact E1]|exact E2]).
  vm_compute in E; injection E as <- <-; vm_compute in E1; injection E1 as <-; vm_compute in E2; injection E2 as <-.
  split; [discriminate|]. split; [reflexivity|]. split; [reflexivity|]. split; [reflexivity|]. split; [exact U|]. intro X. vm_compute in X. discriminate.
Qed.
Print Assumptions C87_sp3_refuted.
Theorem C87_full_refuted : ~ C87_full.
Proof. intros (F & _). destruct C87_sp3_refuted as (g & st0 & q1 & q2 & H & N & _ & _ & _ & U & X). apply X. exact (F cal1 mjd1 sp3_file1 g st0 (q_stream q2) H N U). Qed.
Print Assumptions C87_full_refuted.
Definition nav_file1 : list ascii := nav_header_text ver (blanks 19) "M"%char (blanks 20) hlines 4 ++ firstn 100 (block_text glo_b).
Theorem C87_nav_refuted : exists o r, nav_open nav_file1 = Val o /\ v_eoh o <> None /\ read_next_record strp_fix (v_stream o) frame0 0 = Val r /\
  nav_used strp_fix (v_eoh o) (v_stream o) (n_stream r) /\ nav_rewind (v_eoh o) None (n_stream r) <> v_stream o.
Proof.
  destruct (nav_open nav_file1) as [o| | | |] eqn:E; try (vm_compute in E; discriminate).
  destruct (read_next_record strp_fix (v_stream o) frame0 0) as [r| | | |] eqn:E1; try (vm_compute in E; injection E as <-; vm_compute in E1; discriminate).
  assert (U : nav_used strp_fix (v_eoh o) (v_stream o) (n_stream r)) by (eapply nav_read; [apply nav_fresh|exact E1]).
  exists o, r. split; [reflexivity|]. vm_compute in E; injection E as <-; vm_compute in E1; injection E1 as <-.
  split; [discriminate|]. split; [reflexivity|]. split; [exact U|]. intro X. vm_compute in X. discriminate.
Qed.
Print Assumptions C87_nav_refuted.
(** a use that can be rewound: the file above, read up to EOF *)
Lemma short_check : forall d, (forallb (fun k => existsb (fun c => ceqb c NL) (firstn 128 (skipn k d)) || (length (skipn k d) <? 128)%nat) (seq 0 (S (length d)))) = true -> short_lines d.
Proof.
  intros d H a b c E L. rewrite forallb_forall in H. specialize (H (length a)). rewrite E in H at 1 2. rewrite E in H. rewrite !skipn_app, !skipn_all, Nat.sub_diag in H. cbn [app skipn] in H.
  rewrite firstn_app, L, Nat.sub_diag, firstn_O, app_nil_r in H. rewrite (firstn_all2 b) in H by lia.
  assert (I : In (length a) (seq 0 (S (length (a ++ b ++ c))))) by (apply in_seq; rewrite !app_length; lia). specialize (H I).
  apply orb_true_iff in H as [H|H].
  - apply existsb_exists in H as (x & Ix & Ex). apply ceqb_eq in Ex. subst x. exact Ix.
  - apply Nat.ltb_lt in H. rewrite app_length in H. lia.
Qed.
Example C87_ex : exists g st0 q1, sp3_open cal1 mjd1 sp3_file1 = Val (g, st0) /\ g_eoh g <> None /\
  sp3_next_epoch 9 st0 (repeat sp3rec_new 4) = Val q1 /\ q_code q1 = (-1)%Z /\ q_sats q1 = Some 2 /\ short_lines (sdata st0) /\ sp3_rewind g (q_stream q1) None = st0.
Proof.
  destruct C87_sp3_refuted as (g & st0 & q1 & q2 & H & N & E & C & _). exists g, st0, q1. split; [exact H|]. split; [exact N|]. split; [exact E|]. split; [exact C|].
  assert (S : q_sats q1 = Some 2 /\ short_lines (sdata st0)).
  { vm_compute in H. injection H as <- <-. split; [vm_compute in E; injection E as <-; reflexivity|]. apply short_check. vm_compute. reflexivity. }
  destruct S as (S1 & S2). split; [exact S1|]. split; [exact S2|]. eapply C87_sp3_after; [exact H|exact N|apply sp3_fresh|exact S2|exact E|right; exact C].
Qed.
