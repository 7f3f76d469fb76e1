(** ProofBern: SATELLIT files (C37, C80, C81). *)
From Verif Require Import Base BaseLemmas CNum CNumLemmas Stream ModelSatsys ModelNvarstr ModelSatellite ModelAntex ModelSp3 ModelBern
  SpecText SpecNum SpecObs SpecHeader SpecAntex SpecBern ProofText ProofAntenna ProofNum ProofStream ProofObsTypes ProofObsRec ProofHeader ProofAntex
  ProofAntexSkip ProofAntexHeader.

Lemma clean_app a b : clean a -> clean b -> clean (a ++ b).
Proof. intros. apply Forall_app. auto. Qed.
Lemma clean_blanks k : clean (blanks k).
Proof. apply Forall_forall. intros c H. apply repeat_spec in H. subst c. split; discriminate. Qed.
Lemma clean_digits s : digits s -> clean s.
Proof.
  intro H. unfold clean, digits, digit in *. eapply Forall_impl; [|exact H]. cbn. intros c Hc. split; intro; subst c; revert Hc; vm_compute; lia.
Qed.
Lemma clean_rjust w s : clean s -> clean (rjust w s).
Proof. intro. apply clean_app; [apply clean_blanks|assumption]. Qed.
Lemma ndf r : not_digit_first r -> nondigit_head r.
Proof. destruct r as [|c r]; [reflexivity|]. cbn. intro H. apply is_digit_false. exact H. Qed.

Section Line.
  Variable n : sensor.
  Hypothesis OK : sensor_ok n.
  Let T10 := rjust 4 (chan_text n) ++ n_tail n.
  Let T9 := n_mid n ++ T10.
  Let T8 := n_stop n ++ T9.
  Let T7 := n_start n ++ T8.
  Let T6 := n_gap n ++ T7.
  Let T5 := rjust 3 (n_svn n) ++ T6.
  Lemma chan_clean : clean (chan_text n).
  Proof. unfold chan_text. destruct OK as (_ & _ & _ & _ & _ & _ & _ & _ & D & _). apply clean_app; [|apply clean_digits; exact D]. destruct (n_neg n); repeat constructor; discriminate. Qed.
  Lemma sensor_len : length (sensor_line n) = 197 + length (n_tail n).
  Proof.
    destruct OK as ((_ & _ & L1) & (_ & L2) & (_ & _ & L3) & (_ & L4) & _ & (_ & L5) & (_ & L6) & (_ & L7) & _ & _ & L8 & _).
    unfold sensor_line. rewrite !app_length, !length_rjust, length_blanks, L2, L4, L5, L6, L7 by assumption. cbn [length lit]. lia.
  Qed.
  Lemma sensor_clean : clean (sensor_line n).
  Proof.
    pose proof chan_clean as CC. destruct OK as ((D1 & _) & (C2 & _) & (D3 & _) & (C4 & _) & _ & (C5 & _) & (C6 & _) & (C7 & _) & _ & _ & _ & Ct & _).
    unfold sensor_line. apply clean_app; [apply clean_rjust, clean_digits; exact D1|]. apply clean_app; [apply clean_blanks|].
    apply clean_app; [repeat constructor; discriminate|]. apply clean_app; [exact C2|]. apply clean_app; [apply clean_rjust, clean_digits; exact D3|].
    do 4 (apply clean_app; [assumption|]). apply clean_app; [apply clean_rjust; exact CC|exact Ct].
  Qed.
  Lemma sensor_short : length (sensor_line n) <= 255.
  Proof. rewrite sensor_len. destruct OK as (_ & _ & _ & _ & _ & _ & _ & _ & _ & _ & _ & _ & L & _). lia. Qed.
  Lemma sensor_split k (pre post : list ascii) : sensor_line n = pre ++ post -> length pre = k -> skipn k (sensor_line n) = post.
  Proof. intros -> <-. apply skipn_app_exact. reflexivity. Qed.
  Lemma at28 : skipn 28 (sensor_line n) = T5.
  Proof.
    destruct OK as ((_ & _ & L1) & (_ & L2) & _).
    apply (sensor_split 28 (rjust 3 (n_prn n) ++ blanks 2 ++ lit "MW" ++ n_name n)); [unfold sensor_line; rewrite <- !app_assoc; reflexivity|].
    rewrite !app_length, length_rjust, length_blanks, L2 by assumption. reflexivity.
  Qed.
  Lemma at62 : skipn 62 (sensor_line n) = T8.
  Proof.
    destruct OK as ((_ & _ & L1) & (_ & L2) & (_ & _ & L3) & (_ & L4) & _ & (_ & L5) & _).
    apply (sensor_split 62 (rjust 3 (n_prn n) ++ blanks 2 ++ lit "MW" ++ n_name n ++ rjust 3 (n_svn n) ++ n_gap n ++ n_start n)); [unfold sensor_line; rewrite <- !app_assoc; reflexivity|].
    rewrite !app_length, !length_rjust, length_blanks, L2, L4, L5 by assumption. reflexivity.
  Qed.
  Lemma at193 : skipn 193 (sensor_line n) = T10.
  Proof.
    destruct OK as ((_ & _ & L1) & (_ & L2) & (_ & _ & L3) & (_ & L4) & _ & (_ & L5) & (_ & L6) & (_ & L7) & _).
    apply (sensor_split 193 (rjust 3 (n_prn n) ++ blanks 2 ++ lit "MW" ++ n_name n ++ rjust 3 (n_svn n) ++ n_gap n ++ n_start n ++ n_stop n ++ n_mid n)); [unfold sensor_line; rewrite <- !app_assoc; reflexivity|].
    rewrite !app_length, !length_rjust, length_blanks, L2, L4, L5, L6, L7 by assumption. reflexivity.
  Qed.
  Variable buf : mem.
  Lemma rd5 : rd (overlay (sensor_line n) buf) 5 = Val "M"%char.
  Proof.
    destruct OK as ((_ & _ & L1) & _). apply rd_overlay. unfold sensor_line. rewrite nth_error_app2; rewrite length_rjust by exact L1; [reflexivity|lia].
  Qed.
  Lemma rd6 : rd (overlay (sensor_line n) buf) 6 = Val "W"%char.
  Proof.
    destruct OK as ((_ & _ & L1) & _). apply rd_overlay. unfold sensor_line. rewrite nth_error_app2; rewrite length_rjust by exact L1; [reflexivity|lia].
  Qed.
  Lemma svn_read : strtol_at (overlay (sensor_line n) buf) 28 = Val (dec_val (n_svn n), 3, false) /\ to_i32 (dec_val (n_svn n)) = dec_val (n_svn n).
  Proof.
    unfold strtol_at. rewrite cstr_overlay_off by (try apply clean_nul; try apply sensor_clean; rewrite sensor_len; lia). rewrite at28.
    destruct OK as (_ & _ & F & (_ & L4) & G & _).
    assert (ND : nondigit_head T6).
    { unfold T6. destruct (n_gap n) as [|c g]; [discriminate L4|]. exact (ndf (c :: g) G). }
    destruct (strtol_rjust 3 (n_svn n) T6 F ltac:(lia) ND) as (E & B). unfold T5. cbn [bind]. rewrite E. split; [reflexivity|]. apply to_i32_small. change (10 ^ Z.of_nat 3)%Z with 1000%Z in B. lia.
  Qed.
  Lemma prn_read : strtol_at (overlay (sensor_line n) buf) 0 = Val (dec_val (n_prn n), 3, false) /\ to_i32 (dec_val (n_prn n)) = dec_val (n_prn n).
  Proof.
    unfold strtol_at. rewrite cstr_overlay_off by (try apply clean_nul; try apply sensor_clean; lia). change (skipn 0 (sensor_line n)) with (sensor_line n). cbn [bind].
    destruct OK as (F & _). unfold sensor_line.
    destruct (strtol_rjust 3 (n_prn n) (blanks 2 ++ lit "MW" ++ n_name n ++ rjust 3 (n_svn n) ++ n_gap n ++ n_start n ++ n_stop n ++ n_mid n ++ rjust 4 (chan_text n) ++ n_tail n) F ltac:(lia) ltac:(reflexivity)) as (E & B).
    rewrite E. split; [reflexivity|]. apply to_i32_small. change (10 ^ Z.of_nat 3)%Z with 1000%Z in B. lia.
  Qed.
  Lemma chan_read : exists k, strtol_at (overlay (sensor_line n) buf) 193 = Val (channel n, k, false) /\ to_i32 (channel n) = channel n.
  Proof.
    unfold strtol_at. rewrite cstr_overlay_off by (try apply clean_nul; try apply sensor_clean; rewrite sensor_len; lia). rewrite at193. cbn [bind].
    destruct OK as (_ & _ & _ & _ & _ & _ & _ & _ & D & Ne & L & _ & _ & ND). apply ndf in ND. unfold T10, channel, chan_text in *.
    assert (B : (0 <= dec_val (n_ifrq n) < 10000)%Z).
    { pose proof (dec_val_nonneg _ D). pose proof (dec_val_bound _ D) as B. assert (length (n_ifrq n) <= 4) by (rewrite app_length in L; lia).
      assert (10 ^ Z.of_nat (length (n_ifrq n)) <= 10 ^ 4)%Z by (apply Z.pow_le_mono_r; lia). lia. }
    destruct (n_neg n).
    - cbn [app] in *. unfold rjust. rewrite <- app_assoc. cbn [app]. 
      assert (E : exists k, strtol (blanks (4 - length ("-"%char :: n_ifrq n)) ++ "-"%char :: n_ifrq n ++ n_tail n) = (- dec_val (n_ifrq n), k, false)%Z).
      { unfold strtol, blanks. rewrite (skip_ws_blanks _ ("-"%char :: n_ifrq n ++ n_tail n) "-"%char (n_ifrq n ++ n_tail n) eq_refl eq_refl).
        change (scan_sign ("-"%char :: n_ifrq n ++ n_tail n)) with (true, 1, n_ifrq n ++ n_tail n). cbn iota beta. rewrite scan_digits_dec by assumption.
        destruct (n_ifrq n) as [|c t] eqn:Q; [congruence|]. cbn [length]. cbn iota. change (dec_acc 0 (c :: t)) with (dec_val (c :: t)).
        unfold LONG_MAX, LONG_MIN. destruct (_ >? _)%Z eqn:E1; [lia|]. destruct (_ <? _)%Z eqn:E2; [lia|]. eexists. reflexivity. }
      destruct E as (k & E). rewrite E. exists k. split; [reflexivity|]. apply to_i32_small. lia.
    - cbn [app] in *. unfold rjust. rewrite <- app_assoc. rewrite strtol_field; auto; [|unfold LONG_MAX; lia]. eexists. split; [reflexivity|]. apply to_i32_small. lia.
  Qed.
  Lemma stop_blank : some_nonblank (overlay (sensor_line n) buf) 62 20 = Val (negb (blankb (n_stop n))).
  Proof.
    destruct OK as ((_ & _ & L1) & (_ & L2) & (_ & _ & L3) & (_ & L4) & _ & (_ & L5) & (_ & L6) & _).
    set (pre := rjust 3 (n_prn n) ++ blanks 2 ++ lit "MW" ++ n_name n ++ rjust 3 (n_svn n) ++ n_gap n ++ n_start n).
    assert (Lp : length pre = 62) by (unfold pre; rewrite !app_length, !length_rjust, length_blanks, L2, L4, L5 by assumption; reflexivity).
    replace (sensor_line n) with (pre ++ n_stop n ++ T9) by (unfold pre, T9, sensor_line; rewrite <- !app_assoc; reflexivity).
    rewrite <- Lp, <- L6. apply some_nonblank_overlay. lia.
  Qed.
  Lemma not_part3 : list_eqb (firstn 6 (sensor_line n)) (lit "PART 3") = false.
  Proof.
    destruct OK as ((D & Ne & L1) & _). unfold sensor_line, rjust. destruct (3 - length (n_prn n)) as [|k]; [|reflexivity].
    destruct (n_prn n) as [|c t]; [congruence|]. change (lit "PART 3") with ("P"%char :: lit "ART 3"). cbn [blanks repeat app firstn list_eqb]. inversion D as [|? ? Hc _]; subst.
    destruct (ceqb c "P") eqn:E; [|reflexivity]. apply ceqb_eq in E. subst c. unfold digit in Hc. vm_compute in Hc. lia.
  Qed.
End Line.

Lemma starts_overlay l buf s : clean l -> ~ In NUL (lit s) -> starts_with (overlay l buf) s = Val (list_eqb (firstn (length (lit s)) l) (lit s)).
Proof.
  intros C N. unfold starts_with. rewrite lit_length. rewrite strncmp_lit_overlay; [reflexivity|exact (clean_nul _ C)|lia|exact N].
Qed.
Lemma strlen_overlay l buf : clean l -> strlen (overlay l buf) 0 = Val (length l).
Proof. intro C. unfold strlen. rewrite cstr_overlay by (exact (clean_nul _ C)). reflexivity. Qed.

Section Search.
  Variable strp : list ascii -> option Z.
  Variables svn eph : Z.
  Lemma strp_read n buf k : sensor_ok n -> k <= 193 -> strp_at strp (overlay (sensor_line n) buf) k = match strp (skipn k (sensor_line n)) with Some t => Val t | None => Exn end.
  Proof. intros H K. unfold strp_at. rewrite cstr_overlay_off by (try apply clean_nul; try apply sensor_clean; try assumption; rewrite sensor_len by assumption; lia). reflexivity. Qed.

  (** reading the line after the current one: an item, or the end of the part *)
  Definition after (m : nat) (line : mem) (st : stream) : outcome bernres :=
    do r <- getline st line MAX_SATELLIT_CHARS;
    let '(st1, l1) := r in
    do len <- strlen l1 0;
    do p3 <- (if len <? 10 then Val true else starts_with l1 "PART 3");
    if p3 then Val (mkBern (-1) None false st1) else channel_loop strp m st1 l1 svn eph false.

  Lemma item_step m st i buf : item_ok i -> dates_for strp svn i ->
    (hit strp svn eph i -> exists n, i = inl n /\ channel_loop strp (S m) st (overlay (item_line i) buf) svn eph false = Val (mkBern 0 (Some (channel n, dec_val (n_prn n))) false st)) /\
    (~ hit strp svn eph i -> channel_loop strp (S m) st (overlay (item_line i) buf) svn eph false = after m (overlay (item_line i) buf) st).
  Proof.
    intros Hi Hd. destruct i as [n|l]; cbn [item_line item_ok dates_for hit] in *.
    - destruct (svn_read n Hi buf) as (ES & TS). destruct (prn_read n Hi buf) as (EP & TP). destruct (chan_read n Hi buf) as (k & EC & TC).
      cbn [channel_loop]. rewrite rd5, rd6 by exact Hi. cbn [bind]. change (ceqb "M" "M") with true. cbn iota. cbn [bind]. change (ceqb "W" "W") with true. cbn [negb]. cbn iota.
      rewrite ES. cbn [bind]. change ((false || false) || (3 =? 0)) with false. cbn iota. rewrite TS.
      destruct (Z.eqb_spec (dec_val (n_svn n)) svn) as [Es|Ns]; cbn [negb].
      2:{ split; [intros (X & _); contradiction|]. intros _. reflexivity. }
      specialize (Hd Es). destruct Hd as (R1 & R2). rewrite !strp_read by (auto; lia). rewrite stop_blank by exact Hi.
      fold (start_text n). fold (stop_text n). destruct (strp (start_text n)) as [a|] eqn:Ea; [|congruence]. cbn [bind].
      assert (BB : forall s, blankb s = true <-> all_blank s) by (apply blankb_all).
      destruct (blankb (n_stop n)) eqn:B; cbn [negb bind].
      + apply BB in B. destruct (Z.leb_spec a eph) as [Le|Gt]; cbn [andb].
        * split; [intros _; exists n; split; [reflexivity|]|intro X; exfalso; apply X; split; [exact Es|]; split; [exists a; auto|left; exact B]].
          rewrite EP. cbn [bind]. rewrite EC. cbn [bind orb]. rewrite TP, TC. reflexivity.
        * split; [intros (_ & (a' & X & Y) & _); rewrite Ea in X; injection X as <-; lia|]. intros _. reflexivity.
      + assert (NB : ~ all_blank (n_stop n)) by (intro X; apply BB in X; congruence).
        destruct (strp (stop_text n)) as [b|] eqn:Eb; [|destruct R2; congruence]. cbn [bind].
        destruct (Z.leb_spec a eph) as [Le|Gt]; cbn [andb].
        * destruct (Z.ltb_spec eph b) as [Lt|Ge].
          -- split; [intros _; exists n; split; [reflexivity|]|intro X; exfalso; apply X; split; [exact Es|]; split; [exists a; auto|right; exists b; auto]].
             rewrite EP. cbn [bind]. rewrite EC. cbn [bind orb]. rewrite TP, TC. reflexivity.
          -- split; [intros (_ & _ & [X|(b' & X & Y)]); [contradiction|]; rewrite Eb in X; injection X as <-; lia|]. intros _. reflexivity.
        * split; [intros (_ & (a' & X & Y) & _); rewrite Ea in X; injection X as <-; lia|]. intros _. reflexivity.
    - split; [contradiction|]. intros _. destruct Hi as (C & L & NM & NP). cbn [channel_loop].
      destruct (nth_error l 5) as [c5|] eqn:E5; [|apply nth_error_None in E5; lia]. destruct (nth_error l 6) as [c6|] eqn:E6; [|apply nth_error_None in E6; lia].
      rewrite (rd_overlay _ _ _ _ E5), (rd_overlay _ _ _ _ E6). cbn [bind].
      assert (M : (if ceqb c5 "M" then Val (ceqb c6 "W") else Val false) = Val false).
      { destruct (ceqb c5 "M") eqn:X; [|reflexivity]. destruct (ceqb c6 "W") eqn:Y; [|reflexivity]. apply ceqb_eq in X, Y. subst. exfalso. apply NM. split; assumption. }
      rewrite M. cbn [bind negb]. reflexivity.
  Qed.
  Lemma item_clean i : item_ok i -> clean (item_line i) /\ 10 <= length (item_line i) <= 255 /\ list_eqb (firstn 6 (item_line i)) (lit "PART 3") = false.
  Proof.
    destruct i as [n|l]; cbn [item_ok item_line]; intro H.
    - split; [apply sensor_clean; exact H|]. split; [pose proof (sensor_short n H); pose proof (sensor_len n H); lia|apply not_part3; exact H].
    - destruct H as (C & L & _ & NP). split; [exact C|]. split; [exact L|]. destruct (list_eqb _ _) eqn:E; [|reflexivity]. apply list_eqb_eq in E. contradiction.
  Qed.
  Lemma next_item m st f i t buf : item_ok i -> length buf = 256 -> on st f (item_line i ++ NL :: t) ->
    exists st', after m buf st = channel_loop strp m st' (overlay (item_line i) buf) svn eph false /\ on st' f t.
  Proof.
    intros Hi B H. destruct (item_clean i Hi) as (C & L & NP). destruct (on_line st f _ _ buf 256 H C ltac:(lia) ltac:(lia)) as (st1 & E & H1).
    exists st1. split; [|exact H1]. unfold after. change MAX_SATELLIT_CHARS with 256. rewrite E. cbn [bind]. rewrite strlen_overlay by exact C. cbn [bind].
    destruct (Nat.ltb_spec (length (item_line i)) 10); [lia|]. rewrite starts_overlay by (first [exact C|nonul_lit]). change (length (lit "PART 3")) with 6. rewrite NP. reflexivity.
  Qed.
  Lemma next_end m st f l t buf : end_line l -> length buf = 256 -> on st f (l ++ NL :: t) ->
    exists st', after m buf st = Val (mkBern (-1) None false st') /\ on st' f t.
  Proof.
    intros (C & L & X) B H. destruct (on_line st f _ _ buf 256 H C ltac:(lia) ltac:(lia)) as (st1 & E & H1).
    exists st1. split; [|exact H1]. unfold after. change MAX_SATELLIT_CHARS with 256. rewrite E. cbn [bind]. rewrite strlen_overlay by exact C. cbn [bind].
    destruct (Nat.ltb_spec (length l) 10); [reflexivity|]. destruct X as [X|X]; [lia|]. rewrite starts_overlay by (first [exact C|nonul_lit]). change (length (lit "PART 3")) with 6. rewrite X.
    rewrite (proj2 (list_eqb_eq _ _) eq_refl). reflexivity.
  Qed.
  Lemma next_eof m st f buf : length buf = 256 -> on st f [] ->
    exists st', after m buf st = Val (mkBern (-1) None false st') /\ sdata st' = f /\ sfail st' = true.
  Proof.
    intros B H. destruct (on_end st f buf 256 H ltac:(lia) ltac:(lia)) as (st1 & E & Sf & _ & D & _).
    exists st1. split; [|auto]. unfold after. change MAX_SATELLIT_CHARS with 256. rewrite E. cbn [bind]. rewrite strlen_overlay by constructor. reflexivity.
  Qed.
  Lemma ov_len l buf : length l <= 255 -> length buf = 256 -> length (overlay l buf) = 256.
  Proof. intros. rewrite overlay_length; lia. Qed.

  (** the search, from any state of the loop *)
  Lemma search_hit : forall a n b m st f buf e, Forall item_ok (a ++ [inl n]) -> Forall (dates_for strp svn) (a ++ [inl n]) ->
    Forall (fun i => ~ hit strp svn eph i) a -> hit strp svn eph (inl n) -> length a < m -> length buf = 256 ->
    on st f (text_of (map item_line (a ++ inl n :: b)) ++ e) ->
    exists st', after m buf st = Val (mkBern 0 (Some (channel n, dec_val (n_prn n))) false st') /\ on st' f (text_of (map item_line b) ++ e).
  Proof.
    induction a as [|i a IH]; intros n b m st f buf e Fo Fd Fh Hh Hm B H; (destruct m as [|m]; [cbn in Hm; lia|]); cbn [app map] in *; rewrite text_of_one in H.
    - inversion Fo; inversion Fd; subst. destruct (next_item (S m) st f (inl n) _ buf ltac:(assumption) B H) as (st1 & E & H1). rewrite E.
      destruct (item_step m st1 (inl n) buf ltac:(assumption) ltac:(assumption)) as (X & _). destruct (X Hh) as (n' & En & Ec). injection En as <-. rewrite Ec. exists st1. auto.
    - inversion Fo; inversion Fd; inversion Fh; subst. destruct (next_item (S m) st f i _ buf ltac:(assumption) B H) as (st1 & E & H1). rewrite E.
      destruct (item_step m st1 i buf ltac:(assumption) ltac:(assumption)) as (_ & X). rewrite X by assumption. cbn [length] in Hm.
      assert (length (overlay (item_line i) buf) = 256) by (apply ov_len; [apply item_clean; assumption|exact B]).
      apply (IH n b m st1 f); auto. lia.
  Qed.
  Lemma search_none : forall a m st f buf e, Forall item_ok a -> Forall (dates_for strp svn) a ->
    Forall (fun i => ~ hit strp svn eph i) a -> length a <= m -> length buf = 256 -> on st f (text_of (map item_line a) ++ e) ->
    (exists l t, e = l ++ NL :: t /\ end_line l) \/ e = [] ->
    exists st', after m buf st = Val (mkBern (-1) None false st') /\ sdata st' = f /\ (e <> [] -> sfail st' = false) /\ (e = [] -> sfail st' = true).
  Proof.
    induction a as [|i a IH]; intros m st f buf e Fo Fd Fh Hm B H He.
    - change (text_of (map item_line []) ++ e) with e in H. destruct He as [(l & t & -> & El)|He].
      + destruct (next_end m st f l t buf El B H) as (st1 & E & H1). exists st1. split; [exact E|]. split; [apply H1|]. split; [intros _; exact (on_nofail _ _ _ H1)|]. destruct l; discriminate.
      + subst e. destruct (next_eof m st f buf B H) as (st1 & E & D & Sf). exists st1. split; [exact E|]. split; [exact D|]. split; [congruence|auto].
    - destruct m as [|m]; [cbn in Hm; lia|]. cbn [map length] in *. rewrite text_of_one in H. inversion Fo; inversion Fd; inversion Fh; subst.
      destruct (next_item (S m) st f i _ buf ltac:(assumption) B H) as (st1 & E & H1). rewrite E.
      destruct (item_step m st1 i buf ltac:(assumption) ltac:(assumption)) as (_ & X). rewrite X by assumption.
      assert (length (overlay (item_line i) buf) = 256) by (apply ov_len; [apply item_clean; assumption|exact B]).
      apply (IH m st1 f); auto. lia.
  Qed.
  (** more than [m] records, none of the first [m] matching *)
  Lemma search_limit : forall a m st f buf i t, Forall item_ok (a ++ [i]) -> Forall (dates_for strp svn) a ->
    Forall (fun i => ~ hit strp svn eph i) a -> length a = m -> length buf = 256 -> on st f (text_of (map item_line a) ++ item_line i ++ NL :: t) ->
    exists st', after m buf st = Val (mkBern (-1) None false st') /\ sdata st' = f /\ sfail st' = false.
  Proof.
    induction a as [|j a IH]; intros m st f buf i t Fo Fd Fh Hm B H.
    - cbn [length] in Hm. subst m. inversion Fo; subst. change (text_of (map item_line []) ++ ?e) with e in H.
      destruct (next_item 0 st f i _ buf ltac:(assumption) B H) as (st1 & E & H1). rewrite E. exists st1. split; [reflexivity|]. split; [apply H1|exact (on_nofail _ _ _ H1)].
    - destruct m as [|m]; [discriminate|]. cbn [map length app] in *. rewrite text_of_one in H. inversion Fo; inversion Fd; inversion Fh; subst.
      destruct (next_item (S m) st f j _ buf ltac:(assumption) B H) as (st1 & E & H1). rewrite E.
      destruct (item_step m st1 j buf ltac:(assumption) ltac:(assumption)) as (_ & X). rewrite X by assumption.
      assert (length (overlay (item_line j) buf) = 256) by (apply ov_len; [apply item_clean; assumption|exact B]).
      apply (IH m st1 f _ i t); auto.
  Qed.
End Search.
