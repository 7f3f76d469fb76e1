(** ProofObsTypes: the observation-type table (C16, C17). *)
From Verif Require Import Base BaseLemmas CNum CNumLemmas Stream ModelSatsys ModelObs ModelNvarstr
  ModelObsRnx SpecText SpecNum SpecObs ProofText ProofNum ProofStream.

Lemma clean_app a b : clean (a ++ b) <-> clean a /\ clean b.
Proof. apply Forall_app. Qed.
Lemma clean_nl l : clean l -> ~ In NL l.
Proof. intros H Hin. unfold clean in H. rewrite Forall_forall in H. destruct (H _ Hin). congruence. Qed.
Lemma clean_nul l : clean l -> ~ In NUL l.
Proof. intros H Hin. unfold clean in H. rewrite Forall_forall in H. destruct (H _ Hin). congruence. Qed.
Lemma clean_blanks n : clean (blanks n).
Proof. unfold blanks, clean. induction n; simpl; constructor; auto. split; discriminate. Qed.

Lemma length_blanks n : length (blanks n) = n.
Proof. apply repeat_length. Qed.

Lemma length_ljust w s : length s <= w -> length (ljust w s) = w.
Proof. intro H. unfold ljust. rewrite app_length, length_blanks. lia. Qed.
Lemma length_rjust w s : length s <= w -> length (rjust w s) = w.
Proof. intro H. unfold rjust. rewrite app_length, length_blanks. lia. Qed.

Lemma digits_clean ds : digits ds -> clean ds.
Proof.
  intro H. unfold clean. eapply Forall_impl; [|exact H].
  intros c Hc. unfold digit in Hc. split; intros ->; vm_compute in Hc; lia.
Qed.

Lemma code_text_clean c : code_ok c -> clean (code_text c).
Proof.
  intros (Ht & Hb & _ & H1 & H2). unfold clean, code_text.
  repeat constructor; auto; try (destruct (ctype c); discriminate).
  - intro E. apply (f_equal nat_of_ascii) in E.
    rewrite nat_ascii_embedding in E by lia. change (nat_of_ascii NUL) with 0 in E. lia.
  - intro E. apply (f_equal nat_of_ascii) in E.
    rewrite nat_ascii_embedding in E by lia. change (nat_of_ascii NL) with 10 in E. lia.
Qed.

Lemma flat_codes_clean cs : Forall code_ok cs -> clean (flat_map (fun c => " "%char :: code_text c) cs).
Proof.
  induction 1 as [|c cs Hc _ IH]; simpl flat_map; [constructor|].
  change (clean ((" "%char :: code_text c) ++ flat_map (fun c0 => " "%char :: code_text c0) cs)).
  apply clean_app. split; auto. constructor; [split; discriminate|apply code_text_clean; auto].
Qed.

Lemma flat_codes_length cs : length (flat_map (fun c => " "%char :: code_text c) cs) = 4 * length cs.
Proof. induction cs as [|c cs IH]; [reflexivity|]. cbn [flat_map]. rewrite app_length, IH. simpl. lia. Qed.

Lemma zchar_digit_char d : (0 <= d <= 9)%Z -> (zchar (ascii_of_nat (48 + Z.to_nat d)) - 48 = d)%Z.
Proof.
  intro H. unfold zchar. rewrite nat_ascii_embedding by lia.
  cbv zeta. destruct (Z.ltb_spec (Z.of_nat (48 + Z.to_nat d)) 128); lia.
Qed.

Lemma type_letter_ok t : t <> AnyType -> char_to_obstype (type_letter t) = Val t.
Proof. destruct t; intro H; try reflexivity. congruence. Qed.

(** reading one code *)
Lemma read_code m off c r :
  code_ok c -> cstr m off = Val (code_text c ++ r) -> obscode_of_cstr m off = Val c.
Proof.
  intros (Ht & Hb & Ha & _ & _) H. rewrite (obscode_of_cstr_spec _ _ _ H).
  unfold code_text. cbn [app]. rewrite type_letter_ok by exact Ht.
  apply ceqb_neq in Ha. rewrite Ha. rewrite zchar_digit_char by exact Hb. destruct c; reflexivity.
Qed.

Lemma header_line_clean content label j :
  clean content -> clean label -> clean (header_line content label j).
Proof.
  intros H1 H2. unfold header_line, ljust. rewrite !clean_app.
  repeat split; auto using clean_blanks.
Qed.

Lemma header_line_length content label j :
  length content <= 60 -> length (header_line content label j) = 60 + length label + j.
Proof.
  intro H. unfold header_line. rewrite !app_length, length_ljust, length_blanks by exact H. lia.
Qed.

Lemma skipn_app_exact {A} (a b : list A) n : n = length a -> skipn n (a ++ b) = b.
Proof. intros ->. rewrite skipn_app, skipn_all, Nat.sub_diag. reflexivity. Qed.

Lemma cell_read six cs label j buf i c :
  length six = 6 -> length cs <= 13 -> Forall code_ok cs -> clean six -> clean label ->
  nth_error cs i = Some c ->
  obscode_of_cstr (overlay (header_line (codes_content six cs) label j) buf) (7 + i * 4) = Val c.
Proof.
  intros H6 H13 Hok Hs Hl Hn.
  apply nth_error_split in Hn as (a & b & -> & Hi).
  set (line := header_line (codes_content six (a ++ c :: b)) label j).
  assert (Hc : code_ok c) by (rewrite Forall_forall in Hok; apply Hok; apply in_elt).
  assert (Hcl : clean line).
  { apply header_line_clean; auto. unfold codes_content. apply clean_app. split; auto. apply flat_codes_clean; auto. }
  assert (E : exists r, skipn (7 + i * 4) line = code_text c ++ r).
  { unfold line, header_line, ljust, codes_content. rewrite flat_map_app. cbn [flat_map].
    eexists. rewrite <- !app_assoc. cbn [app].
    rewrite (app_assoc six).
    replace (7 + i * 4) with (1 + (6 + i * 4)) by lia. rewrite <- skipn_skipn.
    rewrite skipn_app_exact with (a := six ++ _).
    2:{ rewrite app_length, flat_codes_length, H6, Hi. lia. }
    reflexivity. }
  destruct E as [r E].
  apply read_code with (r := r); auto. rewrite <- E. apply cstr_overlay_off.
  - apply clean_nul. exact Hcl.
  - assert (length line = 60 + length label + j).
    { apply header_line_length. unfold codes_content. rewrite app_length, flat_codes_length. lia. }
    rewrite app_length in H13. simpl in H13. lia.
Qed.

(** ** strncmp *)
Lemma strncmp0_same w x y : ~ In NUL w -> strncmp0 (map Some w ++ x) (map Some w ++ y) (length w) = Val true.
Proof.
  induction w as [|c w IH]; intro H; [reflexivity|].
  cbn [map app length strncmp0]. rewrite ceqb_refl.
  assert (c <> NUL) by (intro; subst; apply H; left; auto).
  apply ceqb_neq in H0. rewrite H0. apply IH. intro. apply H. right. auto.
Qed.

Lemma lit_length s : length (lit s) = String.length s.
Proof. induction s; simpl; auto. Qed.

Lemma strncmp_lit_label content label rest0 buf s :
  length content = 60 -> lit s = label -> ~ In NUL label ->
  strncmp_lit (overlay (content ++ label ++ rest0) buf) 60 s (String.length s) = Val true.
Proof.
  intros Hc Hs Hn. unfold strncmp_lit, strncmp_eq, overlay, cbuf. rewrite Hs.
  rewrite map_app, <- app_assoc. rewrite skipn_app_exact by (rewrite map_length; auto).
  rewrite map_app, <- app_assoc. cbn [skipn].
  rewrite <- lit_length, Hs. apply strncmp0_same. exact Hn.
Qed.

(** any mismatch among the compared bytes gives a difference *)
Lemma strncmp0_diff n : forall a b x y,
  length a = length b -> length a < n -> x <> y ->
  (forall i c, nth_error a i = Some c -> nth_error b i = Some c) ->
  ~ In NUL a ->
  forall r q, strncmp0 (map Some (a ++ x :: r)) (map Some (b ++ y :: q)) n = Val false.
Proof.
  induction n as [|n IH]; intros a b x y HL Hlt Hxy Hsame Hnul r q; [lia|].
  destruct a as [|c a], b as [|d b]; try discriminate.
  - cbn [app map strncmp0]. apply ceqb_neq in Hxy. rewrite Hxy. reflexivity.
  - cbn [app map strncmp0]. pose proof (Hsame 0 c eq_refl) as H. inv H.
    rewrite ceqb_refl. assert (c <> NUL) by (intro; subst; apply Hnul; left; auto).
    apply ceqb_neq in H. rewrite H. apply IH; simpl in *; try lia; auto.
    + intros i e Hi. apply (Hsame (S i) e Hi).
Qed.

(** ** the loop over one line *)
Lemma loop_cells : forall cs left st line r acc,
  (forall i c, nth_error cs i = Some c -> obscode_of_cstr line (7 + (r + i) * 4) = Val c) ->
  r + length cs < 13 ->
  obstypes_loop (length cs + left) st line r acc = obstypes_loop left st line (r + length cs) (acc ++ cs).
Proof.
  induction cs as [|c cs IH]; intros left st line r acc Hr Hlen.
  - simpl. rewrite Nat.add_0_r, app_nil_r. reflexivity.
  - change (length (c :: cs) + left) with (S (length cs + left)). cbn [obstypes_loop].
    pose proof (Hr 0 c eq_refl) as E. rewrite Nat.add_0_r in E. rewrite E.
    simpl in Hlen. destruct (Nat.eqb_spec (S r) 13) as [Hx|_]; [lia|].
    rewrite IH.
    + rewrite <- app_assoc. cbn [length app]. rewrite Nat.add_succ_r. reflexivity.
    + intros i d Hi. rewrite <- (Hr (S i) d Hi). f_equal. lia.
    + lia.
Qed.

Lemma loop_full_line : forall cs left st line acc,
  length cs = 13 ->
  (forall i c, nth_error cs i = Some c -> obscode_of_cstr line (7 + i * 4) = Val c) ->
  obstypes_loop (13 + left) st line 0 acc =
  (do sl <- getline st line MAX_HEADER_CHARS;
   let '(st', line') := sl in
   do same <- strncmp_lit line' 60 "SYS / # / OBS TYPES" 19;
   if negb same then Val (st', inl 4%Z) else obstypes_loop left st' line' 0 (acc ++ cs)).
Proof.
  intros cs left st line acc Hlen Hr.
  destruct (exists_last (l := cs)) as (init & c & E); [intro; subst; discriminate|].
  subst cs. rewrite app_length in Hlen. simpl in Hlen.
  replace (13 + left) with (length init + S left) by lia.
  rewrite loop_cells; [|intros i d Hi; change (0 + i) with i; apply Hr; rewrite nth_error_app1; [exact Hi|apply nth_error_Some; congruence]|lia].
  cbn [obstypes_loop]. replace (0 + length init) with 12 by lia.
  pose proof (Hr 12 c) as E. rewrite E.
  2:{ rewrite nth_error_app2 by lia. replace (12 - length init) with 0 by lia. reflexivity. }
  rewrite app_assoc. reflexivity.
Qed.

Lemma lit_clean s : forallb (fun c => negb (ceqb c NUL) && negb (ceqb c NL)) (lit s) = true -> clean (lit s).
Proof.
  intro H. unfold clean. rewrite Forall_forall. rewrite forallb_forall in H.
  intros c Hc. apply H in Hc. apply andb_true_iff in Hc as [A B].
  apply negb_true_iff in A, B. apply ceqb_neq in A, B. auto.
Qed.

Lemma label_clean : clean LABEL_OBSTYPES.
Proof. apply lit_clean. reflexivity. Qed.

Definition table_line six cs j := header_line (codes_content six cs) LABEL_OBSTYPES j.

Lemma table_line_length six cs j :
  length six = 6 -> length cs <= 13 -> length (table_line six cs j) = 79 + j.
Proof.
  intros. unfold table_line. rewrite header_line_length; [reflexivity|].
  unfold codes_content. rewrite app_length, flat_codes_length. lia.
Qed.

Lemma table_line_clean six cs j : clean six -> Forall code_ok cs -> clean (table_line six cs j).
Proof.
  intros. apply header_line_clean; [|apply label_clean]. unfold codes_content. apply clean_app.
  split; auto. apply flat_codes_clean; auto.
Qed.

Lemma table_line_label six cs j buf :
  length six = 6 -> length cs <= 13 ->
  strncmp_lit (overlay (table_line six cs j) buf) 60 "SYS / # / OBS TYPES" 19 = Val true.
Proof.
  intros. unfold table_line, header_line.
  apply (strncmp_lit_label _ LABEL_OBSTYPES (blanks j) buf "SYS / # / OBS TYPES").
  - apply length_ljust. unfold codes_content. rewrite app_length, flat_codes_length. lia.
  - reflexivity.
  - apply clean_nul. apply label_clean.
Qed.

Lemma layout_nonempty codes chunks : layout codes chunks -> codes <> [].
Proof. induction 1; auto. intro E. apply app_eq_nil in E as [E _]. subst. discriminate. Qed.

Lemma layout_shape codes chunks :
  layout codes chunks -> concat chunks = codes /\ Forall (fun h => length h <= 13) chunks.
Proof.
  induction 1; simpl.
  - rewrite app_nil_r. auto.
  - destruct IHlayout as [-> ?]. split; auto. constructor; auto. lia.
Qed.

(** the whole loop when the number of codes is not a multiple of 13 *)
Lemma loop_layout codes chunks :
  layout codes chunks -> length codes mod 13 <> 0 -> Forall code_ok codes ->
  forall first conts, chunks = first :: conts ->
  forall six j st buf acc tail,
  length six = 6 -> clean six -> j <= 5 -> length buf = 85 ->
  at_rest st (cont_text conts j ++ tail) ->
  exists st', obstypes_loop (length codes) st (overlay (table_line six first j) buf) 0 acc
              = Val (st', inr (acc ++ codes)) /\ at_rest st' tail.
Proof.
  induction 1 as [cs Hne Hle|h t r Hh Hlay IH]; intros Hmod Hok first conts Hch six j st buf acc tail H6 Hcl Hj Hbuf Hst.
  - inv Hch. exists st. split; [|exact Hst].
    assert (length first < 13).
    { assert (length first <> 13) by (intro E; rewrite E in Hmod; apply Hmod; reflexivity). lia. }
    replace (length first) with (length first + 0) at 1 by lia.
    rewrite loop_cells; [reflexivity| |lia].
    intros i c Hi. apply cell_read; auto using label_clean.
  - inv Hch.
    apply Forall_app in Hok as [Hok1 Hok2].
    destruct conts as [|c2 conts]; [inv Hlay|].
    assert (Hc2 : length c2 <= 13).
    { apply layout_shape in Hlay as [_ Hs]. inv Hs. assumption. }
    assert (Hokc2 : Forall code_ok c2).
    { apply layout_shape in Hlay as [Hcc _]. simpl in Hcc. subst t. apply Forall_app in Hok2. tauto. }
    rewrite app_length, Hh. rewrite loop_full_line with (cs := first); [|auto|].
    2:{ intros i c Hi. apply cell_read; auto using label_clean; lia. }
    set (buf1 := overlay (table_line six first j) buf).
    assert (Lb : length buf1 = 85).
    { unfold buf1. rewrite overlay_length; auto. rewrite table_line_length by lia. lia. }
    unfold cont_text in Hst. cbn [flat_map] in Hst. rewrite <- !app_assoc in Hst. cbn [app] in Hst.
    destruct (getline_line st buf1 MAX_HEADER_CHARS (table_line (blanks 6) c2 j)
               (cont_text conts j ++ tail)) as (st' & G & R & _).
    + exact Hst.
    + apply clean_nl. apply table_line_clean; auto using clean_blanks.
    + rewrite table_line_length by (auto; apply length_blanks). unfold MAX_HEADER_CHARS. lia.
    + rewrite Lb. unfold MAX_HEADER_CHARS. lia.
    + rewrite G. cbn [bind]. rewrite table_line_label by (auto; apply length_blanks).
      cbn [bind negb].
      destruct (IH) with (first := c2) (conts := conts) (six := blanks 6) (j := j) (st := st')
        (buf := buf1) (acc := acc ++ first) (tail := tail) as (st'' & E & R'); auto using length_blanks, clean_blanks.
      * rewrite app_length, Hh in Hmod. replace (13 + length t) with (length t + 1 * 13) in Hmod by lia.
        rewrite Nat.mod_add in Hmod by lia. exact Hmod.
      * exists st''. rewrite E, app_assoc. auto.
Qed.

(** when it is a multiple of 13 the reader asks for one line more *)
Lemma loop_layout13 codes chunks :
  layout codes chunks -> length codes mod 13 = 0 -> Forall code_ok codes ->
  forall first conts, chunks = first :: conts ->
  forall six j st buf acc tail,
  length six = 6 -> clean six -> j <= 5 -> length buf = 85 ->
  at_rest st (cont_text conts j ++ tail) ->
  exists st' buf', at_rest st' tail /\ length buf' = 85 /\
    (exists last sixl b0, length sixl = 6 /\ length last <= 13 /\ length b0 = 85 /\
       buf' = overlay (table_line sixl last j) b0) /\
    obstypes_loop (length codes) st (overlay (table_line six first j) buf) 0 acc =
    (do sl <- getline st' buf' MAX_HEADER_CHARS;
     let '(st2, line2) := sl in
     do same <- strncmp_lit line2 60 "SYS / # / OBS TYPES" 19;
     if negb same then Val (st2, inl 4%Z) else Val (st2, inr (acc ++ codes))).
Proof.
  induction 1 as [cs Hne Hle|h t r Hh Hlay IH]; intros Hmod Hok first conts Hch six j st buf acc tail H6 Hcl Hj Hbuf Hst.
  - inv Hch.
    assert (H13 : length first = 13).
    { destruct (Nat.eq_dec (length first) 13); auto.
      rewrite Nat.mod_small in Hmod by lia. destruct first; [congruence|discriminate]. }
    exists st, (overlay (table_line six first j) buf). split; [exact Hst|].
    split; [rewrite overlay_length; auto; rewrite table_line_length by lia; lia|]. split.
    + exists first, six, buf. repeat split; auto; lia.
    + rewrite H13. change 13 with (13 + 0). rewrite loop_full_line with (cs := first); auto.
      intros i c Hi. apply cell_read; auto using label_clean.
  - inv Hch.
    apply Forall_app in Hok as [Hok1 Hok2].
    destruct conts as [|c2 conts]; [inv Hlay|].
    assert (Hc2 : length c2 <= 13).
    { apply layout_shape in Hlay as [_ Hs]. inv Hs. assumption. }
    assert (Hokc2 : Forall code_ok c2).
    { apply layout_shape in Hlay as [Hcc _]. simpl in Hcc. subst t. apply Forall_app in Hok2. tauto. }
    rewrite app_length, Hh. rewrite loop_full_line with (cs := first); [|auto|].
    2:{ intros i c Hi. apply cell_read; auto using label_clean; lia. }
    set (buf1 := overlay (table_line six first j) buf).
    assert (Lb : length buf1 = 85).
    { unfold buf1. rewrite overlay_length; auto. rewrite table_line_length by lia. lia. }
    unfold cont_text in Hst. cbn [flat_map] in Hst. rewrite <- !app_assoc in Hst. cbn [app] in Hst.
    destruct (getline_line st buf1 MAX_HEADER_CHARS (table_line (blanks 6) c2 j)
               (cont_text conts j ++ tail)) as (st' & G & R & _).
    + exact Hst.
    + apply clean_nl. apply table_line_clean; auto using clean_blanks.
    + rewrite table_line_length by (auto; apply length_blanks). unfold MAX_HEADER_CHARS. lia.
    + rewrite Lb. unfold MAX_HEADER_CHARS. lia.
    + rewrite G. cbn [bind]. rewrite table_line_label by (auto; apply length_blanks).
      cbn [bind negb].
      destruct (IH) with (first := c2) (conts := conts) (six := blanks 6) (j := j) (st := st')
        (buf := buf1) (acc := acc ++ first) (tail := tail) as (st'' & buf'' & R' & Lb' & S' & E); auto using length_blanks, clean_blanks.
      * rewrite app_length, Hh in Hmod. replace (13 + length t) with (length t + 1 * 13) in Hmod by lia.
        rewrite Nat.mod_add in Hmod by lia. exact Hmod.
      * exists st'', buf''. rewrite E, app_assoc. auto.
Qed.

(** ** comparing a label *)
Lemma strncmp0_words w s x y :
  ~ In NUL w -> ~ In NUL s ->
  strncmp0 (map Some w ++ Some NUL :: x) (map Some s ++ y) (length s)
  = Val (list_eqb (firstn (length s) w) s).
Proof.
  revert s; induction w as [|c w IH]; intros s Hw Hs.
  - destruct s as [|d s]; [reflexivity|]. cbn [map app length strncmp0 firstn list_eqb].
    assert (NUL <> d) by (intro; subst; apply Hs; left; auto). apply ceqb_neq in H. rewrite H. reflexivity.
  - destruct s as [|d s]; [reflexivity|]. cbn [map app length strncmp0 firstn list_eqb].
    destruct (ceqb c d) eqn:E; [|reflexivity].
    assert (c <> NUL) by (intro; subst; apply Hw; left; auto). apply ceqb_neq in H. rewrite H.
    cbn [andb]. apply IH; intro; [apply Hw|apply Hs]; right; auto.
Qed.

Lemma strncmp_lit_overlay l buf k s :
  ~ In NUL l -> k <= length l -> ~ In NUL (lit s) ->
  strncmp_lit (overlay l buf) k s (String.length s)
  = Val (list_eqb (firstn (String.length s) (skipn k l)) (lit s)).
Proof.
  intros Hl Hk Hs. unfold strncmp_lit, strncmp_eq, overlay, cbuf.
  rewrite skipn_app, map_length. replace (k - length l) with 0 by lia. rewrite skipn_O, skipn_map.
  cbn [skipn]. rewrite <- lit_length. apply strncmp0_words; auto.
  intro H. apply Hl. rewrite <- (firstn_skipn k l). apply in_or_app. auto.
Qed.

(** ** the function *)
Definition block_first (sys : satsys) (letter : ascii) (count : list ascii) (first : list obscode) (j : nat) :=
  header_line (codes_content (first_six letter count) first) LABEL_OBSTYPES j.

Lemma first_six_length letter count : length count <= 3 -> length (first_six letter count) = 6.
Proof. intro H. unfold first_six. simpl. rewrite length_rjust by exact H. reflexivity. Qed.

Lemma letters_clean c s : In (c, s) satsys_letters -> c <> NUL /\ c <> NL.
Proof.
  cbn [satsys_letters In]. intro H.
  repeat (destruct H as [H|H]; [inversion H; subst; split; discriminate|]). destruct H.
Qed.

Lemma first_six_clean letter count s :
  In (letter, s) satsys_letters -> digits count -> clean (first_six letter count).
Proof.
  intros Hl Hd. unfold first_six, rjust. constructor; [eapply letters_clean; eauto|].
  apply clean_app. split; [apply clean_blanks|]. apply clean_app. split; [apply clean_blanks|].
  apply digits_clean. exact Hd.
Qed.

Lemma memcpy_whole n m : length m = n -> memcpy (uninit n) 0 m 0 n = Val m.
Proof.
  intro H. unfold memcpy, wr_bytes. rewrite H. simpl. rewrite Nat.leb_refl.
  rewrite firstn_length, H, Nat.min_id. unfold uninit. rewrite repeat_length, Nat.leb_refl.
  f_equal. rewrite <- H at 1. rewrite firstn_all. rewrite skipn_all2 by (rewrite repeat_length; lia).
  apply app_nil_r.
Qed.

Lemma layout_first_ne cs chunks : layout cs chunks -> forall f r, chunks = f :: r -> f <> [].
Proof. induction 1; intros f r0 E; inv E; auto. intro; subst; discriminate. Qed.

(** common start of resolve_obstypes on a laid-out block *)
Lemma resolve_start t st buf letter sys count cs first conts j :
  In (letter, sys) satsys_letters -> digits count -> count <> [] -> length count <= 3 ->
  layout cs (first :: conts) -> Forall code_ok cs ->
  dec_val count = Z.of_nat (length cs) -> j <= 5 -> length buf = 85 -> t sys = None ->
  resolve_obstypes t st (overlay (block_first sys letter count first j) buf) =
  noexcept (do r <- obstypes_loop (length cs) st (overlay (table_line (first_six letter count) first j) buf) 0 [];
   let '(st', res) := r in
   match res with
   | inl code => Val (code, t, st')
   | inr obsvec =>
       if (Z.of_nat (length obsvec) =? Z.of_nat (length cs))%Z
       then Val (0%Z, smap_set t sys obsvec, st')
       else Val (9%Z, t, st')
   end).
Proof.
  intros Hl Hd Hne Hc3 Hlay Hok Hv Hj Hb Ht.
  pose proof (layout_shape _ _ Hlay) as [Hcc H13]. inversion H13 as [|? ? H13a _]; subst.
  assert (Hokf : Forall code_ok first) by (simpl in Hok; apply Forall_app in Hok; tauto).
  assert (Hfne : first <> []) by (eapply layout_first_ne; eauto).
  set (six := first_six letter count).
  assert (H6 : length six = 6) by (apply first_six_length; auto).
  assert (Hcl : clean (table_line six first j)).
  { apply table_line_clean; auto. eapply first_six_clean; eauto. }
  assert (Hlen : length (table_line six first j) = 79 + j) by (apply table_line_length; auto).
  unfold resolve_obstypes. change (block_first sys letter count first j) with (table_line six first j).
  rewrite memcpy_whole by (rewrite overlay_length; [auto|lia]). cbn [bind].
  rewrite rd_overlay with (c := letter); [|reflexivity]. cbn [bind].
  destruct (char_to_satsys_spec letter) as [Hs _]. apply Hs in Hl. rewrite Hl. cbn [bind]. rewrite Ht.
  rewrite cstr_overlay_off by (try (apply clean_nul; auto); lia). cbn [bind].
  assert (Es : exists r, skipn 3 (table_line six first j) = blanks (3 - length count) ++ count ++ r /\ nondigit_head r).
  { destruct first as [|c0 f0]; [congruence|].
    unfold table_line, header_line, ljust, codes_content, six, first_six, rjust.
    cbn [flat_map]. eexists. rewrite <- !app_assoc. cbn [app blanks repeat].
    split; [|]. { cbn [skipn]. rewrite <- !app_assoc. reflexivity. } reflexivity. }
  destruct Es as (r & Es & Hr). rewrite Es.
  assert (Hsm : (dec_val count < 1000)%Z).
  { pose proof (dec_val_bound count Hd).
    assert (10 ^ Z.of_nat (length count) <= 10 ^ 3)%Z by (apply Z.pow_le_mono_r; lia). lia. }
  rewrite strtol_field; auto; [|unfold LONG_MAX; lia].
  cbv iota beta.
  replace (to_i32 (dec_val count)) with (dec_val count).
  2:{ unfold to_i32. pose proof (dec_val_nonneg count Hd). rewrite Z.mod_small by lia. lia. }
  assert (E0 : (3 - length count + length count =? 0) = false).
  { apply Nat.eqb_neq. destruct count; [congruence|]. simpl. lia. }
  rewrite E0. cbn [orb]. rewrite Hv.
  assert (Hpos : 0 < length (concat (first :: conts))).
  { pose proof (layout_nonempty _ _ Hlay). destruct (concat (first :: conts)); [congruence|]. simpl. lia. }
  replace (Z.to_nat (Z.max 1 (Z.of_nat (length (concat (first :: conts)))))) with (length (concat (first :: conts))) by lia.
  rewrite Z.mod_small by (rewrite <- Hv; pose proof (dec_val_nonneg count Hd); lia).
  reflexivity.
Qed.

Lemma satsys_eqb_refl s : satsys_eqb s s = true.
Proof. destruct s; reflexivity. Qed.

Lemma smap_set_same {A} (t : smap A) k v : smap_set t k v k = Some v.
Proof. unfold smap_set. rewrite satsys_eqb_refl. reflexivity. Qed.
Lemma smap_set_other {A} (t : smap A) k v s : s <> k -> smap_set t k v s = t s.
Proof.
  intro H. unfold smap_set. destruct (satsys_eqb s k) eqn:E; [|reflexivity].
  apply satsys_eqb_eq in E. congruence.
Qed.

Theorem table_exact t st buf letter sys count cs first conts j tail :
  In (letter, sys) satsys_letters -> digits count -> count <> [] -> length count <= 3 ->
  layout cs (first :: conts) -> Forall code_ok cs ->
  dec_val count = Z.of_nat (length cs) -> j <= 5 -> length buf = 85 -> t sys = None ->
  at_rest st (cont_text conts j ++ tail) ->
  length cs mod 13 <> 0 ->
  exists st' t',
    resolve_obstypes t st (overlay (block_first sys letter count first j) buf) = Val (0%Z, t', st') /\
    at_rest st' tail /\ t' sys = Some cs /\ (forall s, s <> sys -> t' s = t s).
Proof.
  intros Hl Hd Hne Hc3 Hlay Hok Hv Hj Hb Ht Hst Hmod.
  rewrite (resolve_start t st buf letter sys count cs first conts j); auto.
  destruct (loop_layout cs (first :: conts) Hlay Hmod Hok first conts eq_refl
             (first_six letter count) j st buf [] tail) as (st' & E & R); auto.
  - apply first_six_length; auto.
  - eapply first_six_clean; eauto.
  - rewrite E. cbn [bind app]. rewrite Z.eqb_refl. cbn [noexcept].
    exists st', (smap_set t sys cs). split; [reflexivity|]. split; [exact R|].
    split; [apply smap_set_same|]. intros s Hs. apply smap_set_other. exact Hs.
Qed.

Theorem table_exact_set t st buf letter sys count cs first conts j tail :
  In (letter, sys) satsys_letters -> digits count -> count <> [] -> length count <= 3 ->
  layout cs (first :: conts) -> Forall code_ok cs ->
  dec_val count = Z.of_nat (length cs) -> j <= 5 -> length buf = 85 -> t sys = None ->
  at_rest st (cont_text conts j ++ tail) ->
  length cs mod 13 <> 0 ->
  exists st',
    resolve_obstypes t st (overlay (block_first sys letter count first j) buf)
      = Val (0%Z, smap_set t sys cs, st') /\ at_rest st' tail.
Proof.
  intros Hl Hd Hne Hc3 Hlay Hok Hv Hj Hb Ht Hst Hmod.
  rewrite (resolve_start t st buf letter sys count cs first conts j); auto.
  destruct (loop_layout cs (first :: conts) Hlay Hmod Hok first conts eq_refl
             (first_six letter count) j st buf [] tail) as (st' & E & R); auto.
  - apply first_six_length; auto.
  - eapply first_six_clean; eauto.
  - rewrite E. cbn [bind app]. rewrite Z.eqb_refl. cbn [noexcept].
    exists st'. split; [reflexivity|exact R].
Qed.

(** multiples of 13: the line after the block is consumed, whatever it is *)
Theorem table_thirteen t st buf letter sys count cs first conts j l tail :
  In (letter, sys) satsys_letters -> digits count -> count <> [] -> length count <= 3 ->
  layout cs (first :: conts) -> Forall code_ok cs ->
  dec_val count = Z.of_nat (length cs) -> j <= 5 -> length buf = 85 -> t sys = None ->
  at_rest st (cont_text conts j ++ l ++ NL :: tail) -> clean l -> 60 <= length l <= 84 ->
  length cs mod 13 = 0 ->
  exists st' t',
    resolve_obstypes t st (overlay (block_first sys letter count first j) buf)
      = Val ((if list_eqb (firstn 19 (skipn 60 l)) LABEL_OBSTYPES then 0 else 4)%Z, t', st') /\
    at_rest st' tail /\
    (firstn 19 (skipn 60 l) = LABEL_OBSTYPES ->
       t' sys = Some cs /\ (forall s, s <> sys -> t' s = t s)) /\
    (firstn 19 (skipn 60 l) <> LABEL_OBSTYPES -> t' = t).
Proof.
  intros Hl Hd Hne Hc3 Hlay Hok Hv Hj Hb Ht Hst Hcl Hlen Hmod.
  rewrite (resolve_start t st buf letter sys count cs first conts j); auto.
  destruct (loop_layout13 cs (first :: conts) Hlay Hmod Hok first conts eq_refl
             (first_six letter count) j st buf [] (l ++ NL :: tail)) as (st' & buf' & R & Lb & _ & E); auto.
  - apply first_six_length; auto.
  - eapply first_six_clean; eauto.
  - rewrite E.
    destruct (getline_line st' buf' MAX_HEADER_CHARS l tail) as (st2 & G & R2 & _);
      auto using clean_nl; unfold MAX_HEADER_CHARS in *; try lia.
    rewrite G. cbn [bind].
    assert (X : strncmp_lit (overlay l buf') 60 "SYS / # / OBS TYPES" 19
                = Val (list_eqb (firstn 19 (skipn 60 l)) LABEL_OBSTYPES)).
    { apply (strncmp_lit_overlay l buf' 60 "SYS / # / OBS TYPES");
        [apply clean_nul; auto|lia|apply (clean_nul _ label_clean)]. }
    rewrite X.
    cbn [bind].
    destruct (list_eqb (firstn 19 (skipn 60 l)) LABEL_OBSTYPES) eqn:EL; cbn [negb bind app].
    + rewrite Z.eqb_refl. cbn [noexcept]. exists st2, (smap_set t sys cs).
      split; [reflexivity|]. split; [exact R2|]. split.
      * intros _. split; [apply smap_set_same|]. intros s Hs. apply smap_set_other; auto.
      * intro H. apply list_eqb_eq in EL. contradiction.
    + cbn [noexcept]. exists st2, t. split; [reflexivity|]. split; [exact R2|]. split; [|auto].
      intro H. apply list_eqb_eq in H. congruence.
Qed.

(** ** arbitrary bytes (C17) *)
Lemma loop_length : forall left st line r acc st' v,
  obstypes_loop left st line r acc = Val (st', inr v) -> length v = length acc + left.
Proof.
  induction left as [|left IH]; intros st line r acc st' v H; cbn [obstypes_loop] in H.
  - inv H. lia.
  - destruct (obscode_of_cstr line (7 + r * 4)); try discriminate.
    destruct (S r =? 13).
    + apply bind_val in H as ([s1 l1] & _ & H). apply bind_val in H as (b & _ & H).
      destruct b; cbn [negb] in H; [|discriminate]. apply IH in H. rewrite app_length in H. simpl in H. lia.
    + apply IH in H. rewrite app_length in H. simpl in H. lia.
Qed.

Lemma loop_code : forall left st line r acc st' c,
  obstypes_loop left st line r acc = Val (st', inl c) -> c = 3%Z \/ c = 4%Z.
Proof.
  induction left as [|left IH]; intros st line r acc st' v H; cbn [obstypes_loop] in H.
  - inv H.
  - destruct (obscode_of_cstr line (7 + r * 4)); try discriminate.
    + destruct (S r =? 13).
      * apply bind_val in H as ([s1 l1] & _ & H). apply bind_val in H as (b & _ & H).
        destruct b; cbn [negb] in H; [|inv H; auto]. eapply IH; eauto.
      * eapply IH; eauto.
    + inv H. auto.
Qed.

Lemma noexcept_val {A} (o : outcome A) a : noexcept o = Val a -> o = Val a.
Proof. destruct o; simpl; congruence. Qed.

Theorem table_success t st cline t' st' :
  length cline = 85 ->
  resolve_obstypes t st cline = Val (0%Z, t', st') ->
  exists c sys s n k codes,
    rd cline 0 = Val c /\ In (c, sys) satsys_letters /\ t sys = None /\
    cstr cline 3 = Val s /\ strtol s = (n, S k, false) /\
    t' sys = Some codes /\ Z.of_nat (length codes) = to_i32 n /\ (1 <= to_i32 n)%Z /\
    (forall x, x <> sys -> t' x = t x).
Proof.
  intros HL H. unfold resolve_obstypes in H. apply noexcept_val in H.
  rewrite memcpy_whole in H by exact HL. cbn [bind] in H.
  apply bind_val in H as (c & Hc & H). apply bind_val in H as (sys & Hs & H).
  destruct (t sys) eqn:Ht; [discriminate|].
  apply bind_val in H as (s & Hcs & H).
  destruct (strtol s) as [[n k] er] eqn:Es. cbv zeta in H.
  destruct (er || (k =? 0)) eqn:E; [discriminate|].
  apply orb_false_iff in E as [-> E]. apply Nat.eqb_neq in E. destruct k as [|k]; [lia|].
  apply bind_val in H as ([s1 res] & Hl & H).
  destruct res as [code|codes].
  { apply loop_code in Hl. inv H. destruct Hl; discriminate. }
  apply loop_length in Hl. cbn [length] in Hl.
  destruct (Z.eqb_spec (Z.of_nat (length codes)) (to_i32 n mod 18446744073709551616)) as [En|En]; [|discriminate].
  apply Val_inj in H. inversion H; subst t' st'; clear H.
  assert (Hr : (- 2147483648 <= to_i32 n < 2147483648)%Z).
  { unfold to_i32. pose proof (Z.mod_pos_bound (n + 2147483648) 4294967296 ltac:(lia)). lia. }
  assert (Hn : (1 <= to_i32 n)%Z).
  { destruct (Z.leb_spec 1 (to_i32 n)); auto. exfalso.
    replace (Z.max 1 (to_i32 n)) with 1%Z in Hl by lia. simpl in Hl. rewrite Hl in En.
    destruct (Z.eq_dec (to_i32 n) 0) as [E0|E0]; [rewrite E0 in En; discriminate|].
    rewrite <- (Z.mod_add _ 1) in En by lia. rewrite Z.mod_small in En by lia. lia. }
  rewrite Z.mod_small in En by lia.
  exists c, sys, s, n, k, codes.
  split; [exact Hc|]. split; [apply char_to_satsys_spec; exact Hs|].
  split; [exact Ht|]. split; [exact Hcs|]. split; [exact Es|].
  split; [apply smap_set_same|]. split; [exact En|]. split; [exact Hn|].
  intros x Hx. apply smap_set_other. exact Hx.
Qed.

Theorem table_failure t st cline code t' st' :
  resolve_obstypes t st cline = Val (code, t', st') -> code <> 0%Z -> t' = t.
Proof.
  intros H Hc. unfold resolve_obstypes in H. apply noexcept_val in H.
  apply bind_val in H as (line & _ & H). apply bind_val in H as (c & _ & H).
  apply bind_val in H as (sys & _ & H). destruct (t sys); [inv H; reflexivity|].
  apply bind_val in H as (s & _ & H). destruct (strtol s) as [[n k] er]. cbv zeta in H.
  destruct (er || (k =? 0)); [inv H; reflexivity|].
  apply bind_val in H as ([s1 res] & _ & H).
  destruct res; [inv H; reflexivity|]. destruct (_ =? _)%Z; [inv H; congruence|inv H; reflexivity].
Qed.

Theorem table_duplicate t st cline c sys v :
  length cline = 85 -> rd cline 0 = Val c -> In (c, sys) satsys_letters -> t sys = Some v ->
  resolve_obstypes t st cline = Val (1%Z, t, st).
Proof.
  intros HL Hc Hs Ht. unfold resolve_obstypes. rewrite memcpy_whole by exact HL. cbn [bind].
  rewrite Hc. cbn [bind]. apply char_to_satsys_spec in Hs. rewrite Hs. cbn [bind]. rewrite Ht. reflexivity.
Qed.
