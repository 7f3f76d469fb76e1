(** ProofObsRec: epoch header lines and observation fields (C18, C19). *)
From Coq Require Import Qabs.
From Verif Require Import Base BaseLemmas CNum CNumLemmas Stream ModelSatsys ModelObs ModelNvarstr
  ModelObsRnx SpecText SpecNum SpecObs ProofText ProofNum ProofStream ProofObsTypes.

Lemma nul_not_digit : ~ digit NUL.
Proof. unfold digit. change (nat_of_ascii NUL) with 0. lia. Qed.
Lemma blank_not_digit : ~ digit " "%char.
Proof. unfold digit. change (nat_of_ascii " "%char) with 32. lia. Qed.

Lemma sign_text_clean s : sign_ok s -> clean (sign_text s).
Proof. destruct s as [c|]; simpl; intro H; [destruct H; subst; repeat constructor; discriminate|constructor]. Qed.

Lemma num_text_clean n : num_ok n -> clean (num_text n).
Proof.
  intros (Hs & Hi & Hf & Hne & Hdf & Hlen & He). unfold num_text, mant_text, exp_text.
  rewrite !clean_app. repeat split; auto using sign_text_clean, digits_clean.
  - destruct (ndot n); [|constructor]. constructor; [split; discriminate|]. apply digits_clean; auto.
  - destruct (nexp n) as [[[e sg] ds]|]; [|constructor].
    destruct He as (Hc & Hsg & Hd & _). constructor.
    + destruct Hc; subst; split; discriminate.
    + apply clean_app. split; auto using sign_text_clean, digits_clean.
Qed.

Lemma num_text_nonempty n : num_ok n -> num_text n <> [].
Proof.
  intros H E. destruct (mant_head n (exp_text n) H) as (c & t & E' & _).
  unfold num_text in E. apply app_eq_nil in E as [_ E]. congruence.
Qed.

Lemma num_text_nonblank n : num_ok n -> exists c t, num_text n = c :: t /\ c <> " "%char.
Proof.
  intros H. destruct (mant_head n (exp_text n) H) as (c & t & E' & Hc).
  unfold num_text. destruct (nsign n) as [s|] eqn:Es; cbn [sign_text app].
  - exists s. eexists. split; [reflexivity|]. destruct H as (Hs & _). rewrite Es in Hs. simpl in Hs.
    destruct Hs; subst; discriminate.
  - rewrite E'. exists c, t. split; auto. intros ->. destruct Hc as [Hc|Hc]; [|discriminate].
    apply blank_not_digit. exact Hc.
Qed.

Lemma num_stop_blank n r : num_stop n (" "%char :: r).
Proof. unfold num_stop. split; [apply blank_not_digit|]. split; intros; repeat split; discriminate. Qed.
Lemma num_stop_nil n : num_stop n [].
Proof. exact I. Qed.

(** strtol on a right-justified field followed by a non-digit *)
Lemma strtol_rjust w ds r :
  field_ok w ds -> w <= 10 -> nondigit_head r ->
  strtol (rjust w ds ++ r) = (dec_val ds, w, false) /\ (0 <= dec_val ds < 10 ^ Z.of_nat w)%Z.
Proof.
  intros (Hd & Hne & Hl) Hw Hr.
  assert (B : (0 <= dec_val ds < 10 ^ Z.of_nat w)%Z).
  { pose proof (dec_val_nonneg ds Hd). pose proof (dec_val_bound ds Hd).
    assert (10 ^ Z.of_nat (length ds) <= 10 ^ Z.of_nat w)%Z by (apply Z.pow_le_mono_r; lia). lia. }
  split; auto. unfold rjust. rewrite <- app_assoc.
  rewrite strtol_field; auto.
  - repeat f_equal. lia.
  - assert (10 ^ Z.of_nat w <= 10 ^ 10)%Z by (apply Z.pow_le_mono_r; lia). unfold LONG_MAX. lia.
Qed.

Lemma to_i32_small z : (- 2147483648 <= z < 2147483648)%Z -> to_i32 z = z.
Proof. intro H. unfold to_i32. rewrite Z.mod_small by lia. lia. Qed.

Lemma rjust_clean w s : clean s -> clean (rjust w s).
Proof. intro H. unfold rjust. apply clean_app. split; auto using clean_blanks. Qed.

Lemma field_clean w ds : field_ok w ds -> clean (rjust w ds).
Proof. intros (H & _). apply rjust_clean. apply digits_clean. exact H. Qed.

Lemma digit_clean c : digit c -> clean [c].
Proof. intro H. apply (digits_clean [c]). constructor; auto. Qed.

Definition epoch_head (e : epoch_src) : list ascii :=
  lit "> " ++ s_year e ++ lit " " ++ rjust 2 (s_month e) ++ lit " " ++ rjust 2 (s_day e) ++ lit " " ++
  rjust 2 (s_hour e) ++ lit " " ++ rjust 2 (s_min e) ++ rjust 11 (num_text (s_sec e)) ++ lit "  ".

Lemma epoch_base_split e ns : epoch_base e ns = epoch_head e ++ [s_flag e] ++ ns.
Proof. unfold epoch_base, epoch_head. rewrite <- !app_assoc. reflexivity. Qed.

Lemma epoch_head_length e : epoch_src_ok e -> length (epoch_head e) = 31.
Proof.
  intros (Hy & Hy4 & Hm & Hd & Hh & Hmi & Hs & Hs10 & _).
  unfold epoch_head. rewrite !app_length.
  rewrite !length_rjust by (first [lia | apply Hm | apply Hd | apply Hh | apply Hmi]).
  rewrite Hy4. reflexivity.
Qed.

Lemma epoch_head_clean e : epoch_src_ok e -> clean (epoch_head e).
Proof.
  intros (Hy & Hy4 & Hm & Hd & Hh & Hmi & Hs & Hs10 & _).
  unfold epoch_head. rewrite !clean_app.
  repeat split; try (apply lit_clean; reflexivity); try (eapply field_clean; eassumption).
  - apply digits_clean; auto.
  - apply rjust_clean. apply num_text_clean. auto.
Qed.

Section EpochParse.
  Variables (e : epoch_src) (r : list ascii) (buf : mem).
  Hypothesis Hok : epoch_src_ok e.
  Hypothesis Hr : clean r.
  Let line := epoch_head e ++ r.

  Lemma line_clean : clean line.
  Proof. apply clean_app. split; auto. apply epoch_head_clean; auto. Qed.
  Lemma line_length : length line = 31 + length r.
  Proof. unfold line. rewrite app_length, epoch_head_length; auto. Qed.

  Lemma cstr_at k : k <= 31 -> cstr (overlay line buf) k = Val (skipn k line).
  Proof. intro H. apply cstr_overlay_off; [apply clean_nul, line_clean|rewrite line_length; lia]. Qed.

  Lemma ints_ok :
    epoch_ints 5 (overlay line buf) 2
    = Val (Some ([dec_val (s_year e); dec_val (s_month e); dec_val (s_day e); dec_val (s_hour e); dec_val (s_min e)], 19)).
  Proof.
    pose proof Hok as (Hy & Hy4 & Hm & Hd & Hh & Hmi & Hs & Hs10 & _).
    assert (Hyf : field_ok 4 (s_year e)).
    { split; auto. split; [intro E; rewrite E in Hy4; discriminate|lia]. }
    assert (Ey : rjust 4 (s_year e) = s_year e).
    { unfold rjust. rewrite Hy4. reflexivity. }
    set (tl := rjust 11 (num_text (s_sec e)) ++ lit "  " ++ r).
    assert (Etl : nondigit_head tl).
    { unfold tl, rjust. destruct (11 - length (num_text (s_sec e))) eqn:E11; [lia|]. reflexivity. }
    assert (L2 : forall ds, field_ok 2 ds -> length (rjust 2 ds) = 2).
    { intros ds (_ & _ & ?). apply length_rjust. auto. }
    assert (E2 : skipn 2 line = rjust 4 (s_year e) ++ " "%char :: rjust 2 (s_month e) ++ " "%char ::
              rjust 2 (s_day e) ++ " "%char :: rjust 2 (s_hour e) ++ " "%char :: rjust 2 (s_min e) ++ tl).
    { rewrite Ey. unfold line, epoch_head, tl. rewrite <- !app_assoc. reflexivity. }
    assert (E7 : skipn 7 line = rjust 2 (s_month e) ++ " "%char ::
              rjust 2 (s_day e) ++ " "%char :: rjust 2 (s_hour e) ++ " "%char :: rjust 2 (s_min e) ++ tl).
    { replace 7 with (5 + 2) by lia. rewrite <- skipn_skipn, E2.
      match goal with |- context[rjust 4 ?y ++ ?c :: ?t] =>
        change (rjust 4 y ++ c :: t) with (rjust 4 y ++ [c] ++ t) end.
      rewrite app_assoc. apply skipn_app_exact. rewrite app_length, length_rjust by lia. reflexivity. }
    assert (E10 : skipn 10 line = rjust 2 (s_day e) ++ " "%char :: rjust 2 (s_hour e) ++ " "%char :: rjust 2 (s_min e) ++ tl).
    { replace 10 with (3 + 7) by lia. rewrite <- skipn_skipn, E7.
      match goal with |- skipn 3 (?y ++ ?c :: ?t) = _ => change (y ++ c :: t) with (y ++ [c] ++ t) end.
      rewrite app_assoc. apply skipn_app_exact. rewrite app_length, L2 by auto. reflexivity. }
    assert (E13 : skipn 13 line = rjust 2 (s_hour e) ++ " "%char :: rjust 2 (s_min e) ++ tl).
    { replace 13 with (3 + 10) by lia. rewrite <- skipn_skipn, E10.
      match goal with |- skipn 3 (?y ++ ?c :: ?t) = _ => change (y ++ c :: t) with (y ++ [c] ++ t) end.
      rewrite app_assoc. apply skipn_app_exact. rewrite app_length, L2 by auto. reflexivity. }
    assert (E16 : skipn 16 line = rjust 2 (s_min e) ++ tl).
    { replace 16 with (3 + 13) by lia. rewrite <- skipn_skipn, E13.
      match goal with |- skipn 3 (?y ++ ?c :: ?t) = _ => change (y ++ c :: t) with (y ++ [c] ++ t) end.
      rewrite app_assoc. apply skipn_app_exact. rewrite app_length, L2 by auto. reflexivity. }
    assert (B : forall w, w <= 4 -> (10 ^ Z.of_nat w <= 10 ^ 4)%Z) by (intros; apply Z.pow_le_mono_r; lia).
    assert (B4 := B 4 ltac:(lia)). assert (B2 := B 2 ltac:(lia)).
    change (10 ^ 4)%Z with 10000%Z in *.
    cbn [epoch_ints].
    rewrite cstr_at by lia. cbn [bind]. rewrite E2.
    match goal with |- context[strtol (rjust 4 ?d ++ ?t)] =>
      destruct (strtol_rjust 4 d t Hyf ltac:(lia) eq_refl) as [-> R4] end.
    cbv iota beta. cbn [Nat.add Nat.eqb orb].
    rewrite cstr_at by lia. cbn [bind]. rewrite E7.
    match goal with |- context[strtol (rjust 2 ?d ++ ?t)] =>
      destruct (strtol_rjust 2 d t Hm ltac:(lia) eq_refl) as [-> R2a] end.
    cbv iota beta. cbn [Nat.add Nat.eqb orb].
    rewrite cstr_at by lia. cbn [bind]. rewrite E10.
    match goal with |- context[strtol (rjust 2 ?d ++ ?t)] =>
      destruct (strtol_rjust 2 d t Hd ltac:(lia) eq_refl) as [-> R2b] end.
    cbv iota beta. cbn [Nat.add Nat.eqb orb].
    rewrite cstr_at by lia. cbn [bind]. rewrite E13.
    match goal with |- context[strtol (rjust 2 ?d ++ ?t)] =>
      destruct (strtol_rjust 2 d t Hh ltac:(lia) eq_refl) as [-> R2c] end.
    cbv iota beta. cbn [Nat.add Nat.eqb orb].
    rewrite cstr_at by lia. cbn [bind]. rewrite E16.
    match goal with |- context[strtol (rjust 2 ?d ++ ?t)] =>
      destruct (strtol_rjust 2 d t Hmi ltac:(lia) Etl) as [-> R2d] end.
    cbv iota beta. cbn [Nat.add Nat.eqb orb bind].
    rewrite !to_i32_small by lia. reflexivity.
  Qed.

  Lemma sec_ok :
    exists n, cstr (overlay line buf) 19 = Val n /\
      strtod n = (DFin (num_val (s_sec e)), 10, false).
  Proof.
    pose proof Hok as (Hy & Hy4 & Hm & Hd & Hh & Hmi & Hs & Hs10 & _).
    eexists. split; [apply cstr_at; lia|].
    assert (E : skipn 19 line = blanks (10 - length (num_text (s_sec e))) ++ num_text (s_sec e) ++ " "%char :: " "%char :: r).
    { unfold line, epoch_head. rewrite <- !app_assoc.
      set (pre := lit "> " ++ s_year e ++ lit " " ++ rjust 2 (s_month e) ++ lit " " ++ rjust 2 (s_day e)
         ++ lit " " ++ rjust 2 (s_hour e) ++ lit " " ++ rjust 2 (s_min e)).
      transitivity (skipn 1 (skipn 18 (pre ++ rjust 11 (num_text (s_sec e)) ++ lit "  " ++ r))).
      - rewrite skipn_skipn. unfold pre. rewrite <- !app_assoc. reflexivity.
      - rewrite skipn_app_exact.
        + unfold rjust. replace (11 - length (num_text (s_sec e))) with (S (10 - length (num_text (s_sec e)))) by lia.
          cbn [blanks repeat app skipn]. rewrite <- app_assoc. reflexivity.
        + unfold pre. rewrite !app_length, Hy4.
          rewrite !length_rjust by (first [apply Hm | apply Hd | apply Hh | apply Hmi]). reflexivity. }
    rewrite E. rewrite strtod_text; auto using num_stop_blank.
    repeat f_equal. lia.
  Qed.
End EpochParse.

Definition spec_ints (e : epoch_src) : list Z :=
  [dec_val (s_year e); dec_val (s_month e); dec_val (s_day e); dec_val (s_hour e); dec_val (s_min e)].
Definition spec_sec (e : epoch_src) : Q :=
  b64 (inject_Z ((dec_val (s_hour e) * 60 + dec_val (s_min e)) * 60) + num_val (s_sec e))%Q.

(** everything up to the satellite count *)
Lemma epoch_prefix e r buf :
  epoch_src_ok e -> clean r -> 3 <= length r ->
  resolve_epoch (overlay (epoch_head e ++ [s_flag e] ++ r) buf) =
  (let '(v2, n2, er2) := strtol r in
   let lnlen := 32 + length r in
   if er2 || (19 =? 32 + n2) then Val (4%Z, None)
   else
     let mk c := Val (0%Z, Some (mkEpoch (spec_ints e) (DFin (spec_sec e)) (indicator (s_flag e)) (to_i32 v2) c)) in
     if 41 <? lnlen then
       if forallb (fun c => ceqb c " "%char) (skipn 9 r) then mk (Some (DFin 0))
       else let '(v3, n3, er3) := strtod (skipn 9 r) in
            if er3 || (19 =? 41 + n3) then Val (5%Z, None) else mk (Some v3)
     else mk None).
Proof.
  intros Hok Hr Hlen.
  pose proof Hok as (Hy & Hy4 & Hm & Hd & Hh & Hmi & Hs & Hs10 & Hfl & _).
  assert (Hcr : clean ([s_flag e] ++ r)) by (apply clean_app; split; auto; apply digit_clean; auto).
  pose proof (line_clean e _ Hok Hcr) as Hcl.
  pose proof (epoch_head_length e Hok) as HL.
  set (line := epoch_head e ++ [s_flag e] ++ r) in *.
  assert (Hll : length line = 32 + length r).
  { unfold line. rewrite !app_length, HL. simpl. lia. }
  assert (Hsum : dadd (DFin (inject_Z ((dec_val (s_hour e) * 60 + dec_val (s_min e)) * 60))) (DFin (num_val (s_sec e))) = DFin (spec_sec e)).
  { cbn [dadd]. apply dfin_fin. apply (Qle_trans _ (Qabs (inject_Z ((dec_val (s_hour e) * 60 + dec_val (s_min e)) * 60)) + Qabs (num_val (s_sec e)))); [apply Qabs_triangle|].
    pose proof (num_val_range _ Hs) as B. destruct Hh as (Dh & _ & Lh). destruct Hmi as (Dm & _ & Lm).
    pose proof (dec_val_nonneg _ Dh). pose proof (dec_val_bound _ Dh) as Bh. pose proof (dec_val_nonneg _ Dm). pose proof (dec_val_bound _ Dm) as Bm.
    assert (10 ^ Z.of_nat (length (s_hour e)) <= 10 ^ 2)%Z by (apply Z.pow_le_mono_r; lia).
    assert (10 ^ Z.of_nat (length (s_min e)) <= 10 ^ 2)%Z by (apply Z.pow_le_mono_r; lia).
    apply (Qle_trans _ (inject_Z 1000000 + 2 ^ 700)); [|vm_compute; discriminate]. apply Qplus_le_compat; [|exact B].
    rewrite Qabs_pos by (change 0%Q with (inject_Z 0); rewrite <- Zle_Qle; lia). rewrite <- Zle_Qle. lia. }
  unfold resolve_epoch. rewrite cstr_overlay by (apply clean_nul; auto). cbn [bind].
  rewrite rd_overlay with (c := ">"%char) by reflexivity. cbn [bind].
  rewrite ceqb_refl. cbn [negb orb]. rewrite Hll.
  destruct (Nat.ltb_spec (32 + length r) 35) as [Hx|_]; [lia|].
  pose proof (ints_ok e ([s_flag e] ++ r) buf Hok Hcr) as EI. fold line in EI. rewrite EI. cbn [bind].
  destruct (sec_ok e ([s_flag e] ++ r) buf Hok Hcr) as (sn & E1 & E2). fold line in E1. rewrite E1. cbn [bind].
  rewrite E2. cbv iota beta. change (10 =? 0) with false. cbn [orb]. cbv zeta. unfold nth at 1 2. cbn [nth]. rewrite ?Hsum.
  rewrite rd_overlay with (c := s_flag e).
  2:{ unfold line. rewrite nth_error_app2 by lia. rewrite HL. reflexivity. }
  cbn [bind].
  assert (E32 : skipn 32 line = r).
  { unfold line. rewrite app_assoc. apply skipn_app_exact. rewrite app_length, HL. reflexivity. }
  rewrite cstr_overlay_off by (try (apply clean_nul; auto); lia). cbn [bind]. rewrite E32.
  destruct (strtol r) as [[v2 n2] er2]. cbv zeta.
  destruct (er2 || (19 =? 32 + n2)) eqn:Ec; [reflexivity|].
  assert (Efl : (zchar (s_flag e) - 48)%Z = indicator (s_flag e)).
  { unfold indicator. destruct (Ascii.eqb (s_flag e) " "%char) eqn:Eb.
    - apply Ascii.eqb_eq in Eb. exfalso. apply blank_not_digit. rewrite <- Eb. exact Hfl.
    - unfold zchar. unfold digit in Hfl.
      destruct (Z.ltb_spec (Z.of_nat (nat_of_ascii (s_flag e))) 128); lia. }
  destruct (Nat.ltb_spec 41 (32 + length r)) as [H41|H41].
  - assert (E41 : skipn 41 line = skipn 9 r).
    { replace 41 with (9 + 32) by lia. rewrite <- skipn_skipn, E32. reflexivity. }
    unfold string_is_empty. rewrite cstr_overlay_off by (try (apply clean_nul; auto); lia).
    cbn [bind]. rewrite E41. unfold cut_len. rewrite firstn_all.
    destruct (forallb _ (skipn 9 r)).
    + apply orb_false_iff in Ec as [_ Ec]. rewrite Ec. rewrite <- Efl. reflexivity.
    + cbn [bind]. destruct (strtod (skipn 9 r)) as [[v3 n3] er3]. rewrite <- Efl. reflexivity.
  - rewrite <- Efl. reflexivity.
Qed.

Lemma forallb_blanks k : forallb (fun c => ceqb c " "%char) (blanks k) = true.
Proof. induction k; simpl; auto. Qed.

Theorem epoch_line_exact e buf :
  epoch_src_ok e ->
  exists coff,
  resolve_epoch (overlay (epoch_line e) buf) =
    Val (0%Z, Some (mkEpoch (spec_ints e) (DFin (spec_sec e)) (indicator (s_flag e)) (dec_val (s_nsat e)) coff)) /\
  match s_off e with
  | Some n => coff = Some (DFin (num_val n))
  | None => coff = if s_pad e <=? 6 then None else Some (DFin 0)
  end.
Proof.
  intro Hok. pose proof Hok as (Hy & Hy4 & Hm & Hd & Hh & Hmi & Hs & Hs10 & Hfl & Hns & Hoff).
  set (post := match s_off e with Some n => blanks 6 ++ rjust 15 (num_text n) | None => [] end ++ blanks (s_pad e)).
  assert (Hpost : clean post).
  { unfold post. apply clean_app. split; [|apply clean_blanks]. destruct (s_off e) as [n|]; [|constructor].
    apply clean_app. split; [apply clean_blanks|]. apply rjust_clean. apply num_text_clean. tauto. }
  assert (Hnd : nondigit_head post).
  { unfold post. destruct (s_off e); [reflexivity|]. cbn [app]. destruct (s_pad e); [exact I|reflexivity]. }
  assert (Hl3 : length (rjust 3 (s_nsat e)) = 3) by (apply length_rjust; apply Hns).
  assert (E : epoch_line e = epoch_head e ++ [s_flag e] ++ rjust 3 (s_nsat e) ++ post).
  { unfold epoch_line. rewrite epoch_base_split. rewrite <- !app_assoc. reflexivity. }
  rewrite E. rewrite epoch_prefix; auto.
  2:{ apply clean_app. split; auto. eapply field_clean; eauto. }
  2:{ rewrite app_length. lia. }
  destruct (strtol_rjust 3 (s_nsat e) post Hns ltac:(lia) Hnd) as [-> Rn].
  cbv iota beta zeta. change (19 =? 32 + 3) with false. cbn [orb].
  change (10 ^ Z.of_nat 3)%Z with 1000%Z in Rn. rewrite to_i32_small by lia.
  assert (E9 : skipn 9 (rjust 3 (s_nsat e) ++ post) = skipn 6 post).
  { rewrite skipn_app, Hl3. rewrite skipn_all2 by lia. reflexivity. }
  rewrite E9, app_length, Hl3. unfold post.
  destruct (s_off e) as [n|].
  - destruct Hoff as [Hn Hn15]. rewrite <- app_assoc.
    rewrite app_length, length_blanks, app_length, length_rjust, length_blanks by exact Hn15.
    destruct (Nat.ltb_spec 41 (32 + (3 + (6 + (15 + s_pad e))))) as [_|?]; [|lia].
    rewrite skipn_app_exact by reflexivity.
    assert (Enb : forallb (fun c => ceqb c " "%char) (rjust 15 (num_text n) ++ blanks (s_pad e)) = false).
    { destruct (num_text_nonblank n Hn) as (c & t & Et & Hc). unfold rjust. rewrite Et.
      rewrite <- app_assoc. rewrite forallb_app. rewrite forallb_blanks. cbn [andb app forallb].
      apply ceqb_neq in Hc. rewrite Hc. reflexivity. }
    rewrite Enb. unfold rjust. rewrite <- app_assoc.
    rewrite strtod_text; auto.
    2:{ destruct (s_pad e); [apply num_stop_nil|apply num_stop_blank]. }
    cbv iota beta.
    destruct (Nat.eqb_spec 19 (41 + (15 - length (num_text n) + length (num_text n)))) as [?|_]; [lia|].
    cbn [orb]. eexists. split; reflexivity.
  - cbn [app]. rewrite length_blanks.
    destruct (Nat.leb_spec (s_pad e) 6) as [H6|H6].
    + destruct (Nat.ltb_spec 41 (32 + (3 + s_pad e))) as [?|_]; [lia|]. eexists. split; reflexivity.
    + destruct (Nat.ltb_spec 41 (32 + (3 + s_pad e))) as [_|?]; [|lia].
      assert (Ebl : skipn 6 (blanks (s_pad e)) = blanks (s_pad e - 6)).
      { replace (s_pad e) with (6 + (s_pad e - 6)) at 1 by lia. unfold blanks. rewrite repeat_app.
        apply skipn_app_exact. reflexivity. }
      rewrite Ebl, forallb_blanks. eexists. split; reflexivity.
Qed.

(** rejection of other lines *)
Theorem epoch_line_reject line buf :
  ~ In NUL line -> (nth_error line 0 <> Some ">"%char \/ length line < 35) ->
  resolve_epoch (overlay line buf) = Val (1%Z, None).
Proof.
  intros Hn H. unfold resolve_epoch. rewrite cstr_overlay by exact Hn. cbn [bind].
  destruct line as [|c l].
  - reflexivity.
  - rewrite rd_overlay with (c := c) by reflexivity. cbn [bind].
    destruct H as [H|H].
    + assert (c <> ">"%char) by (intros ->; apply H; reflexivity). apply ceqb_neq in H0. rewrite H0. reflexivity.
    + destruct (Nat.ltb_spec (length (c :: l)) 35); [|lia]. rewrite orb_true_r. reflexivity.
Qed.

(** a line that is not rejected with code 1 has the shape *)
Theorem epoch_line_accept_shape line buf j h :
  ~ In NUL line -> resolve_epoch (overlay line buf) = Val (j, h) -> j <> 1%Z ->
  nth_error line 0 = Some ">"%char /\ 35 <= length line.
Proof.
  intros Hn H Hj. destruct line as [|c l].
  - rewrite epoch_line_reject in H; auto; [inv H; congruence|left; discriminate].
  - destruct (ascii_dec c ">"%char) as [->|Hc].
    + split; auto. destruct (Nat.le_gt_cases 35 (length (">"%char :: l))); auto.
      rewrite epoch_line_reject in H; auto. inv H. congruence.
    + rewrite epoch_line_reject in H; auto; [inv H; congruence|]. left. simpl. congruence.
Qed.

(** the count is never validated: any three characters are accepted *)
Theorem epoch_count_unchecked e ns buf :
  epoch_src_ok e -> clean ns -> length ns = 3 ->
  (forall c, In c ns -> ~ digit c) ->
  exists coff,
  resolve_epoch (overlay (epoch_base e ns) buf) =
    Val (0%Z, Some (mkEpoch (spec_ints e) (DFin (spec_sec e)) (indicator (s_flag e)) 0%Z coff)).
Proof.
  intros Hok Hns Hl Hnd. rewrite epoch_base_split. rewrite epoch_prefix; auto; [|lia].
  assert (E : strtol ns = (0%Z, 0, false)).
  { unfold strtol. destruct (skip_ws ns) as [w s1] eqn:E1.
    assert (Hin : forall c, In c s1 -> ~ digit c).
    { clear -E1 Hnd. revert w s1 E1 Hnd. induction ns as [|c ns IH]; intros w s1 E1 Hnd.
      - inv E1. intros c [].
      - simpl in E1. destruct (is_space c).
        + destruct (skip_ws ns) as [k t] eqn:E2. inv E1. eapply IH; eauto. intros; apply Hnd; right; auto.
        + inv E1. exact Hnd. }
    destruct (scan_sign s1) as [[ng sg] s2] eqn:E2.
    assert (Hin2 : forall c, In c s2 -> ~ digit c).
    { unfold scan_sign in E2. destruct s1 as [|c s1]; [inv E2; auto|].
      destruct (ceqb c "-"%char); [inv E2; intros; apply Hin; right; auto|].
      destruct (ceqb c "+"%char); inv E2; auto. intros; apply Hin; right; auto. }
    destruct s2 as [|c s2]; [reflexivity|]. cbn [scan_digits].
    rewrite (proj2 (is_digit_false c)) by (apply Hin2; left; auto). reflexivity. }
  rewrite E. cbv iota beta zeta. change (19 =? 32 + 0) with false. cbn [orb].
  rewrite Hl. change (41 <? 32 + 3) with false. cbv iota. rewrite to_i32_small by lia.
  eexists. reflexivity.
Qed.

(** ** Observation fields (C19) *)
Lemma dec_acc_shift xs acc : digits xs ->
  dec_acc acc xs = (acc * 10 ^ Z.of_nat (length xs) + dec_acc 0 xs)%Z.
Proof.
  intro H. revert acc. induction H as [|c xs Hc _ IH]; intro acc.
  - simpl. lia.
  - unfold dec_acc. cbn [fold_left].
    fold (dec_acc (acc * 10 + (Z.of_nat (nat_of_ascii c) - 48)) xs).
    fold (dec_acc (0 * 10 + (Z.of_nat (nat_of_ascii c) - 48)) xs).
    rewrite IH. rewrite (IH (0 * 10 + _)%Z). cbn [length]. rewrite Nat2Z.inj_succ, Z.pow_succ_r by lia. ring.
Qed.

Definition extend (n : numlit) (xs : list ascii) : numlit :=
  mkNum (nsign n) (nint n) (ndot n) (nfrac n ++ xs) (nexp n).

Lemma pow10_neg k : (pow10 (0 - Z.of_nat k) == 1 # Z.to_pos (10 ^ Z.of_nat k))%Q.
Proof.
  unfold pow10. destruct k as [|k].
  - reflexivity.
  - rewrite Z.geb_leb. destruct (Z.leb_spec 0 (0 - Z.of_nat (S k))) as [E|_]; [lia|]. replace (- (0 - Z.of_nat (S k)))%Z with (Z.of_nat (S k)) by lia.
    reflexivity.
Qed.

Lemma extend_val n xs :
  digits xs -> nexp n = None ->
  (num_dec (extend n xs) ==
   num_dec n + inject_Z (if is_neg (nsign n) then - dec_val xs else dec_val xs)
               * pow10 (0 - Z.of_nat (length (nfrac n) + length xs)))%Q.
Proof.
  intros Hx He. unfold num_dec, exp_val, extend. cbn [nexp nsign nint nfrac]. rewrite He.
  rewrite app_length. rewrite !pow10_neg.
  rewrite app_assoc.
  assert (E : dec_val ((nint n ++ nfrac n) ++ xs) =
    (dec_val (nint n ++ nfrac n) * 10 ^ Z.of_nat (length xs) + dec_val xs)%Z).
  { change (dec_acc 0 ((nint n ++ nfrac n) ++ xs) =
    (dec_acc 0 (nint n ++ nfrac n) * 10 ^ Z.of_nat (length xs) + dec_acc 0 xs)%Z).
    rewrite dec_acc_app. apply dec_acc_shift. exact Hx. }
  rewrite E. set (m := dec_val (nint n ++ nfrac n)). set (x := dec_val xs).
  rewrite Nat2Z.inj_add, Z.pow_add_r by lia.
  assert (P1 : (0 < 10 ^ Z.of_nat (length (nfrac n)))%Z) by (apply Z.pow_pos_nonneg; lia).
  assert (P2 : (0 < 10 ^ Z.of_nat (length xs))%Z) by (apply Z.pow_pos_nonneg; lia).
  set (p := (10 ^ Z.of_nat (length (nfrac n)))%Z) in *. set (q := (10 ^ Z.of_nat (length xs))%Z) in *.
  unfold Qeq, Qplus, Qmult, inject_Z. cbn [Qnum Qden].
  rewrite !Pos2Z.inj_mul. rewrite !Z2Pos.id by nia.
  destruct (is_neg (nsign n)); ring.
Qed.

Lemma extend_text n xs : ndot n = true -> nexp n = None -> num_text (extend n xs) = num_text n ++ xs.
Proof.
  intros Hd He. unfold num_text, mant_text, exp_text, extend. cbn [nsign nint ndot nfrac nexp].
  rewrite Hd, He, !app_nil_r. rewrite <- !app_assoc. reflexivity.
Qed.

Lemma extend_ok n xs : num_ok n -> ndot n = true -> digits xs -> length (nint n ++ nfrac n) + length xs <= 100 ->
  num_ok (extend n xs).
Proof.
  intros (Hs & Hi & Hf & Hne & Hdf & Hlen & He) Hd Hx Hl.
  unfold num_ok, extend. cbn [nsign nint ndot nfrac nexp].
  split; auto. split; auto. split; [apply digits_app; auto|].
  split. { intro E. rewrite app_assoc in E. apply app_eq_nil in E. tauto. }
  split; [congruence|]. split; auto. rewrite app_assoc, app_length. lia.
Qed.

Definition ind_char (c : ascii) : Prop := c = " "%char \/ digit c.

Lemma ind_char_clean c : ind_char c -> c <> NUL /\ c <> NL.
Proof.
  intros [->|H]; [split; discriminate|]. unfold digit in H. split; intros ->; vm_compute in H; lia.
Qed.

Lemma ind_val c : ind_char c -> (if ceqb c " "%char then 0%Z else (zchar c - 48)%Z) = indicator c.
Proof.
  intros [->|H]; [reflexivity|]. unfold indicator, ceqb. destruct (Ascii.eqb c " "%char); [reflexivity|].
  unfold zchar. unfold digit in H. destruct (Z.ltb_spec (Z.of_nat (nat_of_ascii c)) 128); lia.
Qed.

Lemma field_nonblank n : num_ok n -> length (num_text n) <= 14 ->
  forall r, forallb (fun c => ceqb c " "%char) (firstn 14 (rjust 14 (num_text n) ++ r)) = false.
Proof.
  intros Hn Hl r. rewrite firstn_app, length_rjust, Nat.sub_diag by exact Hl. simpl (firstn 0 r). rewrite app_nil_r.
  rewrite firstn_all2 by (rewrite length_rjust; auto).
  destruct (num_text_nonblank n Hn) as (c & t & Et & Hc). unfold rjust. rewrite Et.
  rewrite forallb_app, forallb_blanks. cbn [andb forallb].
  apply ceqb_neq in Hc. rewrite Hc. reflexivity.
Qed.

Lemma resolve_general raw f v k :
  length f = 16 -> ~ In NUL f ->
  forallb (fun c => ceqb c " "%char) (firstn 14 f) = false ->
  strtod f = (v, S k, false) ->
  forall l s, nth_error f 14 = Some l -> nth_error f 15 = Some s -> ind_char l -> ind_char s ->
  raw_resolve raw (cbuf f) = Val (0%Z, mkRawRnx (Some v) (Some (indicator l)) (Some (indicator s))).
Proof.
  intros Hl Hn Hb Hs l s El Es Il Is. unfold raw_resolve, string_is_empty.
  rewrite cstr_cbuf by exact Hn. cbn [bind]. rewrite Hl. cbn [cut_len Nat.ltb Nat.leb].
  rewrite Hb. rewrite Hs. cbn [orb Nat.eqb].
  change (cbuf f) with (overlay f []). rewrite rd_overlay with (c := l) by exact El.
  rewrite rd_overlay with (c := s) by exact Es. cbn [bind].
  rewrite !ind_val by assumption. reflexivity.
Qed.

Lemma obs_field_facts n l s : obs_num_ok n -> ind_char l -> ind_char s ->
  length (obs_field n l s) = 16 /\ clean (obs_field n l s) /\
  nth_error (obs_field n l s) 14 = Some l /\ nth_error (obs_field n l s) 15 = Some s.
Proof.
  intros (Hn & Hd & He & Hl) Il Is.
  assert (L : length (rjust 14 (num_text n)) = 14) by (apply length_rjust; auto).
  unfold obs_field. split; [rewrite app_length, L; reflexivity|]. split.
  { apply clean_app. split; [apply rjust_clean, num_text_clean; auto|].
    repeat constructor; apply ind_char_clean; auto. }
  split.
  - rewrite nth_error_app2 by lia. rewrite L. reflexivity.
  - rewrite nth_error_app2 by lia. rewrite L. reflexivity.
Qed.

(** column 15 blank: everything is exact *)
Theorem obs_field_exact raw n s :
  obs_num_ok n -> ind_char s ->
  raw_resolve raw (cbuf (obs_field n " "%char s)) =
    Val (0%Z, mkRawRnx (Some (DFin (num_val n))) (Some 0%Z) (Some (indicator s))).
Proof.
  intros Hok Is. assert (Il : ind_char " "%char) by (left; auto).
  destruct (obs_field_facts n " "%char s Hok Il Is) as (L & C & E1 & E2).
  pose proof Hok as (Hn & Hd & He & Hl).
  destruct (length (num_text n)) as [|k] eqn:Ek.
  { exfalso. apply (num_text_nonempty n Hn). destruct (num_text n); [auto|discriminate]. }
  rewrite (resolve_general raw _ (DFin (num_val n)) 13 L (clean_nul _ C)) with (l := " "%char) (s := s); auto.
  - unfold obs_field. apply field_nonblank; auto. lia.
  - unfold obs_field, rjust. rewrite <- app_assoc. rewrite strtod_text; auto.
    + repeat f_equal. lia.
    + apply num_stop_blank.
Qed.

(** column 15 holds a digit: the indicator digits become further decimals *)
Theorem obs_field_contaminated raw n l s :
  obs_num_ok n -> digit l -> ind_char s ->
  exists q, raw_resolve raw (cbuf (obs_field n l s)) =
    Val (0%Z, mkRawRnx (Some (DFin (b64 q))) (Some (indicator l)) (Some (indicator s))) /\
  let xs := if ceqb s " "%char then [l] else [l; s] in
  (q == num_dec n + inject_Z (if is_neg (nsign n) then - dec_val xs else dec_val xs)
        * pow10 (0 - Z.of_nat (length (nfrac n) + length xs)))%Q.
Proof.
  intros Hok Hdl Is. assert (Il : ind_char l) by (right; auto).
  destruct (obs_field_facts n l s Hok Il Is) as (L & C & E1 & E2).
  pose proof Hok as (Hn & Hd & He & Hl).
  destruct (length (num_text n)) as [|k] eqn:Ek.
  { exfalso. apply (num_text_nonempty n Hn). destruct (num_text n); [auto|discriminate]. }
  set (xs := if ceqb s " "%char then [l] else [l; s]).
  assert (Hxs : digits xs).
  { unfold xs. destruct (ceqb s " "%char) eqn:Es; [apply Forall_cons; auto|].
    apply ceqb_neq in Es. destruct Is as [Is|Is]; [contradiction|]. apply Forall_cons; auto. }
  assert (Hx2 : length xs <= 2) by (unfold xs; destruct (ceqb s " "%char); simpl; lia).
  exists (num_dec (extend n xs)). fold (num_val (extend n xs)). split.
  - rewrite (resolve_general raw _ (DFin (num_val (extend n xs))) (13 + length xs) L (clean_nul _ C)) with (l := l) (s := s); auto.
    + unfold obs_field. apply field_nonblank; auto. lia.
    + assert (Ef : exists r, obs_field n l s = blanks (14 - length (num_text n)) ++ num_text (extend n xs) ++ r /\ num_stop (extend n xs) r).
      { rewrite extend_text by auto. unfold xs. destruct (ceqb s " "%char) eqn:Es.
        - apply ceqb_eq in Es. subst s. exists [" "%char]. split; [|apply num_stop_blank].
          unfold obs_field, rjust. rewrite <- !app_assoc. reflexivity.
        - exists []. split; [|exact I]. unfold obs_field, rjust. rewrite app_nil_r, <- !app_assoc. reflexivity. }
      destruct Ef as (r & Ef & Hr). rewrite Ef. rewrite strtod_text; auto.
      * rewrite extend_text by auto. rewrite app_length. repeat f_equal. lia.
      * apply extend_ok; auto.
        assert (length (nint n ++ nfrac n) <= 14).
        { unfold num_text, mant_text in Ek. rewrite Hd in Ek. rewrite !app_length in Ek. cbn [length] in Ek.
          rewrite app_length. lia. }
        lia.
  - apply extend_val; auto.
Qed.

(** blank number: the missing value, indicators untouched *)
Theorem obs_field_blank raw f :
  length f = 16 -> ~ In NUL f -> all_blank (firstn 14 f) ->
  raw_resolve raw (cbuf f) = Val (0%Z, mkRawRnx (Some MISSING) (rlli raw) (rssi raw)).
Proof.
  intros Hl Hn Hb. unfold raw_resolve, string_is_empty.
  rewrite cstr_cbuf by exact Hn. cbn [bind]. rewrite Hl. cbn [cut_len Nat.ltb Nat.leb].
  assert (E : forallb (fun c => ceqb c " "%char) (firstn 14 f) = true).
  { apply forallb_forall. intros c Hc. apply ceqb_eq. apply Hb. exact Hc. }
  rewrite E. reflexivity.
Qed.
