(** ProofSp3Header: the header of an SP3 file. *)
From Coq Require Import Qround.
From Coq Require Import Qabs Qpower.
From Verif Require Import Base BaseLemmas CNum CNumLemmas Stream ModelSatsys ModelSp3 SpecText SpecNum SpecObs SpecSp3
  ProofText ProofNum ProofStream ProofSp3 ProofSp3Epoch ProofSp3File.

Definition sum_list (l : list nat) : nat := fold_right Nat.add 0 l.
Lemma length_concat (parts : list (list ascii)) : length (concat parts) = sum_list (map (@length ascii) parts).
Proof. induction parts as [|p l IH]; cbn; [reflexivity|]. rewrite app_length, IH. reflexivity. Qed.
Lemma parts_split (parts : list (list ascii)) n : concat parts = concat (firstn n parts) ++ concat (skipn n parts).
Proof. rewrite <- concat_app, firstn_skipn. reflexivity. Qed.
Lemma cstr_part parts ws n buf : map (@length ascii) parts = ws -> ~ In NUL (concat parts) ->
  cstr (overlay (concat parts) buf) (sum_list (firstn n ws)) = Val (concat (skipn n parts)).
Proof.
  intros <- H. rewrite (parts_split parts n) in *. apply cstr_at; [|exact H].
  rewrite length_concat, firstn_map. reflexivity.
Qed.
Lemma sub_part parts ws n p w buf : map (@length ascii) parts = ws -> nth_error parts n = Some p -> length p = w ->
  length (concat parts) < length buf ->
  sub_at (overlay (concat parts) buf) (sum_list (firstn n ws)) w = Val (map Some p).
Proof.
  intros <- E <- L. unfold sub_at. rewrite overlay_length by exact L.
  assert (K : sum_list (firstn n (map (@length ascii) parts)) = length (concat (firstn n parts)))
    by (rewrite length_concat, firstn_map; reflexivity).
  rewrite K. apply nth_error_split in E as (a & b & -> & <-).
  rewrite firstn_app, firstn_all, Nat.sub_diag. cbn [firstn]. rewrite app_nil_r.
  rewrite concat_app in *. cbn [concat] in *. rewrite !app_length in L.
  destruct (Nat.leb_spec (length (concat a) + length p) (length buf)); [|lia]. f_equal.
  unfold overlay. rewrite !map_app, <- !app_assoc. rewrite skipn_app, skipn_all2 by (rewrite map_length; lia).
  rewrite map_length, Nat.sub_diag. cbn [skipn app]. rewrite firstn_app, firstn_all2 by (rewrite map_length; lia).
  rewrite map_length, Nat.sub_diag. cbn [firstn]. apply app_nil_r.
Qed.

Lemma clean_concat parts : Forall clean parts -> clean (concat parts).
Proof. induction 1; cbn; [constructor|]. apply clean_app'; assumption. Qed.
Lemma clean_blank : clean (lit " "). Proof. repeat constructor; discriminate. Qed.
Lemma strtol_rjust' w ds r : field_ok w ds -> w <= 9 -> nondigit_head r -> strtol (rjust w ds ++ r) = (dec_val ds, w, false).
Proof. intros (D & N & L) W S. apply strtol_rjust; auto. Qed.
Lemma strtod_plain w n r : plain_num w n -> (r = [] \/ exists t, r = " "%char :: t) ->
  strtod (rjust w (num_text n) ++ r) = (DFin (num_val n), w, false).
Proof.
  intros (N & _ & _ & L) S. apply strtod_rjust; auto. destruct S as [->|(t & ->)]; [exact I|apply num_stop_blank'].
Qed.

Section Lines.
  Variables (h : sp3h_src) (H : sp3h_ok h).
  Let s := h_start h.
  Let parts1 : list (list ascii) :=
    [lit "#"; [h_version h]; [h_posvel h]; t_year s; lit " "; rjust 2 (t_month s); lit " "; rjust 2 (t_day s);
     lit " "; rjust 2 (t_hour s); lit " "; rjust 2 (t_min s); lit " "; rjust 11 (num_text (t_sec s)); lit " ";
     rjust 7 (h_nepochs h); lit " "; h_used h; lit " "; h_crd h; lit " "; h_orb h; lit " "; firstn 3 (h_agency h); skipn 3 (h_agency h)].
  Let ws1 := [1;1;1;4;1;2;1;2;1;2;1;2;1;11;1;7;1;5;1;5;1;3;1;3;1].
  Lemma line1_parts : sp3h_line1 h = concat parts1.
  Proof. unfold sp3h_line1, parts1. cbn [concat]. rewrite app_nil_r, firstn_skipn. reflexivity. Qed.
  Lemma widths1 : map (@length ascii) parts1 = ws1.
  Proof.
    destruct H as (_ & _ & (Yd & Yl & _ & (_ & _ & M) & (_ & _ & D) & (_ & _ & Hh) & (_ & _ & Mi) & _ & _ & _ & S11 & _) & _ & _ &
      (_ & _ & NE) & _ & (_ & U) & (_ & C) & (_ & O) & (_ & A) & _).
    unfold parts1, ws1, s. cbn [map]. rewrite !length_rjust' by assumption. rewrite Yl, U, C, O, firstn_length, skipn_length, A. reflexivity.
  Qed.
  Lemma clean1 : clean (sp3h_line1 h).
  Proof.
    destruct H as (V & (PV & _) & (Yd & Yl & _ & (M & _) & (D & _) & (Hh & _) & (Mi & _) & Sc & _) & _ & _ &
      (NE & _) & _ & (U & _) & (C & _) & (O & _) & (A & _) & _).
    unfold sp3h_line1. cbv zeta. pose proof clean_blank.
    repeat (apply clean_app'; [auto using clean_rjust, clean_digits, clean_num|]); auto.
    - repeat constructor; discriminate.
    - destruct V as [->| ->]; repeat constructor; discriminate.
  Qed.
  Lemma line1_length : length (sp3h_line1 h) = 60.
  Proof. rewrite line1_parts, length_concat, widths1. reflexivity. Qed.
  Lemma line1_exact buf : length buf = 85 ->
    sp3_line1 (overlay (sp3h_line1 h) buf) =
      Val (inr (h_version h, time_of s, dec_val (h_nepochs h), map Some (h_crd h), map Some (h_orb h), map Some (firstn 3 (h_agency h)))).
  Proof.
    intro Lb. pose proof (clean_nonul _ clean1) as NN. pose proof line1_length as LL. rewrite line1_parts in *.
    pose proof (fun n => cstr_part parts1 ws1 n buf widths1 NN) as A.
    pose proof (fun n p w E W => sub_part parts1 ws1 n p w buf widths1 E W ltac:(lia)) as B.
    pose proof H as (V & _ & (Yd & Yl & Y0 & M & D & Hh & Mi & Sc & Ss & Se & S11 & _) & M0 & D0 & NE & NE0 & _ & (_ & C5) & (_ & O3) & (_ & A4) & _).
    assert (Yn : t_year s <> []) by (intro Q; unfold s in Q; rewrite Q in Yl; discriminate).
    assert (FYok : field_ok 4 (t_year s)) by (repeat split; [exact Yd|exact Yn|unfold s; lia]).
    fold s in M, D, Hh, Mi, M0, D0, Y0, Sc, Ss, Se, S11.
    assert (V' : negb (ceqb (h_version h) "c"%char) && negb (ceqb (h_version h) "d"%char) = false) by (destruct V as [->| ->]; reflexivity).
    assert (EY : rjust 4 (t_year s) = t_year s) by (unfold rjust, s; rewrite Yl; reflexivity).
    set (line := overlay (concat parts1) buf).
    assert (A3 : cstr line 3 = Val (rjust 4 (t_year s) ++ concat (skipn 4 parts1))) by (rewrite EY; exact (A 3)).
    assert (A8 : cstr line 8 = Val (rjust 2 (t_month s) ++ concat (skipn 6 parts1))) by exact (A 5).
    assert (A11 : cstr line 11 = Val (rjust 2 (t_day s) ++ concat (skipn 8 parts1))) by exact (A 7).
    assert (A14 : cstr line 14 = Val (rjust 2 (t_hour s) ++ concat (skipn 10 parts1))) by exact (A 9).
    assert (A17 : cstr line 17 = Val (rjust 2 (t_min s) ++ concat (skipn 12 parts1))) by exact (A 11).
    assert (A20 : cstr line 20 = Val (rjust 11 (num_text (t_sec s)) ++ concat (skipn 14 parts1))) by exact (A 13).
    assert (A32 : cstr line 32 = Val (rjust 7 (h_nepochs h) ++ concat (skipn 16 parts1))) by exact (A 15).
    assert (B46 : sub_at line 46 5 = Val (map Some (h_crd h))) by exact (B 19 (h_crd h) 5 eq_refl C5).
    assert (B52 : sub_at line 52 3 = Val (map Some (h_orb h))) by exact (B 21 (h_orb h) 3 eq_refl O3).
    assert (B56 : sub_at line 56 3 = Val (map Some (firstn 3 (h_agency h)))).
    { exact (B 23 (firstn 3 (h_agency h)) 3 eq_refl ltac:(rewrite firstn_length, A4; reflexivity)). }
    unfold sp3_line1. assert (R0 : rd line 0 = Val "#"%char) by (apply rd_overlay; reflexivity). rewrite R0. cbn [bind]. rewrite ceqb_refl. cbn [negb].
    assert (R1 : rd line 1 = Val (h_version h)) by (apply rd_overlay; reflexivity). rewrite R1. cbn [bind]. rewrite V'.
    unfold strtol_at, strtod_at.
    rewrite A3. cbn [bind]. rewrite strtol_rjust' by (try lia; first [exact FYok|reflexivity]). rewrite (field_i32 4 _ ltac:(lia) FYok).
    destruct (Z.eqb_spec (dec_val (t_year s)) 0) as [Q|_]; [contradiction|]. cbn [orb].
    rewrite A8. cbn [bind]. rewrite strtol_rjust' by (try lia; first [exact M|reflexivity]). rewrite (field_i32 2 _ ltac:(lia) M).
    destruct (Z.eqb_spec (dec_val (t_month s)) 0) as [Q|_]; [contradiction|]. cbn [orb].
    rewrite A11. cbn [bind]. rewrite strtol_rjust' by (try lia; first [exact D|reflexivity]). rewrite (field_i32 2 _ ltac:(lia) D).
    destruct (Z.eqb_spec (dec_val (t_day s)) 0) as [Q|_]; [contradiction|]. cbn [orb].
    rewrite A14. cbn [bind]. rewrite strtol_rjust' by (try lia; first [exact Hh|reflexivity]). rewrite (field_i32 2 _ ltac:(lia) Hh). cbn [orb Nat.eqb].
    rewrite A17. cbn [bind]. rewrite strtol_rjust' by (try lia; first [exact Mi|reflexivity]). rewrite (field_i32 2 _ ltac:(lia) Mi). cbn [orb Nat.eqb].
    rewrite A20. cbn [bind]. rewrite strtod_plain; [|exact (conj Sc (conj Ss (conj Se S11)))|right; eexists; reflexivity].
    rewrite A32. cbn [bind]. rewrite strtol_rjust' by (try lia; first [exact NE|reflexivity]). rewrite (field_i32 7 _ ltac:(lia) NE).
    destruct (Z.eqb_spec (dec_val (h_nepochs h)) 0) as [Q|_]; [contradiction|]. cbn [orb].
    rewrite B46, B52, B56. cbn [bind]. rewrite to_usec_sec by assumption. reflexivity.
  Qed.

  Let parts2 : list (list ascii) :=
    [lit "## "; rjust 4 (h_week h); lit " "; rjust 15 (num_text (h_sow h)); lit " ";
     rjust 14 (num_text (h_interval h)); lit " "; rjust 5 (h_mjd h); lit " "; rjust 15 (num_text (h_frac h))].
  Let ws2 := [3;4;1;15;1;14;1;5;1;15].
  Lemma line2_parts : sp3h_line2 h = concat parts2.
  Proof. unfold sp3h_line2, parts2. cbn [concat]. rewrite app_nil_r. reflexivity. Qed.
  Ltac open2 := destruct H as (_ & _ & _ & _ & _ & _ & _ & _ & _ & _ & _ & Wk & Wk0 & Sw & Iv & IvL & Mj & Mj0 & Fr & _).
  Lemma widths2 : map (@length ascii) parts2 = ws2.
  Proof.
    open2. destruct Wk as (_ & _ & ?), Sw as (_ & _ & _ & ?), Iv as (_ & _ & _ & ?), Mj as (_ & _ & ?), Fr as (_ & _ & _ & ?).
    unfold parts2, ws2. cbn [map]. rewrite !length_rjust' by assumption. reflexivity.
  Qed.
  Lemma clean2 : clean (sp3h_line2 h).
  Proof.
    open2. destruct Wk as (? & _), Sw as (? & _), Iv as (? & _), Mj as (? & _), Fr as (? & _).
    pose proof clean_blank.
    assert (clean (lit "## ")) by (repeat constructor; discriminate).
    rewrite line2_parts. apply clean_concat. unfold parts2.
    repeat (apply Forall_cons; [auto using clean_rjust, clean_digits, clean_num|]). apply Forall_nil.
  Qed.
  Lemma line2_length : length (sp3h_line2 h) = 60.
  Proof. rewrite line2_parts, length_concat, widths2. reflexivity. Qed.
  Lemma line2_exact wsow as_mjd buf : dates_agree wsow as_mjd h -> length buf = 85 ->
    sp3_line2 wsow as_mjd (overlay (sp3h_line2 h) buf) (time_of s) = Val (inr (Qfloor (b64 (num_val (h_interval h) * 1000000)), false)).
  Proof.
    intros Hd Lb. destruct (Hd (time_of s) (time_of_is s)) as (E1 & E2 & E3).
    pose proof (clean_nonul _ clean2) as NN. pose proof line2_length as LL. rewrite line2_parts in *.
    pose proof (fun n => cstr_part parts2 ws2 n buf widths2 NN) as A.
    pose proof H as H'. open2.
    set (line := overlay (concat parts2) buf).
    assert (A3 : cstr line 3 = Val (rjust 4 (h_week h) ++ concat (skipn 2 parts2))) by exact (A 1).
    assert (A8 : cstr line 8 = Val (rjust 15 (num_text (h_sow h)) ++ concat (skipn 4 parts2))) by exact (A 3).
    assert (A24 : cstr line 24 = Val (rjust 14 (num_text (h_interval h)) ++ concat (skipn 6 parts2))) by exact (A 5).
    assert (A39 : cstr line 39 = Val (rjust 5 (h_mjd h) ++ concat (skipn 8 parts2))) by exact (A 7).
    assert (A45 : cstr line 45 = Val (rjust 15 (num_text (h_frac h)) ++ concat (skipn 10 parts2))) by exact (A 9).
    unfold sp3_line2. assert (R0 : rd line 0 = Val "#"%char) by (apply rd_overlay; reflexivity). rewrite R0. cbn [bind]. rewrite ceqb_refl. cbn [negb].
    assert (R1 : rd line 1 = Val "#"%char) by (apply rd_overlay; reflexivity). rewrite R1. cbn [bind]. rewrite ceqb_refl. cbn [negb].
    unfold strtol_at, strtod_at.
    rewrite A3. cbn [bind]. rewrite strtol_rjust' by (try lia; first [exact Wk|reflexivity]). rewrite (field_i32 4 _ ltac:(lia) Wk).
    destruct (Z.eqb_spec (dec_val (h_week h)) 0) as [Q|_]; [contradiction|]. cbn [orb].
    rewrite A8. cbn [bind]. rewrite strtod_plain; [|exact Sw|right; eexists; reflexivity].
    rewrite E1, Z.eqb_refl. cbn [negb orb]. unfold deqb at 1. rewrite (proj2 (Qeq_bool_iff _ _) E2). cbn [negb].
    rewrite A24. cbn [bind]. rewrite strtod_plain; [|exact Iv|right; eexists; reflexivity].
    rewrite to_usec_int; [|apply Iv|apply Iv|apply Iv|exact IvL]. cbn [bind].
    rewrite A39. cbn [bind]. rewrite strtol_rjust' by (try lia; first [exact Mj|reflexivity]). rewrite (field_i32 5 _ ltac:(lia) Mj).
    destruct (Z.eqb_spec (dec_val (h_mjd h)) 0) as [Q|_]; [contradiction|]. cbn [orb].
    rewrite A45. cbn [bind]. rewrite strtod_plain; [|exact Fr|left; reflexivity].
    cbn [dadd]. rewrite dfin_fin.
    2:{ apply (Qle_trans _ (2 ^ 700 + inject_Z 100000)); [|vm_compute; discriminate]. eapply Qle_trans; [apply Qabs_triangle|]. apply Qplus_le_compat; [apply num_val_range, Fr|].
        destruct Mj as (Dm & _ & Lm). pose proof (dec_val_nonneg _ Dm). pose proof (dec_val_bound _ Dm) as Bm. assert (10 ^ Z.of_nat (length (h_mjd h)) <= 10 ^ 5)%Z by (apply Z.pow_le_mono_r; lia).
        rewrite Qabs_pos by (change 0%Q with (inject_Z 0); rewrite <- Zle_Qle; lia). rewrite <- Zle_Qle. lia. }
    unfold deqb. rewrite (proj2 (Qeq_bool_iff _ _)); [reflexivity|]. symmetry. exact E3.
  Qed.
End Lines.

(** ** the lines after the second *)
Definition hline (l : list ascii) : Prop := clean l /\ length l <= 84.
Lemma get_hline st buf l tail : hline l -> at_rest st (text_of [l] ++ tail) -> length buf = 85 ->
  exists st', getline st buf 85 = Val (st', overlay l buf) /\ at_rest st' tail /\ sdata st' = sdata st /\
    spos st' = spos st + length (text_of [l]) /\ length (overlay l buf) = 85.
Proof.
  intros [C L] R Lb. assert (E : text_of [l] ++ tail = l ++ NL :: tail) by (cbn; rewrite app_nil_r, <- app_assoc; reflexivity).
  rewrite E in R. destruct (getline_line st buf 85 l tail R (clean_nonl _ C) ltac:(lia) ltac:(lia)) as (st' & G & R' & D & P & _).
  exists st'. split; [exact G|]. split; [exact R'|]. split; [exact D|]. split; [|rewrite overlay_length; lia].
  rewrite P. cbn. rewrite app_nil_r, app_length. cbn. lia.
Qed.
Lemma text_of_app a b : text_of (a ++ b) = text_of a ++ text_of b.
Proof. apply flat_map_app. Qed.
Lemma text_of_cons l ls : text_of (l :: ls) = text_of [l] ++ text_of ls.
Proof. cbn. rewrite app_nil_r. reflexivity. Qed.
Lemma marked m r : clean (lit m) -> length (lit m) = 2 -> rest_ok 82 r -> hline (lit m ++ r).
Proof. intros C L (Cr & Lr). split; [apply clean_app'; assumption|]. rewrite app_length. lia. Qed.
Lemma mark_plus : clean (lit "+ "). Proof. repeat constructor; discriminate. Qed.
Lemma mark_acc : clean (lit "++"). Proof. repeat constructor; discriminate. Qed.
Lemma mark_com : clean (lit "/*"). Proof. repeat constructor; discriminate. Qed.

Definition plus_lines rs := map (fun r => lit "+ " ++ r) rs.
Definition acc_lines rs := map (fun r => lit "++" ++ r) rs.
Definition com_lines rs := map (fun r => lit "/*" ++ r) rs.


(** the buffer holds a line starting with the mark [m] *)
Definition holds (m : string) (line : mem) : Prop := length line = 85 /\ exists r b, line = overlay (lit m ++ r) b.
Ltac take_hline st line HL R L st' G R' D P L' :=
  destruct (get_hline st line _ _ HL R L) as (st' & G & R' & D & P & L').

Lemma plus_exact : forall rs k n line st a tail, Forall (rest_ok 82) rs -> rest_ok 82 a -> holds "+ " line -> S (length rs) < k ->
  at_rest st (text_of (plus_lines rs) ++ text_of [lit "++" ++ a] ++ tail) ->
  exists st' line', sp3_plus k n st line = Val (n + length rs + 2, st', line') /\ holds "++" line' /\
    at_rest st' tail /\ sdata st' = sdata st /\
    spos st' = spos st + length (text_of (plus_lines rs)) + length (text_of [lit "++" ++ a]).
Proof.
  induction rs as [|r rs IH]; intros k n line st a tail Hr Ha (Lb & r0 & b & E) Hk R; (destruct k as [|k]; [cbn in Hk; lia|]).
  - cbn [sp3_plus]. assert (B : strncmp_lit line 0 "+ " 2 = Val true) by (rewrite E; reflexivity). rewrite B. cbn [bind].
    change SP3_HEADER_CHARS with 85. cbn [plus_lines map text_of flat_map] in R.
    take_hline st line (marked "++" a mark_acc eq_refl Ha) R Lb st' G R' D P L. rewrite G. cbn [bind fst snd].
    exists st', (overlay (lit "++" ++ a) line). destruct k as [|k]; [cbn in Hk; lia|].
    split; [|split; [split; [exact L|eauto]|split; [exact R'|split; [exact D|]]]].
    2:{ change (text_of (plus_lines [])) with (@nil ascii). cbn [length]. rewrite P. lia. }
    cbn [sp3_plus]. change (strncmp_lit (overlay (lit "++" ++ a) line) 0 "+ " 2) with (Val false). cbn [bind length]. do 3 f_equal. lia.
  - inversion Hr as [|? ? Hr0 Hrs]; subst. cbn [sp3_plus].
    change (strncmp_lit (overlay (lit "+ " ++ r0) b) 0 "+ " 2) with (Val true). cbn [bind].
    change SP3_HEADER_CHARS with 85. cbn [plus_lines map] in R. rewrite text_of_cons, <- app_assoc in R.
    take_hline st (overlay (lit "+ " ++ r0) b) (marked "+ " r mark_plus eq_refl Hr0) R Lb st' G R' D P L. rewrite G. cbn [bind fst snd].
    destruct (IH k (S n) (overlay (lit "+ " ++ r) (overlay (lit "+ " ++ r0) b)) st' a tail Hrs Ha) as (st2 & l2 & E2 & Hl2 & R2 & D2 & P2).
    { split; [exact L|eauto]. }
    { cbn in Hk. lia. }
    { exact R'. }
    exists st2, l2. split; [rewrite E2; cbn [length]; do 3 f_equal; lia|]. split; [exact Hl2|]. split; [exact R2|]. split; [congruence|].
    rewrite P2, P. cbn [plus_lines map]. rewrite (text_of_cons _ (map _ rs)), app_length. fold (plus_lines rs). lia.
Qed.

Lemma acc_exact : forall rs k n line st r c tail, Forall (rest_ok 82) rs -> rest_ok 82 r -> holds "++" line -> S (length rs) < k ->
  c <> "+"%char -> at_rest st (text_of (acc_lines (r :: rs)) ++ c :: tail) ->
  exists st' line', sp3_plusplus k n st line = Val (n + length rs + 1, st', line') /\ holds "++" line' /\
    at_rest st' (c :: tail) /\ sdata st' = sdata st /\ spos st' = spos st + length (text_of (acc_lines (r :: rs))).
Proof.
  induction rs as [|r' rs IH]; intros k n line st r c tail Hr Ha (Lb & r0 & b & E) Hk Hc R; (destruct k as [|k]; [cbn in Hk; lia|]).
  - cbn [sp3_plusplus]. assert (B : strncmp_lit line 0 "++" 2 = Val true) by (rewrite E; reflexivity). rewrite B. cbn [bind].
    change SP3_HEADER_CHARS with 85. change (acc_lines [r]) with [lit "++" ++ r] in *.
    take_hline st line (marked "++" r mark_acc eq_refl Ha) R Lb st' G R' D P L. rewrite G. cbn [bind fst snd].
    rewrite (peek_other st' _ c tail R' eq_refl). rewrite (proj2 (ceqb_neq c "+"%char) Hc). cbn [length].
    exists st', (overlay (lit "++" ++ r) line).
    split; [do 3 f_equal; lia|]. split; [split; [exact L|eauto]|]. split; [exact R'|]. split; [exact D|exact P].
  - inversion Hr as [|? ? Hr0 Hrs]; subst. cbn [sp3_plusplus].
    change (strncmp_lit (overlay (lit "++" ++ r0) b) 0 "++" 2) with (Val true). cbn [bind].
    change SP3_HEADER_CHARS with 85. change (acc_lines (r :: r' :: rs)) with ((lit "++" ++ r) :: acc_lines (r' :: rs)) in *.
    rewrite text_of_cons, <- app_assoc in R.
    take_hline st (overlay (lit "++" ++ r0) b) (marked "++" r mark_acc eq_refl Ha) R Lb st' G R' D P L. rewrite G. cbn [bind fst snd].
    assert (Pk : exists t, text_of (acc_lines (r' :: rs)) ++ c :: tail = "+"%char :: t) by (eexists; reflexivity).
    destruct Pk as (t & Et). rewrite (peek_other st' _ "+"%char t R' Et). rewrite ceqb_refl.
    destruct (IH k (S n) (overlay (lit "++" ++ r) (overlay (lit "++" ++ r0) b)) st' r' c tail Hrs Hr0) as (st2 & l2 & E2 & Hl2 & R2 & D2 & P2).
    { split; [exact L|eauto]. }
    { cbn in Hk. lia. }
    { exact Hc. }
    { exact R'. }
    exists st2, l2. split; [rewrite E2; cbn [length]; do 3 f_equal; lia|]. split; [exact Hl2|]. split; [exact R2|]. split; [congruence|].
    rewrite P2, P, (text_of_cons (lit "++" ++ r) (acc_lines (r' :: rs))), app_length. lia.
Qed.

Lemma percent_exact st line m c r tail : lit m = ["%"%char; c] -> c <> NUL /\ c <> NL -> rest_ok 82 r -> length line = 85 ->
  at_rest st (text_of [lit m ++ r] ++ tail) ->
  exists st', sp3_percent st line c = Val (true, st', overlay (lit m ++ r) line) /\ length (overlay (lit m ++ r) line) = 85 /\
    at_rest st' tail /\ sdata st' = sdata st /\ spos st' = spos st + length (text_of [lit m ++ r]).
Proof.
  intros Em Hc Hr Lb R.
  assert (Cm : clean (lit m)) by (rewrite Em; repeat constructor; try discriminate; apply Hc).
  take_hline st line (marked m r Cm ltac:(rewrite Em; reflexivity) Hr) R Lb st' G R' D P L.
  exists st'. split; [|auto]. unfold sp3_percent. change SP3_HEADER_CHARS with 85. rewrite G. cbn [bind fst snd].
  rewrite Em. rewrite (rd_overlay (["%"%char; c] ++ r) line 0 "%"%char) by reflexivity. cbn [bind].
  rewrite (rd_overlay (["%"%char; c] ++ r) line 1 c) by reflexivity. cbn [bind]. rewrite !ceqb_refl. reflexivity.
Qed.

Lemma comments_exact : forall rs k line st c tail, Forall (rest_ok 82) rs -> length line = 85 -> length rs <= k ->
  c <> "/"%char -> at_rest st (text_of (com_lines rs) ++ c :: tail) ->
  exists st' x, peek st = (st, Some x) /\ sp3_comments k st (Some x) line = Val (0%Z, st') /\
    at_rest st' (c :: tail) /\ sdata st' = sdata st /\ spos st' = spos st + length (text_of (com_lines rs)).
Proof.
  induction rs as [|r rs IH]; intros k line st c tail Hr Lb Hk Hc R.
  - exists st, c. cbn [com_lines map text_of flat_map app] in R. split; [exact (peek_other st _ c tail R eq_refl)|].
    assert (E : sp3_comments k st (Some c) line = Val (0%Z, st)) by (destruct k; cbn [sp3_comments]; rewrite (proj2 (ceqb_neq c "/"%char) Hc); reflexivity).
    rewrite E. cbn. rewrite Nat.add_0_r. auto.
  - inversion Hr as [|? ? Hr0 Hrs]; subst. change (com_lines (r :: rs)) with ((lit "/*" ++ r) :: com_lines rs) in *.
    assert (Pk : exists t, text_of ((lit "/*" ++ r) :: com_lines rs) ++ c :: tail = "/"%char :: t) by (eexists; reflexivity).
    destruct Pk as (t & Et). pose proof (peek_other st _ "/"%char t R Et) as P0.
    rewrite text_of_cons, <- app_assoc in R.
    take_hline st line (marked "/*" r mark_com eq_refl Hr0) R Lb st' G R' D P L.
    destruct k as [|k]; [cbn in Hk; lia|].
    destruct (IH k (overlay (lit "/*" ++ r) line) st' c tail Hrs L ltac:(cbn in Hk; lia) Hc R') as (st2 & x & Px & E2 & R2 & D2 & P2).
    exists st2, "/"%char. split; [exact P0|]. split.
    + cbn [sp3_comments]. rewrite ceqb_refl. change SP3_HEADER_CHARS with 85. rewrite G. cbn [bind fst snd].
      rewrite (rd_overlay (lit "/*" ++ r) line 1 "*"%char) by reflexivity. cbn [bind]. rewrite ceqb_refl. cbn [negb]. rewrite Px. exact E2.
    + split; [exact R2|]. split; [congruence|]. rewrite P2, P, (text_of_cons (lit "/*" ++ r) (com_lines rs)), app_length. lia.
Qed.

Lemma at_rest_open d : at_rest (open_stream d) d.
Proof. split; reflexivity. Qed.
Lemma uninit_length n : length (uninit n) = n.
Proof. apply repeat_length. Qed.

Theorem sp3_header_exact wsow as_mjd h c tail : sp3h_ok h -> dates_agree wsow as_mjd h -> c <> "/"%char ->
  exists g st, sp3_read_header wsow as_mjd (sp3h_text h ++ c :: tail) = Val (inr (g, st)) /\
    is_header g h (firstn 3 (h_agency h)) /\ at_rest st (c :: tail) /\ sdata st = sp3h_text h ++ c :: tail.
Proof.
  intros H Hd Hc. pose proof H as (_ & _ & _ & _ & _ & _ & _ & _ & _ & _ & _ & _ & _ & _ & _ & _ & _ & _ & _ &
    NS & NS0 & Ids & HP & HA2 & HA & CT & TS & CR & C2 & F1 & F2 & I1 & I2 & HC & Tot).
  set (d := sp3h_text h ++ c :: tail). set (st0 := open_stream d).
  destruct (h_acc h) as [|a1 [|a2 accs]] eqn:EA; [cbn in HA2; lia|cbn in HA2; lia|].
  inversion HA as [|? ? Ha1 HA']; subst. inversion HA' as [|? ? Ha2 Haccs]; subst.
  set (l3 := lit "+  " ++ rjust 3 (h_nsats h) ++ lit " " ++ h_ids h).
  set (lc := lit "%c" ++ h_ctype h ++ h_tsys h ++ h_crest h).
  set (T10 := c :: tail).
  set (T9 := text_of (com_lines (h_comments h)) ++ T10).
  set (T8 := text_of [lit "%i" ++ h_i2 h] ++ T9). set (T7 := text_of [lit "%i" ++ h_i1 h] ++ T8).
  set (T6 := text_of [lit "%f" ++ h_f2 h] ++ T7). set (T5 := text_of [lit "%f" ++ h_f1 h] ++ T6).
  set (T4 := text_of [lit "%c" ++ h_c2 h] ++ T5). set (T3 := text_of [lc] ++ T4).
  set (T2 := text_of (acc_lines (a2 :: accs)) ++ T3). set (T1 := text_of [lit "++" ++ a1] ++ T2).
  assert (E0 : d = text_of [sp3h_line1 h] ++ text_of [sp3h_line2 h] ++ text_of [l3] ++ text_of (plus_lines (h_plus h)) ++ T1).
  { unfold d, sp3h_text, sp3h_lines, T1, T2, T3, T4, T5, T6, T7, T8, T9, T10, acc_lines, plus_lines, com_lines, l3, lc. rewrite EA.
    unfold text_of. cbn [map]. rewrite !flat_map_app. cbn [flat_map]. rewrite ?flat_map_app. cbn [flat_map].
    rewrite ?app_nil_r, <- ?app_assoc. reflexivity. }
  assert (HL1 : hline (sp3h_line1 h)) by (split; [apply clean1; exact H|rewrite line1_length by exact H; lia]).
  assert (HL2 : hline (sp3h_line2 h)) by (split; [apply clean2; exact H|rewrite line2_length by exact H; lia]).
  assert (HL3 : hline l3).
  { destruct NS as (Nd & _ & Nl), Ids as (Ic & Il). split.
    - apply clean_app'; [repeat constructor; discriminate|]. apply clean_app'; [auto using clean_rjust, clean_digits|].
      apply clean_app'; [apply clean_blank|exact Ic].
    - unfold l3. rewrite !app_length, length_rjust' by exact Nl. cbn. lia. }
  assert (HLc : hline lc /\ rest_ok 82 (h_ctype h ++ h_tsys h ++ h_crest h)).
  { destruct CT as (Cc & Cl), TS as (Tc & Tl), CR as (Rc & Rl).
    assert (Q : rest_ok 82 (h_ctype h ++ h_tsys h ++ h_crest h)).
    { split; [repeat (apply clean_app'; [assumption|]); assumption|]. rewrite !app_length. lia. }
    split; [|exact Q]. apply marked; [repeat constructor; discriminate|reflexivity|exact Q]. }
  pose proof (at_rest_open d) as R0. fold st0 in R0. rewrite E0 in R0.
  destruct (get_hline st0 (uninit 85) _ _ HL1 R0 (uninit_length 85)) as (st1 & G1 & R1 & D1 & P1 & L1).
  destruct (get_hline st1 _ _ _ HL2 R1 L1) as (st2 & G2 & R2 & D2 & P2 & L2).
  destruct (get_hline st2 _ _ _ HL3 R2 L2) as (st3 & G3 & R3 & D3 & P3 & L3).
  set (b1 := overlay (sp3h_line1 h) (uninit 85)) in *. set (b2 := overlay (sp3h_line2 h) b1) in *. set (b3 := overlay l3 b2) in *.
  destruct (plus_exact (h_plus h) 999 0 b3 st3 a1 T2 HP Ha1) as (st4 & b4 & E4 & H4 & R4 & D4 & P4).
  { split; [exact L3|]. exists (lit " " ++ rjust 3 (h_nsats h) ++ lit " " ++ h_ids h), b2. reflexivity. }
  { lia. }
  { exact R3. }
  assert (ET3 : exists t, T3 = "%"%char :: t) by (eexists; reflexivity). destruct ET3 as (t3 & ET3).
  assert (R4' : at_rest st4 (text_of (acc_lines (a2 :: accs)) ++ "%"%char :: t3)) by (rewrite <- ET3; exact R4).
  destruct (acc_exact accs (999 - (0 + length (h_plus h) + 2)) (0 + length (h_plus h) + 2) b4 st4 a2 "%"%char t3 Haccs Ha2 H4)
    as (st5 & b5 & E5 & (L5 & _) & R5 & D5 & P5).
  { cbn [length] in Tot. lia. }
  { discriminate. }
  { exact R4'. }
  rewrite <- ET3 in R5.
  assert (NC : "c"%char <> NUL /\ "c"%char <> NL) by (split; discriminate).
  assert (NF : "f"%char <> NUL /\ "f"%char <> NL) by (split; discriminate).
  assert (NI : "i"%char <> NUL /\ "i"%char <> NL) by (split; discriminate).
  destruct (percent_exact st5 b5 "%c" "c"%char _ T4 eq_refl NC (proj2 HLc) L5 R5) as (st6 & E6 & L6 & R6 & D6 & P6).
  destruct (percent_exact st6 _ "%c" "c"%char _ T5 eq_refl NC C2 L6 R6) as (st7 & E7 & L7 & R7 & D7 & P7).
  destruct (percent_exact st7 _ "%f" "f"%char _ T6 eq_refl NF F1 L7 R7) as (st8 & E8 & L8 & R8 & D8 & P8).
  destruct (percent_exact st8 _ "%f" "f"%char _ T7 eq_refl NF F2 L8 R8) as (st9 & E9 & L9 & R9 & D9 & P9).
  destruct (percent_exact st9 _ "%i" "i"%char _ T8 eq_refl NI I1 L9 R9) as (st10 & E10 & L10 & R10 & D10 & P10).
  destruct (percent_exact st10 _ "%i" "i"%char _ T9 eq_refl NI I2 L10 R10) as (st11 & E11 & L11 & R11 & D11 & P11).
  match type of L11 with length ?b = 85 => set (b11 := b) in * end.
  set (n2 := 0 + length (h_plus h) + 2 + length accs + 1) in *.
  destruct (comments_exact (h_comments h) (1000 - n2) b11 st11 c tail HC L11) as (st12 & x & Px & E12 & R12 & D12 & P12).
  { unfold n2. cbn [length] in Tot. lia. }
  { exact Hc. }
  { exact R11. }
  assert (Cl3 : cstr b3 3 = Val (rjust 3 (h_nsats h) ++ lit " " ++ h_ids h)).
  { unfold b3, l3. apply cstr_at; [reflexivity|]. apply clean_nonul. apply HL3. }
  exists (mkSp3Hdr (h_version h) (time_of (h_start h)) (dec_val (h_nepochs h)) (dec_val (h_nsats h)) (map Some (h_crd h)) (map Some (h_orb h))
    (map Some (firstn 3 (h_agency h))) (map Some (h_tsys h)) (Qfloor (b64 (num_val (h_interval h) * 1000000))) (Some (length (sp3h_text h)))), st12.
  assert (Sp : spos st12 = length (sp3h_text h)).
  { assert (Q : length d = length (sp3h_text h) + S (length tail)) by (unfold d; rewrite app_length; reflexivity).
    rewrite E0 in Q. unfold T1, T2, T3, T4, T5, T6, T7, T8, T9, T10 in Q. rewrite !app_length in Q. cbn [length] in Q.
    change (spos st0) with 0 in P1. fold lc in P6. lia. }
  split; [|split; [|split; [exact R12|]]].
  2:{ repeat split. }
  2:{ rewrite D12, D11, D10, D9, D8, D7, D6, D5, D4, D3, D2, D1. reflexivity. }
  unfold sp3_read_header. change SP3_HEADER_CHARS with 85. fold d. fold st0. rewrite G1. cbn [bind fst snd].
  unfold b1 at 1. rewrite line1_exact by (try exact H; apply uninit_length). cbn [bind].
  rewrite G2. cbn [bind fst snd]. unfold b2 at 1. rewrite (line2_exact h H wsow as_mjd b1 Hd L1). cbn [bind].
  rewrite G3. cbn [bind fst snd]. unfold b3 at 1. rewrite (rd_overlay l3 b2 0 "+"%char) by reflexivity. cbn [bind]. rewrite ceqb_refl. cbn [negb].
  unfold b3 at 1. rewrite (rd_overlay l3 b2 1 " "%char) by reflexivity. cbn [bind]. rewrite ceqb_refl. cbn [negb].
  unfold strtol_at. rewrite Cl3. cbn [bind]. rewrite strtol_rjust' by (try lia; first [exact NS|reflexivity]).
  rewrite (field_i32 3 _ ltac:(lia) NS). destruct (Z.eqb_spec (dec_val (h_nsats h)) 0) as [Q|_]; [contradiction|]. cbn [orb].
  change (SP3_HEADER_LINES - 1) with 999. rewrite E4. cbn [bind].
  change SP3_HEADER_LINES with 1000. destruct (Nat.leb_spec 1000 (0 + length (h_plus h) + 2)) as [Q|_]; [cbn [length] in Tot; lia|].
  destruct H4 as (L4 & r4 & u4 & B4). rewrite B4 at 1. rewrite (rd_overlay (lit "++" ++ r4) u4 0 "+"%char) by reflexivity. cbn [bind]. rewrite ceqb_refl. cbn [negb].
  rewrite B4 at 1. rewrite (rd_overlay (lit "++" ++ r4) u4 1 "+"%char) by reflexivity. cbn [bind]. rewrite ceqb_refl. cbn [negb].
  change (1000 - 1) with 999. rewrite E5. cbn [bind]. fold n2.
  destruct (Nat.leb_spec 1000 n2) as [Q|_]; [unfold n2 in Q; cbn [length] in Tot; lia|].
  rewrite E6. cbn [bind negb].
  assert (Es : sub_at (overlay (lit "%c" ++ h_ctype h ++ h_tsys h ++ h_crest h) b5) 9 3 = Val (map Some (h_tsys h))).
  { pose proof (sub_part [lit "%c"; h_ctype h; h_tsys h; h_crest h] [2; 7; 3; length (h_crest h)] 2 (h_tsys h) 3 b5) as Q.
    cbn [concat] in Q. rewrite app_nil_r in Q. apply Q.
    - cbn [map]. rewrite (proj2 CT), (proj2 TS). reflexivity.
    - reflexivity.
    - apply TS.
    - destruct (proj1 HLc) as (_ & Q'). unfold lc in Q'. lia. }
  rewrite Es. cbn [bind]. rewrite E7. cbn [bind negb]. rewrite E8. cbn [bind negb]. rewrite E9. cbn [bind negb]. rewrite E10. cbn [bind negb].
  rewrite E11. cbn [bind negb]. rewrite Px, E12. cbn [bind Z.eqb negb].
  unfold tellg. destruct R12 as (Gd & _). rewrite Gd, Sp. reflexivity.
Qed.
(** any content: reading the header never throws, and ends *)
Lemma calm_sub line k n : ProofObsMisc.calm (sub_at line k n).
Proof. unfold sub_at. destruct (_ <=? _); exact I. Qed.
Ltac calm1 :=
  repeat match goal with
  | |- ProofObsMisc.calm (bind _ _) => apply ProofObsMisc.calm_bind; [|let a := fresh in intro a; try (destruct a as [[? ?] ?])]
  | |- ProofObsMisc.calm (rd _ _) => apply ProofObsMisc.calm_rd
  | |- ProofObsMisc.calm (cstr _ _) => apply ProofObsMisc.calm_cstr
  | |- ProofObsMisc.calm (getline _ _ _) => apply ProofObsMisc.calm_getline
  | |- ProofObsMisc.calm (strncmp_lit _ _ _ _) => apply ProofObsMisc.calm_strncmp_lit
  | |- ProofObsMisc.calm (sub_at _ _ _) => apply calm_sub
  | |- ProofObsMisc.calm (to_usec _) => apply calm_usec
  | |- ProofObsMisc.calm (if ?b then _ else _) => destruct b
  | |- ProofObsMisc.calm (Val _) => exact I
  | |- ProofObsMisc.calm (let '(_, _) := ?x in _) => destruct x
  end.
Lemma calm_line1 line : ProofObsMisc.calm (sp3_line1 line).
Proof. unfold sp3_line1, strtol_at, strtod_at. calm1. Qed.
Lemma calm_line2 w m line t : ProofObsMisc.calm (sp3_line2 w m line t).
Proof. unfold sp3_line2, strtol_at, strtod_at. calm1. Qed.
Lemma calm_plus : forall k n st line, ProofObsMisc.calm (sp3_plus k n st line).
Proof. induction k as [|k IH]; intros; cbn [sp3_plus]; [exact I|]. calm1. apply IH. Qed.
Lemma calm_plusplus : forall k n st line, ProofObsMisc.calm (sp3_plusplus k n st line).
Proof. induction k as [|k IH]; intros; cbn [sp3_plusplus]; [exact I|]. calm1. apply IH. Qed.
Lemma calm_percent st line c : ProofObsMisc.calm (sp3_percent st line c).
Proof. unfold sp3_percent. calm1. Qed.
Lemma calm_comments : forall k st c line, ProofObsMisc.calm (sp3_comments k st c line).
Proof. induction k as [|k IH]; intros; cbn [sp3_comments]; calm1. apply IH. Qed.
Theorem sp3_header_calm w m d : ProofObsMisc.calm (sp3_read_header w m d).
Proof.
  unfold sp3_read_header, strtol_at.
  repeat (calm1; match goal with
  | |- ProofObsMisc.calm (sp3_line1 _) => apply calm_line1
  | |- ProofObsMisc.calm (sp3_line2 _ _ _ _) => apply calm_line2
  | |- ProofObsMisc.calm (sp3_plus _ _ _ _) => apply calm_plus
  | |- ProofObsMisc.calm (sp3_plusplus _ _ _ _) => apply calm_plusplus
  | |- ProofObsMisc.calm (sp3_percent _ _ _) => apply calm_percent
  | |- ProofObsMisc.calm (sp3_comments _ _ _ _) => apply calm_comments
  | |- ProofObsMisc.calm (match ?x with inl _ => _ | inr _ => _ end) => destruct x
  | |- ProofObsMisc.calm (match ?x with pair _ _ => _ end) => destruct x
  end).
Qed.
