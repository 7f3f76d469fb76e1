(** ProofNavHeader: the header of a navigation file (for C65) *)
From Verif Require Import Base BaseLemmas CNum CNumLemmas Stream ModelSatsys ModelNvarstr ModelNav SpecText SpecNum SpecObs SpecHeader SpecNav
  ProofText ProofNum ProofStream ProofEpoch ProofObsTypes ProofObsRec ProofHeader ProofObsMisc ProofNav ProofNavBlock ProofNavFile ProofNavFind ProofNavList.

Lemma end_clean j : clean (end_line j).
Proof. apply hl_clean; [constructor|]. apply lit_clean. reflexivity. Qed.
Lemma end_len j : length (end_line j) = 73 + j.
Proof. unfold end_line. rewrite hl_length by (cbn; lia). reflexivity. Qed.
Lemma end_labelled j : labelled "END OF HEADER" (end_line j) = true.
Proof. unfold end_line. rewrite labelled_hl by (cbn; lia). reflexivity. Qed.

Definition plain (l : list ascii) : Prop := clean l /\ 60 <= length l <= 84 /\ labelled "END OF HEADER" l = false.
Lemma eoh_test l buf : clean l -> 60 <= length l -> strncmp_lit (overlay l buf) 60 "END OF HEADER" 13 = Val (labelled "END OF HEADER" l).
Proof. intros C L. apply labelled_overlay; [reflexivity|apply END_nonul|apply clean_nul, C|exact L]. Qed.
(** the buffer holds [l]; what follows is [ls], then the end line *)
Lemma hloop_exact : forall ls k st l buf j tail, plain l -> Forall plain ls -> j <= 11 -> length ls + 1 < k -> length buf = 85 ->
  at_rest st (text_of ls ++ end_line j ++ NL :: tail) ->
  exists st', nav_header_loop k st (overlay l buf) = Val (Some st') /\ at_rest st' tail /\ sdata st' = sdata st /\
    spos st' = spos st + length (text_of ls) + length (end_line j) + 1.
Proof.
  induction ls as [|l2 ls IH]; intros k st l buf j tail (C & L & E) F Hj Hk Lb At.
  - destruct k as [|[|k]]; [lia|cbn in Hk; lia|]. cbn [nav_header_loop]. rewrite eoh_test, E by (auto; lia). cbn [bind].
    cbn [text_of flat_map app] in At.
    destruct (getline_line st (overlay l buf) 85 (end_line j) tail At (clean_nl _ (end_clean j)) ltac:(rewrite end_len; lia)
                ltac:(rewrite overlay_length; lia)) as (st1 & G & A & D & P & _).
    rewrite G. cbn [bind]. rewrite eoh_test by (first [apply end_clean|rewrite end_len; lia]). rewrite end_labelled. cbn [bind].
    destruct k; (exists st1; split; [reflexivity|]; split; [exact A|]; split; [exact D|]; change (length (text_of [])) with 0; lia).
  - inversion F as [|? ? P2 F2]; subst. destruct k as [|[|k]]; [lia|cbn in Hk; lia|]. cbn [nav_header_loop]. rewrite eoh_test, E by (auto; lia). cbn [bind].
    rewrite text_of_cons' in At. destruct P2 as (C2 & L2 & E2).
    destruct (getline_line st (overlay l buf) 85 l2 _ At (clean_nl _ C2) ltac:(lia) ltac:(rewrite overlay_length; lia)) as (st1 & G & A & D & P & _).
    rewrite G. cbn [bind]. destruct (IH (S k) st1 l2 (overlay l buf) j tail) as (st' & E' & A' & D' & P'); auto.
    { split; auto. } { cbn in Hk; lia. } { rewrite overlay_length; lia. }
    cbn [nav_header_loop] in E'. exists st'. split; [exact E'|]. split; [exact A'|]. split; [congruence|].
    unfold text_of in *. cbn [flat_map]. rewrite !app_length. cbn [length]. lia.
Qed.
Lemma hloop_now k st j buf : nav_header_loop k st (overlay (end_line j) buf) = Val (Some st).
Proof. destruct k; cbn [nav_header_loop]; rewrite eoh_test, end_labelled by (first [apply end_clean|rewrite end_len; lia]); reflexivity. Qed.

Lemma nav_first_facts v mid letter sys post : first_line_ok v mid letter sys post ->
  let l := nav_first v mid letter post in
  length l = 41 + length post /\ clean l /\ strtof l = (DFin (num_flt v), 9, false) /\
  nth_error l 20 = Some "N"%char /\ nth_error l 40 = Some letter.
Proof.
  intros (Hv & Hne & Hv9 & Hmid & Lmid & Hlet & Hpost & Lpost). cbv zeta. unfold nav_first. split; [|split; [|split; [|split]]].
  - rewrite !app_length, length_rjust by exact Hv9. unfold blanks. rewrite repeat_length. cbn [length]. rewrite app_length. cbn [length]. lia.
  - apply clean_app. split; [apply rjust_clean, num_text_clean; exact Hv|].
    apply clean_app. split; [apply clean_blanks|]. constructor; [split; discriminate|].
    apply clean_app. split; [exact Hmid|]. constructor; [eapply letters_clean; eauto|exact Hpost].
  - unfold rjust. rewrite <- app_assoc. rewrite strtof_text; [|exact Hv|assumption|exact Hv9|apply num_stop_blank]. f_equal. f_equal. lia.
  - rewrite app_assoc. rewrite nth_error_app2; rewrite app_length, length_rjust by exact Hv9; [reflexivity|cbn; lia].
  - replace (rjust 9 (num_text v) ++ blanks 11 ++ "N"%char :: mid ++ letter :: post)
      with ((rjust 9 (num_text v) ++ blanks 11 ++ "N"%char :: mid) ++ letter :: post) by (rewrite <- !app_assoc; reflexivity).
    assert (L40 : length (rjust 9 (num_text v) ++ blanks 11 ++ "N"%char :: mid) = 40).
    { rewrite !app_length, length_rjust by exact Hv9. cbn. lia. }
    rewrite nth_error_app2 by lia. rewrite L40. reflexivity.
Qed.
Theorem nav_header_exact v mid letter sys post lines j tail : nav_header_ok v mid letter sys post lines j ->
  exists o, nav_open (nav_header_text v mid letter post lines j ++ tail) = Val o /\
    v_satsys o = sys /\ v_version o = DFin (num_flt v) /\ at_rest (v_stream o) tail /\
    v_eoh o = Some (length (nav_header_text v mid letter post lines j)) /\
    (forall st, sdata st = sdata (v_stream o) -> sfail st = false -> nav_rewind (v_eoh o) None st = v_stream o).
Proof.
  intros (F & Pl & Ll & Hj). destruct (nav_first_facts _ _ _ _ _ F) as (L1 & C1 & SV & P20 & P40).
  set (line1 := nav_first v mid letter post) in *. destruct F as (_ & _ & _ & _ & _ & Hlet & _ & Lpost).
  set (hd := nav_header_text v mid letter post lines j). set (d := hd ++ tail).
  assert (Ed : d = line1 ++ NL :: text_of lines ++ end_line j ++ NL :: tail).
  { unfold d, hd, nav_header_text. fold line1. rewrite <- !app_assoc. cbn [app]. rewrite <- !app_assoc. reflexivity. }
  assert (A0 : at_rest (open_stream d) (line1 ++ NL :: text_of lines ++ end_line j ++ NL :: tail)) by (split; [reflexivity|rewrite <- Ed; reflexivity]).
  destruct (getline_line _ (uninit 85) 85 line1 _ A0 (clean_nl _ C1) ltac:(lia) (le_n _)) as (st1 & G1 & R1 & D1 & S1 & _).
  unfold nav_open, nav_read_header. rewrite G1. cbn [bind]. rewrite cstr_overlay by exact (clean_nul _ C1). cbn [bind]. rewrite SV.
  change (9 =? 0) with false. cbv iota. rewrite (rd_overlay _ _ _ _ P20). cbn [bind]. change (negb (ceqb "N"%char "N"%char)) with false. cbv iota.
  rewrite (rd_overlay _ _ _ _ P40). cbn [bind]. rewrite (letter_sys _ _ Hlet).
  assert (OL : length (overlay line1 (uninit 85)) = 85) by (rewrite overlay_length; [reflexivity|change (length (uninit 85)) with 85; lia]).
  assert (X : exists st3, (do r <- getline st1 (overlay line1 (uninit 85)) 85; let '(st2, line2) := r in nav_header_loop 1000 st2 line2) = Val (Some st3) /\
            at_rest st3 tail /\ sdata st3 = d /\ spos st3 = length hd).
  { assert (Lh : length hd = length line1 + 1 + length (text_of lines) + length (end_line j) + 1).
    { unfold hd, nav_header_text. fold line1. rewrite app_length. cbn [length]. rewrite !app_length. cbn [length]. lia. }
    change (spos (open_stream d)) with 0 in S1. change (sdata (open_stream d)) with d in D1.
    destruct lines as [|l2 ls].
    - cbn [text_of flat_map app] in R1.
      destruct (getline_line st1 (overlay line1 (uninit 85)) 85 (end_line j) tail R1 (clean_nl _ (end_clean j)) ltac:(rewrite end_len; lia) ltac:(lia)) as (st2 & G2 & R2 & D2 & S2 & _).
      rewrite G2. cbn [bind]. rewrite hloop_now. exists st2. split; [reflexivity|]. split; [exact R2|]. split; [congruence|]. change (length (text_of [])) with 0 in Lh. lia.
    - inversion Pl as [|? ? P2 PF]; subst. rewrite text_of_cons' in R1. pose proof P2 as (C2 & L2 & E2).
      destruct (getline_line st1 (overlay line1 (uninit 85)) 85 l2 _ R1 (clean_nl _ C2) ltac:(lia) ltac:(lia)) as (st2 & G2 & R2 & D2 & S2 & _).
      rewrite G2. cbn [bind]. destruct (hloop_exact ls 1000 st2 l2 (overlay line1 (uninit 85)) j tail P2 PF Hj ltac:(cbn in Ll; lia) OL R2) as (st3 & E3 & R3 & D3 & S3).
      exists st3. split; [exact E3|]. split; [exact R3|]. split; [congruence|]. rewrite Lh. unfold text_of in *. cbn [flat_map]. rewrite !app_length. cbn [length]. lia. }
  destruct X as (st3 & E3 & R3 & D3 & S3).
  apply bind_inv in E3 as ([st2 line2] & G2 & E3). rewrite G2. cbn [bind]. rewrite E3. cbn [bind]. unfold tellg. rewrite (proj1 R3). cbn [bind].
  eexists. split; [reflexivity|]. cbn [v_satsys v_version v_stream v_eoh]. split; [reflexivity|]. split; [reflexivity|]. split; [exact R3|].
  rewrite S3. split; [reflexivity|]. intros st Ds Fs. unfold nav_rewind, seekg. rewrite Fs, Ds, <- S3.
  destruct (good_bits _ (proj1 R3)) as (A & B). destruct st3; cbn in *; subst; reflexivity.
Qed.
(** ** any file *)
Lemma hloop_end : forall k st line st', line_start st -> length line = 85 -> window_ok (sdata st) line ->
  nav_header_loop k st line = Val (Some st') -> end_line_in (sdata st) /\ sdata st' = sdata st.
Proof.
  induction k as [|k IH]; intros st line st' I L W H; cbn [nav_header_loop] in H.
  - apply bind_inv in H as (e & E & H). destruct e; [injection H as <-; split; [exact (W E)|reflexivity]|].
    apply bind_inv in H as ([s1 l1] & G & H). discriminate.
  - apply bind_inv in H as (e & E & H). destruct e; [injection H as <-; split; [exact (W E)|reflexivity]|].
    apply bind_inv in H as ([s1 l1] & G & H). pose proof (getline_data _ _ _ _ _ G) as D1. pose proof (getline_line_start _ _ _ _ _ I G) as I1.
    destruct (getline_window _ _ _ _ L I W G) as [W1 L1]. destruct k; [discriminate|].
    rewrite <- D1 in W1 |- *. exact (IH _ _ _ I1 L1 W1 H).
Qed.
(** an opened file has a header that ends, and says that it is a navigation file of a known system *)
Theorem nav_open_end d o : nav_open d = Val o -> end_line_in d /\ sdata (v_stream o) = d /\
  exists l, ~ In NL l /\ length l <= 84 /\ firstn (length l) d = l /\ nth_error l 20 = Some "N"%char /\
    exists c, nth_error l 40 = Some c /\ char_to_satsys c = Val (v_satsys o).
Proof.
  intro H. unfold nav_open in H. apply bind_inv in H as (x & H & Hx). destruct x as [z|o']; [discriminate|]. injection Hx as ->.
  unfold nav_read_header in H. assert (I0 : line_start (open_stream d)) by (intros _; exists []; split; [reflexivity|left; reflexivity]).
  assert (W0 : window_ok d (uninit 85)) by (intro F; vm_compute in F; discriminate).
  apply bind_inv in H as ([s1 l1] & G1 & H).
  pose proof (getline_data _ _ _ _ _ G1) as D1. pose proof (getline_line_start _ _ _ _ _ I0 G1) as I1.
  destruct (getline_window _ (uninit 85) _ _ eq_refl I0 W0 G1) as [W1 L1]. change (sdata (open_stream d)) with d in *.
  apply bind_inv in H as (s & _ & H). destruct (strtof s) as [[v n] er]. destruct (n =? 0); [discriminate|].
  apply bind_inv in H as (c20 & H20 & H). destruct (ceqb c20 "N"%char) eqn:E20; [|discriminate]. cbn [negb] in H. apply ceqb_eq in E20. subst c20.
  apply bind_inv in H as (c40 & H40 & H). destruct (char_to_satsys c40) as [sys| | | |] eqn:Es; try discriminate.
  apply bind_inv in H as ([s2 l2] & G2 & H). pose proof (getline_data _ _ _ _ _ G2) as D2. pose proof (getline_line_start _ _ _ _ _ I1 G2) as I2.
  rewrite <- D1 in W1. destruct (getline_window _ _ _ _ L1 I1 W1 G2) as [W2 L2].
  apply bind_inv in H as (h & Hl & H). destruct h as [s3|]; [|discriminate]. rewrite <- D2 in W2.
  destruct (hloop_end _ _ _ _ I2 L2 W2 Hl) as (En & D3). rewrite D2, D1 in En. split; [exact En|].
  destruct (tellg s3) as [s4 p] eqn:T. apply Val_inj in H. injection H as <-. cbn [v_stream v_satsys].
  split. { unfold tellg in T. destruct (good s3); [injection T as <- _; congruence|]. destruct (sfail s3); injection T as <- _; cbn; congruence. }
  unfold getline in G1. change (good (open_stream d)) with true in G1. cbn iota in G1. change (rest (open_stream d)) with d in G1.
  destruct (take_line (85 - 1) d) as [t e] eqn:Tl. pose proof (take_line_inv _ _ _ _ Tl) as (Ht & Hl85 & He).
  rewrite wr_bytes_overlay in G1 by (change (length (uninit 85)) with 85; lia). cbn [bind] in G1. injection G1 as _ <-.
  exists t. split; [exact Ht|]. split; [lia|]. split.
  { destruct e; [destruct He as [r ->]|rewrite He|destruct He as (_ & c & r & _ & ->)]; try (rewrite firstn_app, Nat.sub_diag, firstn_O, app_nil_r); apply firstn_all. }
  assert (RD : forall i c, rd (overlay t (uninit 85)) i = Val c -> c <> NUL -> nth_error t i = Some c).
  { intros i c Hr Nc. unfold rd, overlay in Hr. destruct (Nat.lt_ge_cases i (length t)).
    - rewrite nth_error_app1 in Hr by (rewrite map_length; lia). rewrite nth_error_map in Hr. destruct (nth_error t i); [|discriminate]. cbn in Hr. congruence.
    - rewrite nth_error_app2 in Hr by (rewrite map_length; lia). rewrite map_length in Hr. destruct (i - length t) as [|q]; [exfalso; apply Nc; cbn in Hr; injection Hr as <-; reflexivity|].
      cbn [nth_error] in Hr. exfalso. revert Hr. unfold uninit. rewrite nth_skipn'. destruct (nth_error (repeat None 85) _) as [[z|]|] eqn:Q; try discriminate.
      apply nth_error_In, repeat_spec in Q. discriminate. }
  split; [apply RD; [exact H20|discriminate]|]. exists c40. split; [apply RD; [exact H40|]|exact Es]. intros ->. discriminate.
Qed.
(** the codes; no exception, no termination *)
Lemma hloop_calm : forall k st line, calm (nav_header_loop k st line).
Proof.
  induction k as [|k IH]; intros st line; cbn [nav_header_loop]; (apply calm_bind; [apply calm_strncmp_lit|intros [|]; [exact I|]]);
    (apply calm_bind; [apply calm_getline|intros [s l]]); [exact I|]. destruct k; [exact I|apply IH].
Qed.
Theorem nav_header_codes d : match nav_read_header d with
  | Val (inl c) => c = 10%Z \/ c = 11%Z \/ c = 12%Z \/ c = 20%Z
  | Val (inr _) | UB => True
  | _ => False
  end.
Proof.
  unfold nav_read_header. pose proof (calm_getline (open_stream d) (uninit 85) 85) as Q.
  destruct (getline (open_stream d) (uninit 85) 85) as [[s1 l1]| | | |]; try contradiction; cbn [bind]; [|exact I]. clear Q.
  pose proof (calm_cstr l1 0) as Q. destruct (cstr l1 0) as [s| | | |]; try contradiction; cbn [bind]; [|exact I]. clear Q.
  destruct (strtof s) as [[v n] er]. destruct (n =? 0); [auto|].
  pose proof (calm_rd l1 20) as Q. destruct (rd l1 20) as [c| | | |]; try contradiction; cbn [bind]; [|exact I]. clear Q.
  destruct (negb _); [auto|]. pose proof (calm_rd l1 40) as Q. destruct (rd l1 40) as [c40| | | |]; try contradiction; cbn [bind]; [|exact I]. clear Q.
  destruct (char_to_satsys c40) as [sys| | | |]; auto.
  pose proof (calm_getline s1 l1 85) as Q. destruct (getline s1 l1 85) as [[s2 l2]| | | |]; try contradiction; cbn [bind]; [|exact I]. clear Q.
  pose proof (hloop_calm 1000 s2 l2) as Q. destruct (nav_header_loop 1000 s2 l2) as [[s3|]| | | |]; try contradiction; cbn [bind]; auto.
  destruct (tellg s3); exact I.
Qed.
