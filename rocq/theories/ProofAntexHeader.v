(** ProofAntexHeader: the header of an ANTEX file (C79). *)
From Coq Require Import Qabs Lqa.
From Verif Require Import B64 SpecB64 ProofB64.
From Verif Require Import Base BaseLemmas CNum CNumLemmas Stream ModelSatsys ModelObs ModelNvarstr ModelSatellite ModelAntenna
  ModelAntex SpecText SpecNum SpecObs SpecHeader SpecAntex ProofText ProofAntenna ProofNum ProofStream ProofObsTypes ProofObsRec ProofHeader ProofAntex.
From Verif Require Import ProofSp3.

(** within 1/1000 of [q] *)
Notation nearb := near_version.
(** a float between [q] and [x] keeps them apart *)
Lemma far_above q y d x : (float y -> y <= x -> float d -> b64 (1 # 1000) <= d -> d <= y - b64 q -> near_version q (b64 x) = false)%Q.
Proof.
  intros Fy L Fd D G. unfold near_version. apply negb_false_iff, Qle_bool_iff.
  pose proof (b64_ge y x (float_double y Fy) L) as L1. pose proof (b32_ge y _ Fy L1) as L2.
  assert (L3 : (d <= b64 (b32 (b64 x) - b64 q))%Q) by (apply b64_ge; [apply float_double; exact Fd|lra]).
  eapply Qle_trans; [exact D|]. eapply Qle_trans; [exact L3|]. apply Qle_Qabs.
Qed.
Lemma far_below q y d x : (float y -> x <= y -> float d -> b64 (1 # 1000) <= d -> d <= b64 q - y -> near_version q (b64 x) = false)%Q.
Proof.
  intros Fy L Fd D G. unfold near_version. apply negb_false_iff, Qle_bool_iff.
  pose proof (b64_le y x (float_double y Fy) L) as L1. pose proof (b32_le y _ Fy L1) as L2.
  assert (Fo : float (- d)) by (apply float_opp; exact Fd).
  assert (L3 : (b64 (b32 (b64 x) - b64 q) <= - d)%Q) by (apply b64_le; [apply float_double; exact Fo|lra]).
  eapply Qle_trans; [exact D|]. rewrite <- Qabs_opp. eapply Qle_trans; [|apply Qle_Qabs]. lra.
Qed.
(** 1051/2^20 is above .001, 1469061/2^20 is 1.401006, ... *)
Lemma far14 x : ((14 # 10) + (101 # 100000) <= x \/ x <= (14 # 10) - (101 # 100000))%Q -> near_version (14 # 10) (b64 x) = false.
Proof.
  intros [H|H].
  - apply (far_above _ (1469061 # 1048576) (1051 # 1048576)); [exists 1469061%Z, (-20)%Z; split; [reflexivity|split; [discriminate|reflexivity]]| |exists 1051%Z, (-20)%Z; split; [reflexivity|split; [discriminate|reflexivity]]|vm_compute; discriminate|vm_compute; discriminate].
    eapply Qle_trans; [|exact H]. vm_compute. discriminate.
  - apply (far_below _ (1466951 # 1048576) (1051 # 1048576)); [exists 1466951%Z, (-20)%Z; split; [reflexivity|split; [discriminate|reflexivity]]| |exists 1051%Z, (-20)%Z; split; [reflexivity|split; [discriminate|reflexivity]]|vm_compute; discriminate|vm_compute; discriminate].
    eapply Qle_trans; [exact H|]. vm_compute. discriminate.
Qed.
Lemma far13 x : ((13 # 10) + (101 # 100000) <= x \/ x <= (13 # 10) - (101 # 100000))%Q -> near_version (13 # 10) (b64 x) = false.
Proof.
  intros [H|H].
  - apply (far_above _ (1364204 # 1048576) (1051 # 1048576)); [exists 1364204%Z, (-20)%Z; split; [reflexivity|split; [discriminate|reflexivity]]| |exists 1051%Z, (-20)%Z; split; [reflexivity|split; [discriminate|reflexivity]]|vm_compute; discriminate|vm_compute; discriminate].
    eapply Qle_trans; [|exact H]. vm_compute. discriminate.
  - apply (far_below _ (1362093 # 1048576) (1051 # 1048576)); [exists 1362093%Z, (-20)%Z; split; [reflexivity|split; [discriminate|reflexivity]]| |exists 1051%Z, (-20)%Z; split; [reflexivity|split; [discriminate|reflexivity]]|vm_compute; discriminate|vm_compute; discriminate].
    eapply Qle_trans; [exact H|]. vm_compute. discriminate.
Qed.
Lemma far_outside q x : ~ (q - (101 # 100000) < x < q + (101 # 100000))%Q -> (q + (101 # 100000) <= x \/ x <= q - (101 # 100000))%Q.
Proof. intro N. destruct (Qlt_le_dec x (q + (101 # 100000))) as [A|A]; [|left; exact A]. destruct (Qlt_le_dec (q - (101 # 100000)) x) as [B|B]; [destruct N; split; assumption|right; exact B]. Qed.

Lemma seek_on st f p : sfail st = false -> sdata st = f -> on (seekg st (Some p)) f (skipn p f).
Proof. intros F D. unfold seekg. rewrite F. split; [reflexivity|]. split; [exact D|reflexivity]. Qed.

(** the position stays inside the file *)
Definition inb (st : stream) : Prop := spos st <= length (sdata st).
Lemma take_line_len : forall k l t e, take_line k l = (t, e) -> length t + match e with LDelim => 1 | _ => 0 end <= length l.
Proof.
  induction k as [|k IH]; intros l t e H; destruct l as [|c l]; cbn [take_line] in H; try (injection H as <- <-; cbn; lia);
    destruct (ceqb c NL); try (injection H as <- <-; cbn; lia).
  destruct (take_line k l) as [t' e'] eqn:E. injection H as <- <-. apply IH in E. cbn. lia.
Qed.
Lemma getline_inb st buf n st' b' : inb st -> getline st buf n = Val (st', b') -> inb st' /\ sdata st' = sdata st.
Proof.
  intros I H. unfold getline in H. destruct (good st).
  - destruct (take_line (n - 1) (rest st)) as [t e] eqn:T. apply take_line_len in T. unfold rest in T. rewrite skipn_length in T.
    destruct (wr_bytes _ _ _); try discriminate H. cbn [bind] in H. apply Val_inj in H. injection H as <- _. unfold inb in *.
    destruct t, e; cbn in *; split; auto; lia.
  - destruct (wr_bytes _ _ _); try discriminate H. cbn [bind] in H. apply Val_inj in H. injection H as <- _. split; [exact I|reflexivity].
Qed.
Lemma on_spos st f d : on st f d -> inb st -> spos st = length f - length d.
Proof.
  intros (_ & D & R) I. unfold inb in I. rewrite D in I. assert (A : length (skipn (spos st) f) = length f - spos st) by apply skipn_length.
  rewrite R in A. lia.
Qed.
Lemma hdr_inb : forall n st l b st', inb st -> header_loop n st l = Val (b, st') -> inb st'.
Proof.
  induction n as [|n IH]; intros st l b st' I H; cbn [header_loop] in H; [apply Val_inj in H; injection H as _ <-; exact I|].
  apply bind_val in H as (eq & _ & H). destruct eq; [apply Val_inj in H; injection H as _ <-; exact I|].
  apply bind_val in H as ([st1 l1] & E & H). eapply IH; [|exact H]. eapply getline_inb; eauto.
Qed.

(** a first line: version, letter, 39 columns, 20 columns of label *)
Definition head1 (v : numlit) (c : ascii) (more : list ascii) (pad : nat) : list ascii :=
  header_line (rjust 8 (num_text v) ++ blanks 12 ++ [c] ++ more) (lit "ANTEX VERSION / SYST") pad.
Lemma head1_facts v c more pad : num_ok v -> length (num_text v) <= 8 -> c <> NUL /\ c <> NL -> cols 39 more -> pad <= 4 ->
  clean (head1 v c more pad) /\ length (head1 v c more pad) = 80 + pad /\ nth_error (head1 v c more pad) 20 = Some c /\
  exists b, firstn 15 (head1 v c more pad) = rjust 8 (num_text v) ++ blanks 7 /\ b = true.
Proof.
  intros Hv L Hc (Cm & Lm) Hp. unfold head1.
  assert (L60 : length (rjust 8 (num_text v) ++ blanks 12 ++ [c] ++ more) = 60).
  { rewrite !app_length, length_rjust by lia. rewrite Lm. reflexivity. }
  split; [|split; [|split]].
  - apply hl_clean; [|apply lit_ok; reflexivity]. apply clean_app. split; [apply rjust_clean, num_text_clean, Hv|].
    apply clean_app. split; [apply clean_blanks|]. constructor; [exact Hc|exact Cm].
  - rewrite hl_length by lia. reflexivity.
  - unfold header_line, ljust. rewrite L60. cbn [Nat.sub]. rewrite <- !app_assoc. rewrite app_assoc.
    rewrite nth_error_app2; rewrite app_length, length_rjust, length_blanks by lia; [reflexivity|lia].
  - exists true. split; [|reflexivity]. unfold header_line, ljust. rewrite L60. cbn [Nat.sub]. rewrite <- !app_assoc.
    rewrite firstn_app, length_rjust by lia. rewrite firstn_all2 by (rewrite length_rjust; lia). f_equal.
Qed.

Lemma wr_cut l buf : 15 < length l -> length l < length buf ->
  wr (overlay l buf) 15 NUL = Val (overlay (firstn 15 l) (overlay l buf)).
Proof.
  intros A B. unfold wr. rewrite overlay_length by exact B. destruct (Nat.ltb_spec 15 (length buf)); [|lia].
  assert (L15 : length (firstn 15 l) = 15) by (rewrite firstn_length; lia).
  change (overlay (firstn 15 l) (overlay l buf)) with (map Some (firstn 15 l) ++ Some NUL :: skipn (S (length (firstn 15 l))) (overlay l buf)).
  rewrite L15. f_equal. f_equal.
  unfold overlay. rewrite firstn_app, map_length. replace (15 - length l) with 0 by lia. rewrite firstn_O, app_nil_r. apply firstn_map.
Qed.
Lemma nth_skipn1 {A} : forall n i (l : list A), nth_error (skipn n l) i = nth_error l (n + i).
Proof. induction n as [|n IH]; intros i l; [reflexivity|]. destruct l; [destruct i; reflexivity|]. apply IH. Qed.
Lemma rd_cut l buf k c : 15 < k -> nth_error l k = Some c -> rd (overlay (firstn 15 l) (overlay l buf)) k = Val c.
Proof.
  intros K E. assert (k < length l) by (apply nth_error_Some; congruence).  assert (L15 : length (firstn 15 l) = 15) by (rewrite firstn_length; lia). unfold rd.
  change (overlay (firstn 15 l) (overlay l buf)) with (map Some (firstn 15 l) ++ Some NUL :: skipn (S (length (firstn 15 l))) (overlay l buf)).
  rewrite L15. rewrite nth_error_app2 by (rewrite map_length, L15; lia). rewrite map_length, L15.
  replace (k - 15) with (S (k - 16)) by lia. cbn [nth_error]. rewrite nth_skipn1. replace (16 + (k - 16)) with k by lia.
  unfold overlay. rewrite nth_error_app1 by (rewrite map_length; lia). rewrite nth_error_map, E. reflexivity.
Qed.

(** the loop to END OF HEADER *)
Lemma hdr_loop : forall ls n st f e t buf, Forall (fun l => label_line l /\ labelled "END OF HEADER" l = false) ls ->
  label_line e -> labelled "END OF HEADER" e = true -> length ls < n -> length buf = 85 ->
  on st f (text_of (ls ++ [e]) ++ t) ->
  exists st1 b1, getline st buf 85 = Val (st1, b1) /\ exists st', header_loop n st1 b1 = Val (true, st') /\ on st' f t.
Proof.
  induction ls as [|l ls IH]; intros n st f e t buf F (Ce & Le) He N B H; cbn [app] in H.
  - destruct (on_text st f _ _ _ buf 85 H Ce ltac:(lia) ltac:(lia)) as (st1 & E & H1). exists st1, (overlay e buf). split; [exact E|].
    destruct n as [|n]; [cbn in N; lia|]. cbn [header_loop]. rewrite label_other by (first [reflexivity|nonul_lit|lia]). rewrite He. cbn [bind].
    exists st1. split; [reflexivity|exact H1].
  - inversion F as [|? ? ((C & L) & E0) F']; subst.
    destruct (on_text st f _ _ _ buf 85 H C ltac:(lia) ltac:(lia)) as (st1 & E & H1). exists st1, (overlay l buf). split; [exact E|].
    destruct n as [|n]; [cbn in N; lia|]. cbn [header_loop]. rewrite label_other by (first [reflexivity|nonul_lit|lia]). rewrite E0. cbn [bind].
    destruct (IH n st1 f e t (overlay l buf) F' (conj Ce Le) He ltac:(cbn in N; lia) ltac:(rewrite overlay_length; lia) H1) as (st2 & b2 & E2 & st' & E3 & H3).
    change ATX_HEADER_CHARS with 85. rewrite E2. cbn [bind]. exists st'. split; [exact E3|exact H3].
Qed.

(** the first line alone *)
Lemma first_step v c more pad st0 f t : num_ok v -> length (num_text v) <= 8 -> c <> NUL /\ c <> NL -> cols 39 more -> pad <= 4 ->
  sfail st0 = false -> sdata st0 = f -> f = head1 v c more pad ++ NL :: t ->
  exists st1 l2, on st1 f t /\ inb st1 /\ length l2 = 85 /\
  atx_read_header st0 =
    if negb (nearb (14 # 10) (num_val v)) && negb (nearb (13 # 10) (num_val v)) then Val (mkAtx 10 Mixed V14 (Some 0) st1)
    else let ver := if nearb (14 # 10) (num_val v) then V14 else V13 in
      match char_to_satsys c with
      | Val ss =>
          do r2 <- getline st1 l2 ATX_HEADER_CHARS;
          let '(st2, l3) := r2 in
          do c0 <- rd l3 0;
          if negb (ceqb c0 "A"%char) then Val (mkAtx 12 ss ver (Some 0) st2)
          else
            do r3 <- getline st2 l3 ATX_HEADER_CHARS;
            let '(st3, l4) := r3 in
            do h <- header_loop ATX_HEADER_LINES st3 l4;
            let '(found, st4) := h in
            if negb found then Val (mkAtx 20 ss ver (Some 0) st4)
            else let '(st5, p) := tellg st4 in Val (mkAtx 0 ss ver p st5)
      | Exn => Val (mkAtx 11 Mixed ver (Some 0) st1)
      | Term => Term | UB => UB | Fuel => Fuel
      end.
Proof.
  intros Hv Lv Hc Hm Hp Fl Ds Ef. destruct (head1_facts v c more pad Hv Lv Hc Hm Hp) as (C1 & L1 & N20 & _ & F15 & _).
  pose proof (seek_on st0 f 0 Fl Ds) as H0. cbn [skipn] in H0. rewrite Ef in H0 at 2.
  destruct (on_line _ _ _ _ (uninit 85) 85 H0 C1 ltac:(lia) ltac:(rewrite len_uninit; lia)) as (st1 & E1 & H1).
  unfold atx_read_header. change ATX_HEADER_CHARS with 85. rewrite E1. cbn [bind].
  rewrite wr_cut by (rewrite ?len_uninit; lia). cbn [bind].
  rewrite cstr_overlay by (intro K; apply (clean_nul _ C1); rewrite <- (firstn_skipn 15); apply in_or_app; left; exact K). cbn [bind].
  rewrite F15, strtod_rjust; [|exact Hv|exact Lv|apply num_stop_blank].
  rewrite <- F15. rewrite (rd_cut _ _ 20 c) by (first [lia|exact N20]).
  exists st1, (overlay (firstn 15 (head1 v c more pad)) (overlay (head1 v c more pad) (uninit 85))). split; [exact H1|].
  split; [eapply getline_inb; [|exact E1]; unfold inb, seekg; rewrite Fl; cbn; lia|].
  assert (L85 : length (overlay (head1 v c more pad) (uninit 85)) = 85) by (rewrite overlay_length; rewrite len_uninit; lia).
  split; [rewrite overlay_length; rewrite ?L85, ?firstn_length; lia|]. reflexivity.
Qed.

Theorem header_exact h s st0 f t : atxh_ok h s -> sfail st0 = false -> sdata st0 = f -> f = atxh_text h ++ t ->
  exists st', atx_read_header st0 =
    Val (mkAtx 0 s (if Qeq_bool (num_dec (x_version h)) (14 # 10) then V14 else V13) (Some (length (atxh_text h))) st') /\ on st' f t.
Proof.
  intros (Hv & Lv & Vv & Hl & Hm & Ct & Lt & Fl & Ll & Hp) Sf Ds Ef.
  assert (T1 : f = atxh_first h ++ NL :: (text_of (("A"%char :: x_type h) :: x_lines h ++ [header_line [] (lit "END OF HEADER") (x_pad h)]) ++ t)).
  { rewrite Ef. unfold atxh_text, atxh_lines. rewrite text_of_one. reflexivity. }
  assert (Vn : (nearb (14 # 10) (num_val (x_version h)), nearb (13 # 10) (num_val (x_version h))) =
    if Qeq_bool (num_dec (x_version h)) (14 # 10) then (true, false) else (false, true)).
  { unfold num_val. destruct Vv as [V|V]; rewrite (b64_wd _ _ V).
    - rewrite (proj2 (Qeq_bool_iff _ _) V). vm_compute. reflexivity.
    - assert (Q : Qeq_bool (num_dec (x_version h)) (14 # 10) = false) by (apply not_true_iff_false; rewrite Qeq_bool_iff, V; discriminate).
      rewrite Q. vm_compute. reflexivity. }
  destruct (first_step (x_version h) (x_letter h) (x_more h) (x_pad h) st0 f _ Hv Lv (letters_clean _ _ Hl) Hm Hp Sf Ds T1) as (st1 & l2 & H1 & I1 & B2 & E).
  rewrite E. clear E. pose proof (f_equal fst Vn) as V1. pose proof (f_equal snd Vn) as V2. cbn [fst snd] in V1, V2. rewrite V1, V2.
  set (ver := if Qeq_bool (num_dec (x_version h)) (14 # 10) then V14 else V13).
  match goal with |- context [if ?b then Val (mkAtx 10 _ _ _ _) else _] => replace b with false by (destruct (Qeq_bool (num_dec (x_version h)) (14 # 10)); reflexivity) end.
  match goal with |- context [let ver0 := ?b in _] => replace b with ver by (unfold ver; destruct (Qeq_bool (num_dec (x_version h)) (14 # 10)); reflexivity) end.
  cbv zeta. apply char_to_satsys_spec in Hl. rewrite Hl.
  assert (CA : clean ("A"%char :: x_type h)) by (constructor; [split; discriminate|exact Ct]).
  destruct (on_text st1 f _ _ _ l2 85 H1 CA ltac:(cbn; lia) ltac:(lia)) as (st2 & E2 & H2).
  change ATX_HEADER_CHARS with 85. rewrite E2. cbn [bind]. rewrite (rd_overlay _ _ 0 "A"%char) by reflexivity. cbn [bind]. rewrite ceqb_refl. cbn [negb].
  assert (Le : length (header_line [] (lit "END OF HEADER") (x_pad h)) = 73 + x_pad h) by (rewrite hl_length by (cbn; lia); reflexivity).
  assert (Ce : clean (header_line [] (lit "END OF HEADER") (x_pad h))) by (apply hl_clean; [constructor|apply lit_ok; reflexivity]).
  assert (He : labelled "END OF HEADER" (header_line [] (lit "END OF HEADER") (x_pad h)) = true) by (rewrite labelled_hl by (cbn; lia); reflexivity).
  destruct (hdr_loop (x_lines h) ATX_HEADER_LINES st2 f _ t (overlay ("A"%char :: x_type h) l2) Fl ltac:(split; [exact Ce|lia]) He
    ltac:(change ATX_HEADER_LINES with 1000; apply (Nat.le_lt_trans _ 998); [exact Ll|apply Nat.ltb_lt; reflexivity])
    ltac:(rewrite overlay_length; cbn; lia) H2) as (st3 & b3 & E3 & st4 & E4 & H4).
  rewrite E3. cbn [bind]. rewrite E4. cbn [bind negb]. unfold tellg. pose proof H4 as (G & D & R). rewrite G.
  exists st4. split; [|exact H4]. repeat f_equal.
  assert (I4 : inb st4).
  { eapply hdr_inb; [|exact E4]. eapply getline_inb; [|exact E3]. eapply getline_inb; [|exact E2]. exact I1. }
  rewrite (on_spos _ _ _ H4 I4), Ef, app_length. lia.
Qed.

(** ** rejected headers *)
Lemma reject_version v c more pad st0 f t : num_ok v -> length (num_text v) <= 8 -> c <> NUL /\ c <> NL -> cols 39 more -> pad <= 4 ->
  sfail st0 = false -> sdata st0 = f -> f = head1 v c more pad ++ NL :: t ->
  ~ ((13 # 10) - (101 # 100000) < num_dec v < (13 # 10) + (101 # 100000))%Q -> ~ ((14 # 10) - (101 # 100000) < num_dec v < (14 # 10) + (101 # 100000))%Q ->
  exists r, atx_read_header st0 = Val r /\ a_code r = 10%Z.
Proof.
  intros Hv Lv Hc Hm Hp Sf Ds Ef N3 N4. destruct (first_step v c more pad st0 f t Hv Lv Hc Hm Hp Sf Ds Ef) as (st1 & l2 & _ & _ & _ & E).
  rewrite E. unfold num_val. rewrite (far13 _ (far_outside _ _ N3)), (far14 _ (far_outside _ _ N4)). cbn [negb andb]. eexists. split; reflexivity.
Qed.
Lemma near_ok v : (num_dec v == 14 # 10 \/ num_dec v == 13 # 10)%Q -> negb (nearb (14 # 10) (num_val v)) && negb (nearb (13 # 10) (num_val v)) = false.
Proof. intros [V|V]; unfold num_val; rewrite (b64_wd _ _ V); vm_compute; reflexivity. Qed.
Lemma reject_letter v c more pad st0 f t : num_ok v -> length (num_text v) <= 8 -> c <> NUL /\ c <> NL -> cols 39 more -> pad <= 4 ->
  sfail st0 = false -> sdata st0 = f -> f = head1 v c more pad ++ NL :: t ->
  (num_dec v == 14 # 10 \/ num_dec v == 13 # 10)%Q -> (forall s, ~ In (c, s) satsys_letters) ->
  exists r, atx_read_header st0 = Val r /\ a_code r = 11%Z.
Proof.
  intros Hv Lv Hc Hm Hp Sf Ds Ef V N. destruct (first_step v c more pad st0 f t Hv Lv Hc Hm Hp Sf Ds Ef) as (st1 & l2 & _ & _ & _ & E).
  rewrite E, near_ok by exact V. rewrite (proj2 (char_to_satsys_spec c) N). eexists. split; reflexivity.
Qed.
Lemma reject_type v c s more pad st0 f l t : num_ok v -> length (num_text v) <= 8 -> In (c, s) satsys_letters -> cols 39 more -> pad <= 4 ->
  sfail st0 = false -> sdata st0 = f -> f = head1 v c more pad ++ NL :: l ++ NL :: t ->
  (num_dec v == 14 # 10 \/ num_dec v == 13 # 10)%Q -> clean l -> length l <= 84 -> hd_error l <> Some "A"%char ->
  exists r, atx_read_header st0 = Val r /\ a_code r = 12%Z.
Proof.
  intros Hv Lv Hl Hm Hp Sf Ds Ef V Cl Ll N. destruct (first_step v c more pad st0 f _ Hv Lv (letters_clean _ _ Hl) Hm Hp Sf Ds Ef) as (st1 & l2 & H1 & _ & B & E).
  rewrite E, near_ok by exact V. apply char_to_satsys_spec in Hl. rewrite Hl. cbv zeta.
  destruct (on_line st1 f _ _ l2 85 H1 Cl ltac:(lia) ltac:(lia)) as (st2 & E2 & H2). change ATX_HEADER_CHARS with 85. rewrite E2. cbn [bind].
  assert (R : exists x, rd (overlay l l2) 0 = Val x /\ ceqb x "A"%char = false).
  { destruct l as [|x l]; [exists NUL; split; [apply (rd_overlay_nul [] l2)|reflexivity]|]. exists x. split; [apply rd_overlay; reflexivity|].
    apply ceqb_neq. intro K. apply N. cbn. congruence. }
  destruct R as (x & R & X). rewrite R. cbn [bind]. rewrite X. cbn [negb]. eexists. split; reflexivity.
Qed.

Lemma hdr_bad : forall n st buf, length buf = 85 -> good st = false -> label buf "END OF HEADER" 13 = Val false ->
  exists st', header_loop n st buf = Val (false, st').
Proof.
  induction n as [|n IH]; intros st buf B G L; [eexists; reflexivity|]. cbn [header_loop]. rewrite L. cbn [bind].
  unfold getline. rewrite G. change [Some NUL] with (map Some (@nil ascii) ++ [Some NUL]). change ATX_HEADER_CHARS with 85.
  rewrite wr_bytes_overlay by (cbn; lia). cbn [bind]. apply IH.
  - rewrite overlay_length; cbn; lia.
  - unfold good. cbn. apply andb_false_r.
  - rewrite label_stale by (cbn; lia). exact L.
Qed.
Lemma hdr_never : forall ls n st f buf, Forall (fun l => label_line l /\ labelled "END OF HEADER" l = false) ls -> length buf = 85 ->
  label buf "END OF HEADER" 13 = Val false -> on st f (text_of ls) -> exists st', header_loop n st buf = Val (false, st').
Proof.
  induction ls as [|l ls IH]; intros n st f buf F B L H; (destruct n as [|n]; [eexists; reflexivity|]).
  - cbn [header_loop]. rewrite L. cbn [bind]. change ATX_HEADER_CHARS with 85.
    destruct (on_end st f buf 85 H ltac:(lia) ltac:(lia)) as (st1 & E & Sf & _). rewrite E. cbn [bind]. apply hdr_bad.
    + rewrite overlay_length; cbn; lia.
    + unfold good. rewrite Sf. apply andb_false_r.
    + rewrite label_stale by (cbn; lia). exact L.
  - inversion F as [|? ? ((C & Lb) & E0) F']; subst. cbn [header_loop]. rewrite L. cbn [bind]. change ATX_HEADER_CHARS with 85.
    rewrite <- (app_nil_r (text_of _)) in H.
    destruct (on_text st f _ _ _ buf 85 H C ltac:(lia) ltac:(lia)) as (st1 & E & H1). rewrite app_nil_r in H1. rewrite E. cbn [bind]. eapply IH; [exact F'|..|exact H1].
    + rewrite overlay_length; lia.
    + rewrite label_other by (first [reflexivity|nonul_lit|lia]). rewrite E0. reflexivity.
Qed.
Lemma reject_no_end v c s more pad st0 f ty ls : num_ok v -> length (num_text v) <= 8 -> In (c, s) satsys_letters -> cols 39 more -> pad <= 4 ->
  sfail st0 = false -> sdata st0 = f -> f = head1 v c more pad ++ NL :: text_of (("A"%char :: ty) :: ls) ->
  (num_dec v == 14 # 10 \/ num_dec v == 13 # 10)%Q -> clean ty -> length ty <= 83 -> ls <> [] ->
  Forall (fun l => label_line l /\ labelled "END OF HEADER" l = false) ls ->
  exists r, atx_read_header st0 = Val r /\ a_code r = 20%Z.
Proof.
  intros Hv Lv Hl Hm Hp Sf Ds Ef V Ct Lt Ne F. destruct (first_step v c more pad st0 f _ Hv Lv (letters_clean _ _ Hl) Hm Hp Sf Ds Ef) as (st1 & l2 & H1 & _ & B & E).
  rewrite E, near_ok by exact V. apply char_to_satsys_spec in Hl. rewrite Hl. cbv zeta.
  rewrite <- (app_nil_r (text_of _)) in H1.
  assert (CA : clean ("A"%char :: ty)) by (constructor; [split; discriminate|exact Ct]).
  destruct (on_text st1 f _ _ _ l2 85 H1 CA ltac:(cbn; lia) ltac:(lia)) as (st2 & E2 & H2).
  change ATX_HEADER_CHARS with 85. rewrite E2. cbn [bind]. rewrite (rd_overlay _ _ 0 "A"%char) by reflexivity. cbn [bind]. rewrite ceqb_refl. cbn [negb].
  destruct ls as [|l ls]; [congruence|]. inversion F as [|? ? ((C & Lb) & E0) F']; subst.
  assert (B3 : length (overlay ("A"%char :: ty) l2) = 85) by (rewrite overlay_length; cbn; lia).
  destruct (on_text st2 _ _ _ _ (overlay ("A"%char :: ty) l2) 85 H2 C ltac:(lia) ltac:(lia)) as (st3 & E3 & H3). rewrite E3. cbn [bind]. rewrite app_nil_r in H3.
  destruct (hdr_never ls ATX_HEADER_LINES st3 _ (overlay l (overlay ("A"%char :: ty) l2)) F' ltac:(rewrite overlay_length; lia)
    ltac:(rewrite label_other by (first [reflexivity|nonul_lit|lia]); rewrite E0; reflexivity) H3) as (st4 & E4).
  rewrite E4. cbn [bind negb]. eexists. split; reflexivity.
Qed.

(** a first line that does not reach column 21 *)
Lemma short_first l st0 f t : clean l -> length l < 15 -> sfail st0 = false -> sdata st0 = f -> f = l ++ NL :: t ->
  (exists r, atx_read_header st0 = Val r /\ a_code r = 10%Z) \/ atx_read_header st0 = UB.
Proof.
  intros C L Sf Ds Ef. pose proof (seek_on st0 f 0 Sf Ds) as H0. cbn [skipn] in H0. rewrite Ef in H0 at 2.
  destruct (on_line _ _ _ _ (uninit 85) 85 H0 C ltac:(lia) ltac:(rewrite len_uninit; lia)) as (st1 & E1 & H1).
  unfold atx_read_header. change ATX_HEADER_CHARS with 85. rewrite E1. cbn [bind].
  unfold wr. rewrite overlay_length by (rewrite len_uninit; lia). rewrite len_uninit. change (15 <? 85) with true. cbn iota. cbn [bind].
  assert (X : exists r, firstn 15 (overlay l (uninit 85)) ++ Some NUL :: skipn 16 (overlay l (uninit 85)) = map Some l ++ Some NUL :: r).
  { unfold overlay. rewrite firstn_app, map_length, firstn_all2 by (rewrite map_length; lia). rewrite <- app_assoc.
    replace (15 - length l) with (S (14 - length l)) by lia. cbn [firstn app]. eexists. reflexivity. }
  destruct X as (r & X). rewrite X. unfold cstr. cbn [skipn].
  rewrite cstr0_app by (apply clean_nul; exact C). cbn [bind]. destruct (strtod l) as [[v u] e].
  match goal with |- context [if ?b then Val (mkAtx 10 _ _ _ _) else _] => destruct b end; [left; eexists; split; reflexivity|right].
  rewrite <- X. unfold rd. rewrite nth_error_app2 by (rewrite firstn_length; lia). rewrite firstn_length, overlay_length, len_uninit by (rewrite len_uninit; lia).
  change (20 - Nat.min 15 85) with 5.
  change (nth_error (Some NUL :: skipn 16 (overlay l (uninit 85))) 5) with (nth_error (skipn 16 (overlay l (uninit 85))) 4). rewrite nth_skipn1. change (16 + 4) with 20. unfold overlay.
  rewrite nth_error_app2 by (rewrite map_length; lia). rewrite map_length. replace (20 - length l) with (S (19 - length l)) by lia.
  change (nth_error (Some NUL :: skipn (S (length l)) (uninit 85)) (S (19 - length l))) with (nth_error (skipn (S (length l)) (uninit 85)) (19 - length l)).
  rewrite nth_skipn1. replace (S (length l) + (19 - length l)) with 20 by lia. reflexivity.
Qed.
