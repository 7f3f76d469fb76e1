(** ProofNavList: files made of conforming blocks (for C38, C41, C42, C66) *)
From Verif Require Import Base BaseLemmas CNum CNumLemmas Stream ModelSatsys ModelNvarstr ModelNav SpecText SpecNum SpecObs SpecNav
  ProofText ProofNum ProofStream ProofEpoch ProofObsMisc ProofNav ProofNavBlock ProofNavFile ProofNavFind.

(** ** skipping lines *)
Lemma skip_exact : forall ls st line tail, Forall (fun l => ~ In NL l /\ length l < 128) ls ->
  at_rest st (text_of ls ++ tail) -> length line = 128 ->
  exists st', skip_lines (length ls) st line = Val (false, st') /\ at_rest st' tail /\ sdata st' = sdata st.
Proof.
  induction ls as [|l ls IH]; intros st line tail F At Ll.
  - exists st. cbn. auto.
  - inversion F as [|? ? (Nl & Hl) F']; subst. rewrite text_of_cons' in At.
    destruct (getline_line st line 128 l _ At Nl Hl ltac:(lia)) as (s1 & G & A1 & D1 & _ & _ & Sf).
    cbn [skip_lines length]. rewrite G. cbn [bind]. rewrite Sf.
    destruct (IH s1 (overlay l line) tail F' A1) as (s2 & E & A2 & D2); [rewrite overlay_length; lia|].
    exists s2. rewrite E. split; [reflexivity|]. split; [exact A2|congruence].
Qed.
Lemma block_lines_short b : block_ok b -> Forall (fun l => ~ In NL l /\ length l < 128) (block_lines b).
Proof.
  intro Ok. unfold block_lines. constructor.
  - split; [apply clean_nl, head_clean, Ok|]. rewrite head_split, app_length, (head23_length _ Ok). pose proof (clk_length _ Ok). lia.
  - destruct Ok as (_ & _ & _ & _ & _ & _ & _ & _ & O & _). apply wf_all in O. apply Forall_forall. intros l I. apply in_map_iff in I as (x & <- & I).
    rewrite Forall_forall in O. specialize (O x I). split; [apply clean_nl, orbit_clean, O|]. pose proof (orbit_length _ O). lia.
Qed.
Lemma block_lines_count b : block_ok b -> length (block_lines b) = lines_of (b_sys b) /\ block_size (b_sys b) = Some (lines_of (b_sys b)).
Proof.
  intros (_ & NM & _ & _ & _ & _ & _ & _ & O & _). unfold block_lines. cbn [length]. rewrite map_length.
  assert (L : length (b_orb b) = length (orbit_fields (b_sys b))) by (clear - O; induction O; cbn; congruence). rewrite L.
  destruct (b_sys b); try congruence; split; reflexivity.
Qed.
Lemma block_head b : exists t, block_text b = b_letter b :: t.
Proof. unfold block_text, block_lines, head_line, text_of. cbn [flat_map app]. eexists. reflexivity. Qed.
Lemma block_peak b st tail : block_ok b -> at_rest st (block_text b ++ tail) -> peak_satsys st = (0%Z, b_sys b, st).
Proof.
  intros Ok (G & R). rewrite (peak_good _ G), R. destruct (block_head b) as (t & ->). cbn [app].
  destruct Ok as (Lt & _). pose proof (letter_sys _ _ Lt) as E. rewrite (char_not_ff _ _ E), E. reflexivity.
Qed.
Theorem ignore_block b st tail : block_ok b -> at_rest st (block_text b ++ tail) ->
  exists st', ignore_next_block st = Val (0%Z, st') /\ at_rest st' tail /\ sdata st' = sdata st.
Proof.
  intros Ok At. pose proof At as (G & R). destruct (block_head b) as (t & Et). rewrite Et in R. cbn [app] in R.
  unfold ignore_next_block, peek_char. rewrite (peek_some _ _ _ G R). pose proof (letter_sys _ _ (proj1 Ok)) as E.
  rewrite (char_not_ff _ _ E), E. destruct (block_lines_count _ Ok) as (C & _). fold (lines_of (b_sys b)). rewrite <- C.
  destruct (skip_exact (block_lines b) st (uninit 128) tail (block_lines_short _ Ok) At ltac:(unfold uninit; apply repeat_length)) as (s & -> & A & D).
  exists s. cbn [bind]. auto.
Qed.
Theorem read_block strp cal b tail st f : reads_dates strp cal -> block_ok b -> b_sys b <> Irnss -> length (f_data f) = 31 ->
  at_rest st (block_text b ++ tail) ->
  exists g st', read_next_record strp st f 0 = Val (mkNav 0 g st' 0) /\ at_rest st' tail /\ sdata st' = sdata st /\ is_block cal g b /\
    (forall i, assigned (b_sys b) i = false -> nth_error (f_data g) i = nth_error (f_data f) i) /\
    (has_toe (b_sys b) = true -> toe2date g = Val (f_toe g)) /\ (has_toe (b_sys b) = false -> f_toe g = f_toe f).
Proof.
  intros RD Ok NI L At. pose proof At as (G & R). destruct (block_head b) as (t & Et). rewrite Et in R. cbn [app] in R.
  unfold read_next_record. rewrite (peek_some _ _ _ G R). apply block_exact; auto.
  pose proof Ok as (_ & _ & _ & _ & _ & _ & _ & _ & O & _). destruct (b_sys b); try exact O. congruence.
Qed.

Lemma is_block_data cal g b : is_block cal g b -> length (f_data g) = 31 /\ f_prn g = dec_val (b_prn b) /\ f_sys g = b_sys b.
Proof. intros (A & B & _ & D & _). auto. Qed.
Lemma find_skip strp cal sys prn b st f tail k : reads_dates strp cal -> block_ok b -> sys <> Mixed -> sys <> Irnss ->
  ~ wanted sys prn b -> length (f_data f) = 31 -> at_rest st (block_text b ++ tail) ->
  exists g st', find_loop (S k) strp st f 0 sys prn = find_loop k strp st' g 0 sys prn /\ length (f_data g) = 31 /\ at_rest st' tail /\ sdata st' = sdata st.
Proof.
  intros RD Ok NM NI W L At. cbn [find_loop]. rewrite (block_peak _ _ _ Ok At). cbn [Z.eqb negb].
  destruct (satsys_eqb (b_sys b) sys) eqn:Es.
  - apply satsys_eqb_eq in Es. destruct (read_block strp cal b tail st f RD Ok ltac:(congruence) L At) as (g & st' & -> & A & D & B & _).
    cbn [bind n_code Z.eqb negb n_frame n_stream n_errno]. destruct (is_block_data _ _ _ B) as (Lg & Pg & _).
    destruct (Z.eqb_spec prn (-1)) as [->|N1]; [exfalso; apply W; split; auto|]. cbn [orb].
    destruct (Z.eqb_spec prn (f_prn g)) as [E|N2]; [exfalso; apply W; split; [auto|right; congruence]|].
    exists g, st'. auto.
  - destruct (ignore_block b st tail Ok At) as (st' & -> & A & D). cbn [bind Z.eqb negb]. exists f, st'. auto.
Qed.
Lemma find_hit strp cal sys prn b st f tail k : reads_dates strp cal -> block_ok b -> sys <> Irnss ->
  wanted sys prn b -> length (f_data f) = 31 -> at_rest st (block_text b ++ tail) ->
  exists g st', find_loop (S k) strp st f 0 sys prn = Val (mkNav 0 g st' 0) /\ is_block cal g b /\ at_rest st' tail /\ sdata st' = sdata st /\
    (has_toe sys = true -> toe2date g = Val (f_toe g)).
Proof.
  intros RD Ok NI (Es & Wp) L At. cbn [find_loop]. rewrite (block_peak _ _ _ Ok At). cbn [Z.eqb negb].
  rewrite (proj2 (satsys_eqb_eq _ _) Es).
  destruct (read_block strp cal b tail st f RD Ok ltac:(congruence) L At) as (g & st' & -> & A & D & B & _ & T & _).
  cbn [bind n_code Z.eqb negb n_frame n_stream n_errno]. destruct (is_block_data _ _ _ B) as (Lg & Pg & _).
  exists g, st'. split; [|rewrite <- Es; auto]. destruct Wp as [->|Wp]; [reflexivity|]. rewrite Pg, Wp, Z.eqb_refl, orb_true_r. reflexivity.
Qed.
Lemma find_pre strp cal sys prn : reads_dates strp cal -> sys <> Mixed -> sys <> Irnss ->
  forall bs st f tail k, Forall block_ok bs -> Forall (fun b => ~ wanted sys prn b) bs ->
  length (f_data f) = 31 -> at_rest st (blocks_text bs ++ tail) ->
  exists g st', find_loop (length bs + k) strp st f 0 sys prn = find_loop k strp st' g 0 sys prn /\ length (f_data g) = 31 /\ at_rest st' tail /\ sdata st' = sdata st.
Proof.
  intros RD NM NI. induction bs as [|b bs IH]; intros st f tail k Ok W L At.
  - exists f, st. cbn in *. auto.
  - inversion Ok as [|? ? O1 O2]; subst. inversion W as [|? ? W1 W2]; subst. unfold blocks_text in At. cbn [flat_map] in At. rewrite <- app_assoc in At.
    destruct (find_skip strp cal sys prn b st f _ (length bs + k) RD O1 NM NI W1 L At) as (g & st1 & E & Lg & A & D).
    destruct (IH st1 g tail k O2 W2 Lg A) as (g2 & st2 & E2 & L2 & A2 & D2).
    exists g2, st2. cbn [length Nat.add]. rewrite E, E2. split; [reflexivity|]. split; [exact L2|]. split; [exact A2|congruence].
Qed.
Theorem find_first strp cal sys prn pre b post tail st f k : reads_dates strp cal -> sys <> Mixed -> sys <> Irnss ->
  Forall block_ok (pre ++ [b]) -> Forall (fun b => ~ wanted sys prn b) pre -> wanted sys prn b ->
  length (f_data f) = 31 -> at_rest st (blocks_text (pre ++ b :: post) ++ tail) -> length pre < k ->
  exists g st', find_next k strp st f 0 sys prn = Val (Some (spos st), mkNav 0 g st' 0) /\ is_block cal g b /\
    at_rest st' (blocks_text post ++ tail) /\ (has_toe sys = true -> toe2date g = Val (f_toe g)).
Proof.
  intros RD NM NI Ok W Wb L At Hk. apply Forall_app in Ok as (Op & Ob). inversion Ob as [|? ? O1 _]; subst.
  unfold blocks_text in At. rewrite flat_map_app in At. cbn [flat_map] in At. rewrite <- !app_assoc in At.
  unfold find_next, tellg. rewrite (proj1 At). replace k with (length pre + S (k - length pre - 1)) by lia.
  destruct (find_pre strp cal sys prn RD NM NI pre st f _ (S (k - length pre - 1)) Op W L At) as (g1 & st1 & -> & L1 & A1 & _).
  destruct (find_hit strp cal sys prn b st1 g1 _ (k - length pre - 1) RD O1 NI Wb L1 A1) as (g & st2 & -> & B & A2 & _ & T).
  exists g, st2. cbn [bind]. auto.
Qed.
Theorem find_none strp cal sys prn bs st f k : reads_dates strp cal -> sys <> Mixed -> sys <> Irnss ->
  Forall block_ok bs -> Forall (fun b => ~ wanted sys prn b) bs ->
  length (f_data f) = 31 -> at_rest st (blocks_text bs) -> length bs < k ->
  exists g st', find_next k strp st f 0 sys prn = Val (Some (spos st), mkNav (-1) g st' 0) /\ at_rest st' [].
Proof.
  intros RD NM NI Ok W L At Hk. rewrite <- (app_nil_r (blocks_text bs)) in At.
  unfold find_next, tellg. rewrite (proj1 At). replace k with (length bs + S (k - length bs - 1)) by lia.
  destruct (find_pre strp cal sys prn RD NM NI bs st f _ (S (k - length bs - 1)) Ok W L At) as (g1 & st1 & -> & L1 & (G1 & R1) & _).
  cbn [find_loop]. rewrite (peak_good _ G1), R1. cbn [Z.eqb negb bind]. exists g1, st1. split; [reflexivity|split; assumption].
Qed.

(** ** reading a file block after block (C66) *)
Fixpoint read_all (k : nat) (strp : strp_t) (st : stream) (f : frame) (errno : Z) : outcome (list frame * navres) :=
  do r <- read_next_record strp st f errno;
  match k with
  | O => Val ([], r)
  | S k' =>
      if (n_code r =? 0)%Z then
        do x <- read_all k' strp (n_stream r) (n_frame r) (n_errno r);
        let '(gs, l) := x in Val (n_frame r :: gs, l)
      else Val ([], r)
  end.
Theorem read_file strp cal : reads_dates strp cal ->
  forall bs st f, Forall block_ok bs -> Forall (fun b => b_sys b <> Irnss) bs -> length (f_data f) = 31 -> at_rest st (blocks_text bs) ->
  exists gs g st', read_all (length bs) strp st f 0 = Val (gs, mkNav (-1) g st' 0) /\ Forall2 (is_block cal) gs bs /\ at_rest st' [].
Proof.
  intro RD. induction bs as [|b bs IH]; intros st f Ok NI L At.
  - exists [], f, st. cbn [length read_all]. destruct At as (G & R). cbn in R. unfold read_next_record, peek. rewrite G, R. cbn [bind].
    change (seof (set_eof st)) with true. cbn iota. rewrite (good_same _ G). cbn [bind]. split; [reflexivity|]. split; [constructor|split; assumption].
  - inversion Ok as [|? ? O1 O2]; subst. inversion NI as [|? ? N1 N2]; subst. unfold blocks_text in At. cbn [flat_map] in At.
    destruct (read_block strp cal b _ st f RD O1 N1 L At) as (g & st1 & E & A & _ & B & _).
    destruct (IH st1 g O2 N2 (proj1 (is_block_data _ _ _ B)) A) as (gs & g2 & st2 & E2 & F2 & A2).
    exists (g :: gs), g2, st2. cbn [length read_all]. rewrite E. cbn [bind n_code Z.eqb n_stream n_frame n_errno]. rewrite E2. cbn [bind].
    split; [reflexivity|]. split; [constructor; assumption|exact A2].
Qed.

Definition tr (q : Q) : Z := Z.quot (Qnum q) (Zpos (Qden q)).
Lemma tr_zero q : tr q = 0%Z <-> (-1 < q)%Q /\ (q < 1)%Q.
Proof.
  unfold tr. rewrite Z.quot_small_iff by discriminate. unfold Qlt. cbn [Qnum Qden Qopp]. change (Qnum (-1)) with (-1)%Z. change (QDen (-1)) with 1%Z.
  change (Qnum 1) with 1%Z. change (QDen 1) with 1%Z. lia.
Qed.
Lemma tr_pos q h : (0 < h)%Z -> (tr q = h <-> (inject_Z h <= q < inject_Z (h + 1))%Q).
Proof.
  intro P. unfold tr, Qle, Qlt. cbn [Qnum Qden inject_Z]. rewrite !Z.mul_1_r.
  set (n := Qnum q). set (d := QDen q). assert (Hd : (0 < d)%Z) by (unfold d; lia).
  split.
  - intro E. destruct (Z.le_gt_cases 0 n) as [H|H].
    + rewrite Z.quot_div_nonneg in E by lia. subst h. pose proof (Z.mul_div_le n d Hd). pose proof (Z.mul_succ_div_gt n d Hd). lia.
    + exfalso. pose proof (Z.quot_opp_l n d ltac:(lia)) as Q. pose proof (Z.quot_pos (- n) d ltac:(lia) ltac:(lia)). lia.
  - intros (A & B). assert (0 <= n)%Z by nia. rewrite Z.quot_div_nonneg by lia. symmetry. apply (Z.div_unique n d h (n - d * h)); nia.
Qed.
Lemma trunc_inv lo hi v z : trunc_in lo hi v = Val z -> exists q, v = DFin q /\ z = tr q /\ (lo <= z <= hi)%Z.
Proof.
  unfold trunc_in. destruct v as [q| | ]; try discriminate. fold (tr q). destruct ((lo <=? tr q) && (tr q <=? hi))%Z eqn:E; [|discriminate].
  apply andb_true_iff in E as (A & B). apply Z.leb_le in A. apply Z.leb_le in B. intro H. injection H as <-. eauto.
Qed.
Lemma slot_inv d i v : slot d i = Val v -> nth_error d i = Some v.
Proof. unfold slot. destruct (nth_error d i); [congruence|discriminate]. Qed.
Lemma bind_inv {A B} (o : outcome A) (k : A -> outcome B) r : bind o k = Val r -> exists a, o = Val a /\ k a = Val r.
Proof. destruct o; try discriminate. eauto. Qed.
Lemma health_inv g : sv_health g = Val 0%Z -> healthy g.
Proof.
  unfold sv_health, healthy. destruct (f_sys g); try discriminate; intro H;
    (apply bind_inv in H as (v & Hs & Ht); apply slot_inv in Hs; apply trunc_inv in Ht as (q & -> & E & _);
     exists (DFin q); split; [exact Hs|]; exists q; split; [reflexivity|]; apply tr_zero; auto).
Qed.
Lemma i32_le x : (-2147483648 <= x)%Z -> (to_i32 x <= x)%Z.
Proof. intro H. unfold to_i32. pose proof (Z.mod_le (x + 2147483648) 4294967296 ltac:(lia) ltac:(lia)). lia. Qed.
Lemma fit_inv g fit t : fit_interval g = Val fit -> f_sys g <> Glonass -> (f_toc g * 1000 <= t < f_toc g * 1000 + fit * 1000)%Z ->
  covers t g \/ wild_hours g.
Proof.
  unfold fit_interval, covers, wild_hours. destruct (f_sys g); intros H N T; try discriminate; try congruence;
    try (left; injection H as <-; lia).
  unfold gps_fit_interval in H. apply bind_inv in H as (v & Hs & H). apply bind_inv in H as (h & Hh & H). apply Val_inj in H. subst fit.
  apply slot_inv in Hs. apply trunc_inv in Hh as (q & -> & E & R).
  destruct (Z.lt_ge_cases 0 h) as [P|P].
  - left. exists (DFin q), h. split; [exact Hs|]. split; [exists q; split; [reflexivity|apply tr_pos; [exact P|auto]]|]. split; [exact P|].
    pose proof (i32_le (3600 * h) ltac:(lia)). lia.
  - right. split; [reflexivity|]. exists q. split; [exact Hs|].
    assert (h < -596523)%Z. { destruct (Z.lt_ge_cases h (-596523)) as [X|X]; [exact X|]. pose proof (i32_le (3600 * h) ltac:(lia)). lia. }
    unfold tr in E. unfold Qlt. cbn [Qnum Qden inject_Z]. rewrite Z.mul_1_r.
    pose proof (Z.quot_rem' (Qnum q) (QDen q)) as QR. destruct (Z.le_gt_cases 0 (Qnum q)) as [X|X].
    { pose proof (Z.quot_pos (Qnum q) (QDen q) X ltac:(lia)). lia. }
    pose proof (Z.rem_nonpos (Qnum q) (QDen q) ltac:(lia) ltac:(lia)) as RN. pose proof (Z.rem_bound_abs (Qnum q) (QDen q) ltac:(lia)) as RB. nia.
Qed.
Lemma valid_zero : forall k strp t st f e sys prn r, valid_loop k strp t st f e sys prn = Val r -> n_code r = 0%Z ->
  f_sys (n_frame r) = sys /\ f_prn (n_frame r) = prn /\ healthy (n_frame r) /\ (covers t (n_frame r) \/ wild_hours (n_frame r)).
Proof.
  induction k; cbn [valid_loop]; intros strp t st f e sys prn r H Z0; [discriminate|].
  destruct (peak_satsys st) as [[s cs] st1] eqn:P. destruct (Z.eqb_spec s 0) as [->|Ns]; cbn [negb] in H.
  2:{ injection H as <-. cbn in Z0. congruence. }
  destruct (peak_zero _ _ _ P) as (-> & G & c & u & R & Ec).
  destruct (satsys_eqb cs sys) eqn:Es.
  - apply satsys_eqb_eq in Es. subst cs. apply bind_inv in H as (r1 & Er & H).
    destruct (Z.eqb_spec (n_code r1) 0) as [E0|N0]; cbn [negb] in H; [|injection H as <-; cbn in Z0; congruence].
    destruct (read_as_ignore _ _ _ _ _ Er E0) as (_ & c' & t' & s' & R' & Ec' & _ & Fs & _).
    rewrite R in R'. injection R' as <- <-. rewrite Ec in Ec'. injection Ec' as <-.
    destruct (Z.eqb_spec prn (f_prn (n_frame r1))) as [Ep|Np]; [|exact (IHk _ _ _ _ _ _ _ _ H Z0)].
    destruct (_ && _)%bool in H; [injection H as <-; discriminate|].
    apply bind_inv in H as (h & Hh & H). destruct (Z.eqb_spec h 0) as [->|Nh]; [|exact (IHk _ _ _ _ _ _ _ _ H Z0)].
    apply bind_inv in H as (fit & Hf & H). destruct (satsys_eqb sys Glonass) eqn:Eg; cbn [negb] in H.
    + apply satsys_eqb_eq in Eg. destruct ((_ <=? t) && (t <? _))%Z eqn:C in H; [|exact (IHk _ _ _ _ _ _ _ _ H Z0)]. injection H as <-.
      apply andb_true_iff in C as (C1 & C2). apply Z.leb_le in C1. apply Z.ltb_lt in C2.
      split; [exact Fs|]. split; [auto|]. split; [apply health_inv, Hh|]. left. unfold fit_interval in Hf. unfold covers. rewrite Fs, Eg in *.
      injection Hf as <-. lia.
    + destruct ((_ <=? t) && (t <? _))%Z eqn:C in H; [|exact (IHk _ _ _ _ _ _ _ _ H Z0)]. injection H as <-.
      apply andb_true_iff in C as (C1 & C2). apply Z.leb_le in C1. apply Z.ltb_lt in C2.
      split; [exact Fs|]. split; [auto|]. split; [apply health_inv, Hh|]. apply (fit_inv _ fit); auto.
      rewrite Fs. intros ->. discriminate.
  - apply bind_inv in H as ([j st2] & Ei & H).
    destruct (Z.eqb_spec j 0) as [->|Nj]; cbn [negb] in H; [exact (IHk _ _ _ _ _ _ _ _ H Z0)|]. injection H as <-. cbn in Z0. congruence.
Qed.
(** a documented number is there *)
Lemma number_there b i : block_ok b -> documented (b_sys b) i = true -> exists n, number_at b i = Some n.
Proof.
  intros (_ & _ & _ & _ & _ & Lk & _ & _ & O & _) D. unfold documented, number_at in *. destruct (Nat.ltb_spec i 3).
  - destruct (nth_error (b_clk b) i) as [n|] eqn:E; [eauto|]. apply nth_error_None in E. lia.
  - pose proof (forall2_nth _ _ _ O ((i - 3) / 4)) as F. destruct (nth_error (orbit_fields (b_sys b)) ((i - 3) / 4)) as [fl|]; [|discriminate].
    destruct (nth_error (b_orb b) ((i - 3) / 4)) as [l|]; [|contradiction].
    destruct F as ((req & extra & E & F2 & _) & _). pose proof (forall2_nth _ _ _ F2 ((i - 3) mod 4)) as F3.
    destruct (nth_error fl ((i - 3) mod 4)) as [x|] eqn:Ef; [|discriminate]. subst x.
    destruct (nth_error req ((i - 3) mod 4)) as [o|] eqn:Er; [|contradiction]. destruct F3 as (_ & F3).
    rewrite E, nth_error_app1 by (apply nth_error_Some; congruence). rewrite Er. destruct o as [n|]; [eauto|]. exfalso. apply F3; reflexivity.
Qed.
Lemma block_num cal g b i : is_block cal g b -> block_ok b -> documented (b_sys b) i = true ->
  exists n, number_at b i = Some n /\ nth_error (f_data g) i = Some (DFin (si_value (b_sys b) i n)).
Proof. intros (_ & _ & _ & _ & H) Ok D. destruct (number_there b i Ok D) as (n & E). exists n. auto. Qed.
Lemma trunc_fit lo hi q : (inject_Z lo <= q <= inject_Z hi)%Q -> (lo <= 0 <= hi)%Z -> trunc_in lo hi (DFin q) = Val (tr q) /\ (lo <= tr q <= hi)%Z.
Proof.
  intros (A & B) H. destruct (trunc_ok lo hi q A B H) as (z & Ez). specialize (Ez lo hi ltac:(lia) ltac:(lia)).
  destruct (trunc_inv _ _ _ _ Ez) as (q' & E & -> & R). injection E as <-. auto.
Qed.
Lemma to_int_fit q : (inject_Z (-596523) <= q <= inject_Z 596523)%Q -> to_int (DFin q) = Val (tr q) /\ (-596523 <= tr q <= 596523)%Z.
Proof.
  intro H. destruct (trunc_fit _ _ _ H ltac:(lia)) as (E & R). split; [|exact R]. unfold to_int, trunc_in. fold (tr q).
  destruct (Z.leb_spec (-2147483648) (tr q)); [|lia]. destruct (Z.leb_spec (tr q) 2147483647); [reflexivity|lia].
Qed.
Lemma i32_id x : (-2147483648 <= x <= 2147483647)%Z -> to_i32 x = x.
Proof. intro H. unfold to_i32. rewrite Z.mod_small; lia. Qed.
Definition in_window (t : Z) (g : frame) (fit : Z) : bool :=
  if satsys_eqb (f_sys g) Glonass
  then ((f_toe g * 1000 - fit * 1000 <=? t) && (t <? f_toe g * 1000 + fit * 1000))%Z
  else ((f_toc g * 1000 <=? t) && (t <? f_toc g * 1000 + fit * 1000))%Z.
Lemma window_iff a b t : ((a <=? t) && (t <? b))%Z = true <-> (a <= t < b)%Z.
Proof. rewrite andb_true_iff, Z.leb_le, Z.ltb_lt. reflexivity. Qed.
Lemma healthy_iff g q : nth_error (f_data g) (match f_sys g with Glonass => 6 | _ => 24 end) = Some (DFin q) -> (tr q = 0%Z <-> healthy g).
Proof.
  intro H. unfold healthy. rewrite H. rewrite tr_zero. split.
  - intro B. exists (DFin q). split; [reflexivity|]. exists q. auto.
  - intros (v & E & q' & -> & B). injection E as <-. exact B.
Qed.
Lemma verdict cal g b t : is_block cal g b -> block_ok b -> has_toe (b_sys b) = true -> int_fits b ->
  exists h fit, sv_health g = Val h /\ fit_interval g = Val fit /\ (h = 0%Z <-> healthy g) /\ (in_window t g fit = true <-> covers t g).
Proof.
  intros B Ok T F. pose proof B as (Es & _). unfold sv_health, fit_interval, in_window, covers, int_fits in *.
  destruct (b_sys b) eqn:Eb; try discriminate; rewrite Es.
  - destruct F as (F1 & F2).
    destruct (block_num cal g b 24 B Ok ltac:(rewrite Eb; reflexivity)) as (n & N & D). rewrite N in F1. rewrite Eb in D. cbn [si_value] in D.
    destruct (block_num cal g b 28 B Ok ltac:(rewrite Eb; reflexivity)) as (m & M & D2). rewrite M in F2. rewrite Eb in D2. cbn [si_value] in D2.
    destruct (trunc_fit _ _ _ F1 ltac:(lia)) as (E1 & R1). destruct (to_int_fit _ F2) as (E2 & R2).
    unfold gps_fit_interval. rewrite (slot_val _ _ _ D), (slot_val _ _ _ D2). cbn [bind]. fold to_int in E1. change (to_int (DFin (num_val n)) = Val (tr (num_val n))) in E1.
    rewrite E1, E2. cbn [bind]. exists (tr (num_val n)), (3600 * tr (num_val m))%Z. split; [reflexivity|]. split; [rewrite i32_id by lia; reflexivity|].
    split; [apply healthy_iff; rewrite Es; exact D|]. change (satsys_eqb Gps Glonass) with false. cbn iota. rewrite window_iff. rewrite D2. split.
    + intro W. exists (DFin (num_val m)), (tr (num_val m)). split; [reflexivity|]. assert (0 < tr (num_val m))%Z by lia.
      split; [exists (num_val m); split; [reflexivity|apply tr_pos; auto]|]. split; [assumption|lia].
    + intros (v & h & Ev & (q & -> & Hq) & Ph & W). injection Ev as <-. apply tr_pos in Hq; [|exact Ph]. lia.
  - destruct (block_num cal g b 6 B Ok ltac:(rewrite Eb; reflexivity)) as (n & N & D). rewrite N in F. rewrite Eb in D.
    change (si_value Glonass 6 n) with (num_val n) in D.
    destruct (trunc_fit _ _ _ F ltac:(lia)) as (E1 & R1). rewrite (slot_val _ _ _ D). cbn [bind]. change (to_int (DFin (num_val n)) = Val (tr (num_val n))) in E1. rewrite E1.
    exists (tr (num_val n)), 900%Z. split; [reflexivity|]. split; [reflexivity|]. split; [apply healthy_iff; rewrite Es; exact D|].
    change (satsys_eqb Glonass Glonass) with true. cbn iota. rewrite window_iff. lia.
  - destruct (block_num cal g b 24 B Ok ltac:(rewrite Eb; reflexivity)) as (n & N & D). rewrite N in F. rewrite Eb in D. cbn [si_value] in D.
    destruct (trunc_fit _ _ _ F ltac:(lia)) as (E1 & R1). rewrite (slot_val _ _ _ D). cbn [bind]. change (to_int (DFin (num_val n)) = Val (tr (num_val n))) in E1. rewrite E1.
    exists (tr (num_val n)), 14400%Z. split; [reflexivity|]. split; [reflexivity|]. split; [apply healthy_iff; rewrite Es; exact D|].
    change (satsys_eqb Galileo Glonass) with false. cbn iota. rewrite window_iff. lia.
  - destruct (block_num cal g b 24 B Ok ltac:(rewrite Eb; reflexivity)) as (n & N & D). rewrite N in F. rewrite Eb in D. cbn [si_value] in D.
    destruct (trunc_fit _ _ _ F ltac:(lia)) as (E1 & R1). rewrite (slot_val _ _ _ D). cbn [bind]. change (to_int (DFin (num_val n)) = Val (tr (num_val n))) in E1. rewrite E1.
    exists (tr (num_val n)), 14400%Z. split; [reflexivity|]. split; [reflexivity|]. split; [apply healthy_iff; rewrite Es; exact D|].
    change (satsys_eqb Beidou Glonass) with false. cbn iota. rewrite window_iff. lia.
Qed.


Lemma late_test cal t g b : is_block cal g b ->
  (((t <? f_toc g * 1000) && (3600 * 4 * 1000 <? f_toc g * 1000 - t))%Z = true <-> too_late cal t b).
Proof. intros (_ & _ & Et & _). unfold too_late. rewrite Et, andb_true_iff, !Z.ltb_lt. lia. Qed.

(** one turn of the loop on a block of the wanted satellite *)
Lemma valid_turn strp cal t sys prn b st f tail k : reads_dates strp cal -> block_ok b -> serves sys prn b -> has_toe sys = true ->
  length (f_data f) = 31 -> at_rest st (block_text b ++ tail) ->
  exists g st', frame_of cal b g /\ at_rest st' tail /\ sdata st' = sdata st /\
    (too_late cal t b -> valid_loop (S k) strp t st f 0 sys prn = Val (mkNav (-1) g st' 0)) /\
    (~ too_late cal t b -> int_fits b -> usable t g -> valid_loop (S k) strp t st f 0 sys prn = Val (mkNav 0 g st' 0)) /\
    (~ too_late cal t b -> int_fits b -> ~ usable t g -> valid_loop (S k) strp t st f 0 sys prn = valid_loop k strp t st' g 0 sys prn).
Proof.
  intros RD Ok (Es & Ep) T L At. cbn [valid_loop]. rewrite (block_peak _ _ _ Ok At). cbn [Z.eqb negb]. rewrite (proj2 (satsys_eqb_eq _ _) Es).
  assert (NI : b_sys b <> Irnss) by (rewrite Es; intros ->; discriminate).
  destruct (read_block strp cal b tail st f RD Ok NI L At) as (g & st' & -> & A & D & B & _ & Te & _). exists g, st'.
  destruct (is_block_data _ _ _ B) as (Lg & Pg & Sg). rewrite Es in Te, Sg.
  split; [split; [exact B|apply Te, T]|]. split; [exact A|]. split; [exact D|].
  cbn [bind n_code Z.eqb negb n_frame n_stream n_errno]. rewrite Pg, Ep, Z.eqb_refl. pose proof (late_test cal t g b B) as LT.
  destruct (_ && _)%bool eqn:El.
  - split; [reflexivity|]. split; intro N; exfalso; apply N, LT; reflexivity.
  - split; [intro N; apply LT in N; discriminate|]. assert (T' : has_toe (b_sys b) = true) by (rewrite Es; exact T).
    split; intros _ F; destruct (verdict cal g b t B Ok T' F) as (h & fit & -> & -> & Hh & Hw); cbn [bind]; unfold in_window in Hw; rewrite Sg in Hw.
    + intros (Uh & Uc). apply Hh in Uh. apply Hw in Uc. subst h. cbn [Z.eqb]. destruct (satsys_eqb sys Glonass); cbn [negb]; rewrite Uc; reflexivity.
    + intro U. destruct (Z.eqb_spec h 0) as [E0|N0]; [|reflexivity].
      destruct (satsys_eqb sys Glonass); cbn [negb]; (match goal with |- (if ?c then _ else _) = _ => destruct c eqn:Ec end; [|reflexivity]);
        exfalso; apply U; (split; [apply Hh; exact E0|apply Hw; reflexivity]).
Qed.
(** a block of another satellite *)
Lemma valid_other strp cal t sys prn b st f tail k : reads_dates strp cal -> block_ok b -> ~ serves sys prn b -> sys <> Irnss ->
  length (f_data f) = 31 -> at_rest st (block_text b ++ tail) ->
  exists g st', valid_loop (S k) strp t st f 0 sys prn = valid_loop k strp t st' g 0 sys prn /\ length (f_data g) = 31 /\ at_rest st' tail /\ sdata st' = sdata st.
Proof.
  intros RD Ok NS NI L At. cbn [valid_loop]. rewrite (block_peak _ _ _ Ok At). cbn [Z.eqb negb]. destruct (satsys_eqb (b_sys b) sys) eqn:Es.
  - apply satsys_eqb_eq in Es. destruct (read_block strp cal b tail st f RD Ok ltac:(congruence) L At) as (g & st' & -> & A & D & B & _).
    cbn [bind n_code Z.eqb negb n_frame n_stream n_errno]. destruct (is_block_data _ _ _ B) as (Lg & Pg & _).
    destruct (Z.eqb_spec prn (f_prn g)) as [E|N2]; [exfalso; apply NS; split; [auto|congruence]|]. exists g, st'. auto.
  - destruct (ignore_block b st tail Ok At) as (st' & -> & A & D). cbn [bind Z.eqb negb]. exists f, st'. auto.
Qed.
Lemma serves_dec sys prn b : {serves sys prn b} + {~ serves sys prn b}.
Proof.
  unfold serves. destruct (satsys_eqb (b_sys b) sys) eqn:E.
  - apply satsys_eqb_eq in E. destruct (Z.eq_dec (dec_val (b_prn b)) prn); [left; auto|right; intros (_ & ?); contradiction].
  - right. intros (X & _). apply satsys_eqb_eq in X. congruence.
Qed.
Lemma valid_pre strp cal t sys prn : reads_dates strp cal -> has_toe sys = true ->
  forall bs st f tail k, Forall block_ok bs -> Forall (passed cal t sys prn) bs ->
  length (f_data f) = 31 -> at_rest st (blocks_text bs ++ tail) ->
  exists g st', valid_loop (length bs + k) strp t st f 0 sys prn = valid_loop k strp t st' g 0 sys prn /\ length (f_data g) = 31 /\ at_rest st' tail /\ sdata st' = sdata st.
Proof.
  intros RD T. induction bs as [|b bs IH]; intros st f tail k Ok W L At.
  - exists f, st. cbn in *. auto.
  - inversion Ok as [|? ? O1 O2]; subst. inversion W as [|? ? W1 W2]; subst. unfold blocks_text in At. cbn [flat_map] in At. rewrite <- app_assoc in At.
    assert (X : exists g st', valid_loop (S (length bs + k)) strp t st f 0 sys prn = valid_loop (length bs + k) strp t st' g 0 sys prn /\
              length (f_data g) = 31 /\ at_rest st' (blocks_text bs ++ tail) /\ sdata st' = sdata st).
    { destruct (serves_dec sys prn b) as [Sv|NS].
      - destruct W1 as [W1|(Lt & F & U)]; [contradiction|].
        destruct (valid_turn strp cal t sys prn b st f _ (length bs + k) RD O1 Sv T L At) as (g & st' & Fg & A & D & _ & _ & E).
        exists g, st'. split; [apply E; auto|]. split; [apply (is_block_data _ _ _ (proj1 Fg))|auto].
      - apply (valid_other strp cal t sys prn b); auto. intros ->. discriminate. }
    destruct X as (g & st1 & E & Lg & A & D).
    destruct (IH st1 g tail k O2 W2 Lg A) as (g2 & st2 & E2 & L2 & A2 & D2).
    exists g2, st2. cbn [length Nat.add]. rewrite E, E2. split; [reflexivity|]. split; [exact L2|]. split; [exact A2|congruence].
Qed.
Theorem valid_first strp cal t sys prn pre b post tail st f k : reads_dates strp cal -> has_toe sys = true ->
  Forall block_ok (pre ++ [b]) -> Forall (passed cal t sys prn) pre ->
  serves sys prn b -> ~ too_late cal t b -> int_fits b -> (forall g, frame_of cal b g -> usable t g) ->
  length (f_data f) = 31 -> at_rest st (blocks_text (pre ++ b :: post) ++ tail) -> length pre < k ->
  exists g st', find_next_valid k strp t st f 0 sys prn = Val (Some (spos st), mkNav 0 g st' 0) /\ frame_of cal b g /\ at_rest st' (blocks_text post ++ tail).
Proof.
  intros RD T Ok W Sv Lt F U L At Hk. apply Forall_app in Ok as (Op & Ob). inversion Ob as [|? ? O1 _]; subst.
  unfold blocks_text in At. rewrite flat_map_app in At. cbn [flat_map] in At. rewrite <- !app_assoc in At.
  unfold find_next_valid, tellg. rewrite (proj1 At). replace k with (length pre + S (k - length pre - 1)) by lia.
  destruct (valid_pre strp cal t sys prn RD T pre st f _ (S (k - length pre - 1)) Op W L At) as (g1 & st1 & -> & L1 & A1 & _).
  destruct (valid_turn strp cal t sys prn b st1 g1 _ (k - length pre - 1) RD O1 Sv T L1 A1) as (g & st2 & Fg & A2 & _ & _ & E & _).
  exists g, st2. rewrite E by auto. cbn [bind noexcept]. auto.
Qed.
Theorem valid_none strp cal t sys prn bs st f k : reads_dates strp cal -> has_toe sys = true ->
  Forall block_ok bs -> Forall (passed cal t sys prn) bs ->
  length (f_data f) = 31 -> at_rest st (blocks_text bs) -> length bs < k ->
  exists g st', find_next_valid k strp t st f 0 sys prn = Val (Some (spos st), mkNav (-1) g st' 0) /\ at_rest st' [].
Proof.
  intros RD T Ok W L At Hk. rewrite <- (app_nil_r (blocks_text bs)) in At.
  unfold find_next_valid, tellg. rewrite (proj1 At). replace k with (length bs + S (k - length bs - 1)) by lia.
  destruct (valid_pre strp cal t sys prn RD T bs st f _ (S (k - length bs - 1)) Ok W L At) as (g1 & st1 & -> & L1 & (G1 & R1) & _).
  cbn [valid_loop]. rewrite (peak_good _ G1), R1. cbn [Z.eqb negb bind noexcept]. exists g1, st1. split; [reflexivity|split; assumption].
Qed.
Theorem valid_stop strp cal t sys prn pre b post tail st f k : reads_dates strp cal -> has_toe sys = true ->
  Forall block_ok (pre ++ [b]) -> Forall (passed cal t sys prn) pre -> serves sys prn b -> too_late cal t b ->
  length (f_data f) = 31 -> at_rest st (blocks_text (pre ++ b :: post) ++ tail) -> length pre < k ->
  exists g st', find_next_valid k strp t st f 0 sys prn = Val (Some (spos st), mkNav (-1) g st' 0) /\ at_rest st' (blocks_text post ++ tail).
Proof.
  intros RD T Ok W Sv Lt L At Hk. apply Forall_app in Ok as (Op & Ob). inversion Ob as [|? ? O1 _]; subst.
  unfold blocks_text in At. rewrite flat_map_app in At. cbn [flat_map] in At. rewrite <- !app_assoc in At.
  unfold find_next_valid, tellg. rewrite (proj1 At). replace k with (length pre + S (k - length pre - 1)) by lia.
  destruct (valid_pre strp cal t sys prn RD T pre st f _ (S (k - length pre - 1)) Op W L At) as (g1 & st1 & -> & L1 & A1 & _).
  destruct (valid_turn strp cal t sys prn b st1 g1 _ (k - length pre - 1) RD O1 Sv T L1 A1) as (g & st2 & Fg & A2 & _ & E & _).
  exists g, st2. rewrite E by auto. cbn [bind noexcept]. auto.
Qed.
(** SBAS and QZSS: the process ends *)
Theorem valid_terminates strp cal t sys prn b tail st f k : reads_dates strp cal -> (sys = Sbas \/ sys = Qzss) ->
  block_ok b -> serves sys prn b -> ~ too_late cal t b -> length (f_data f) = 31 -> at_rest st (block_text b ++ tail) ->
  find_next_valid (S k) strp t st f 0 sys prn = Term.
Proof.
  intros RD Hs Ok (Es & Ep) Lt L At. unfold find_next_valid, tellg. rewrite (proj1 At). cbn [valid_loop].
  rewrite (block_peak _ _ _ Ok At). cbn [Z.eqb negb]. rewrite (proj2 (satsys_eqb_eq _ _) Es).
  assert (NI : b_sys b <> Irnss) by (rewrite Es; destruct Hs; subst sys; congruence).
  destruct (read_block strp cal b tail st f RD Ok NI L At) as (g & st' & -> & A & D & B & _).
  destruct (is_block_data _ _ _ B) as (Lg & Pg & Sg). cbn [bind n_code Z.eqb negb n_frame n_stream n_errno]. rewrite Pg, Ep, Z.eqb_refl.
  pose proof (late_test cal t g b B) as LT. destruct (_ && _)%bool eqn:El; [exfalso; apply Lt, LT; reflexivity|].
  unfold sv_health. rewrite Sg, Es. destruct Hs as [->| ->]; reflexivity.
Qed.
(** the same loops as find_next: returns, keeps the content, hangs *)
Lemma valid_stream : forall k strp t st f e sys prn r, good st = true -> valid_loop k strp t st f e sys prn = Val r ->
  sfail (n_stream r) = false /\ sdata (n_stream r) = sdata st.
Proof.
  assert (X : forall k strp t st f e sys prn r, valid_loop k strp t st f e sys prn = Val r ->
    sfail (n_stream r) = false /\ sdata (n_stream r) = sdata st).
  { induction k; cbn [valid_loop]; intros strp t st f e sys prn r H; [discriminate|].
    destruct (peak_satsys st) as [[s cs] st1] eqn:P. pose proof (peak_fail _ _ _ _ P) as Pf. destruct (peak_keeps _ _ _ _ P) as (Pd & _).
    destruct (s =? 0)%Z; cbn [negb] in H; [|injection H as <-; auto]. rewrite <- Pd.
    destruct (satsys_eqb cs sys).
    - apply bind_inv in H as (r1 & Er & H). pose proof (read_data _ _ _ _ _ Er) as D.
      destruct (Z.eqb_spec (n_code r1) 0) as [E0|N0]; cbn [negb] in H; [|injection H as <-; auto].
      destruct (read_as_ignore _ _ _ _ _ Er E0) as (_ & c' & t' & s' & _ & _ & _ & _ & _ & (ls & _ & _ & _ & Sf & _)).
      rewrite <- D. destruct (_ =? _)%Z; [|exact (IHk _ _ _ _ _ _ _ _ H)].
      destruct (_ && _)%bool in H; [injection H as <-; auto|]. apply bind_inv in H as (h & _ & H).
      destruct (h =? 0)%Z; [|exact (IHk _ _ _ _ _ _ _ _ H)]. apply bind_inv in H as (fit & _ & H).
      destruct (negb _); (destruct (_ && _)%bool in H; [injection H as <-; auto|exact (IHk _ _ _ _ _ _ _ _ H)]).
    - apply bind_inv in H as ([j st2] & Ei & H). pose proof (ignore_data _ _ _ Ei) as D.
      destruct (j =? 0)%Z; cbn [negb] in H; [|injection H as <-; auto]. rewrite <- D. exact (IHk _ _ _ _ _ _ _ _ H). }
  intros. eapply X; eauto.
Qed.
Theorem valid_rewind k strp t st f e sys prn pos r eoh : good st = true -> find_next_valid k strp t st f e sys prn = Val (pos, r) ->
  pos = Some (spos st) /\ nav_rewind eoh pos (n_stream r) = st.
Proof.
  intros G H. unfold find_next_valid, tellg in H. rewrite G in H.
  destruct (valid_loop k strp t st f e sys prn) as [r1| | | |] eqn:E; try discriminate. cbn [bind noexcept] in H. injection H as <- <-.
  split; [reflexivity|]. destruct (valid_stream _ _ _ _ _ _ _ _ _ G E) as (Sf & D). unfold nav_rewind, seekg. rewrite Sf, D.
  destruct (good_bits _ G) as (A & B). destruct st; cbn in *; subst; reflexivity.
Qed.
Theorem valid_hangs strp t st f e sys prn u : at_rest st ("M"%char :: u) -> sys <> Mixed -> forall k, find_next_valid k strp t st f e sys prn = Fuel.
Proof.
  intros At Ns k. pose proof At as (G & R). unfold find_next_valid, tellg. rewrite G.
  assert (X : valid_loop k strp t st f e sys prn = Fuel); [|rewrite X; reflexivity].
  induction k; [reflexivity|]. cbn [valid_loop]. rewrite (peak_good _ G), R.
  change (ceqb "M" CFF) with false. change (char_to_satsys "M") with (Val Mixed). cbn [Z.eqb negb].
  destruct (satsys_eqb Mixed sys) eqn:E; [apply satsys_eqb_eq in E; congruence|]. rewrite (ignore_mixed _ _ At). cbn [bind Z.eqb negb]. exact IHk.
Qed.
