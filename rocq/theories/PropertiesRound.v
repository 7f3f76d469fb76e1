(** PropertiesRound: C100-C102 (what rounding does to SP3 epochs, headers and records) *)
From Coq Require Import Qround Qabs Lia Lqa.
From Verif Require Import Base B64 SpecB64 BaseLemmas CNum CNumLemmas Stream ModelSatsys ModelSp3 SpecText SpecNum SpecObs SpecSp3 SpecRound
  ProofText ProofNum ProofStream ProofSp3 ProofSp3Epoch ProofSp3File ProofSp3Header ProofRound PropertiesSp3.
From Verif Require ProofB64 PropertiesNav.
Open Scope string_scope.
Open Scope list_scope.

(** ** C100: the seconds of an epoch *)
(** an epoch that get_next_epoch reads has the whole microseconds of its seconds field *)
Definition C100_full : Prop := forall e is tail st vec k, sp3_epoch_ok e is -> eight_decimals 2 (t_sec e) ->
  at_rest st (sp3_epoch_text e is ++ "*"%char :: tail) -> length (positions is) <= length vec -> length is < k ->
  exists q t, sp3_next_epoch k st vec = Val q /\ q_time q = Some t /\
    t_date t = map dec_val [t_year e; t_month e; t_day e; t_hour e; t_min e] /\ t_usec t = whole_usec (num_dec (t_sec e)).
Lemma sec_range e : sp3_src_ok e -> eight_decimals 2 (t_sec e) -> (0 <= num_dec (t_sec e) <= 100000)%Q.
Proof. intros (_ & _ & _ & _ & _ & _ & _ & A & B & C & D & _) (L & _). apply (plain_range _ 11 (conj A (conj B (conj C D)))). lia. Qed.
(** it has them, or one less; one less only if the field is a whole number of microseconds *)
Theorem C100_near_partial : forall e is tail st vec k, sp3_epoch_ok e is -> eight_decimals 2 (t_sec e) ->
  at_rest st (sp3_epoch_text e is ++ "*"%char :: tail) -> length (positions is) <= length vec -> length is < k ->
  exists q t, sp3_next_epoch k st vec = Val q /\ q_time q = Some t /\
    t_date t = map dec_val [t_year e; t_month e; t_day e; t_hour e; t_min e] /\
    (t_usec t = whole_usec (num_dec (t_sec e)) \/
     integral (num_dec (t_sec e) * 1000000) /\ t_usec t = whole_usec (num_dec (t_sec e)) - 1)%Z.
Proof.
  intros e is tail st vec k H D R Lv Lk. destruct (C30_epoch_partial e is tail st vec H R Lv) as (q & Q & _ & (t & Qt & T1 & T2) & _).
  exists q, t. split; [exact (Q k Lk)|]. split; [exact Qt|]. split; [exact T1|].
  pose proof (sec_range e (proj1 H) D) as Rg. destruct (proj1 H) as (_ & _ & _ & _ & _ & _ & _ & _ & B & C & _).
  destruct (dec_grid (t_sec e) 8 B C (proj2 D)) as (M & HM). rewrite T2. unfold num_val. exact (usec_near _ M Rg HM).
Qed.
Print Assumptions C100_near_partial.
(** whole, half, quarter seconds, and every other number of 1/64 seconds *)
Theorem C100_exact_partial : forall e is tail st vec k, sp3_epoch_ok e is -> eight_decimals 2 (t_sec e) -> integral (num_dec (t_sec e) * 64) ->
  at_rest st (sp3_epoch_text e is ++ "*"%char :: tail) -> length (positions is) <= length vec -> length is < k ->
  exists q t, sp3_next_epoch k st vec = Val q /\ q_time q = Some t /\
    t_date t = map dec_val [t_year e; t_month e; t_day e; t_hour e; t_min e] /\
    (inject_Z (t_usec t) == num_dec (t_sec e) * 1000000)%Q.
Proof.
  intros e is tail st vec k H D Hz R Lv Lk. destruct (C30_epoch_partial e is tail st vec H R Lv) as (q & Q & _ & (t & Qt & T1 & T2) & _).
  exists q, t. split; [exact (Q k Lk)|]. split; [exact Qt|]. split; [exact T1|].
  pose proof (sec_range e (proj1 H) D) as Rg. rewrite T2. unfold num_val. rewrite (usec_64 _ Rg Hz). destruct Hz as (z & Hz). unfold whole_usec.
  assert (E : (num_dec (t_sec e) * 1000000 == inject_Z (z * 15625))%Q).
  { rewrite inject_Z_mult, <- Hz. change (inject_Z 15625) with 15625%Q. ring. }
  rewrite (floor_eqv _ _ E), Qfloor_Z, E. reflexivity.
Qed.
Print Assumptions C100_exact_partial.
Definition ep_at1 (s f : string) : sp3_src := mkSp3Src (lit "2020") (lit "10") (lit "11") (lit "0") (lit "15") (dec None s f) 0.
Lemma ep_at1_ok s f : digits (lit s) -> digits (lit f) -> lit s <> [] -> length (lit s) <= 2 -> length (lit f) <= 8 -> sp3_epoch_ok (ep_at1 s f) [] /\ eight_decimals 2 (t_sec (ep_at1 s f)).
Proof.
  intros A B N L1 L2. split; [|split; assumption]. split; [|constructor].
  split; [digs|]. split; [reflexivity|]. split; [discriminate|]. split; [fk|]. split; [fk|]. split; [fk|]. split; [fk|].
  split; [apply dec_ok; [exact I|exact A|exact B|exact N|rewrite app_length; lia]|]. split; [reflexivity|]. split; [reflexivity|].
  split; [|apply Nat.le_0_l]. unfold ep_at1, num_text, mant_text, exp_text. cbn [t_sec dec nsign nint ndot nfrac nexp sign_text app].
  rewrite !app_length. cbn [length]. lia.
Qed.
(** "1.00100000" is read as 1000999 microseconds *)
Theorem C100_full_refuted : ~ C100_full.
Proof.
  intro F. destruct (ep_at1_ok "1" "00100000") as (H & D); [digs|digs|discriminate|vm_compute; lia|vm_compute; lia|].
  destruct (F (ep_at1 "1" "00100000") [] [] (open_stream (sp3_epoch_text (ep_at1 "1" "00100000") [] ++ lit "*")) [] 1 H D) as (q & t & E & Q & _ & U);
    [split; reflexivity|vm_compute; lia|apply Nat.lt_0_1|].
  destruct (C30_epoch_partial (ep_at1 "1" "00100000") [] [] (open_stream (sp3_epoch_text (ep_at1 "1" "00100000") [] ++ lit "*")) [] H) as (q' & E' & _ & (t' & Q' & _ & U') & _); [split; reflexivity|vm_compute; lia|].
  rewrite (E' 1 Nat.lt_0_1) in E. apply Val_inj in E. subst q'. assert (t' = t) by congruence. subst t'. rewrite U' in U. vm_compute in U. discriminate U.
Qed.
Print Assumptions C100_full_refuted.
Example C100_ex : sp3_epoch_ok (ep_at1 "30" "25000000") [] /\ eight_decimals 2 (t_sec (ep_at1 "30" "25000000")) /\ integral (num_dec (t_sec (ep_at1 "30" "25000000")) * 64) /\
  sp3_epoch_line (ep_at1 "30" "25000000") = lit "*  2020 10 11  0 15 30.25000000".
Proof.
  destruct (ep_at1_ok "30" "25000000") as (H & D); [digs|digs|discriminate|vm_compute; lia|vm_compute; lia|].
  split; [exact H|]. split; [exact D|]. split; [exists 1936%Z; vm_compute; reflexivity|reflexivity].
Qed.
(** the interval of the header, F14.8 *)
Theorem C100_interval_partial : forall wsow as_mjd h c tail g st, sp3h_ok h -> dates_agree wsow as_mjd h -> c <> "/"%char -> eight_decimals 5 (h_interval h) ->
  sp3_open wsow as_mjd (sp3h_text h ++ c :: tail) = Val (g, st) ->
  (g_interval g = whole_usec (num_dec (h_interval h)) \/
   integral (num_dec (h_interval h) * 1000000) /\ g_interval g = whole_usec (num_dec (h_interval h)) - 1)%Z.
Proof.
  intros wsow as_mjd h c tail g st H Da Nc D E. destruct (C62_header_partial wsow as_mjd h c tail H Da Nc) as (g' & st' & E' & G & _).
  rewrite E in E'. apply Val_inj in E'. assert (g' = g) by congruence. subst g'. destruct G as (_ & _ & _ & _ & _ & _ & _ & _ & Gi & _). rewrite Gi. unfold num_val.
  assert (P : plain_num 14 (h_interval h)) by (destruct H as (_ & _ & _ & _ & _ & _ & _ & _ & _ & _ & _ & _ & _ & _ & P & _); exact P).
  pose proof (plain_range _ 14 P (proj1 D)) as Rg. destruct P as (A & B & C & _). destruct (dec_grid (h_interval h) 8 B C (proj2 D)) as (M & HM). exact (usec_near _ M Rg HM).
Qed.
Print Assumptions C100_interval_partial.
Example C100_interval_ex : sp3h_ok hdr1 /\ dates_agree cal1 mjd1 hdr1 /\ eight_decimals 5 (h_interval hdr1).
Proof. split; [apply hdr1_ok|]. split; [apply hdr1_ok|]. split; vm_compute; lia. Qed.

(** ** C101: headers whose two lines give the same instant are accepted, when the calendar library returns the
    double nearest to the exact values *)
Definition C101_full : Prop := forall minute h c tail, sp3h_ok h -> eight_decimals 2 (t_sec (h_start h)) -> dates_right minute h ->
  integral (num_dec (t_sec (h_start h)) * 1000000) -> c <> "/"%char ->
  exists g st, sp3_open (lib_wsow minute) (lib_mjd minute) (sp3h_text h ++ c :: tail) = Val (g, st).
(** start at a whole second: accepted from MJD 32768 (1948) to 65535 (2038), later every 5 seconds; the start epoch is
    the written one *)
Theorem C101_whole_seconds_partial : forall minute h c tail, sp3h_ok h -> eight_decimals 2 (t_sec (h_start h)) -> dates_right minute h ->
  integral (num_dec (t_sec (h_start h))) -> c <> "/"%char ->
  ((32768 <= dec_val (h_mjd h) < 65536)%Z \/ (65536 <= dec_val (h_mjd h))%Z /\ integral (num_dec (t_sec (h_start h)) / 5)) ->
  exists g st, sp3_open (lib_wsow minute) (lib_mjd minute) (sp3h_text h ++ c :: tail) = Val (g, st) /\
    is_header g h (firstn 3 (h_agency h)) /\ (lib_seconds minute (g_start g) == start_seconds minute h)%Q /\ at_rest st (c :: tail).
Proof.
  intros minute h c tail H D R Hz Nc Rg. pose proof (dates_from_sec minute h H D R Hz Rg) as Da.
  destruct (C62_header_partial _ _ h c tail H Da Nc) as (g & st & E & G & A & _). exists g, st. split; [exact E|]. split; [exact G|]. split; [|exact A].
  destruct G as (_ & (T1 & T2) & _). unfold lib_seconds, start_seconds. rewrite T1, T2. apply Qplus_inj_l.
  assert (Rs : (0 <= num_dec (t_sec (h_start h)) <= 100000)%Q) by (apply sec_range; [apply H|exact D]).
  destruct Hz as (z & Hz). unfold num_val. rewrite usec_64; [|exact Rs|exists (z * 64)%Z; rewrite Hz, inject_Z_mult; reflexivity].
  unfold whole_usec. rewrite (floor_eqv _ (inject_Z (z * 1000000))) by (rewrite Hz, inject_Z_mult; reflexivity).
  rewrite Qfloor_Z, inject_Z_mult, Hz. field.
Qed.
Print Assumptions C101_whole_seconds_partial.
Definition minutes (l : list Z) : Z := (PropertiesNav.civil (l ++ [0]) / 60)%Z.
Example C101_ex : sp3h_ok hdr1 /\ eight_decimals 2 (t_sec (h_start hdr1)) /\ dates_right minutes hdr1 /\ integral (num_dec (t_sec (h_start hdr1))) /\ (32768 <= dec_val (h_mjd hdr1) < 65536)%Z.
Proof.
  split; [apply hdr1_ok|]. split; [split; vm_compute; lia|]. split; [|split; [exists 0%Z; vm_compute; reflexivity|vm_compute; split; [discriminate|reflexivity]]].
  split; [vm_compute; reflexivity|]. split; [vm_compute; reflexivity|]. split; [vm_compute; reflexivity|]. split; [vm_compute; lia|vm_compute; discriminate].
Qed.
(** the sample header with another start *)
Definition hdr_at (y m d mi s f week sow sowf mjd frac : string) : sp3h_src := mkSp3h "d"%char "P"%char
  (mkSp3Src (lit y) (lit m) (lit d) (lit "0") (lit mi) (dec None s f) 0) (lit "96") (lit "ORBIT") (lit "IGb14") (lit "HLM") (lit " IGS")
  (lit week) (dec None sow sowf) (dec None "900" "00000000") (lit mjd) (dec None "0" frac)
  (lit "2") (lit "  G01E12") [] [lit "       2  3"; lit "       0  0"]
  (lit " M  cc ") (lit "GPS") (lit " ccc cccc") (lit " cc") (lit "  1.25") (lit "  0.0") (lit "    0") (lit "    0") [].
Definition hdr_tenth := hdr_at "2020" "10" "11" "0" "6" "20000000" "2127" "6" "20000000" "59133" "0000717592593".
Definition hdr_milli := hdr_at "2020" "10" "11" "0" "1" "00100000" "2127" "1" "00100000" "59133" "0000115856481".
Definition hdr_2040 := hdr_at "2040" "1" "1" "3" "19" "00000000" "3130" "199" "00000000" "66154" "0023032407407".
Ltac rk1 := split; [repeat constructor; discriminate|vm_compute; lia].
Ltac ck1 := split; [repeat constructor; discriminate|reflexivity].
Ltac pk1 := split; [apply dec_ok; [exact I|digs|digs|discriminate|vm_compute; lia]|repeat split; vm_compute; lia].
Ltac hdrok := unfold sp3h_ok, hdr_at; cbn [h_version h_posvel h_start h_nepochs h_used h_crd h_orb h_agency h_week h_sow h_interval h_mjd h_frac h_nsats
      h_ids h_plus h_acc h_ctype h_tsys h_crest h_c2 h_f1 h_f2 h_i1 h_i2 h_comments];
    (split; [right; reflexivity|]); (split; [split; [repeat constructor; discriminate|reflexivity]|]);
    (split; [split; [digs|split; [reflexivity|split; [discriminate|split; [fk|split; [fk|split; [fk|split; [fk|split; [apply dec_ok; [exact I|digs|digs|discriminate|vm_compute; lia]|repeat split; vm_compute; lia]]]]]]]]|]);
    (split; [discriminate|]); (split; [discriminate|]); (split; [fk|]); (split; [discriminate|]); (split; [ck1|]); (split; [ck1|]); (split; [ck1|]); (split; [ck1|]);
    (split; [fk|]); (split; [discriminate|]); (split; [pk1|]); (split; [pk1|]); (split; [vm_compute; lia|]); (split; [fk|]); (split; [discriminate|]); (split; [pk1|]);
    (split; [fk|]); (split; [discriminate|]); (split; [rk1|]);
    (split; [apply Forall_nil|]); (split; [vm_compute; lia|]);
    (split; [apply Forall_cons; [rk1|apply Forall_cons; [rk1|apply Forall_nil]]|]);
    (split; [ck1|]); (split; [ck1|]); (split; [rk1|]); (split; [rk1|]); (split; [rk1|]); (split; [rk1|]); (split; [rk1|]); (split; [rk1|]);
    (split; [apply Forall_nil|]); vm_compute; lia.
Lemma hdr_tenth_ok : sp3h_ok hdr_tenth. Proof. unfold hdr_tenth. hdrok. Qed.
Lemma hdr_milli_ok : sp3h_ok hdr_milli. Proof. unfold hdr_milli. hdrok. Qed.
Lemma hdr_2040_ok : sp3h_ok hdr_2040. Proof. unfold hdr_2040. hdrok. Qed.
Ltac right_dates := split; [vm_compute; reflexivity|]; split; [vm_compute; reflexivity|]; split; [vm_compute; reflexivity|]; split; [vm_compute; lia|vm_compute; discriminate].
(** a start at 6.2 seconds is refused with 24, one at 1.001 seconds with 22, and one at the whole second 00:03:19 of
    2040-01-01 with 24, although both lines give the instant to the last decimal *)
Theorem C101_refused :
  (dates_right minutes hdr_tenth /\ sp3_read_header (lib_wsow minutes) (lib_mjd minutes) (sp3h_text hdr_tenth ++ lit "*") = Val (inl 24%Z)) /\
  (dates_right minutes hdr_milli /\ sp3_read_header (lib_wsow minutes) (lib_mjd minutes) (sp3h_text hdr_milli ++ lit "*") = Val (inl 22%Z)) /\
  (dates_right minutes hdr_2040 /\ sp3_read_header (lib_wsow minutes) (lib_mjd minutes) (sp3h_text hdr_2040 ++ lit "*") = Val (inl 24%Z)).
Proof. split; [|split]; (split; [right_dates|vm_compute; reflexivity]). Qed.
Print Assumptions C101_refused.
Theorem C101_full_refuted : ~ C101_full.
Proof.
  intro F. destruct (F minutes hdr_tenth "*"%char [] hdr_tenth_ok) as (g & st & E).
  - split; vm_compute; lia.
  - apply C101_refused.
  - exists 6200000%Z. vm_compute. reflexivity.
  - discriminate.
  - unfold sp3_open in E. change ("*"%char :: []) with (lit "*") in E. rewrite (proj2 (proj1 C101_refused)) in E. discriminate E.
Qed.
Print Assumptions C101_full_refuted.

(** ** C102: position records in terms of the written decimals *)
(** a record line of 80 columns is delivered with coordinates in metres and the clock in microseconds, equal to the
    written decimals up to two roundings to double; the flags are those of the written decimals *)
Theorem C102_record : forall p buf f, pos_ok p -> 20 <= length (s_tail p) -> length buf = 128 ->
  exists r x y z c, sp3_position (overlay (pos_line p) buf) f = Val (inr r) /\ ModelSp3.p_vals r = [DFin x; DFin y; DFin z; DFin c] /\
    as_written x (num_dec (s_x p) * 1000) /\ as_written y (num_dec (s_y p) * 1000) /\ as_written z (num_dec (s_z p) * 1000) /\
    nearest_double (num_dec (s_clk p)) c /\
    forall e, flag_is_set (p_flag r) e = true <-> dec_flag "E"%char p e.
Proof.
  intros p buf f H T L. destruct (C28_record_partial p buf f H T L) as (r & E & _ & _ & V & Fl).
  exists r. do 4 eexists. split; [exact E|]. split; [exact V|]. destruct H as (_ & _ & Hx & Hy & Hz & Hc & _).
  assert (A : forall n, coord_field n -> as_written (b64 (num_val n * 1000)) (num_dec n * 1000)) by (intros n Hn; apply two_rounds; [apply num_dec_far, Hn|discriminate]).
  split; [apply A, Hx|]. split; [apply A, Hy|]. split; [apply A, Hz|]. split; [apply ProofB64.b64_nearest|].
  intro e. rewrite Fl. destruct e; cbn [pos_flag dec_flag]; try reflexivity.
  - rewrite !orb_true_iff, !Qeq_bool_iff, (num_zero _ (proj1 Hx)), (num_zero _ (proj1 Hy)), (num_zero _ (proj1 Hz)). tauto.
  - rewrite Qle_bool_iff. apply num_limit, Hc.
Qed.
Print Assumptions C102_record.
Example C102_ex : pos_ok pos1 /\ 20 <= length (s_tail pos1). Proof. exact pos1_ok. Qed.
(** coordinates below 100000 km: the metres are within 50 nanometres of the text *)
Theorem C102_nanometres : forall n v, as_written v (num_dec n * 1000) -> (Qabs (num_dec n) <= 100000)%Q -> (Qabs (v - num_dec n * 1000) <= 1 # 20000000)%Q.
Proof.
  intros n v A B. unfold as_written in A. eapply Qle_trans; [exact A|]. rewrite Qabs_Qmult. change (Qabs 1000) with 1000%Q. change (2 ^ (-51))%Q with (1 # 2251799813685248)%Q. lra.
Qed.
Print Assumptions C102_nanometres.
