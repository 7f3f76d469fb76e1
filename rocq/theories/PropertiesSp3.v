(** PropertiesSp3: C27-C30, C62-C64 (SP3 orbit files) *)
From Coq Require Import Qround.
From Verif Require Import Base BaseLemmas CNum CNumLemmas Stream ModelSatsys ModelSp3 SpecText SpecNum SpecObs SpecSp3
  ProofText ProofNum ProofStream ProofSp3 ProofSp3Epoch ProofSp3File ProofSp3Header.
From Verif Require ProofObsMisc ProofMove.
Open Scope string_scope.
Open Scope list_scope.

(** sample data for the examples *)
Definition dec (s : option ascii) (i f : string) : numlit := mkNum s (lit i) true (lit f) None.
Definition tail_of (e p m o : ascii) : list ascii := blanks 14 ++ [e; p] ++ blanks 2 ++ [m; o].
Definition pos1 : pos_src := mkPos "G"%char Gps (lit "1") (dec (Some "-"%char) "11044" "805800") (dec (Some "-"%char) "10475" "672350")
  (dec None "21929" "418200") (dec None "189" "163300") (tail_of "E"%char " "%char " "%char "P"%char).
Definition pos2 : pos_src := mkPos "E"%char Galileo (lit "12") (dec (Some "-"%char) "12593" "593500") (dec None "10170" "327650")
  (dec None "0" "000000") (dec None "999999" "999999") [].
Ltac digs := repeat constructor; vm_compute; lia.
Lemma dec_ok s i f : sign_ok s -> digits (lit i) -> digits (lit f) -> lit i <> [] -> length (lit i ++ lit f) <= 100 -> num_ok (dec s i f).
Proof.
  intros S I F N L. split; [exact S|]. split; [exact I|]. split; [exact F|]. split; [intro E; apply app_eq_nil in E as [E _]; exact (N E)|].
  split; [discriminate|]. split; [exact L|exact Logic.I].
Qed.
Ltac decok := split; [apply dec_ok; [first [exact I|left; reflexivity]|digs|digs|discriminate|vm_compute; lia]|vm_compute; lia].
Lemma pos1_ok : pos_ok pos1 /\ 20 <= length (s_tail pos1).
Proof.
  split; [|vm_compute; lia]. split; [vm_compute; auto 10|]. split; [repeat split; [digs|discriminate|vm_compute; lia]|].
  split; [decok|]. split; [decok|]. split; [decok|]. split; [decok|].
  split; [repeat constructor; discriminate|]. split; [vm_compute; lia|]. right. eexists. reflexivity.
Qed.
Lemma pos2_ok : pos_ok pos2.
Proof.
  split; [vm_compute; auto 10|]. split; [repeat split; [digs|discriminate|vm_compute; lia]|].
  split; [decok|]. split; [decok|]. split; [decok|]. split; [decok|].
  split; [constructor|]. split; [vm_compute; lia|]. left. reflexivity.
Qed.
Definition ep1 : sp3_src := mkSp3Src (lit "2020") (lit "10") (lit "11") (lit "0") (lit "15") (dec None "0" "00000000") 0.
Ltac fk := split; [digs|split; [discriminate|vm_compute; lia]].
Lemma ep1_ok : sp3_src_ok ep1.
Proof.
  split; [digs|]. split; [reflexivity|]. split; [discriminate|]. split; [fk|]. split; [fk|]. split; [fk|]. split; [fk|].
  split; [apply dec_ok; [exact I|digs|digs|discriminate|vm_compute; lia]|]. repeat split; vm_compute; lia.
Qed.

(** ** C27 *)
Theorem C27_flag_set : forall ops e, flag_is_set (flag_run ops) e = true <-> last_put_in e ops.
Proof. exact flag_set_algebra. Qed.
Print Assumptions C27_flag_set.
Theorem C27_independent : forall f e e', e <> e' ->
  flag_is_set (flag_set f e) e' = flag_is_set f e' /\ flag_is_set (flag_clear f e) e' = flag_is_set f e'.
Proof.
  intros f e e' N. rewrite is_set_set, is_set_clear.
  destruct (event_eqb e e') eqn:E; [apply event_eqb_eq in E; contradiction|]. auto.
Qed.
Print Assumptions C27_independent.
Example C27_example : last_put_in Maneuver [FSet Maneuver; FReset; FSet BadClock; FSet Maneuver; FClear BadClock].
Proof.
  exists [FSet Maneuver; FReset; FSet BadClock], [FClear BadClock]. split; [reflexivity|].
  split; intros [H|[]]; discriminate.
Qed.

(** ** C28 ; [mark] is the orbit-prediction mark, the subject of C29 *)
Definition C28_full (mark : ascii) : Prop := forall p buf f, pos_ok p -> length buf = 128 ->
  exists r, sp3_position (overlay (pos_line p) buf) f = Val (inr r) /\ is_record mark r p.
(** lines with all 80 columns, whatever was in the buffer and in the flag object *)
Theorem C28_record_partial : forall p buf f, pos_ok p -> 20 <= length (s_tail p) -> length buf = 128 ->
  exists r, sp3_position (overlay (pos_line p) buf) f = Val (inr r) /\ is_record "E"%char r p.
Proof. intros p buf f H T L. exists (rec_of p). split; [apply position_exact; assumption|apply rec_of_is]. Qed.
Print Assumptions C28_record_partial.
Example C28_example : pos_ok pos1 /\ 20 <= length (s_tail pos1) /\
  pos_line pos1 = lit "PG 1 -11044.805800 -10475.672350  21929.418200    189.163300              E    P".
Proof. split; [apply pos1_ok|]. split; [apply pos1_ok|reflexivity]. Qed.

Lemma rd_beyond l buf k : length l < k -> rd (overlay l buf) k = rd buf k.
Proof.
  intro H. unfold rd, overlay. rewrite nth_error_app2 by (rewrite map_length; lia). rewrite map_length.
  destruct (k - length l) as [|j] eqn:E; [lia|]. cbn [nth_error].
  rewrite ProofMove.nth_skipn. replace (S (length l) + j) with k by lia. reflexivity.
Qed.
(** a line that ends before column 75, read after a longer one into the same buffer: coordinates,
    clock and satellite are its own, the event flags are those of the earlier line *)
Theorem C28_short_line : forall p q buf f, pos_ok p -> length (s_tail p) < 14 -> pos_ok q -> 20 <= length (s_tail q) -> length buf = 128 ->
  exists r, sp3_position (overlay (pos_line p) (overlay (pos_line q) buf)) f = Val (inr r) /\
    p_sys r = s_sys p /\ p_prn r = dec_val (s_prn p) /\ p_vals r = pos_vals p /\
    forall e, flag_is_set (p_flag r) e = pos_flag "E"%char (match e with BadPosition | BadClock => p | _ => q end) e.
Proof.
  intros p q buf f Hp Sp Hq Tq Lb.
  pose proof (pos_line_length p Hp) as Lp. pose proof (pos_line_length q Hq) as Lq.
  assert (Lq' : length (s_tail q) <= 67) by (destruct Hq as (_ & _ & _ & _ & _ & _ & _ & X & _); exact X).
  assert (Lo : length (overlay (pos_line q) buf) = 128) by (rewrite overlay_length; lia).
  rewrite position_general by assumption.
  rewrite (rd_beyond (pos_line p) _ 74), (rd_beyond (pos_line p) _ 75), (rd_beyond (pos_line p) _ 78), (rd_beyond (pos_line p) _ 79) by lia.
  destruct (nth_error (pos_line q) 74) as [x1|] eqn:E1; [|apply nth_error_None in E1; lia].
  destruct (nth_error (pos_line q) 75) as [x2|] eqn:E2; [|apply nth_error_None in E2; lia].
  destruct (nth_error (pos_line q) 78) as [x3|] eqn:E3; [|apply nth_error_None in E3; lia].
  destruct (nth_error (pos_line q) 79) as [x4|] eqn:E4; [|apply nth_error_None in E4; lia].
  rewrite (rd_overlay _ _ _ _ E1), (rd_overlay _ _ _ _ E2), (rd_overlay _ _ _ _ E3), (rd_overlay _ _ _ _ E4). cbn [bind].
  eexists. split; [reflexivity|]. cbn [p_sys p_prn p_vals p_flag]. repeat (split; [reflexivity|]).
  intro e. rewrite flags_of_is. destruct e; try reflexivity; cbn [pos_flag]; unfold column_is.
  - change (75 - 1) with 74. rewrite E1. reflexivity.
  - change (76 - 1) with 75. rewrite E2. reflexivity.
  - change (79 - 1) with 78. rewrite E3. reflexivity.
  - change (80 - 1) with 79. rewrite E4. reflexivity.
Qed.
Print Assumptions C28_short_line.
Theorem C28_full_refuted : forall mark, ~ C28_full mark.
Proof.
  intros mark F. destruct (F pos2 (overlay (pos_line pos1) (uninit 128)) 0%Z pos2_ok eq_refl) as (r & E & _ & _ & _ & H).
  destruct (C28_short_line pos2 pos1 (uninit 128) 0%Z pos2_ok ltac:(vm_compute; lia) (proj1 pos1_ok) (proj2 pos1_ok) eq_refl)
    as (r' & E' & _ & _ & _ & H').
  rewrite E in E'. injection E' as <-. specialize (H ClockEvent). rewrite H' in H. vm_compute in H. discriminate.
Qed.
Print Assumptions C28_full_refuted.
(** the same from a file: a record of 60 columns gets the clock-event flag of the record before it;
    as the first record of the file it is undefined behaviour *)
Definition sp3_lines (l : list string) : list ascii := text_of (map lit l).
Example C28_reachable :
  match sp3_next_epoch 10 (open_stream (sp3_lines
     ["*  2020 10 11  0 15  0.00000000";
      "PG 1 -11044.805800 -10475.672350  21929.418200    189.163300              E    P";
      "PE12 -12593.593500  10170.327650  17929.418200    189.163300";
      "EOF"])) (repeat sp3rec_new 2) with
  | Val q => map (fun r => flag_is_set (p_flag r) ClockEvent) (q_vec q)
  | _ => []
  end = [true; true] /\
  sp3_next_epoch 10 (open_stream (sp3_lines
     ["*  2020 10 11  0 15  0.00000000"; "PE12 -12593.593500  10170.327650  17929.418200    189.163300"; "EOF"]))
     (repeat sp3rec_new 2) = UB.
Proof. vm_compute. split; reflexivity. Qed.

(** ** C29 *)
Definition C29_full : Prop := forall p buf f r, pos_ok p -> 20 <= length (s_tail p) -> length buf = 128 ->
  sp3_position (overlay (pos_line p) buf) f = Val (inr r) ->
  flag_is_set (p_flag r) OrbitPrediction = column_is 80 "P"%char (pos_line p).
Theorem C29_full_refuted : ~ C29_full.
Proof.
  intro F. destruct (C28_record_partial pos1 (uninit 128) 0%Z (proj1 pos1_ok) (proj2 pos1_ok) eq_refl) as (r & E & _ & _ & _ & H).
  specialize (F pos1 (uninit 128) 0%Z r (proj1 pos1_ok) (proj2 pos1_ok) eq_refl E). rewrite H in F. vm_compute in F. discriminate.
Qed.
Print Assumptions C29_full_refuted.
(** the flag follows an 'E' in column 80 *)
Theorem C29_mark_partial : forall p buf f r, pos_ok p -> 20 <= length (s_tail p) -> length buf = 128 ->
  sp3_position (overlay (pos_line p) buf) f = Val (inr r) ->
  flag_is_set (p_flag r) OrbitPrediction = column_is 80 "E"%char (pos_line p).
Proof.
  intros p buf f r H T L E. destruct (C28_record_partial p buf f H T L) as (r' & E' & Q). rewrite E in E'. injection E' as <-.
  exact (is_record_flag _ _ _ Q).
Qed.
Print Assumptions C29_mark_partial.
(** so no record with the mark of the format is ever flagged *)
Theorem C29_predicted_never_flagged : forall p buf f r, pos_ok p -> 20 <= length (s_tail p) -> length buf = 128 ->
  column_is 80 "P"%char (pos_line p) = true ->
  sp3_position (overlay (pos_line p) buf) f = Val (inr r) -> flag_is_set (p_flag r) OrbitPrediction = false.
Proof.
  intros p buf f r H T L C E. rewrite (C29_mark_partial p buf f r H T L E). unfold column_is in *.
  destruct (nth_error (pos_line p) (80 - 1)) as [x|]; [|reflexivity]. apply Ascii.eqb_eq in C. subst x. reflexivity.
Qed.
Print Assumptions C29_predicted_never_flagged.

(** ** C30 *)
Definition C30_returns : Prop := forall d vec, exists k, sp3_next_epoch k (open_stream d) vec <> Fuel.
Definition C30_in_bounds : Prop := forall d vec k, sp3_next_epoch k (open_stream d) vec <> UB.
(** an epoch at the end of a file without EOF line: the call never returns *)
Theorem C30_never_returns : forall e is st vec, sp3_epoch_ok e is -> at_rest st (sp3_epoch_text e is) ->
  length (positions is) <= length vec -> forall k, sp3_next_epoch k st vec = Fuel.
Proof. exact sp3_epoch_hangs. Qed.
Print Assumptions C30_never_returns.
(** more position records than the header announced: a write outside the vector *)
Theorem C30_overflow : forall e is tail st vec, sp3_epoch_ok e is -> at_rest st (sp3_epoch_text e is ++ tail) ->
  length vec < length (positions is) -> forall k, length is <= k -> sp3_next_epoch k st vec = UB.
Proof. exact sp3_epoch_overflow. Qed.
Print Assumptions C30_overflow.
Lemma ep1_items : sp3_epoch_ok ep1 [PPos pos1; POther (lit "EP  55  55  55"); PPos pos1].
Proof.
  split; [exact ep1_ok|]. apply Forall_cons; [exact pos1_ok|]. apply Forall_cons; [|apply Forall_cons; [exact pos1_ok|apply Forall_nil]].
  split; [repeat constructor; discriminate|]. split; [vm_compute; lia|]. repeat split; discriminate.
Qed.
Theorem C30_full_refuted : ~ C30_returns /\ ~ C30_in_bounds.
Proof.
  split.
  - intro F. destruct (F (sp3_epoch_text ep1 [PPos pos1; POther (lit "EP  55  55  55"); PPos pos1]) (repeat sp3rec_new 2)) as (k & N). apply N.
    apply (C30_never_returns ep1 _ _ _ ep1_items); [split; reflexivity|vm_compute; lia].
  - intro F. apply (F (sp3_epoch_text ep1 [PPos pos1; POther (lit "EP  55  55  55"); PPos pos1] ++ lit "EOF") [sp3rec_new] 3).
    apply (C30_overflow ep1 _ (lit "EOF") _ _ ep1_items); [split; reflexivity|vm_compute; lia|vm_compute; lia].
Qed.
Print Assumptions C30_full_refuted.
(** epochs that fit: followed by another epoch / by the EOF line (then the value is -1 although the
    epoch was read) *)
Theorem C30_epoch_partial : forall e is tail st vec, sp3_epoch_ok e is -> at_rest st (sp3_epoch_text e is ++ "*"%char :: tail) ->
  length (positions is) <= length vec ->
  exists q, (forall k, length is < k -> sp3_next_epoch k st vec = Val q) /\
    q_code q = 0%Z /\ (exists t, q_time q = Some t /\ is_time t e) /\ q_sats q = Some (length (positions is)) /\
    sp3_delivers (positions is) vec (q_vec q) /\ at_rest (q_stream q) ("*"%char :: tail) /\ sdata (q_stream q) = sdata st.
Proof. exact sp3_epoch_next. Qed.
Print Assumptions C30_epoch_partial.
Theorem C30_last_epoch_partial : forall e is l tail st vec, sp3_epoch_ok e is -> clean l -> length l <= 124 ->
  at_rest st (sp3_epoch_text e is ++ lit "EOF" ++ l ++ tail) -> (tail = [] \/ exists t, tail = NL :: t) ->
  length (positions is) <= length vec ->
  exists q, (forall k, length is < k -> sp3_next_epoch k st vec = Val q) /\
    q_code q = (-1)%Z /\ (exists t, q_time q = Some t /\ is_time t e) /\ q_sats q = Some (length (positions is)) /\
    sp3_delivers (positions is) vec (q_vec q).
Proof. exact sp3_epoch_last. Qed.
Print Assumptions C30_last_epoch_partial.
Example C30_example : sp3_epoch_ok ep1 [PPos pos1; POther (lit "EP  55  55  55"); PPos pos1] /\
  length (positions [PPos pos1; POther (lit "EP  55  55  55"); PPos pos1]) = 2.
Proof. split; [exact ep1_items|reflexivity]. Qed.
(** any content: on 0, the lines up to the next epoch header were consumed, and the count is the
    number of those that start with 'P' *)
Theorem C30_zero_any_partial : forall k st vec q, sp3_next_epoch k st vec = Val q -> q_code q = 0%Z ->
  exists hl ls tail, at_rest st (text_of (hl :: ls) ++ "*"%char :: tail) /\ Forall file_line ls /\
    at_rest (q_stream q) ("*"%char :: tail) /\ sdata (q_stream q) = sdata st /\ q_sats q = Some (count_p ls).
Proof. exact sp3_zero_any. Qed.
Print Assumptions C30_zero_any_partial.
(** any content, vector and number of iterations: no exception, no terminate; on return the vector
    has its size and the count does not exceed it *)
Theorem C30_result_partial : forall k st vec,
  match sp3_next_epoch k st vec with
  | Exn | Term => False
  | UB | Fuel => True
  | Val q => length (q_vec q) = length vec /\ forall n, q_sats q = Some n -> n <= length vec
  end.
Proof.
  intros k st vec. unfold sp3_next_epoch. destruct (negb (good st)); [split; [reflexivity|discriminate]|].
  change MAX_RECORD_CHARS with 128. pose proof (ProofObsMisc.calm_getline st (uninit 128) 128) as C.
  destruct (getline st (uninit 128) 128) as [[st1 line]| | | |] eqn:G; cbn [bind]; try contradiction; try exact I.
  pose proof (getline_len _ _ _ _ _ G) as L. unfold uninit in L. rewrite repeat_length in L.
  pose proof (calm_header line) as CH.
  destruct (sp3_epoch_header line) as [[j|t]| | | |] eqn:E; cbn [bind]; try contradiction; try exact I.
  - split; [reflexivity|discriminate].
  - pose proof (loop_result k st1 line t vec 0 0%Z L (Nat.le_0_l _)) as R.
    destruct (sp3_loop k st1 line t vec 0 0%Z) as [q| | | |]; auto.
    destruct R as (R1 & _ & [(n & E1 & E2 & _)|(E1 & _)]); (split; [exact R1|]); intros m Em; rewrite E1 in Em; [|discriminate].
    injection Em as <-. exact E2.
Qed.
Print Assumptions C30_result_partial.
(** two more iterations than bytes left decide: either it has returned or it never will *)
Theorem C30_decided : forall st vec,
  sp3_next_epoch (S (S (length (rest st)))) st vec <> Fuel \/ forall k, sp3_next_epoch k st vec = Fuel.
Proof. exact sp3_fuel_adequate. Qed.
Print Assumptions C30_decided.

(** ** C62 *)
Definition C62_full : Prop := forall wsow as_mjd h c tail, sp3h_ok h -> dates_agree wsow as_mjd h -> c <> "/"%char ->
  exists g st, sp3_open wsow as_mjd (sp3h_text h ++ c :: tail) = Val (g, st) /\
    is_header g h (h_agency h) /\ at_rest st (c :: tail).
(** all members are exact, except that the agency loses its fourth column *)
Theorem C62_header_partial : forall wsow as_mjd h c tail, sp3h_ok h -> dates_agree wsow as_mjd h -> c <> "/"%char ->
  exists g st, sp3_open wsow as_mjd (sp3h_text h ++ c :: tail) = Val (g, st) /\
    is_header g h (firstn 3 (h_agency h)) /\ at_rest st (c :: tail) /\ sdata st = sp3h_text h ++ c :: tail.
Proof.
  intros w m h c tail H D C. destruct (sp3_header_exact w m h c tail H D C) as (g & st & E & Q). exists g, st.
  split; [|exact Q]. unfold sp3_open. rewrite E. reflexivity.
Qed.
Print Assumptions C62_header_partial.
Definition hdr1 : sp3h_src := mkSp3h "d"%char "P"%char ep1 (lit "96") (lit "ORBIT") (lit "IGb14") (lit "HLM") (lit " IGS")
  (lit "2127") (dec None "900" "00000000") (dec None "900" "00000000") (lit "59133") (dec None "0" "0104166666667")
  (lit "2") (lit "  G01E12") [lit "       0  0"] [lit "       2  3"; lit "       0  0"]
  (lit " M  cc ") (lit "GPS") (lit " ccc cccc") (lit " cc") (lit "  1.25") (lit "  0.0") (lit "    0") (lit "    0")
  [lit " comment"; lit " another"].
Definition cal1 (t : sp3time) : Z * Q := (2127%Z, num_val (dec None "900" "00000000")).
Definition mjd1 (t : sp3time) : Q := b64 (num_val (dec None "0" "0104166666667") + inject_Z 59133)%Q.
Lemma hdr1_ok : sp3h_ok hdr1 /\ dates_agree cal1 mjd1 hdr1.
Proof.
  split.
  - assert (CH : forall s w, Forall (fun c => negb (Ascii.eqb c NUL) && negb (Ascii.eqb c NL) = true) (lit s) -> length (lit s) <= w -> rest_ok w (lit s)).
    { intros s w F L. split; [|exact L]. eapply Forall_impl; [|exact F]. intros a Ha. apply andb_prop in Ha as [A B].
      split; intros ->; discriminate. }
    assert (CH' : forall s w, rest_ok w (lit s) -> length (lit s) = w -> chars w (lit s)) by (intros s w [C _] L; split; assumption).
    Ltac rk := match goal with H : forall s w, Forall _ _ -> _ -> rest_ok w (lit s) |- _ => apply H; [repeat constructor|vm_compute; lia] end.
    Ltac ck := match goal with H : forall s w, rest_ok w (lit s) -> _ |- _ => apply H; [rk|reflexivity] end.
    Ltac pk := split; [apply dec_ok; [exact I|digs|digs|discriminate|vm_compute; lia]|repeat split; vm_compute; lia].
    unfold sp3h_ok, hdr1. cbn [h_version h_posvel h_start h_nepochs h_used h_crd h_orb h_agency h_week h_sow h_interval h_mjd h_frac h_nsats
      h_ids h_plus h_acc h_ctype h_tsys h_crest h_c2 h_f1 h_f2 h_i1 h_i2 h_comments].
    split; [right; reflexivity|]. split; [split; [repeat constructor; discriminate|reflexivity]|]. split; [exact ep1_ok|].
    split; [discriminate|]. split; [discriminate|]. split; [fk|]. split; [discriminate|]. split; [ck|]. split; [ck|]. split; [ck|]. split; [ck|].
    split; [fk|]. split; [discriminate|]. split; [pk|]. split; [pk|]. split; [vm_compute; lia|]. split; [fk|]. split; [discriminate|]. split; [pk|].
    split; [fk|]. split; [discriminate|]. split; [rk|].
    split; [apply Forall_cons; [rk|apply Forall_nil]|]. split; [vm_compute; lia|].
    split; [apply Forall_cons; [rk|apply Forall_cons; [rk|apply Forall_nil]]|].
    split; [ck|]. split; [ck|]. split; [rk|]. split; [rk|]. split; [rk|]. split; [rk|]. split; [rk|]. split; [rk|].
    split; [apply Forall_cons; [rk|apply Forall_cons; [rk|apply Forall_nil]]|]. vm_compute; lia.
  - intros t Ht. split; [reflexivity|]. split; reflexivity.
Qed.
Example C62_example : sp3h_ok hdr1 /\ dates_agree cal1 mjd1 hdr1 /\
  sp3h_line1 hdr1 = lit "#dP2020 10 11  0 15  0.00000000      96 ORBIT IGb14 HLM  IGS".
Proof. split; [apply hdr1_ok|]. split; [apply hdr1_ok|reflexivity]. Qed.
Theorem C62_full_refuted : ~ C62_full.
Proof.
  intro F. destruct (F cal1 mjd1 hdr1 "*"%char [] (proj1 hdr1_ok) (proj2 hdr1_ok) ltac:(discriminate)) as (g & st & E & Q & _).
  destruct (C62_header_partial cal1 mjd1 hdr1 "*"%char [] (proj1 hdr1_ok) (proj2 hdr1_ok) ltac:(discriminate)) as (g' & st' & E' & Q' & _).
  rewrite E in E'. injection E' as <- <-. destruct Q as (_ & _ & _ & _ & _ & _ & A & _), Q' as (_ & _ & _ & _ & _ & _ & A' & _).
  rewrite A in A'. discriminate.
Qed.
Print Assumptions C62_full_refuted.

(** any content: reading the header ends, without exception or terminate; the constructor throws
    exactly when the header was refused *)
Theorem C62_any_content : forall wsow as_mjd d,
  sp3_read_header wsow as_mjd d <> Fuel /\ sp3_read_header wsow as_mjd d <> Exn /\ sp3_read_header wsow as_mjd d <> Term /\
  (sp3_open wsow as_mjd d = Exn <-> exists c, sp3_read_header wsow as_mjd d = Val (inl c)).
Proof.
  intros w m d. pose proof (sp3_header_calm w m d) as C. unfold sp3_open.
  destruct (sp3_read_header w m d) as [[c|o]| | | |]; try contradiction; cbn [bind]; do 3 (split; [discriminate|]);
    (split; [intro E|intros (c' & E)]); try discriminate; eauto.
Qed.
Print Assumptions C62_any_content.

(** ** C63 *)
Definition C63_full : Prop := forall sec interval num_sats, interval <> 0%Z -> (0 < sec)%Z -> (0 <= num_sats < 1000)%Z ->
  exists k v, lagrange_construct sec interval num_sats = Val (k, v) /\ length v = Z.to_nat num_sats.
(** an interpolator over an object opened from any conforming file: undefined behaviour *)
Theorem C63_interpolator_undefined : forall wsow as_mjd h c tail g st sec, sp3h_ok h -> dates_agree wsow as_mjd h -> c <> "/"%char ->
  sp3_open wsow as_mjd (sp3h_text h ++ c :: tail) = Val (g, st) ->
  lagrange_construct sec (g_interval g) (g_sats g) = UB.
Proof.
  intros w m h c tail g st sec H D C E.
  destruct (C62_header_partial w m h c tail H D C) as (g' & st' & E' & Q & _). rewrite E in E'. injection E' as <- <-.
  destruct Q as (_ & _ & _ & S & _). destruct H as (_ & _ & _ & _ & _ & _ & _ & _ & _ & _ & _ & _ & _ & _ & _ & _ & _ & _ & _ & (Nd & _) & N0 & _).
  pose proof (dec_val_nonneg _ Nd) as P. rewrite <- S in *. unfold lagrange_construct.
  destruct (g_interval g =? 0)%Z; [reflexivity|]. unfold vec_reserve at 1. destruct (Z.ltb_spec (g_sats g) 0); [lia|]. cbn [bind].
  destruct (Z.to_nat (g_sats g)) as [|n] eqn:En; [lia|]. reflexivity.
Qed.
Print Assumptions C63_interpolator_undefined.
Theorem C63_full_refuted : ~ C63_full.
Proof.
  intro F. destruct (F 3600 900000000 1)%Z as (k & v & E & _); [lia|lia|lia|]. discriminate.
Qed.
Print Assumptions C63_full_refuted.
(** the only case without undefined behaviour: no satellites *)
Theorem C63_no_satellites_partial : forall sec interval, interval <> 0%Z ->
  (0 <= to_i32 (Z.quot (2 * sec * 1000000) interval + 1))%Z ->
  lagrange_construct sec interval 0 = Val (to_i32 (Z.quot (2 * sec * 1000000) interval + 1), []).
Proof.
  intros sec iv H K. unfold lagrange_construct. destruct (Z.eqb_spec iv 0); [contradiction|]. cbv zeta.
  unfold vec_reserve. change (0 <? 0)%Z with false. cbn [bind Z.to_nat lagrange_fill].
  destruct (Z.ltb_spec (2 * to_i32 (Z.quot (2 * sec * 1000000) iv + 1)) 0); [lia|]. reflexivity.
Qed.
Print Assumptions C63_no_satellites_partial.

(** ** C64: whole files *)
Definition sp3_epochs := list (sp3_src * list sp3_item).
Definition epochs_text (es : sp3_epochs) : list ascii := flat_map (fun e => sp3_epoch_text (fst e) (snd e)) es.
(** one call delivered the epoch [e] *)
Definition sp3_got (e : sp3_src * list sp3_item) (q : sp3res) : Prop :=
  (exists t, q_time q = Some t /\ is_time t (fst e)) /\ q_sats q = Some (length (positions (snd e))) /\
  forall i p, nth_error (positions (snd e)) i = Some p -> exists r, nth_error (q_vec q) i = Some r /\ is_record "E"%char r p.
Lemma calls_exact : forall es e is k st vec, Forall (fun x => sp3_epoch_ok (fst x) (snd x)) ((e, is) :: es) ->
  Forall (fun x : sp3_src * list sp3_item => length (positions (snd x)) <= length vec /\ length (snd x) < k) ((e, is) :: es) ->
  at_rest st (epochs_text ((e, is) :: es) ++ lit "EOF") ->
  exists qs last, sp3_calls (S (length es)) k st vec = Val (qs ++ [last]) /\ Forall (fun q => q_code q = 0%Z) qs /\ q_code last = (-1)%Z /\
    Forall2 sp3_got ((e, is) :: es) (qs ++ [last]).
Proof.
  induction es as [|[e2 is2] es IH]; intros e is k st vec Ok Fit R;
    (inversion Ok as [|? ? Ok1 Ok2]; subst; inversion Fit as [|? ? [F1 F1'] F2]; subst; cbn [fst snd] in *).
  - cbn [epochs_text flat_map fst snd] in R. rewrite app_nil_r in R.
    destruct (sp3_epoch_last e is [] [] st vec Ok1 ltac:(constructor) ltac:(cbn; lia) R ltac:(auto) F1) as (q & E & C & T & N & (_ & D & _)).
    exists [], q. cbn [length sp3_calls]. rewrite (E k F1'). cbn [bind app]. split; [reflexivity|]. split; [constructor|]. split; [exact C|].
    constructor; [|constructor]. split; [exact T|]. split; [exact N|exact D].
  - assert (R' : exists tl, at_rest st (sp3_epoch_text e is ++ "*"%char :: tl) /\ "*"%char :: tl = epochs_text ((e2, is2) :: es) ++ lit "EOF").
    { eexists. split; [|reflexivity]. cbn [epochs_text flat_map fst snd] in R. rewrite <- app_assoc in R. exact R. }
    destruct R' as (tl & R' & Etl).
    destruct (sp3_epoch_next e is tl st vec Ok1 R' F1) as (q & E & C & T & N & (Lv & D & _) & Rq & _).
    rewrite Etl in Rq. rewrite <- Lv in F2.
    destruct (IH e2 is2 k (q_stream q) (q_vec q) Ok2 F2 Rq) as (qs & last & Eq & C0 & C1 & G).
    exists (q :: qs), last. change (sp3_calls (S (length ((e2, is2) :: es))) k st vec) with
      (do q <- sp3_next_epoch k st vec; do qs <- sp3_calls (S (length es)) k (q_stream q) (q_vec q); Val (q :: qs)).
    rewrite (E k F1'). cbn [bind]. rewrite Eq. cbn [bind app]. split; [reflexivity|]. split; [constructor; assumption|]. split; [exact C1|].
    constructor; [|exact G]. split; [exact T|]. split; [exact N|exact D].
Qed.
(** header, at least one epoch, EOF; no epoch has more records than the header says *)
Theorem C64_whole_file : forall wsow as_mjd h e es, sp3h_ok h -> dates_agree wsow as_mjd h ->
  Forall (fun x => sp3_epoch_ok (fst x) (snd x)) (e :: es) ->
  Forall (fun x : sp3_src * list sp3_item => (Z.of_nat (length (positions (snd x))) <= dec_val (h_nsats h))%Z) (e :: es) ->
  exists g st vec, sp3_open wsow as_mjd (sp3h_text h ++ epochs_text (e :: es) ++ lit "EOF") = Val (g, st) /\
    allocate_epoch_vector (g_sats g) = Val vec /\
    forall k, Forall (fun x : sp3_src * list sp3_item => length (snd x) < k) (e :: es) ->
    exists qs last, sp3_calls (length (e :: es)) k st vec = Val (qs ++ [last]) /\
      Forall (fun q => q_code q = 0%Z) qs /\ q_code last = (-1)%Z /\ Forall2 sp3_got (e :: es) (qs ++ [last]).
Proof.
  intros w m h [e is] es H D Ok Fit.
  assert (Et : exists tl, epochs_text ((e, is) :: es) ++ lit "EOF" = "*"%char :: tl) by (eexists; reflexivity). destruct Et as (tl & Et).
  rewrite Et. destruct (C62_header_partial w m h "*"%char tl H D ltac:(discriminate)) as (g & st & E & Q & R & _).
  pose proof Q as (_ & _ & _ & S & _). destruct H as (_ & _ & _ & _ & _ & _ & _ & _ & _ & _ & _ & _ & _ & _ & _ & _ & _ & _ & _ & (Nd & _) & _).
  pose proof (dec_val_nonneg _ Nd) as P. rewrite <- S in P, Fit.
  exists g, st, (repeat sp3rec_new (Z.to_nat (g_sats g))). split; [exact E|]. split.
  { unfold allocate_epoch_vector. destruct (Z.ltb_spec (g_sats g) 0); [lia|reflexivity]. }
  intros k Hk. rewrite <- Et in R. apply calls_exact; [exact Ok| |exact R]. rewrite repeat_length.
  apply Forall_forall. intros x Hx. rewrite Forall_forall in Fit, Hk. specialize (Fit x Hx). specialize (Hk x Hx). cbn beta in Fit. split; [lia|exact Hk].
Qed.
Print Assumptions C64_whole_file.
Example C64_example : let it := [PPos pos1; POther (lit "EP  55  55  55"); PPos pos1] in
  sp3h_ok hdr1 /\ dates_agree cal1 mjd1 hdr1 /\ Forall (fun x => sp3_epoch_ok (fst x) (snd x)) [(ep1, it); (ep1, it)] /\
  Forall (fun x : sp3_src * list sp3_item => (Z.of_nat (length (positions (snd x))) <= dec_val (h_nsats hdr1))%Z) [(ep1, it); (ep1, it)].
Proof.
  cbv zeta. split; [apply hdr1_ok|]. split; [apply hdr1_ok|]. split.
  - apply Forall_cons; [exact ep1_items|]. apply Forall_cons; [exact ep1_items|apply Forall_nil].
  - apply Forall_cons; [vm_compute; discriminate|]. apply Forall_cons; [vm_compute; discriminate|apply Forall_nil].
Qed.
