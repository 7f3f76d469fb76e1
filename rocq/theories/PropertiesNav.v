(** PropertiesNav: C38-C45, C65-C67 (navigation files) *)
From Verif Require Import Base BaseLemmas CNum CNumLemmas Stream ModelSatsys ModelNvarstr ModelNav SpecText SpecNum SpecObs SpecHeader SpecNav
  ProofText ProofNum ProofStream ProofEpoch ProofObsMisc ProofNav ProofNavBlock ProofNavFile ProofNavFind ProofNavList ProofNavHeader ProofNavMisc.
Open Scope string_scope.
Open Scope list_scope.

(** ** Sample data: a date parser, blocks *)
(** days since MJD 0 of a civil date *)
Definition mjd (y m d : Z) : Z :=
  (let y' := if m <=? 2 then y - 1 else y in
   let m' := if m <=? 2 then m + 9 else m - 3 in
   365 * y' + y' / 4 - y' / 100 + y' / 400 + (153 * m' + 2) / 5 + d - 678882)%Z.
Definition civil (v : list Z) : Z :=
  match v with
  | [y; m; d; h; mi; s] => (mjd y m d * 86400 + h * 3600 + mi * 60 + s)%Z
  | _ => 0%Z
  end.
Example civil_gps : civil [1980; 1; 6; 0; 0; 0]%Z = GPS0 /\ civil [2006; 1; 1; 0; 0; 0]%Z = (53736 * 86400)%Z /\ mjd 2000 3 1 = 51604%Z.
Proof. vm_compute. auto. Qed.
Definition blank (c : ascii) : bool := Ascii.eqb c " "%char.
Definition col (k n : nat) (s : list ascii) : list ascii := filter (fun c => negb (blank c)) (firstn n (skipn k s)).
Definition is_dig (c : ascii) : bool := (48 <=? nat_of_ascii c)%nat && (nat_of_ascii c <=? 57)%nat.
Definition strp_fix : strp_t := fun s =>
  let fs := [col 1 4 s; col 6 2 s; col 9 2 s; col 12 2 s; col 15 2 s; col 18 2 s] in
  if forallb (fun w => negb (length w =? 0)%nat && forallb is_dig w) fs then Some (civil (map dec_val fs)) else None.
Lemma digit_is c : digit c -> is_dig c = true /\ blank c = false.
Proof.
  unfold digit, is_dig, blank. intro H. split; [apply andb_true_iff; split; apply Nat.leb_le; lia|].
  destruct (Ascii.eqb_spec c " "%char) as [->|]; [vm_compute in H; lia|reflexivity].
Qed.
Lemma digs_filter s : digits s -> filter (fun c => negb (blank c)) s = s /\ forallb is_dig s = true.
Proof.
  induction 1 as [|c s H _ IH]; [split; reflexivity|]. destruct (digit_is c H) as (A & B), IH as (C & D). cbn [filter forallb]. rewrite A, B, D. cbn. rewrite C. auto.
Qed.
Lemma rjust_filter w s : digits s -> filter (fun c => negb (blank c)) (rjust w s) = s.
Proof.
  intro H. unfold rjust, blanks. rewrite filter_app, (proj1 (digs_filter s H)). induction (w - length s); [reflexivity|exact IHn].
Qed.
Lemma col_at k n a w r : length a = k -> length w = n -> col k n (a ++ w ++ r) = filter (fun c => negb (blank c)) w.
Proof. intros <- <-. unfold col. rewrite skipn_app, skipn_all, Nat.sub_diag. cbn [app skipn]. rewrite firstn_app, Nat.sub_diag, firstn_O, app_nil_r, firstn_all. reflexivity. Qed.
Lemma strp_fix_reads : reads_dates strp_fix civil.
Proof.
  intros d r (Yd & Yl & (A & An & Al) & (B & Bn & Bl) & (C & Cn & Cl) & (D & Dn & Dl) & (E & En & El)) _.
  assert (Y0 : d_year d <> []) by (intro X; rewrite X in Yl; discriminate).
  pose proof (rjust_length 2 _ Al) as LA. pose proof (rjust_length 2 _ Bl) as LB. pose proof (rjust_length 2 _ Cl) as LC.
  pose proof (rjust_length 2 _ Dl) as LD. pose proof (rjust_length 2 _ El) as LE.
  unfold strp_fix, date_text. rewrite <- !app_assoc.
  set (ym := rjust 2 (d_month d)) in *. set (yd := rjust 2 (d_day d)) in *. set (yh := rjust 2 (d_hour d)) in *. set (yi := rjust 2 (d_min d)) in *. set (ys := rjust 2 (d_sec d)) in *.
  set (sp := lit " "). assert (Ls : length sp = 1) by reflexivity.
  rewrite (col_at 1 4 sp (d_year d)) by auto. rewrite (proj1 (digs_filter _ Yd)).
  replace (sp ++ d_year d ++ sp ++ ym ++ sp ++ yd ++ sp ++ yh ++ sp ++ yi ++ sp ++ ys ++ r) with ((sp ++ d_year d ++ sp) ++ ym ++ sp ++ yd ++ sp ++ yh ++ sp ++ yi ++ sp ++ ys ++ r) by (rewrite <- !app_assoc; reflexivity).
  rewrite (col_at 6 2 (sp ++ d_year d ++ sp) ym) by (rewrite ?app_length; lia). rewrite (rjust_filter 2 (d_month d) A : filter (fun c => negb (blank c)) ym = d_month d).
  replace ((sp ++ d_year d ++ sp) ++ ym ++ sp ++ yd ++ sp ++ yh ++ sp ++ yi ++ sp ++ ys ++ r) with ((sp ++ d_year d ++ sp ++ ym ++ sp) ++ yd ++ sp ++ yh ++ sp ++ yi ++ sp ++ ys ++ r) by (rewrite <- !app_assoc; reflexivity).
  rewrite (col_at 9 2 (sp ++ d_year d ++ sp ++ ym ++ sp) yd) by (rewrite ?app_length; lia). rewrite (rjust_filter 2 (d_day d) B : filter (fun c => negb (blank c)) yd = d_day d).
  replace ((sp ++ d_year d ++ sp ++ ym ++ sp) ++ yd ++ sp ++ yh ++ sp ++ yi ++ sp ++ ys ++ r) with ((sp ++ d_year d ++ sp ++ ym ++ sp ++ yd ++ sp) ++ yh ++ sp ++ yi ++ sp ++ ys ++ r) by (rewrite <- !app_assoc; reflexivity).
  rewrite (col_at 12 2 (sp ++ d_year d ++ sp ++ ym ++ sp ++ yd ++ sp) yh) by (rewrite ?app_length; lia). rewrite (rjust_filter 2 (d_hour d) C : filter (fun c => negb (blank c)) yh = d_hour d).
  replace ((sp ++ d_year d ++ sp ++ ym ++ sp ++ yd ++ sp) ++ yh ++ sp ++ yi ++ sp ++ ys ++ r) with ((sp ++ d_year d ++ sp ++ ym ++ sp ++ yd ++ sp ++ yh ++ sp) ++ yi ++ sp ++ ys ++ r) by (rewrite <- !app_assoc; reflexivity).
  rewrite (col_at 15 2 (sp ++ d_year d ++ sp ++ ym ++ sp ++ yd ++ sp ++ yh ++ sp) yi) by (rewrite ?app_length; lia). rewrite (rjust_filter 2 (d_min d) D : filter (fun c => negb (blank c)) yi = d_min d).
  replace ((sp ++ d_year d ++ sp ++ ym ++ sp ++ yd ++ sp ++ yh ++ sp) ++ yi ++ sp ++ ys ++ r) with ((sp ++ d_year d ++ sp ++ ym ++ sp ++ yd ++ sp ++ yh ++ sp ++ yi ++ sp) ++ ys ++ r) by (rewrite <- !app_assoc; reflexivity).
  rewrite (col_at 18 2 (sp ++ d_year d ++ sp ++ ym ++ sp ++ yd ++ sp ++ yh ++ sp ++ yi ++ sp) ys) by (rewrite ?app_length; lia). rewrite (rjust_filter 2 (d_sec d) E : filter (fun c => negb (blank c)) ys = d_sec d).
  unfold date_vals. cbn [forallb].
  assert (X : forall w, digits w -> w <> [] -> negb (length w =? 0)%nat && forallb is_dig w = true).
  { intros w H N. rewrite (proj2 (digs_filter w H)). destruct w; [congruence|reflexivity]. }
  rewrite !X by assumption. reflexivity.
Qed.

Definition nv (i f e : string) : numlit := mkNum None (lit i) true (lit f) (Some ("D"%char, Some "+"%char, lit e)).
Definition n0 := nv "0" "000000000000" "00".
Definition n1 := nv "1" "234567890123" "02".
Definition nm1 : numlit := mkNum (Some "-"%char) (lit "9") true (lit "876543210987") (Some ("D"%char, Some "-"%char, lit "05")).
Ltac digs := repeat constructor; vm_compute; lia.
Ltac navf := split; [split; [first [exact I|left; reflexivity]|split; [digs|split; [digs|split; [discriminate|split; [discriminate|split; [vm_compute; lia|
   split; [right; reflexivity|split; [first [right; reflexivity|left; reflexivity]|split; [digs|split; [discriminate|vm_compute; discriminate]]]]]]]]]]
  |split; [right; right; left; reflexivity|split; [vm_compute; lia|first [left; vm_compute; lia|right; discriminate]]]].
Lemma n0_ok : nav_field n0. Proof. navf. Qed.
Lemma n1_ok : nav_field n1. Proof. navf. Qed.
Lemma nm1_ok : nav_field nm1. Proof. navf. Qed.
Definition weekn := nv "2" "126000000000" "03".
Definition sown := nv "1" "728000000000" "05".
Definition fitn := nv "4" "000000000000" "00".
Lemma weekn_ok : nav_field weekn. Proof. navf. Qed.
Lemma sown_ok : nav_field sown. Proof. navf. Qed.
Lemma fitn_ok : nav_field fitn. Proof. navf. Qed.
Definition full (a b c d : numlit) : orbit := ([Some a; Some b; Some c; Some d], 0).
Definition date1 := mkDate (lit "2020") (lit "10") (lit "06") (lit "0") (lit "0") (lit "0").
Lemma date1_ok : date_ok date1.
Proof. repeat split; try digs; try discriminate; vm_compute; lia. Qed.
Definition gps_b (prn : string) (fit : numlit) : nav_src := mkNavSrc "G"%char Gps (lit prn) date1 [nm1; n1; n0] 0
  [full n1 nm1 n1 n1; full nm1 n1 nm1 n1; full sown n1 n1 nm1; full n1 n1 n1 nm1; full n1 n1 weekn n0; full n1 n0 nm1 n1; ([Some sown; Some fit], 3)].
Definition glo_b : nav_src := mkNavSrc "R"%char Glonass (lit "7") date1 [nm1; n0; sown] 0 [full n1 n1 nm1 n0; full nm1 n1 n0 n1; full nm1 nm1 n1 n0].
Definition irn_b : nav_src := mkNavSrc "I"%char Irnss (lit "02") date1 [nm1; n1; n0] 0
  [full n1 nm1 n1 n1; full nm1 n1 nm1 n1; full sown n1 n1 nm1; full n1 n1 n1 nm1; ([Some n1; None; Some weekn], 19); ([Some n1; Some n0; Some nm1], 19); ([Some sown], 0)].
Definition gal_b : nav_src := mkNavSrc "E"%char Galileo (lit "11") date1 [nm1; n1; n0] 0
  [full n1 nm1 n1 n1; full nm1 n1 nm1 n1; full sown n1 n1 nm1; full n1 n1 n1 nm1; ([Some n1; Some n1; Some weekn], 0); full n1 n0 nm1 n1; ([Some sown], 0)].
Definition sbs_b : nav_src := mkNavSrc "S"%char Sbas (lit "20") date1 [nm1; n0; sown] 0 [full n1 n1 nm1 n0; full nm1 n1 n0 n1; full nm1 nm1 n1 n0].
Ltac nok := first [exact n0_ok|exact n1_ok|exact nm1_ok|exact weekn_ok|exact sown_ok|exact fitn_ok].
Ltac f2 := first [apply Forall2_nil | apply Forall2_cons; [split; [first [exact I|nok]|intro; discriminate]|f2]].
Lemma orb_req fs pad fl : Forall2 (fun o (num : bool) => opt_field o /\ (num = true -> o <> None)) fs fl -> length fs <= 4 -> pad <= 40 -> orbit_ok (fs, pad) fl.
Proof. intros F L P. split; [|split; assumption]. exists fs, []. split; [symmetry; apply app_nil_r|]. split; [exact F|constructor]. Qed.
Ltac orbs := repeat (apply Forall2_cons; [apply orb_req; [f2|vm_compute; lia|vm_compute; lia]|]); apply Forall2_nil.
Ltac blk := split; [vm_compute; tauto|split; [discriminate|split; [split; [digs|split; [discriminate|vm_compute; lia]]|split; [vm_compute; discriminate|
  split; [exact date1_ok|split; [reflexivity|split; [repeat (apply Forall_cons; [nok|]); apply Forall_nil|split; [vm_compute; lia|split; [orbs|]]]]]]]]].
Lemma gps_b_ok prn fit : (prn = "05" \/ prn = "12") -> (fit = fitn \/ fit = n0) -> block_ok (gps_b prn fit).
Proof. intros [-> | ->] [-> | ->]; blk; (split; split; vm_compute; discriminate). Qed.
Lemma glo_b_ok : block_ok glo_b.
Proof. blk. split; vm_compute; discriminate. Qed.
Lemma irn_b_ok : block_ok irn_b.
Proof. blk. exact I. Qed.
Lemma gal_b_ok : block_ok gal_b.
Proof. blk. split; split; vm_compute; discriminate. Qed.
Lemma sbs_b_ok : block_ok sbs_b.
Proof. blk. exact I. Qed.
Definition frame0 : frame := mkFrame Mixed 0 0 0 (repeat (DFin 0) 31).
Lemma open_rest d : at_rest (open_stream d) d. Proof. split; reflexivity. Qed.

(** ** C38: block geometry *)
(** the two ways over a block agree: when read_next_record succeeds, ignore_next_block would have
    succeeded and left the same stream; as many lines as RINEX prescribes were taken *)
Theorem C38_read_is_ignore : forall strp st f e r, read_next_record strp st f e = Val r -> n_code r = 0%Z ->
  ignore_next_block st = Val (0%Z, n_stream r) /\
  exists c t sys n, rest st = c :: t /\ In (c, sys) satsys_letters /\ f_sys (n_frame r) = sys /\ block_size sys = Some n /\ takes n st (n_stream r).
Proof.
  intros strp st f e r E Z. destruct (read_as_ignore strp st f e r E Z) as (_ & c & t & sys & A & B & M & C & D & T).
  split; [exact D|]. apply char_to_satsys_spec in B. exists c, t, sys, (lines_of sys). repeat (split; [assumption|]). split; [destruct sys; try reflexivity; congruence|exact T].
Qed.
Print Assumptions C38_read_is_ignore.
Theorem C38_ignore_lines_partial : forall st st', ignore_next_block st = Val (0%Z, st') ->
  exists c t sys, rest st = c :: t /\ In (c, sys) satsys_letters /\ (sys = Mixed \/ exists n, block_size sys = Some n /\ takes n st st').
Proof.
  intros st st' E. destruct (ignore_zero st st' E) as (_ & c & t & sys & A & B & T). apply char_to_satsys_spec in B. exists c, t, sys. split; [exact A|]. split; [exact B|].
  destruct sys; try (left; reflexivity); right; (eexists; split; [reflexivity|exact T]).
Qed.
Print Assumptions C38_ignore_lines_partial.
(** on a well-formed block both stop right behind it *)
Theorem C38_conforming_partial : forall strp cal b tail st f, reads_dates strp cal -> block_ok b -> length (f_data f) = 31 ->
  at_rest st (block_text b ++ tail) ->
  Some (length (block_lines b)) = block_size (b_sys b) /\
  (exists st', ignore_next_block st = Val (0%Z, st') /\ at_rest st' tail) /\
  (b_sys b <> Irnss -> exists r, read_next_record strp st f 0 = Val r /\ n_code r = 0%Z /\ at_rest (n_stream r) tail).
Proof.
  intros strp cal b tail st f RD Ok L R. destruct (block_lines_count b Ok) as (A & B). split; [congruence|]. split.
  - destruct (ignore_block b st tail Ok R) as (st' & E & R' & _). eauto.
  - intro NI. destruct (read_block strp cal b tail st f RD Ok NI L R) as (g & st' & E & R' & _). eexists. split; [exact E|]. split; [reflexivity|exact R'].
Qed.
Print Assumptions C38_conforming_partial.
Example C38_conforming_ex : reads_dates strp_fix civil /\ block_ok (gps_b "05" fitn) /\ block_ok glo_b /\ block_ok sbs_b /\
  at_rest (open_stream (block_text glo_b ++ block_text (gps_b "05" fitn))) (block_text glo_b ++ block_text (gps_b "05" fitn)).
Proof. split; [apply strp_fix_reads|]. split; [apply gps_b_ok; auto|]. split; [apply glo_b_ok|]. split; [apply sbs_b_ok|apply open_rest]. Qed.
Example C38_example : exists r, read_next_record strp_fix (open_stream (block_text glo_b ++ lit "G")) frame0 0 = Val r /\ n_code r = 0%Z /\ rest (n_stream r) = lit "G".
Proof. eexists. split; [vm_compute; reflexivity|]. vm_compute. auto. Qed.
(** refuted for 'M': not an error, and nothing is consumed *)
Theorem C38_mixed_refuted : forall st t, at_rest st ("M"%char :: t) -> ignore_next_block st = Val (0%Z, st).
Proof. exact ignore_mixed. Qed.
Print Assumptions C38_mixed_refuted.
Definition C38_full : Prop := forall st c t sys, good st = true -> rest st = c :: t -> In (c, sys) satsys_letters ->
  forall j st', ignore_next_block st = Val (j, st') ->
  match block_size sys with Some n => j = 0%Z -> takes n st st' | None => j <> 0%Z end.
Theorem C38_full_refuted : ~ C38_full.
Proof.
  intro F. assert (R : at_rest (open_stream (lit "M01")) ("M"%char :: lit "01")) by (split; reflexivity).
  exact (F _ "M"%char (lit "01") Mixed (proj1 R) (proj2 R) ltac:(cbn; tauto) _ _ (ignore_mixed _ _ R) eq_refl).
Qed.
Print Assumptions C38_full_refuted.

(** ** C39: block decoding *)
Theorem C39_decode_partial : forall strp cal b tail st f, reads_dates strp cal -> block_ok b -> b_sys b <> Irnss -> length (f_data f) = 31 ->
  at_rest st (block_text b ++ tail) ->
  exists g st', read_next_record strp st f 0 = Val (mkNav 0 g st' 0) /\ at_rest st' tail /\ is_block cal g b.
Proof.
  intros strp cal b tail st f RD Ok NI L R. destruct (read_block strp cal b tail st f RD Ok NI L R) as (g & st' & E & R' & _ & B & _). eauto.
Qed.
Print Assumptions C39_decode_partial.
Example C39_decode_ex : exists r, read_next_record strp_fix (open_stream (block_text glo_b)) frame0 0 = Val r /\
  option_map (fun v => match v with DFin q => Qeq_bool q (b64 (num_val n1 * 1000)) | _ => false end) (nth_error (f_data (n_frame r)) 3) = Some true /\
  option_map (fun v => match v with DFin q => Qeq_bool q (num_val n0) | _ => false end) (nth_error (f_data (n_frame r)) 6) = Some true.
Proof. eexists. split; [vm_compute; reflexivity|]. vm_compute. auto. Qed.

(** every read, whatever the file: still 31 slots *)
Lemma put_len d off vs d' : put d off vs = Val d' -> length d' = length d.
Proof.
  unfold put. destruct (Nat.leb_spec (off + length vs) (length d)); [|discriminate]. intro E. apply Val_inj in E. subst d'.
  rewrite !app_length, firstn_length, skipn_length. lia.
Qed.
Lemma mid_dlen : forall k ln st line f e r, mid_lines k ln st line f e = Val r ->
  match r with inl x => length (f_data (n_frame x)) = length (f_data f) | inr (_, _, g, _) => length (f_data g) = length (f_data f) end.
Proof.
  induction k as [|k IH]; intros ln st line f e r E; cbn [mid_lines] in E; [apply Val_inj in E; subst r; reflexivity|].
  apply bind_inv in E. destruct E as ((st1 & l1) & G & E). destruct (sfail st1); [apply Val_inj in E; subst r; reflexivity|].
  apply bind_inv in E. destruct E as (l2 & _ & E). apply bind_inv in E. destruct E as (((ok & vs) & e1) & _ & E).
  apply bind_inv in E. destruct E as (d & P & E). apply put_len in P.
  destruct ok; [|apply Val_inj in E; subst r; cbn; exact P].
  apply IH in E. cbn [set_data f_data] in E. destruct r as [x|[[[a b] g] c]]; congruence.
Qed.
Lemma scale_len : forall ix d d', scale_at ix d = Val d' -> length d' = length d.
Proof.
  induction ix as [|i ix IH]; intros d d' E; cbn [scale_at] in E; [apply Val_inj in E; congruence|].
  apply bind_inv in E. destruct E as (v & _ & E). apply bind_inv in E. destruct E as (d1 & P & E). apply put_len in P. apply IH in E. congruence.
Qed.
Lemma set_dlen strp st f e r : set_from_rnx3 strp st f e = Val r -> length (f_data (n_frame r)) = length (f_data f).
Proof.
  unfold set_from_rnx3. intro E.
  match type of E with noexcept ?x = _ => assert (E' : x = Val r) by (destruct x; cbn in E; congruence); clear E; rename E' into E end.
  apply bind_inv in E. destruct E as ((st1 & line) & _ & E). destruct (sfail st1); [apply Val_inj in E; subst r; reflexivity|].
  apply bind_inv in E. destruct E as (c0 & _ & E). apply bind_inv in E. destruct E as (sys & _ & E).
  apply bind_inv in E. destruct E as (s3 & _ & E). destruct (strp s3) as [toc|]; [|discriminate].
  apply bind_inv in E. destruct E as (s1 & _ & E). destruct (strtol s1) as [[p ?] er]. cbn zeta in E.
  destruct (_ || _); [apply Val_inj in E; subst r; reflexivity|].
  apply bind_inv in E. destruct E as (m23 & _ & E). apply bind_inv in E. destruct E as (((ok & vs) & e2) & _ & E).
  apply bind_inv in E. destruct E as (d1 & P & E). apply put_len in P. cbn [set_prn set_toc set_sys f_data] in P.
  destruct ok; cbn [negb] in E; [|apply Val_inj in E; subst r; exact P].
  destruct (lines_per_satsys sys) as [nl last]. destruct (_ <? _)%Z; [apply Val_inj in E; subst r; exact P|].
  apply bind_inv in E. destruct E as (m & M & E). apply mid_dlen in M. cbn [set_data f_data] in M.
  destruct m as [x|[[[st2 line2] f5] e3]]; [apply Val_inj in E; subst r; congruence|].
  apply bind_inv in E. destruct E as ((st3 & line3) & _ & E). destruct (sfail st3); [apply Val_inj in E; subst r; cbn; congruence|].
  apply bind_inv in E. destruct E as (line4 & _ & E). apply bind_inv in E. destruct E as (((ok2 & vs2) & e4) & _ & E).
  apply bind_inv in E. destruct E as (d2 & P2 & E). apply put_len in P2.
  destruct ok2; cbn [negb] in E; [|apply Val_inj in E; subst r; cbn; congruence].
  apply bind_inv in E. destruct E as (f7 & F7 & E).
  assert (L7 : length (f_data f7) = length (f_data f)).
  { destruct (satsys_eqb sys Glonass).
    - apply bind_inv in F7. destruct F7 as (d & Sc & F7). apply scale_len in Sc. apply Val_inj in F7. subst f7. cbn [set_data f_data] in *. congruence.
    - apply Val_inj in F7. subst f7. cbn. congruence. }
  destruct sys; try (apply Val_inj in E; subst r; exact L7);
    (apply bind_inv in E; destruct E as (toe & _ & E); apply Val_inj in E; subst r; exact L7).
Qed.
Theorem C39_slots : forall strp st f e r, read_next_record strp st f e = Val r -> length (f_data f) = 31 -> length (f_data (n_frame r)) = 31.
Proof.
  intros strp st f e r E L. unfold read_next_record in E. destruct (peek st) as [st1 [c|]].
  - apply set_dlen in E. congruence.
  - destruct (seof st1); apply Val_inj in E; subst r; exact L.
Qed.
Print Assumptions C39_slots.

(** refuted: "takes nothing from a previous block".  The slots RINEX leaves without a number keep the
    previous contents: Galileo 22 and 28-30, GPS 29-30, GLONASS and SBAS 15-30 *)
Theorem C39_stale_refuted : forall strp cal b tail st f i, reads_dates strp cal -> block_ok b -> length (f_data f) = 31 ->
  at_rest st (block_text b ++ tail) ->
  (b_sys b = Galileo /\ In i [22; 28; 29; 30]) \/ (b_sys b = Gps /\ In i [29; 30]) \/ (b_sys b = Beidou /\ In i [22; 29; 30]) \/
  ((b_sys b = Glonass \/ b_sys b = Sbas) /\ 15 <= i) ->
  exists r, read_next_record strp st f 0 = Val r /\ n_code r = 0%Z /\ nth_error (f_data (n_frame r)) i = nth_error (f_data f) i.
Proof.
  intros strp cal b tail st f i RD Ok L R H.
  assert (NI : b_sys b <> Irnss) by (destruct H as [(-> & _)|[(-> & _)|[(-> & _)|([-> | ->] & _)]]]; discriminate).
  destruct (read_block strp cal b tail st f RD Ok NI L R) as (g & st' & E & _ & _ & _ & St & _).
  eexists. split; [exact E|]. split; [reflexivity|]. cbn [n_frame]. apply St.
  destruct H as [(-> & H)|[(-> & H)|[(-> & H)|([-> | ->] & H)]]].
  - cbn in H. destruct H as [<-|[<-|[<-|[<-|[]]]]]; reflexivity.
  - cbn in H. destruct H as [<-|[<-|[]]]; reflexivity.
  - cbn in H. destruct H as [<-|[<-|[<-|[]]]]; reflexivity.
  - unfold assigned. destruct (Nat.ltb_spec i 3); [lia|]. assert (X : 3 <= (i - 3) / 4) by (apply Nat.div_le_lower_bound; lia).
    rewrite (proj2 (nth_error_None _ _)); [reflexivity|exact X].
  - unfold assigned. destruct (Nat.ltb_spec i 3); [lia|]. assert (X : 3 <= (i - 3) / 4) by (apply Nat.div_le_lower_bound; lia).
    rewrite (proj2 (nth_error_None _ _)); [reflexivity|exact X].
Qed.
Print Assumptions C39_stale_refuted.
Example C39_stale_ex : block_ok gal_b /\ b_sys gal_b = Galileo. Proof. split; [apply gal_b_ok|reflexivity]. Qed.
Definition C39_full : Prop := forall strp cal b tail st f1 f2, reads_dates strp cal -> block_ok b -> length (f_data f1) = 31 -> length (f_data f2) = 31 ->
  at_rest st (block_text b ++ tail) ->
  exists r1 r2, read_next_record strp st f1 0 = Val r1 /\ read_next_record strp st f2 0 = Val r2 /\
    is_block cal (n_frame r1) b /\ f_data (n_frame r1) = f_data (n_frame r2).
Theorem C39_full_refuted : ~ C39_full.
Proof.
  intro F. set (f2 := mkFrame Mixed 0 0 0 (repeat (DFin 1) 31)).
  assert (R : at_rest (open_stream (block_text gal_b)) (block_text gal_b ++ [])) by (rewrite app_nil_r; apply open_rest).
  destruct (F strp_fix civil gal_b [] _ frame0 f2 strp_fix_reads gal_b_ok eq_refl eq_refl R) as (r1 & r2 & E1 & E2 & _ & D).
  destruct (C39_stale_refuted strp_fix civil gal_b [] _ frame0 22 strp_fix_reads gal_b_ok eq_refl R ltac:(left; cbn; tauto)) as (r1' & E1' & _ & S1).
  destruct (C39_stale_refuted strp_fix civil gal_b [] _ f2 22 strp_fix_reads gal_b_ok eq_refl R ltac:(left; cbn; tauto)) as (r2' & E2' & _ & S2).
  rewrite E1 in E1'. rewrite E2 in E2'. apply Val_inj in E1', E2'. subst r1' r2'. rewrite D, S2 in S1. discriminate.
Qed.
Print Assumptions C39_full_refuted.

(** refused although well formed: IRNSS blocks with a blank spare, GPS blocks with a blank fit
    interval, and every block when errno is not 0 on entry *)
Theorem C39_irnss_refuted : forall strp cal b l tail st f, reads_dates strp cal -> block_ok b -> b_sys b = Irnss -> length (f_data f) = 31 ->
  nth_error (b_orb b) 4 = Some l -> (forall o, nth_error (fst l) 3 = Some o -> o = None) ->
  at_rest st (block_text b ++ tail) ->
  exists g st', read_next_record strp st f 0 = Val (mkNav 6 g st' 0) /\ ~ at_rest st' tail.
Proof.
  intros strp cal b l tail st f RD Ok Sy L N Bl R. destruct (irnss_refused strp cal b l tail st f RD Ok Sy L N Bl R) as (g & st' & ls & E & R' & Ln).
  exists g, st'. split; [exact E|]. intro H. destruct R' as (_ & R1). destruct H as (_ & R2). rewrite R1 in R2.
  destruct ls as [|l1 ls]; [discriminate|]. apply (f_equal (@length _)) in R2. rewrite text_of_cons', app_length in R2. cbn [length] in R2. rewrite app_length in R2. lia.
Qed.
Print Assumptions C39_irnss_refuted.
Example C39_irnss_ex : block_ok irn_b /\ exists l, nth_error (b_orb irn_b) 4 = Some l /\ nth_error (fst l) 3 = None.
Proof. split; [apply irn_b_ok|]. eexists. split; reflexivity. Qed.
Theorem C39_errno_refuted : forall strp cal b tail st f e, reads_dates strp cal -> block_ok b -> length (f_data f) = 31 -> e <> 0%Z ->
  at_rest st (block_text b ++ tail) ->
  exists c g st', read_next_record strp st f e = Val (mkNav c g st' 0) /\ at_rest st' (text_of (map orbit_text (b_orb b)) ++ tail) /\ (c = 2%Z \/ c = 3%Z).
Proof. exact errno_refused. Qed.
Print Assumptions C39_errno_refuted.
Theorem C39_blank_fit_refuted : forall strp cal b mids ll l n tail st f, reads_dates strp cal -> block_ok b -> b_sys b = Gps -> length (f_data f) = 31 ->
  b_orb b = mids ++ [ll] -> orbit_wf l -> (exists r, fst l = Some n :: r /\ Forall (fun o => o = None) r) ->
  at_rest st (text_of (head_line b :: map orbit_text (mids ++ [l])) ++ tail) ->
  exists g st', read_next_record strp st f 0 = Val (mkNav 8 g st' 0) /\ at_rest st' tail.
Proof. exact blank_fit_refused. Qed.
Print Assumptions C39_blank_fit_refuted.

(** ** C40: peeking *)
Theorem C40_keeps : forall st s sys st', peak_satsys st = (s, sys, st') -> sdata st' = sdata st /\ spos st' = spos st.
Proof. exact peak_keeps. Qed.
Print Assumptions C40_keeps.

Lemma no_letter c : (forall s, char_to_satsys c <> Val s) -> ~ In c (map fst satsys_letters).
Proof. intros H I. apply in_map_iff in I. destruct I as ([c' s] & E & I). cbn in E. subst c'. apply letter_sys in I. exact (H s I). Qed.
(** a stream without error flags: the letter decides; asking again gives the same answer, since the
    stream is the same *)
Theorem C40_answer_partial : forall st, good st = true -> ~ In CFF (firstn 1 (rest st)) ->
  exists s sys, peak_satsys st = (s, sys, st) /\
    (s = (-1)%Z <-> rest st = []) /\
    (s = 0%Z <-> exists c t, rest st = c :: t /\ In (c, sys) satsys_letters) /\
    ((0 < s)%Z <-> exists c t, rest st = c :: t /\ ~ In c (map fst satsys_letters)).
Proof.
  intros st G F. rewrite (peak_good st G). destruct (rest st) as [|c t].
  - do 2 eexists. split; [reflexivity|]. split; [tauto|]. split; split; try discriminate; try lia; intros (c & t & E & _); discriminate.
  - cbn [firstn] in F. destruct (ceqb c CFF) eqn:Ec; [apply Ascii.eqb_eq in Ec; subst c; destruct F; left; reflexivity|].
    assert (U : (forall s, char_to_satsys c <> Val s) -> exists s sys, (1%Z, Mixed, st) = (s, sys, st) /\
      (s = (-1)%Z <-> c :: t = []) /\ (s = 0%Z <-> exists c' t', c :: t = c' :: t' /\ In (c', sys) satsys_letters) /\
      ((0 < s)%Z <-> exists c' t', c :: t = c' :: t' /\ ~ In c' (map fst satsys_letters))).
    { intro H. apply no_letter in H. do 2 eexists. split; [reflexivity|]. split; [split; discriminate|]. split.
      - split; [discriminate|]. intros (c' & t' & E & I). inversion E; subst. destruct H. apply in_map_iff. exists (c', Mixed). auto.
      - split; [intros _; eauto|intros _; lia]. }
    destruct (char_to_satsys c) as [s| | | |] eqn:Es; try (apply U; intros s0; congruence).
    do 2 eexists. split; [reflexivity|]. apply char_to_satsys_spec in Es. split; [split; discriminate|]. split.
    + split; [intros _; eauto|reflexivity].
    + split; [lia|]. intros (c' & t' & E & N). inversion E; subst. destruct N. apply in_map_iff. exists (c', s). auto.
Qed.
Print Assumptions C40_answer_partial.
Example C40_ex : peak_satsys (open_stream (lit "R07")) = (0%Z, Glonass, open_stream (lit "R07")) /\ peak_satsys (open_stream []) = ((-1)%Z, Mixed, open_stream [])
  /\ peak_satsys (open_stream (lit "+")) = (1%Z, Mixed, open_stream (lit "+")).
Proof. vm_compute. auto. Qed.
(** refuted: the byte 0xFF is taken for the end of the file *)
Theorem C40_eof_refuted : forall t, peak_satsys (open_stream (CFF :: t)) = ((-1)%Z, Mixed, open_stream (CFF :: t)).
Proof. intro t. apply (peak_good (open_stream (CFF :: t)) eq_refl). Qed.
Print Assumptions C40_eof_refuted.
Definition C40_full : Prop := forall st, good st = true -> exists s sys, peak_satsys st = (s, sys, st) /\ (s = (-1)%Z <-> rest st = []).
Theorem C40_full_refuted : ~ C40_full.
Proof.
  intro F. destruct (F (open_stream [CFF]) eq_refl) as (s & sys & E & H). rewrite C40_eof_refuted in E. injection E as <- <-. destruct (H : _ <-> [CFF] = []) as (H1 & _). discriminate (H1 eq_refl).
Qed.
Print Assumptions C40_full_refuted.
(** and so is a stream that has failed, wherever it stands; the failure is cleared *)
Theorem C40_failed_refuted : forall st, good st = false -> exists st', peak_satsys st = ((-1)%Z, Mixed, st') /\ sfail st' = false.
Proof.
  intros st G. unfold peak_satsys, peek_char, peek. rewrite G. change (ceqb CFF CFF) with true. eexists. split; [reflexivity|]. reflexivity.
Qed.
Print Assumptions C40_failed_refuted.

(** ** C41: find_next *)
Theorem C41_match : forall k strp st f e sys prn pos r, find_next k strp st f e sys prn = Val (pos, r) -> n_code r = 0%Z ->
  f_sys (n_frame r) = sys /\ (prn = (-1)%Z \/ f_prn (n_frame r) = prn).
Proof.
  intros k strp st f e sys prn pos r E Z. unfold find_next in E. destruct (tellg st) as [st1 p].
  apply bind_inv in E. destruct E as (r' & E & X). apply Val_inj in X. inversion X; subst. exact (find_zero k strp st1 f e sys prn r E Z).
Qed.
Print Assumptions C41_match.
Lemma good_tellg st : good st = true -> tellg st = (st, Some (spos st)).
Proof. intro G. unfold tellg. destruct (good_bits st G) as (_ & F). unfold good in G. destruct st; cbn in *. subst. destruct seof; [discriminate|reflexivity]. Qed.
Theorem C41_minus_one : forall k strp st f e sys prn pos r, good st = true -> ~ In CFF (sdata st) ->
  find_next k strp st f e sys prn = Val (pos, r) -> n_code r = (-1)%Z -> rest (n_stream r) = [].
Proof.
  intros k strp st f e sys prn pos r G F E Z. unfold find_next in E. rewrite (good_tellg st G) in E.
  apply bind_inv in E. destruct E as (r' & E & X). apply Val_inj in X. inversion X; subst.
  destruct (find_minus k strp st f e sys prn r (seen_good st G) E Z) as [H|(t & H)]; [exact H|].
  destruct (find_stream k strp st f e sys prn r E) as (_ & D). destruct F. rewrite <- D.
  unfold rest in H. rewrite <- (firstn_skipn (spos (n_stream r)) (sdata (n_stream r))), H. apply in_or_app. right. left. reflexivity.
Qed.
Print Assumptions C41_minus_one.
(** the first matching block *)
Theorem C41_first : forall strp cal sys prn pre b post tail st f k, reads_dates strp cal -> sys <> Mixed -> sys <> Irnss ->
  Forall block_ok (pre ++ [b]) -> Forall (fun b => ~ wanted sys prn b) pre -> wanted sys prn b ->
  length (f_data f) = 31 -> at_rest st (blocks_text (pre ++ b :: post) ++ tail) -> length pre < k ->
  exists g st', find_next k strp st f 0 sys prn = Val (Some (spos st), mkNav 0 g st' 0) /\ is_block cal g b /\ at_rest st' (blocks_text post ++ tail).
Proof.
  intros strp cal sys prn pre b post tail st f k RD M NI Ok W Wb L R K.
  destruct (find_first strp cal sys prn pre b post tail st f k RD M NI Ok W Wb L R K) as (g & st' & E & B & R' & _). eauto.
Qed.
Print Assumptions C41_first.
Theorem C41_none : forall strp cal sys prn bs st f k, reads_dates strp cal -> sys <> Mixed -> sys <> Irnss ->
  Forall block_ok bs -> Forall (fun b => ~ wanted sys prn b) bs ->
  length (f_data f) = 31 -> at_rest st (blocks_text bs) -> length bs < k ->
  exists g st', find_next k strp st f 0 sys prn = Val (Some (spos st), mkNav (-1) g st' 0) /\ at_rest st' [].
Proof. exact find_none. Qed.
Print Assumptions C41_none.
Example C41_ex : let bs := [glo_b; gps_b "05" fitn; sbs_b; gps_b "12" n0; gal_b] in
  exists pos r, find_next 9 strp_fix (open_stream (blocks_text bs)) frame0 0 Gps 12 = Val (pos, r) /\ n_code r = 0%Z /\ f_prn (n_frame r) = 12%Z /\
  rest (n_stream r) = block_text gal_b.
Proof. cbv zeta. do 2 eexists. split; [vm_compute; reflexivity|]. vm_compute. auto. Qed.
Example C41_hyp : Forall block_ok [glo_b; gps_b "05" fitn; sbs_b; gps_b "12" n0] /\ Forall (fun b => ~ wanted Gps 12 b) [glo_b; gps_b "05" fitn; sbs_b] /\ wanted Gps 12 (gps_b "12" n0).
Proof.
  split.
  - apply Forall_cons; [apply glo_b_ok|]. apply Forall_cons; [apply gps_b_ok; auto|]. apply Forall_cons; [apply sbs_b_ok|]. apply Forall_cons; [apply gps_b_ok; auto|apply Forall_nil].
  - split; [|split; [reflexivity|right; reflexivity]].
    apply Forall_cons; [intros (A & _); discriminate|]. apply Forall_cons; [intros (_ & [A|A]); vm_compute in A; discriminate|]. apply Forall_cons; [intros (A & _); discriminate|apply Forall_nil].
Qed.
(** it returns, if no line of the file starts with 'M' (or 'M' is asked for) *)
Theorem C41_returns_partial : forall strp st f e sys prn k, sys = Mixed \/ no_mixed_line (rest st) -> good st = true -> length (rest st) < k ->
  find_next k strp st f e sys prn <> Fuel.
Proof.
  intros strp st f e sys prn k H G K E. unfold find_next in E. rewrite (good_tellg st G) in E.
  pose proof (find_returns k strp st f e sys prn H K) as N. destruct (find_loop k strp st f e sys prn); cbn in E; congruence.
Qed.
Print Assumptions C41_returns_partial.
Lemma split_nl : forall (l x y z : list ascii), ~ In NL l -> x ++ NL :: y = l ++ NL :: z -> (x = l /\ y = z) \/ exists u, x = l ++ NL :: u /\ u ++ NL :: y = z.
Proof.
  induction l as [|c l IH]; intros x y z N E; cbn [app] in *.
  - destruct x as [|c x]; cbn [app] in E; injection E; [auto|]. intros E' ->. right. exists x. auto.
  - destruct x as [|d x]; cbn [app] in E; injection E; [intros _ X; destruct N; left; symmetry; exact X|]. intros E' ->.
    destruct (IH x y z (fun H => N (or_intror H)) E') as [(-> & ->)|(u & -> & X)]; [left; auto|right; exists u; auto].
Qed.
Lemma no_mixed_lines : forall ls, Forall (fun l => ~ In NL l /\ hd_error l <> Some "M"%char) ls -> no_mixed_line (text_of ls).
Proof.
  induction ls as [|l ls IH]; intro F; intros a b E H.
  - destruct b; [exact I|]. destruct a; discriminate.
  - inversion F as [|? ? (N & M) F']; subst. rewrite <- (app_nil_r (text_of _)), text_of_cons', app_nil_r in E.
    assert (X : (a = [] /\ b = l ++ NL :: text_of ls) \/ exists a2, (a2 = [] \/ exists a3, a2 = a3 ++ [NL]) /\ text_of ls = a2 ++ b).
    { destruct H as [-> |(a' & ->)]; [left; auto|]. rewrite <- app_assoc in E. cbn [app] in E. symmetry in E.
      destruct (split_nl _ _ _ _ N E) as [(-> & ->)|(u & -> & X)]; right; [exists []; auto|]. exists (u ++ [NL]). split; [eauto|]. rewrite <- app_assoc. auto. }
    destruct X as [(-> & ->)|(a2 & H2 & E2)]; [|exact (IH F' a2 b E2 H2)].
    destruct l; [discriminate|]. cbn in M. cbn. congruence.
Qed.
Lemma no_mixed_block b : block_ok b -> Forall (fun l => ~ In NL l /\ hd_error l <> Some "M"%char) (block_lines b).
Proof.
  intro Ok. pose proof (block_lines_short b Ok) as Sh. apply Forall_forall. intros l Hl. rewrite Forall_forall in Sh. split; [apply Sh, Hl|].
  unfold block_lines in Hl. destruct Hl as [<-|Hl].
  - unfold head_line. cbn. intro E. injection E as E. destruct Ok as (I & M & _). apply letter_sys in I. rewrite E in I. change (char_to_satsys "M"%char) with (Val Mixed) in I. congruence.
  - apply in_map_iff in Hl. destruct Hl as (o & <- & _). discriminate.
Qed.
(** conforming files are such *)
Theorem C41_conforming_returns : forall strp bs st f e sys prn, Forall block_ok bs -> at_rest st (blocks_text bs) ->
  exists k, forall k', k < k' -> find_next k' strp st f e sys prn <> Fuel.
Proof.
  intros strp bs st f e sys prn Ok (G & R). exists (length (rest st)). intros k' K. apply C41_returns_partial; [right|exact G|exact K].
  rewrite R. replace (blocks_text bs) with (text_of (flat_map block_lines bs)).
  - apply no_mixed_lines. clear - Ok. induction Ok as [|b bs H _ IH]; [constructor|]. cbn [flat_map]. apply Forall_app. split; [apply no_mixed_block, H|exact IH].
  - clear. unfold blocks_text, block_text, text_of. induction bs as [|b bs IH]; [reflexivity|]. cbn [flat_map]. rewrite flat_map_app, IH. reflexivity.
Qed.
Print Assumptions C41_conforming_returns.
(** refuted in general: a block whose letter is 'M' is never passed *)
Theorem C41_hangs_refuted : forall strp st f e sys prn t, at_rest st ("M"%char :: t) -> sys <> Mixed -> forall k, find_next k strp st f e sys prn = Fuel.
Proof.
  intros strp st f e sys prn t R M k. unfold find_next. rewrite (good_tellg st (proj1 R)). rewrite (find_hangs strp st f e sys prn t R M k). reflexivity.
Qed.
Print Assumptions C41_hangs_refuted.
Definition C41_full : Prop := forall strp st f e sys prn, good st = true -> exists k, find_next k strp st f e sys prn <> Fuel.
Theorem C41_full_refuted : ~ C41_full.
Proof.
  intro F. destruct (F strp_fix (open_stream (lit "M01")) frame0 0%Z Gps 1%Z eq_refl) as (k & H). apply H.
  apply C41_hangs_refuted with (t := lit "01"); [split; reflexivity|discriminate].
Qed.
Print Assumptions C41_full_refuted.
(** the reported position restores the stream *)
Theorem C41_rewind : forall k strp st f e sys prn pos r eoh, good st = true -> find_next k strp st f e sys prn = Val (pos, r) ->
  pos = Some (spos st) /\ nav_rewind eoh pos (n_stream r) = st.
Proof. exact find_rewind. Qed.
Print Assumptions C41_rewind.

(** ** C42: find_next_valid *)
Lemma valid_inv k strp t st f e sys prn pos r : find_next_valid k strp t st f e sys prn = Val (pos, r) ->
  valid_loop k strp t (fst (tellg st)) f e sys prn = Val r.
Proof.
  unfold find_next_valid. destruct (tellg st) as [st1 p]. intro E. apply bind_inv in E. destruct E as (r' & E & X). apply Val_inj in X. inversion X; subst.
  cbn [fst]. destruct (valid_loop k strp t st1 f e sys prn); cbn in E; congruence.
Qed.
(** whatever the file: a frame handed out is of the requested satellite, healthy, and covers [t] --
    unless it is a GPS frame with a fit interval of less than -596523 hours *)
Theorem C42_sound : forall k strp t st f e sys prn pos r, find_next_valid k strp t st f e sys prn = Val (pos, r) -> n_code r = 0%Z ->
  f_sys (n_frame r) = sys /\ f_prn (n_frame r) = prn /\ healthy (n_frame r) /\ (~ wild_hours (n_frame r) -> covers t (n_frame r)).
Proof.
  intros k strp t st f e sys prn pos r E Z. apply valid_inv in E.
  destruct (valid_zero k strp t _ f e sys prn r E Z) as (A & B & C & D). repeat (split; [assumption|]). intro N. destruct D; [assumption|contradiction].
Qed.
Print Assumptions C42_sound.
Definition t0 : Z := (civil [2020; 10; 6; 1; 0; 0] * 1000)%Z.
Example C42_sound_ex : exists pos r, find_next_valid 9 strp_fix t0 (open_stream (blocks_text [glo_b; gps_b "05" fitn])) frame0 0 Gps 5 = Val (pos, r) /\ n_code r = 0%Z.
Proof. do 2 eexists. split; vm_compute; reflexivity. Qed.
(** the excluded case is real: -1000000 hours wrap to a positive interval *)
Definition wildn : numlit := mkNum (Some "-"%char) (lit "1") true (lit "000000000000") (Some ("D"%char, Some "+"%char, lit "06")).
Example C42_wild_refuted : exists pos r, find_next_valid 9 strp_fix t0 (open_stream (block_text (gps_b "05" wildn))) frame0 0 Gps 5 = Val (pos, r) /\ n_code r = 0%Z.
Proof. do 2 eexists. split; vm_compute; reflexivity. Qed.
(** the first usable block of the satellite, on conforming files *)
Theorem C42_first_partial : forall strp cal t sys prn pre b post tail st f k, reads_dates strp cal -> In sys [Gps; Glonass; Galileo; Beidou] ->
  Forall block_ok (pre ++ [b]) -> Forall (passed cal t sys prn) pre ->
  serves sys prn b -> ~ too_late cal t b -> int_fits b -> (forall g, frame_of cal b g -> usable t g) ->
  length (f_data f) = 31 -> at_rest st (blocks_text (pre ++ b :: post) ++ tail) -> length pre < k ->
  exists g st', find_next_valid k strp t st f 0 sys prn = Val (Some (spos st), mkNav 0 g st' 0) /\ frame_of cal b g /\ at_rest st' (blocks_text post ++ tail).
Proof.
  intros strp cal t sys prn pre b post tail st f k RD Hs. apply valid_first; [exact RD|]. cbn in Hs. destruct Hs as [<-|[<-|[<-|[<-|[]]]]]; reflexivity.
Qed.
Print Assumptions C42_first_partial.
Lemma gps_usable t g prn : prn = "05" \/ prn = "12" -> (civil (date_vals date1) * 1000 <= t < civil (date_vals date1) * 1000 + 4 * 3600000)%Z ->
  frame_of civil (gps_b prn fitn) g -> usable t g.
Proof.
  intros P T ((Sy & _ & Tc & _ & D) & _). cbn [gps_b b_sys b_date] in *.
  pose proof (D 24 n0 eq_refl eq_refl) as D24. pose proof (D 28 fitn eq_refl eq_refl) as D28.
  split.
  - exists (DFin (si_value Gps 24 n0)). rewrite Sy. split; [exact D24|]. eexists. split; [reflexivity|]. split; reflexivity.
  - unfold covers. rewrite Sy. exists (DFin (si_value Gps 28 fitn)), 4%Z. split; [exact D28|]. split; [|rewrite Tc; split; [lia|exact T]].
    eexists. split; [reflexivity|]. split; [intro X; vm_compute in X; discriminate|reflexivity].
Qed.
Example C42_first_ex : Forall (passed civil t0 Gps 12) [glo_b; gps_b "05" fitn] /\ serves Gps 12 (gps_b "12" fitn) /\ ~ too_late civil t0 (gps_b "12" fitn) /\
  int_fits (gps_b "12" fitn) /\ (forall g, frame_of civil (gps_b "12" fitn) g -> usable t0 g).
Proof.
  split; [apply Forall_cons; [left; intros (A & _); discriminate|]; apply Forall_cons; [left; intros (_ & A); vm_compute in A; discriminate|apply Forall_nil]|].
  split; [split; reflexivity|]. split; [intro H; vm_compute in H; discriminate|].
  split; [split; split; vm_compute; discriminate|]. intros g H. apply (gps_usable t0 g "12"); [auto|split; vm_compute; congruence|exact H].
Qed.
Theorem C42_none : forall strp cal t sys prn bs st f k, reads_dates strp cal -> In sys [Gps; Glonass; Galileo; Beidou] ->
  Forall block_ok bs -> Forall (passed cal t sys prn) bs ->
  length (f_data f) = 31 -> at_rest st (blocks_text bs) -> length bs < k ->
  exists g st', find_next_valid k strp t st f 0 sys prn = Val (Some (spos st), mkNav (-1) g st' 0) /\ at_rest st' [].
Proof.
  intros strp cal t sys prn bs st f k RD Hs. apply valid_none; [exact RD|]. cbn in Hs. destruct Hs as [<-|[<-|[<-|[<-|[]]]]]; reflexivity.
Qed.
Print Assumptions C42_none.
(** refuted: PRN -1 does not mean any satellite; on a conforming file it finds nothing at all *)
Theorem C42_wildcard_refuted : forall strp cal t sys bs st f k, reads_dates strp cal -> In sys [Gps; Glonass; Galileo; Beidou] ->
  Forall block_ok bs -> length (f_data f) = 31 -> at_rest st (blocks_text bs) -> length bs < k ->
  exists g st', find_next_valid k strp t st f 0 sys (-1) = Val (Some (spos st), mkNav (-1) g st' 0) /\ at_rest st' [].
Proof.
  intros strp cal t sys bs st f k RD Hs Ok. apply C42_none with (cal := cal); [exact RD|exact Hs|exact Ok|].
  eapply Forall_impl; [|exact Ok]. intros b (_ & _ & (D & _) & _). left. intros (_ & H). pose proof (dec_val_nonneg _ D). lia.
Qed.
Print Assumptions C42_wildcard_refuted.
(** the documented search: PRN -1 is any satellite *)
Definition C42_full : Prop := forall strp cal t sys prn b st f, reads_dates strp cal -> In sys [Gps; Glonass; Galileo; Beidou] ->
  block_ok b -> wanted sys prn b -> ~ too_late cal t b -> int_fits b -> (forall g, frame_of cal b g -> usable t g) ->
  length (f_data f) = 31 -> at_rest st (block_text b) ->
  exists k0, forall k, k0 <= k -> exists pos r, find_next_valid k strp t st f 0 sys prn = Val (pos, r) /\ n_code r = 0%Z.
Theorem C42_full_refuted : ~ C42_full.
Proof.
  intro F. destruct C42_first_ex as (_ & _ & TL & IF & U).
  assert (Ok : block_ok (gps_b "12" fitn)) by (apply gps_b_ok; auto).
  destruct (F strp_fix civil t0 Gps (-1)%Z (gps_b "12" fitn) _ frame0 strp_fix_reads ltac:(cbn; tauto) Ok ltac:(split; [reflexivity|left; reflexivity]) TL IF U eq_refl (open_rest _)) as (k0 & H).
  set (st := open_stream (block_text (gps_b "12" fitn))) in *.
  assert (R : at_rest st (blocks_text [gps_b "12" fitn])) by (unfold blocks_text; cbn [flat_map]; rewrite app_nil_r; apply open_rest).
  destruct (C42_wildcard_refuted strp_fix civil t0 Gps [gps_b "12" fitn] st frame0 (k0 + 2) strp_fix_reads ltac:(cbn; tauto) ltac:(apply Forall_cons; [exact Ok|apply Forall_nil]) eq_refl R ltac:(cbn [length]; lia)) as (g & st' & E' & _).
  destruct (H (k0 + 2) ltac:(lia)) as (pos & r & E & C). rewrite E' in E. apply Val_inj in E. apply (f_equal (fun x => n_code (snd x))) in E. cbn [snd n_code] in E. rewrite C in E. discriminate E.
Qed.
Print Assumptions C42_full_refuted.
(** the search gives up at the first block of the satellite whose time of clock is more than four hours
    after [t], even if a usable block follows *)
Theorem C42_stop : forall strp cal t sys prn pre b post tail st f k, reads_dates strp cal -> In sys [Gps; Glonass; Galileo; Beidou] ->
  Forall block_ok (pre ++ [b]) -> Forall (passed cal t sys prn) pre -> serves sys prn b -> too_late cal t b ->
  length (f_data f) = 31 -> at_rest st (blocks_text (pre ++ b :: post) ++ tail) -> length pre < k ->
  exists g st', find_next_valid k strp t st f 0 sys prn = Val (Some (spos st), mkNav (-1) g st' 0) /\ at_rest st' (blocks_text post ++ tail).
Proof.
  intros strp cal t sys prn pre b post tail st f k RD Hs. apply valid_stop; [exact RD|]. cbn in Hs. destruct Hs as [<-|[<-|[<-|[<-|[]]]]]; reflexivity.
Qed.
Print Assumptions C42_stop.
Example C42_stop_ex : too_late civil (t0 - 86400000) (gps_b "12" fitn). Proof. vm_compute. reflexivity. Qed.
Theorem C42_rewind : forall k strp t st f e sys prn pos r eoh, good st = true -> find_next_valid k strp t st f e sys prn = Val (pos, r) ->
  pos = Some (spos st) /\ nav_rewind eoh pos (n_stream r) = st.
Proof. exact valid_rewind. Qed.
Print Assumptions C42_rewind.
(** refuted: SBAS and QZSS files end the program; 'M' blocks hang it *)
Theorem C42_terminate_refuted : forall strp cal t sys prn b tail st f k, reads_dates strp cal -> (sys = Sbas \/ sys = Qzss) ->
  block_ok b -> serves sys prn b -> ~ too_late cal t b -> length (f_data f) = 31 -> at_rest st (block_text b ++ tail) ->
  find_next_valid (S k) strp t st f 0 sys prn = Term.
Proof. exact valid_terminates. Qed.
Print Assumptions C42_terminate_refuted.
Theorem C42_hangs_refuted : forall strp t st f e sys prn u, at_rest st ("M"%char :: u) -> sys <> Mixed -> forall k, find_next_valid k strp t st f e sys prn = Fuel.
Proof. exact valid_hangs. Qed.
Print Assumptions C42_hangs_refuted.

(** ** C43: fit interval and health *)
(** GPS: 3600 times the whole hours; QZSS and the others throw *)
Theorem C43_fit : forall f,
  (f_sys f = Glonass -> fit_interval f = Val 900%Z) /\
  (f_sys f = Galileo \/ f_sys f = Beidou -> fit_interval f = Val 14400%Z) /\
  (f_sys f = Gps -> forall q, nth_error (f_data f) 28 = Some (DFin q) -> (inject_Z (-596523) <= q <= inject_Z 596523)%Q ->
     exists h, fit_interval f = Val (3600 * h)%Z /\
       ((0 <= q)%Q -> (inject_Z h <= q < inject_Z (h + 1))%Q) /\ ((q <= 0)%Q -> (inject_Z (h - 1) < q <= inject_Z h)%Q)) /\
  (~ In (f_sys f) [Gps; Glonass; Galileo; Beidou] -> fit_interval f = Exn).
Proof.
  intro f. unfold fit_interval. split; [intros ->; reflexivity|]. split; [intros [-> | ->]; reflexivity|]. split.
  - intros -> q D R. unfold gps_fit_interval, slot. rewrite D. cbn [bind]. destruct (to_int_fit q R) as (E & B). rewrite E. cbn [bind].
    exists (tr q). split; [f_equal; apply i32_id; lia|]. clear - B. unfold tr. destruct q as [n d]. unfold Qle, Qlt, inject_Z. cbn [Qnum Qden].
    pose proof (Z.quot_rem' n (Z.pos d)) as QR. set (z := Z.quot n (Z.pos d)) in *. split; intro H.
    + pose proof (Z.rem_nonneg n (Z.pos d) ltac:(lia) ltac:(lia)). pose proof (Z.rem_bound_pos n (Z.pos d) ltac:(lia) ltac:(lia)). lia.
    + pose proof (Z.rem_nonpos n (Z.pos d) ltac:(lia) ltac:(lia)). pose proof (Z.rem_bound_abs n (Z.pos d) ltac:(lia)). lia.
  - destruct (f_sys f); cbn; intro H; try reflexivity; exfalso; apply H; tauto.
Qed.
Print Assumptions C43_fit.
Theorem C43_health : forall f,
  (f_sys f = Glonass -> sv_health f = (do v <- slot (f_data f) 6; to_int v)) /\
  (In (f_sys f) [Gps; Galileo; Beidou] -> sv_health f = (do v <- slot (f_data f) 24; to_int v)) /\
  (~ In (f_sys f) [Gps; Glonass; Galileo; Beidou] -> sv_health f = Exn) /\
  (sv_health f = Val 0%Z -> healthy f).
Proof.
  intro f. split; [intro H; unfold sv_health; rewrite H; reflexivity|]. split.
  - cbn. unfold sv_health. intros [H|[H|[H|[]]]]; rewrite <- H; reflexivity.
  - split; [|apply health_inv]. unfold sv_health. destruct (f_sys f); cbn; intro H; try reflexivity; exfalso; apply H; tauto.
Qed.
Print Assumptions C43_health.
(** refuted: "a valid GPS message has a positive interval".  With a fit field of less than one hour (0,
    'not known', is allowed) no epoch is covered *)
Theorem C43_zero_fit_refuted : forall strp cal t prn b st f k n, reads_dates strp cal -> block_ok b -> b_sys b = Gps -> int_fits b -> ~ too_late cal t b ->
  number_at b 28 = Some n -> (num_val n < 1)%Q ->
  length (f_data f) = 31 -> at_rest st (block_text b) -> 1 < k ->
  exists g st', find_next_valid k strp t st f 0 Gps prn = Val (Some (spos st), mkNav (-1) g st' 0) /\ at_rest st' [].
Proof.
  intros strp cal t prn b st f k n RD Ok Sy IF TL N V L R K.
  apply (C42_none strp cal t Gps prn [b] st f k RD); [left; reflexivity|apply Forall_cons; [exact Ok|apply Forall_nil]| |exact L| |exact K].
  - apply Forall_cons; [|apply Forall_nil]. destruct (serves_dec Gps prn b) as [Sv|Sv]; [right|left; exact Sv].
    split; [exact TL|]. split; [exact IF|]. intros g ((Sg & _ & _ & _ & D) & _) (_ & C). unfold covers in C. rewrite Sg, Sy in C.
    destruct C as (v & h & Dv & (q & -> & Hq) & Hp & _). specialize (D 28 n). rewrite Sy in D. rewrite (D eq_refl N) in Dv. injection Dv as Dv.
    cbn [si_value] in Dv. subst q. assert (inject_Z 1 <= inject_Z h)%Q by (rewrite <- Zle_Qle; lia). destruct Hq as (Hq & _). change (inject_Z 1) with 1%Q in H.
    apply (Qle_not_lt _ _ (Qle_trans _ _ _ H Hq)). exact V.
  - unfold blocks_text. cbn [flat_map]. rewrite app_nil_r. exact R.
Qed.
Print Assumptions C43_zero_fit_refuted.
Definition C43_full : Prop := forall b, block_ok b -> b_sys b = Gps -> forall g, frame_of civil b g -> exists t, covers t g.
Theorem C43_full_refuted : ~ C43_full.
Proof.
  intro F. assert (Ok : block_ok (gps_b "05" n0)) by (apply gps_b_ok; auto).
  assert (R : at_rest (open_stream (block_text (gps_b "05" n0))) (block_text (gps_b "05" n0) ++ [])) by (rewrite app_nil_r; apply open_rest).
  destruct (read_block strp_fix civil (gps_b "05" n0) [] _ frame0 strp_fix_reads Ok ltac:(discriminate) eq_refl R) as (g & st' & _ & _ & _ & B & _ & T & _).
  destruct (F _ Ok eq_refl g (conj B (T eq_refl))) as (t & C). destruct B as (Sy & _ & _ & _ & D). unfold covers in C. rewrite Sy in C. cbn [gps_b b_sys] in C.
  destruct C as (v & h & Dv & (q & -> & Hq & _) & Hp & _). rewrite (D 28 n0 eq_refl eq_refl) in Dv. injection Dv as <-.
  assert (inject_Z 1 <= inject_Z h)%Q by (rewrite <- Zle_Qle; lia). pose proof (Qle_trans _ _ _ H Hq) as X. vm_compute in X. congruence.
Qed.
Print Assumptions C43_full_refuted.
Example C43_zero_fit_ex : block_ok (gps_b "05" n0) /\ int_fits (gps_b "05" n0) /\ ~ too_late civil t0 (gps_b "05" n0) /\ number_at (gps_b "05" n0) 28 = Some n0 /\ (num_val n0 < 1)%Q.
Proof. split; [apply gps_b_ok; auto|]. split; [split; split; vm_compute; discriminate|]. split; [intro H; vm_compute in H; discriminate|]. split; reflexivity. Qed.

(** ** C44: time of ephemeris *)
(** BeiDou week 0 starts on 1-Jan-2006, MJD 53736; GPS week 0 on 6-Jan-1980, MJD 44244 *)
Definition week_zero (s : satsys) : Z := match s with Beidou => 53736 * 86400 | _ => 44244 * 86400 end.
Lemma tr_int z : tr (inject_Z z) = z. Proof. unfold tr, inject_Z. cbn. apply Z.quot_1_r. Qed.
Lemma trunc_Qeq lo hi q z : (q == inject_Z z)%Q -> (lo <= z <= hi)%Z -> trunc_in lo hi (DFin q) = Val z.
Proof.
  intros E B. unfold trunc_in. assert (X : Z.quot (Qnum q) (Zpos (Qden q)) = z).
  { unfold Qeq, inject_Z in E. cbn in E. rewrite Z.mul_1_r in E. rewrite E. apply Z.quot_mul. discriminate. }
  rewrite X. destruct (Z.leb_spec lo z); [|lia]. destruct (Z.leb_spec z hi); [|lia]. reflexivity.
Qed.
Theorem C44_week : forall f s qw qs wk sow, f_sys f = s -> In s [Gps; Galileo; Beidou] ->
  nth_error (f_data f) 21 = Some (DFin qw) -> nth_error (f_data f) 11 = Some (DFin qs) ->
  (qw == inject_Z wk)%Q -> (qs == inject_Z sow)%Q -> (-2147483648 <= wk <= 2147483647)%Z -> (LONG_MIN <= sow <= LONG_MAX)%Z ->
  toe2date f = Val (week_zero s + wk * 604800 + sow)%Z.
Proof.
  intros f s qw qs wk sow Sy Hs Dw Ds Ew Es Bw Bs. unfold toe2date. rewrite Sy.
  assert (X : to_int (DFin qw) = Val wk) by (apply trunc_Qeq; assumption). assert (Y : to_long (DFin qs) = Val sow) by (apply trunc_Qeq; assumption).
  cbn in Hs. destruct Hs as [<-|[<-|[<-|[]]]]; unfold gps_toe, bds_toe, slot; rewrite Dw, Ds; cbn [bind]; rewrite X; cbn [bind]; rewrite Y; cbn [bind week_zero]; f_equal; unfold GPS0; lia.
Qed.
Print Assumptions C44_week.
Example C44_week_ex : exists r, read_next_record strp_fix (open_stream (block_text gal_b)) frame0 0 = Val r /\ f_toe (n_frame r) = civil [2020; 10; 6; 0; 0; 0]%Z.
Proof. eexists. split; vm_compute; reflexivity. Qed.
(** GLONASS: the message's second in the GPS week of the time of clock *)
Definition gps_week_start (t : Z) : Z := (44244 * 86400 + (t - 44244 * 86400) / 604800 * 604800)%Z.
Theorem C44_glonass : forall f q sow, f_sys f = Glonass -> nth_error (f_data f) 2 = Some (DFin q) -> (q == inject_Z sow)%Q ->
  (- 10 ^ 13 <= sow <= 10 ^ 13)%Z -> toe2date f = Val (gps_week_start (f_toc f) + sow)%Z.
Proof.
  intros f q sow Sy D E B. unfold toe2date. rewrite Sy. unfold glo_toe, slot. rewrite D. cbn [bind].
  assert (Y : to_long (DFin q) = Val sow) by (apply trunc_Qeq; [exact E|change (10 ^ 13)%Z with 10000000000000%Z in B; unfold LONG_MIN, LONG_MAX; lia]). rewrite Y. cbn [bind]. f_equal.
  unfold gps_week_start. change (44244 * 86400)%Z with GPS0. set (x := (f_toc f - GPS0)%Z).
  pose proof (Z.div_mod x 604800 ltac:(lia)) as DM. pose proof (Z.mod_pos_bound x 604800 ltac:(lia)) as MB.
  set (w := (x / 604800)%Z) in *. set (sw := (x mod 604800)%Z) in *.
  rewrite (Z.quot_div_nonneg sw 86400) by lia.
  pose proof (Z.quot_rem' sow 86400) as QR.
  assert (QB : (-200000000 <= Z.quot sow 86400 <= 200000000)%Z).
  { change (10 ^ 13)%Z with 10000000000000%Z in B. destruct (Z.le_gt_cases 0 sow).
    - rewrite Z.quot_div_nonneg by lia. split; [apply Z.le_trans with 0%Z; [lia|apply Z.div_pos; lia]|]. apply Z.div_le_upper_bound; lia.
    - replace sow with (- (- sow))%Z by lia. rewrite Z.quot_opp_l by lia. rewrite Z.quot_div_nonneg by lia.
      assert (0 <= - sow / 86400 <= 200000000)%Z by (split; [apply Z.div_pos; lia|apply Z.div_le_upper_bound; lia]). lia. }
  set (dt := Z.quot sow 86400) in *. set (sd := Z.rem sow 86400) in *.
  assert (DB : (0 <= sw / 86400 < 7)%Z) by (split; [apply Z.div_pos; lia|apply Z.div_lt_upper_bound; lia]).
  rewrite i32_id by lia.
  assert (T : (f_toc f / 86400 = 44244 + w * 7 + sw / 86400)%Z).
  { replace (f_toc f) with (sw + (44244 + w * 7) * 86400)%Z by (unfold x, GPS0 in DM; lia). rewrite Z.div_add by lia. lia. }
  rewrite T. unfold GPS0. lia.
Qed.
Print Assumptions C44_glonass.
(** so it is the instant with that second of week nearest to the time of clock exactly when the two
    lie within half a week of each other *)
Theorem C44_nearest_partial : forall f q sow, f_sys f = Glonass -> nth_error (f_data f) 2 = Some (DFin q) -> (q == inject_Z sow)%Q ->
  (0 <= sow < 604800)%Z -> exists toe, toe2date f = Val toe /\ ((toe - GPS0) mod 604800 = sow)%Z /\
    ((Z.abs (toe - f_toc f) <= 302400)%Z <-> forall t, ((t - GPS0) mod 604800 = sow)%Z -> (Z.abs (toe - f_toc f) <= Z.abs (t - f_toc f))%Z).
Proof.
  intros f q sow Sy D E B. eexists. split; [apply (C44_glonass f q sow Sy D E); change (10 ^ 13)%Z with 10000000000000%Z; lia|].
  unfold gps_week_start. change (44244 * 86400)%Z with GPS0. set (w := ((f_toc f - GPS0) / 604800)%Z).
  assert (M : ((GPS0 + w * 604800 + sow - GPS0) mod 604800 = sow)%Z).
  { replace (GPS0 + w * 604800 + sow - GPS0)%Z with (sow + w * 604800)%Z by lia. rewrite Z.mod_add by lia. apply Z.mod_small. lia. }
  split; [exact M|]. split.
  - intros H t T. pose proof (Z.div_mod (t - GPS0) 604800 ltac:(lia)) as DM. rewrite T in DM. set (w' := ((t - GPS0) / 604800)%Z) in *.
    destruct (Z.eq_dec w' w) as [Ew|Ew]; [rewrite Ew in DM; lia|]. lia.
  - intro H. pose proof (H (GPS0 + (w + 1) * 604800 + sow)%Z) as H1. pose proof (H (GPS0 + (w - 1) * 604800 + sow)%Z) as H2.
    replace (GPS0 + (w + 1) * 604800 + sow - GPS0)%Z with (sow + (w + 1) * 604800)%Z in H1 by lia.
    replace (GPS0 + (w - 1) * 604800 + sow - GPS0)%Z with (sow + (w - 1) * 604800)%Z in H2 by lia.
    rewrite Z.mod_add in H1, H2 by lia. specialize (H1 ltac:(apply Z.mod_small; lia)). specialize (H2 ltac:(apply Z.mod_small; lia)). lia.
Qed.
Print Assumptions C44_nearest_partial.
Definition C44_full : Prop := forall f q sow toe, f_sys f = Glonass -> nth_error (f_data f) 2 = Some (DFin q) -> (q == inject_Z sow)%Q -> (0 <= sow < 604800)%Z ->
  toe2date f = Val toe -> forall t, ((t - GPS0) mod 604800 = sow)%Z -> (Z.abs (toe - f_toc f) <= Z.abs (t - f_toc f))%Z.
Theorem C44_full_refuted : ~ C44_full.
Proof.
  intro F. set (f := mkFrame Glonass 1 (civil [2020; 10; 4; 0; 0; 0]%Z) 0 (repeat (DFin (inject_Z 604770)) 31)).
  specialize (F f (inject_Z 604770) 604770%Z (f_toc f - 30 + 604800)%Z eq_refl eq_refl ltac:(reflexivity) ltac:(lia) ltac:(vm_compute; reflexivity) (f_toc f - 30)%Z ltac:(vm_compute; reflexivity)).
  vm_compute in F. congruence.
Qed.
Print Assumptions C44_full_refuted.
(** refuted at the week boundary: time of clock Sunday 00:00:00, message frame time 30 s earlier; the
    time of ephemeris comes out a week late *)
Example C44_glonass_refuted : let f := mkFrame Glonass 1 (civil [2020; 10; 4; 0; 0; 0]%Z) 0 (repeat (DFin (inject_Z 604770)) 31) in
  toe2date f = Val (f_toc f - 30 + 604800)%Z.
Proof. vm_compute. reflexivity. Qed.

(** ** C45: epochs referred to ToE and ToC *)
(** [t]: day [m] and ticks of the day [tk], [fac] ticks per second *)
Lemma ref2_diff ref m tk fac : (-2147483648 <= m - ref / 86400 <= 2147483647)%Z ->
  (ref2 ref m tk fac - inject_Z (ref mod 86400) == inject_Z (m * 86400) + Qmake tk fac - inject_Z ref)%Q.
Proof.
  intro B. unfold ref2. rewrite (i32_id _ B). pose proof (Z.div_mod ref 86400 ltac:(lia)) as DM.
  set (d := (ref / 86400)%Z) in *. set (s := (ref mod 86400)%Z) in *. rewrite DM. clearbody d s. clear DM.
  destruct (Z.eqb_spec (m - d) 0) as [Z0|_].
  - replace m with d by lia. rewrite !inject_Z_plus, !inject_Z_mult. change (inject_Z 86400) with 86400%Q. ring.
  - unfold Z.sub. rewrite !inject_Z_plus, !inject_Z_mult, inject_Z_opp. change (inject_Z 86400) with 86400%Q. ring.
Qed.
Theorem C45_ref2toe : forall f m tk fac, (-2147483648 <= m - f_toe f / 86400 <= 2147483647)%Z ->
  (ref2toe f m tk fac - inject_Z (f_toe f mod 86400) == (inject_Z (m * 86400) + Qmake tk fac) - inject_Z (f_toe f))%Q.
Proof. intros. apply ref2_diff. assumption. Qed.
Print Assumptions C45_ref2toe.
Theorem C45_ref2toc : forall f m tk fac, (-2147483648 <= m - f_toc f / 86400 <= 2147483647)%Z ->
  (ref2toc f m tk fac - inject_Z (f_toc f mod 86400) == (inject_Z (m * 86400) + Qmake tk fac) - inject_Z (f_toc f))%Q.
Proof. intros. apply ref2_diff. assumption. Qed.
Print Assumptions C45_ref2toc.
Example C45_ex : (ref2 (59128 * 86400 + 7200) 59127 86399500 1000 == -(1 # 2))%Q. Proof. vm_compute. reflexivity. Qed.

(** ** C65: the header *)
Theorem C65_header : forall v mid letter sys post lines j tail, nav_header_ok v mid letter sys post lines j ->
  exists o, nav_open (nav_header_text v mid letter post lines j ++ tail) = Val o /\
    v_satsys o = sys /\ v_version o = DFin (num_flt v) /\ at_rest (v_stream o) tail /\
    (forall st, sdata st = sdata (v_stream o) -> sfail st = false -> nav_rewind (v_eoh o) None st = v_stream o).
Proof.
  intros v mid letter sys post lines j tail H. destruct (nav_header_exact v mid letter sys post lines j tail H) as (o & A & B & C & D & _ & E). exists o. auto.
Qed.
Print Assumptions C65_header.
Theorem C65_sound : forall d o, nav_open d = Val o -> end_line_in d /\ sdata (v_stream o) = d /\
  exists l, ~ In NL l /\ length l <= 84 /\ firstn (length l) d = l /\ nth_error l 20 = Some "N"%char /\
    exists c, nth_error l 40 = Some c /\ In (c, v_satsys o) satsys_letters.
Proof.
  intros d o E. destruct (nav_open_end d o E) as (A & B & l & C & D & F & G & c & H & I). split; [exact A|]. split; [exact B|].
  exists l. repeat (split; [assumption|]). exists c. split; [exact H|]. apply char_to_satsys_spec. exact I.
Qed.
Print Assumptions C65_sound.
Theorem C65_codes : forall d, match nav_read_header d with
  | Val (inl c) => In c [10; 11; 12; 20]%Z
  | Val (inr _) | UB => True
  | _ => False
  end.
Proof. intro d. pose proof (nav_header_codes d) as H. destruct (nav_read_header d) as [[c|]| | | |]; auto. cbn. intuition. Qed.
Print Assumptions C65_codes.
Definition ver : numlit := mkNum None (lit "3") true (lit "04") None.
Definition hlines : list (list ascii) := [lit "sbf2rin-13.2.1                          20201006 001632 UTCPGM / RUN BY / DATE"; lit "    18    18  1929     7                                    LEAP SECONDS"].
Lemma clean_b s : forallb (fun c => negb (Ascii.eqb c NL) && negb (Ascii.eqb c NUL)) s = true -> clean s.
Proof.
  intro H. rewrite forallb_forall in H. apply Forall_forall. intros c I. specialize (H c I). apply andb_true_iff in H. destruct H as (A & B).
  split; intros ->; discriminate.
Qed.
Lemma ver_ok : num_ok ver.
Proof.
  split; [exact I|]. split; [digs|]. split; [digs|]. split; [discriminate|]. split; [discriminate|]. split; [vm_compute; lia|exact I].
Qed.
Lemma hdr_ok : nav_header_ok ver (blanks 19) "M"%char Mixed (blanks 20) hlines 4.
Proof.
  split; [|split; [|split; vm_compute; lia]].
  - split; [exact ver_ok|]. split; [reflexivity|]. split; [vm_compute; lia|]. split; [apply clean_b; reflexivity|]. split; [reflexivity|]. split; [vm_compute; tauto|]. split; [apply clean_b; reflexivity|vm_compute; lia].
  - apply Forall_cons; [split; [apply clean_b; vm_compute; reflexivity|split; [split; apply Nat.leb_le; vm_compute; reflexivity|vm_compute; reflexivity]]|].
    apply Forall_cons; [split; [apply clean_b; vm_compute; reflexivity|split; [split; apply Nat.leb_le; vm_compute; reflexivity|vm_compute; reflexivity]]|apply Forall_nil].
Qed.
Example C65_ex : exists o, nav_open (nav_header_text ver (blanks 19) "M"%char (blanks 20) hlines 4 ++ block_text glo_b) = Val o /\ v_satsys o = Mixed /\ rest (v_stream o) = block_text glo_b.
Proof. destruct (C65_header ver (blanks 19) "M"%char Mixed (blanks 20) hlines 4 (block_text glo_b) hdr_ok) as (o & A & B & _ & (_ & C) & _). eauto. Qed.
(** refuted without the limit of 84 characters: an END OF HEADER line of 85 characters is recognised,
    but the object is left with a failed stream: every read gives 50 *)
Example C65_long_end_refuted : exists o, nav_open (nav_first ver (blanks 19) "M"%char (blanks 20) ++ NL :: hd [] hlines ++ NL :: end_line 12 ++ NL :: block_text glo_b) = Val o /\
  exists r, read_next_record strp_fix (v_stream o) frame0 0 = Val r /\ n_code r = 50%Z.
Proof. eexists. split; [vm_compute; reflexivity|]. eexists. split; vm_compute; reflexivity. Qed.

(** ** C66: whole files *)
Lemma read_all_data : forall n strp st f e gs l, read_all n strp st f e = Val (gs, l) -> sdata (n_stream l) = sdata st.
Proof.
  induction n as [|n IH]; intros strp st f e gs l E; cbn [read_all] in E; apply bind_inv in E; destruct E as (r & Er & E); apply read_data in Er.
  - apply Val_inj in E. inversion E; subst. exact Er.
  - destruct (n_code r =? 0)%Z; [|apply Val_inj in E; inversion E; subst; exact Er].
    apply bind_inv in E. destruct E as ((gs1 & l1) & E1 & E). apply Val_inj in E. inversion E; subst. apply IH in E1. congruence.
Qed.
Theorem C66_file : forall strp cal v mid letter sys post lines j bs f, reads_dates strp cal -> nav_header_ok v mid letter sys post lines j ->
  Forall block_ok bs -> Forall (fun b => b_sys b <> Irnss) bs -> length (f_data f) = 31 ->
  exists o gs g st', nav_open (nav_header_text v mid letter post lines j ++ blocks_text bs) = Val o /\
    read_all (length bs) strp (v_stream o) f 0 = Val (gs, mkNav (-1) g st' 0) /\ Forall2 (is_block cal) gs bs /\
    nav_rewind (v_eoh o) None st' = v_stream o.
Proof.
  intros strp cal v mid letter sys post lines j bs f RD H Ok NI L.
  destruct (C65_header v mid letter sys post lines j (blocks_text bs) H) as (o & A & _ & _ & R & Rw).
  destruct (read_file strp cal RD bs (v_stream o) f Ok NI L R) as (gs & g & st' & E & F & R').
  exists o, gs, g, st'. split; [exact A|]. split; [exact E|]. split; [exact F|].
  apply Rw; [|apply good_bits, R'].
  exact (read_all_data (length bs) strp (v_stream o) f 0 gs _ E).
Qed.
Print Assumptions C66_file.
Example C66_ex : nav_header_ok ver (blanks 19) "M"%char Mixed (blanks 20) hlines 4 /\ Forall block_ok [gps_b "05" fitn; glo_b; gal_b; sbs_b] /\
  Forall (fun b => b_sys b <> Irnss) [gps_b "05" fitn; glo_b; gal_b; sbs_b].
Proof.
  split; [exact hdr_ok|]. split.
  - apply Forall_cons; [apply gps_b_ok; auto|]. apply Forall_cons; [apply glo_b_ok|]. apply Forall_cons; [apply gal_b_ok|]. apply Forall_cons; [apply sbs_b_ok|apply Forall_nil].
  - do 4 (apply Forall_cons; [discriminate|]). apply Forall_nil.
Qed.

(** ** C67: malformed blocks *)
(** a file that ends within a block is an error *)
Theorem C67_truncated_file_partial : forall strp st f e r c t sys n, read_next_record strp st f e = Val r -> rest st = c :: t -> In (c, sys) satsys_letters ->
  block_size sys = Some n -> count_occ ascii_dec (rest st) NL + 1 < n -> n_code r <> 0%Z.
Proof.
  intros strp st f e r c t sys n E R I B. apply letter_sys in I. replace n with (lines_of sys) by (destruct sys; inversion B; reflexivity).
  apply (truncated_refused strp st f e r c t sys E R I).
Qed.
Print Assumptions C67_truncated_file_partial.
(** refuted: an error code.  An unknown letter or a date that cannot be read ends the program, a first
    line shorter than three characters is undefined behaviour *)
Theorem C67_unknown_letter_refuted : forall strp st f e c l t, at_rest st (c :: l ++ NL :: t) -> ~ In NL (c :: l) -> length l < 127 ->
  ~ In c (map fst satsys_letters) -> read_next_record strp st f e = Term.
Proof. exact unknown_letter. Qed.
Print Assumptions C67_unknown_letter_refuted.
Theorem C67_bad_date_refuted : forall strp st f e c sys l t, at_rest st (c :: l ++ NL :: t) -> ~ In NL (c :: l) -> ~ In NUL (c :: l) -> 2 <= length l < 127 ->
  In (c, sys) satsys_letters -> strp (skipn 2 l) = None -> read_next_record strp st f e = Term.
Proof. intros strp st f e c sys l t R N U L I Sp. apply letter_sys in I. exact (bad_date strp st f e c sys l t R N U L I Sp). Qed.
Print Assumptions C67_bad_date_refuted.
Theorem C67_short_first_refuted : forall strp st f e c sys l t, at_rest st (c :: l ++ NL :: t) -> ~ In NL (c :: l) -> length l < 2 ->
  In (c, sys) satsys_letters -> read_next_record strp st f e = UB.
Proof. intros strp st f e c sys l t R N L I. apply letter_sys in I. exact (short_first strp st f e c sys l t R N L I). Qed.
Print Assumptions C67_short_first_refuted.
Definition C67_full : Prop := forall strp st f e, exists r, read_next_record strp st f e = Val r.
Theorem C67_full_refuted : ~ C67_full.
Proof. intro F. destruct (F strp_fix (open_stream (lit "X07 2020" ++ [NL])) frame0 0%Z) as (r & E). vm_compute in E. discriminate. Qed.
Print Assumptions C67_full_refuted.
Example C67_ex : read_next_record strp_fix (open_stream (lit "X07 2020" ++ [NL])) frame0 0 = Term /\ read_next_record strp_fix (open_stream (lit "G07 2020 xx" ++ [NL])) frame0 0 = Term
  /\ read_next_record strp_fix (open_stream (lit "G7" ++ [NL])) frame0 0 = UB.
Proof. vm_compute. auto. Qed.
(** refuted: an orbit line cut off within its first field is accepted; the missing numbers are those of
    the previous line, which is still in the buffer *)
Definition cut_glo : list ascii :=
  text_of [head_line glo_b; orbit_text (full n1 n1 nm1 n0); firstn 19 (orbit_text (full nm1 n1 n0 n1)); orbit_text (full nm1 nm1 n1 n0)].
Example C67_cut_line_refuted : exists r, read_next_record strp_fix (open_stream cut_glo) frame0 0 = Val r /\ n_code r = 0%Z /\
  forall j, In j [1; 2; 3] -> exists a b, nth_error (f_data (n_frame r)) (3 + j) = Some (DFin a) /\ nth_error (f_data (n_frame r)) (7 + j) = Some (DFin b) /\ (a == b)%Q.
Proof.
  eexists. split; [vm_compute; reflexivity|]. split; [vm_compute; reflexivity|]. intros j [<-|[<-|[<-|[]]]]; (do 2 eexists; split; [vm_compute; reflexivity|split; [vm_compute; reflexivity|vm_compute; reflexivity]]).
Qed.
