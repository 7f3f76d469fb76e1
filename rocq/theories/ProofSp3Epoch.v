(** ProofSp3Epoch: epochs of an SP3 file. *)
From Coq Require Import Qround.
From Verif Require Import SpecB64 ProofB64.
From Verif Require Import Base BaseLemmas CNum CNumLemmas Stream ModelSatsys ModelSp3 SpecText SpecNum SpecObs SpecSp3
  ProofText ProofNum ProofStream ProofSp3.

(** ** the epoch line *)
Lemma sp3_epoch_length e : sp3_src_ok e -> length (sp3_epoch_line e) = 31 + t_pad e.
Proof.
  intros (Yd & Yl & _ & (_ & _ & M) & (_ & _ & D) & (_ & _ & H) & (_ & _ & Mi) & _ & _ & _ & S & _).
  unfold sp3_epoch_line. rewrite !app_length, !length_rjust' by lia. unfold blanks. rewrite repeat_length. cbn [length lit]. lia.
Qed.
Lemma sp3_epoch_clean e : sp3_src_ok e -> clean (sp3_epoch_line e).
Proof.
  intros (Yd & Yl & _ & (M & _) & (D & _) & (H & _) & (Mi & _) & S & _). unfold sp3_epoch_line.
  assert (B : clean (lit " ")) by (repeat constructor; discriminate).
  repeat (apply clean_app'; [auto using clean_rjust, clean_digits, clean_num|]); auto using clean_blanks'.
  repeat constructor; discriminate.
Qed.

Lemma quot_floor q : (0 <= q)%Q -> Z.quot (Qnum q) (Zpos (Qden q)) = Qfloor q.
Proof.
  intro H. destruct q as [n d]. unfold Qle in H. cbn in H. unfold Qfloor. cbn [Qnum Qden].
  rewrite Z.quot_div_nonneg by lia. reflexivity.
Qed.

Lemma num_dec_bound n : num_ok n -> nsign n = None -> nexp n = None ->
  (0 <= num_dec n)%Q /\ (num_dec n <= inject_Z (10 ^ Z.of_nat (length (nint n))))%Q.
Proof.
  intros (_ & Hi & Hf & _ & _ & _ & _) Hs He. unfold num_dec, exp_val. rewrite Hs, He. cbn [is_neg].
  set (m := dec_val (nint n ++ nfrac n)).
  assert (D : digits (nint n ++ nfrac n)) by (apply digits_app; auto).
  pose proof (dec_val_nonneg _ D) as N. pose proof (dec_val_bound _ D) as B. fold m in N, B.
  rewrite app_length, Nat2Z.inj_add, Z.pow_add_r in B by lia.
  set (f := Z.of_nat (length (nfrac n))) in *.
  assert (F : (0 <= f)%Z) by (subst f; lia). assert (P : (0 < 10 ^ f)%Z) by (apply Z.pow_pos_nonneg; lia).
  unfold pow10. destruct (Z.geb_spec (0 - f) 0) as [G|G].
  - assert (f = 0)%Z by lia. replace (0 - f)%Z with 0%Z by lia.
    replace (10 ^ f)%Z with 1%Z in B by (rewrite H; reflexivity).
    split; unfold Qle, inject_Z, Qmult; cbn; lia.
  - replace (- (0 - f))%Z with f by lia. unfold Qle, inject_Z, Qmult. cbn [Qnum Qden]. rewrite Pos.mul_1_l, Z2Pos.id by exact P.
    split; nia.
Qed.

Lemma num_val_bound n : num_ok n -> nsign n = None -> nexp n = None -> length (nint n) <= 11 ->
  (0 <= num_val n)%Q /\ (num_val n <= inject_Z (10 ^ 11))%Q.
Proof.
  intros Hn Hs He L. destruct (num_dec_bound n Hn Hs He) as [A B]. split; [apply b64_nonneg; exact A|].
  apply b64_le; [apply double_int; vm_compute; discriminate|]. eapply Qle_trans; [exact B|]. rewrite <- Zle_Qle. apply Z.pow_le_mono_r; lia.
Qed.

Lemma Qfloor_nonneg q : (0 <= q)%Q -> (0 <= Qfloor q)%Z.
Proof. intro H. rewrite <- (Qfloor_Z 0). apply Qfloor_resp_le. exact H. Qed.

Lemma to_usec_int n : num_ok n -> nsign n = None -> nexp n = None -> length (nint n) <= 11 ->
  to_usec (DFin (num_val n)) = Val (Qfloor (b64 (num_val n * 1000000))).
Proof.
  intros Hn Hs He L. destruct (num_val_bound n Hn Hs He L) as [N B]. unfold to_usec.
  assert (N' : (0 <= num_val n * 1000000)%Q) by (apply Qmult_le_0_compat; [exact N|discriminate]).
  pose proof (b64_nonneg _ N') as N2. rewrite quot_floor by exact N2. pose proof (Qfloor_nonneg _ N2) as F0.
  assert (F1 : (Qfloor (b64 (num_val n * 1000000)) <= 2 ^ 62)%Z).
  { rewrite <- (Qfloor_Z (2 ^ 62)). apply Qfloor_resp_le. apply b64_le; [exists 1%Z, 62%Z; split; [reflexivity|split; [discriminate|reflexivity]]|].
    apply (Qle_trans _ (inject_Z (10 ^ 11) * 1000000)); [apply Qmult_le_compat_r; [exact B|discriminate]|vm_compute; discriminate]. }
  unfold LONG_MIN, LONG_MAX. cbv zeta.
  destruct (Z.leb_spec (-9223372036854775808) (Qfloor (b64 (num_val n * 1000000)))); [|lia].
  destruct (Z.leb_spec (Qfloor (b64 (num_val n * 1000000))) 9223372036854775807); [reflexivity|lia].
Qed.

Lemma to_usec_sec n : num_ok n -> nsign n = None -> nexp n = None -> length (num_text n) <= 11 ->
  to_usec (DFin (num_val n)) = Val (Qfloor (b64 (num_val n * 1000000))).
Proof.
  intros Hn Hs He Hl. apply to_usec_int; auto.
  unfold num_text, mant_text in Hl. rewrite !app_length in Hl. lia.
Qed.

Definition time_of (e : sp3_src) : sp3time :=
  mkTime (map dec_val [t_year e; t_month e; t_day e; t_hour e; t_min e]) (Qfloor (b64 (num_val (t_sec e) * 1000000))).
Lemma time_of_is e : is_time (time_of e) e.
Proof. split; reflexivity. Qed.

Lemma field_stop w ds r : length ds < w -> nondigit_head (rjust w ds ++ r).
Proof. intro H. destruct (rjust_blank w ds H) as (t & ->). reflexivity. Qed.

Lemma epoch_header_exact e buf : sp3_src_ok e ->
  sp3_epoch_header (overlay (sp3_epoch_line e) buf) = Val (inr (time_of e)).
Proof.
  intro He. pose proof (clean_nonul _ (sp3_epoch_clean e He)) as NN.
  pose proof He as (Yd & Yl & Y0 & M & D & H & Mi & S & Ss & Se & S11 & _).
  pose proof M as (Md & Mn & M2). pose proof D as (Dd & Dn & D2). pose proof H as (Hd & Hn & H2). pose proof Mi as (Id & In' & I2).
  assert (Yn : t_year e <> []) by (intro Q; rewrite Q in Yl; discriminate).
  set (line := sp3_epoch_line e) in *.
  set (sec := rjust 11 (num_text (t_sec e)) ++ blanks (t_pad e)).
  assert (El : line = lit "*  " ++ t_year e ++ lit " " ++ rjust 2 (t_month e) ++ lit " " ++ rjust 2 (t_day e) ++ lit " " ++
    rjust 2 (t_hour e) ++ lit " " ++ rjust 2 (t_min e) ++ lit " " ++ sec) by reflexivity.
  assert (A : forall k a r, k = length a -> line = a ++ r -> cstr (overlay line buf) k = Val r).
  { intros k a r Hk E. rewrite E in *. apply cstr_at; auto. }
  unfold sp3_epoch_header.
  rewrite (rd_overlay line buf 0 "*"%char) by reflexivity. cbn [bind]. rewrite ceqb_refl. cbn [negb].
  rewrite (rd_overlay line buf 1 " "%char) by reflexivity. cbn [bind]. rewrite ceqb_refl. cbn [negb].
  unfold strtol_at at 1. erewrite (A 3 (lit "*  ")); [|reflexivity|rewrite El; reflexivity]. cbn [bind].
  assert (EY : strtol (t_year e ++ lit " " ++ rjust 2 (t_month e) ++ lit " " ++ rjust 2 (t_day e) ++ lit " " ++
    rjust 2 (t_hour e) ++ lit " " ++ rjust 2 (t_min e) ++ lit " " ++ sec) = (dec_val (t_year e), 4, false)).
  { rewrite <- Yl. apply (strtol_field 0 (t_year e)); [exact Yd|exact Yn| |reflexivity].
    pose proof (dec_val_bound _ Yd) as B. rewrite Yl in B. unfold LONG_MAX. cbn in B. lia. }
  rewrite EY.
  assert (FY : to_i32 (dec_val (t_year e)) = dec_val (t_year e)).
  { apply (field_i32 4); [lia|]. repeat split; [exact Yd|exact Yn|lia]. }
  rewrite FY. destruct (Z.eqb_spec (dec_val (t_year e)) 0) as [Q|_]; [contradiction|]. cbn [orb].
  assert (ED : sp3_date 4 (overlay line buf) 1 8 = Val (inr (map dec_val [t_month e; t_day e; t_hour e; t_min e]))).
  { unfold sp3_date, strtol_at. cbn [Nat.add].
    erewrite (A 8 (lit "*  " ++ t_year e ++ lit " "));
      [|rewrite !app_length, Yl; reflexivity|rewrite El, <- !app_assoc; reflexivity]. cbn [bind].
    rewrite strtol_rjust; [|auto|auto|lia|lia|reflexivity]. cbn [orb Nat.eqb].
    erewrite (A 11 (lit "*  " ++ t_year e ++ lit " " ++ rjust 2 (t_month e) ++ lit " "));
      [|rewrite !app_length, !length_rjust', Yl by lia; reflexivity|rewrite El, <- !app_assoc; reflexivity]. cbn [bind].
    rewrite strtol_rjust; [|auto|auto|lia|lia|reflexivity]. cbn [orb Nat.eqb].
    erewrite (A 14 (lit "*  " ++ t_year e ++ lit " " ++ rjust 2 (t_month e) ++ lit " " ++ rjust 2 (t_day e) ++ lit " "));
      [|rewrite !app_length, !length_rjust', Yl by lia; reflexivity|rewrite El, <- !app_assoc; reflexivity]. cbn [bind].
    rewrite strtol_rjust; [|auto|auto|lia|lia|reflexivity]. cbn [orb Nat.eqb].
    erewrite (A 17 (lit "*  " ++ t_year e ++ lit " " ++ rjust 2 (t_month e) ++ lit " " ++ rjust 2 (t_day e) ++ lit " " ++
        rjust 2 (t_hour e) ++ lit " "));
      [|rewrite !app_length, !length_rjust', Yl by lia; reflexivity|rewrite El, <- !app_assoc; reflexivity]. cbn [bind].
    rewrite strtol_rjust; [|auto|auto|lia|lia|reflexivity]. cbn [orb Nat.eqb bind map].
    rewrite !(field_i32 2) by (try lia; assumption). reflexivity. }
  rewrite ED. cbn [bind]. unfold strtod_at.
  erewrite (A 20 (lit "*  " ++ t_year e ++ lit " " ++ rjust 2 (t_month e) ++ lit " " ++ rjust 2 (t_day e) ++ lit " " ++
        rjust 2 (t_hour e) ++ lit " " ++ rjust 2 (t_min e) ++ lit " "));
      [|rewrite !app_length, !length_rjust', Yl by lia; reflexivity|rewrite El, <- !app_assoc; reflexivity]. cbn [bind].
  unfold sec. rewrite strtod_rjust; [|auto|lia|].
  2:{ destruct (t_pad e) as [|k]; [exact I|apply num_stop_blank']. }
  cbn [orb Nat.eqb]. rewrite to_usec_sec by auto. reflexivity.
Qed.

(** ** the loop *)
Lemma put_rec_ok vec i r : i < length vec -> put_rec vec i r = Val (firstn i vec ++ r :: skipn (S i) vec).
Proof. intro H. unfold put_rec. destruct (Nat.ltb_spec i (length vec)); [reflexivity|lia]. Qed.

(** records from [i] on *)
Definition fill_from (i : nat) (rs vec : list sp3rec) : list sp3rec :=
  firstn i vec ++ rs ++ skipn (i + length rs) vec.
Lemma fill_from_length i rs vec : i + length rs <= length vec -> length (fill_from i rs vec) = length vec.
Proof. intro H. unfold fill_from. rewrite !app_length, firstn_length, skipn_length. lia. Qed.
Lemma fill_from_nil i vec : fill_from i [] vec = vec.
Proof. unfold fill_from. cbn [app length]. rewrite Nat.add_0_r. apply firstn_skipn. Qed.
Lemma fill_from_cons i r rs vec : i < length vec ->
  fill_from (S i) rs (firstn i vec ++ r :: skipn (S i) vec) = fill_from i (r :: rs) vec.
Proof.
  intro H. unfold fill_from.
  assert (L : length (firstn i vec) = i) by (rewrite firstn_length; lia).
  rewrite firstn_app, L. replace (S i - i) with 1 by lia. rewrite firstn_all2 by lia. cbn [firstn].
  rewrite <- app_assoc. cbn [app length]. f_equal. f_equal. f_equal.
  rewrite skipn_app, L. rewrite skipn_all2 by lia. cbn [app].
  replace (S i + length rs - i) with (S (length rs)) by lia.
  change (skipn (S (length rs)) (r :: skipn (S i) vec)) with (skipn (length rs) (skipn (S i) vec)). rewrite skipn_skipn. f_equal. lia.
Qed.

Lemma strncmp_eof l buf : clean l -> firstn 3 l <> lit "EOF" -> length l <= 127 -> length buf = 128 ->
  strncmp_lit (overlay l buf) 0 "EOF" 3 = Val false.
Proof.
  intros C N L Lb. unfold strncmp_lit, strncmp_eq. rewrite !skipn_O. unfold overlay, cbuf. cbn [lit map app].
  pose proof (clean_nonul _ C) as NN.
  destruct l as [|a l]; [reflexivity|]. cbn [map app strncmp0].
  destruct (ceqb a "E"%char) eqn:Ea; [|reflexivity]. apply ceqb_eq in Ea. subst a. cbn [ceqb].
  replace (ceqb "E"%char NUL) with false by reflexivity.
  destruct l as [|b l]; [reflexivity|]. cbn [map app strncmp0].
  destruct (ceqb b "O"%char) eqn:Eb; [|reflexivity]. apply ceqb_eq in Eb. subst b.
  replace (ceqb "O"%char NUL) with false by reflexivity.
  destruct l as [|c l]; [reflexivity|]. cbn [map app strncmp0].
  destruct (ceqb c "F"%char) eqn:Ec; [|reflexivity]. apply ceqb_eq in Ec. subst c. exfalso. apply N. reflexivity.
Qed.
Lemma strncmp_eof_yes l buf : strncmp_lit (overlay (lit "EOF" ++ l) buf) 0 "EOF" 3 = Val true.
Proof. reflexivity. Qed.

Lemma item_facts i : sp3_item_ok i -> clean (item_text i) /\ length (item_text i) <= 127 /\
  (forall c r, item_text i ++ NL :: r = c :: [] \/ True) /\ firstn 1 (item_text i) <> lit "*".
Proof.
  destruct i as [p|l]; cbn [sp3_item_ok item_text].
  - intros [H T]. split; [apply pos_line_clean; exact H|]. rewrite (pos_line_length p H).
    destruct H as (_ & _ & _ & _ & _ & _ & _ & L & _). split; [lia|]. split; [auto|discriminate].
  - intros (C & L & _ & S & _). auto.
Qed.

Lemma peek_other st d c r : at_rest st d -> d = c :: r -> peek st = (st, Some c).
Proof. intros [G R] E. unfold peek. rewrite G, R, E. reflexivity. Qed.

(** one line of the epoch *)
Lemma loop_item fuel i st line t vec it f tail :
  sp3_item_ok i -> at_rest st (item_text i ++ NL :: tail) -> length line = 128 ->
  exists st', at_rest st' tail /\ sdata st' = sdata st /\ spos st' = spos st + length (item_text i) + 1 /\
  match i with
  | PPos p =>
      exists f', length (overlay (item_text i) line) = 128 /\
      sp3_loop (S fuel) st line t vec it f =
        (do vec' <- put_rec vec it (rec_of p); sp3_loop fuel st' (overlay (item_text i) line) t vec' (S it) f')
  | POther _ => sp3_loop (S fuel) st line t vec it f = sp3_loop fuel st' (overlay (item_text i) line) t vec it f
  end.
Proof.
  intros Hi Hr Lb. destruct (item_facts i Hi) as (C & L & _ & NS).
  destruct (getline_line st line 128 (item_text i) tail Hr (clean_nonl _ C) ltac:(lia) ltac:(lia)) as (st' & G & R & D & P & _).
  exists st'. split; [exact R|]. split; [exact D|]. split; [lia|].
  assert (E : exists c d, item_text i ++ NL :: tail = c :: d /\ c <> "*"%char).
  { destruct (item_text i) as [|c d]; cbn [app].
    - exists NL, tail. split; [reflexivity|discriminate].
    - exists c, (d ++ NL :: tail). split; [reflexivity|]. intros ->. apply NS. reflexivity. }
  destruct E as (c & d & E & Nc).
  cbn [sp3_loop]. rewrite (peek_other st _ c d Hr E).
  destruct (ceqb c "*"%char) eqn:Ec; [apply ceqb_eq in Ec; contradiction|].
  change MAX_RECORD_CHARS with 128. rewrite G. cbn [bind].
  destruct i as [p|l]; cbn [item_text] in *.
  - destruct Hi as [Hp Ht].
    exists (p_flag (rec_of p)). split; [rewrite overlay_length; lia|]. rewrite (rd_overlay (pos_line p) line 0 "P"%char) by reflexivity.
    cbn [bind]. rewrite ceqb_refl. rewrite position_exact by auto. cbn [bind]. fold (rec_of p). reflexivity.
  - destruct Hi as (_ & _ & NP & _ & NE).
    assert (R0 : exists c0, rd (overlay l line) 0 = Val c0 /\ c0 <> "P"%char).
    { destruct l as [|x l]; [exists NUL; split; [reflexivity|discriminate]|]. exists x. split; [reflexivity|]. intros ->. apply NP. reflexivity. }
    destruct R0 as (c0 & R0 & N0). rewrite R0. cbn [bind].
    destruct (ceqb c0 "P"%char) eqn:E0; [apply ceqb_eq in E0; contradiction|].
    rewrite strncmp_eof by auto. reflexivity.
Qed.

Definition records (is : list sp3_item) : list sp3rec := map rec_of (positions is).

(** all the lines of an epoch *)
Lemma loop_items : forall is fuel st line t vec it f tail,
  Forall sp3_item_ok is -> at_rest st (sp3_items_text is ++ tail) -> length line = 128 ->
  it + length (records is) <= length vec ->
  exists st' line' f', at_rest st' tail /\ sdata st' = sdata st /\ spos st' = spos st + length (sp3_items_text is) /\ length line' = 128 /\
    sp3_loop (length is + fuel) st line t vec it f =
    sp3_loop fuel st' line' t (fill_from it (records is) vec) (it + length (records is)) f'.
Proof.
  induction is as [|i is IH]; intros fuel st line t vec it f tail Hok Hr Hl Hv.
  - exists st, line, f. cbn. rewrite fill_from_nil, !Nat.add_0_r. auto.
  - inversion Hok as [|? ? Hi Hok']; subst.
    assert (Hr' : at_rest st (item_text i ++ NL :: (sp3_items_text is ++ tail))).
    { destruct Hr as [G R]. split; [exact G|]. rewrite R. unfold sp3_items_text. cbn [map text_of flat_map].
      rewrite <- !app_assoc. reflexivity. }
    destruct (loop_item (length is + fuel) i st line t vec it f _ Hi Hr' Hl) as (st1 & R1 & D1 & P1 & Q).
    assert (Lp : length (sp3_items_text (i :: is)) = length (item_text i) + 1 + length (sp3_items_text is)).
    { unfold sp3_items_text, text_of. cbn [map flat_map]. rewrite !app_length. cbn [length]. lia. }
    destruct (item_facts i Hi) as (C & L & _ & _).
    assert (Lo : length (overlay (item_text i) line) = 128) by (rewrite overlay_length; lia).
    destruct i as [p|l].
    + destruct Q as (f' & _ & E). cbn [length Nat.add]. rewrite E.
      unfold records in *. cbn [positions flat_map app map length] in *. fold (positions is) in *.
      rewrite put_rec_ok by lia. cbn [bind].
      set (vec' := firstn it vec ++ rec_of p :: skipn (S it) vec).
      assert (Lv : length vec' = length vec) by (unfold vec'; rewrite app_length, firstn_length; cbn [length]; rewrite skipn_length; lia).
      destruct (IH fuel st1 (overlay (item_text (PPos p)) line) t vec' (S it) f' tail Hok' R1 Lo ltac:(lia))
        as (st' & line' & f2 & R2 & D2 & P2 & L2 & E2).
      exists st', line', f2. split; [exact R2|]. split; [congruence|]. split; [lia|]. split; [exact L2|].
      rewrite E2. unfold vec'. rewrite fill_from_cons by lia. f_equal. lia.
    + cbn [length Nat.add]. rewrite Q.
      unfold records in *. cbn [positions flat_map app map length] in *. fold (positions is) in *.
      destruct (IH fuel st1 (overlay (item_text (POther l)) line) t vec it f tail Hok' R1 Lo Hv)
        as (st' & line' & f2 & R2 & D2 & P2 & L2 & E2).
      exists st', line', f2. split; [exact R2|]. split; [congruence|]. split; [lia|]. split; [exact L2|]. exact E2.
Qed.

(** too many records for the vector *)
Lemma loop_overflow : forall is fuel st line t vec it f tail,
  Forall sp3_item_ok is -> at_rest st (sp3_items_text is ++ tail) -> length line = 128 ->
  it <= length vec -> length vec < it + length (records is) -> length is <= fuel ->
  sp3_loop fuel st line t vec it f = UB.
Proof.
  induction is as [|i is IH]; intros fuel st line t vec it f tail Hok Hr Hl Hit Hv Hf.
  - cbn in Hv. lia.
  - inversion Hok as [|? ? Hi Hok']; subst. destruct fuel as [|fuel]; [cbn in Hf; lia|].
    assert (Hr' : at_rest st (item_text i ++ NL :: (sp3_items_text is ++ tail))).
    { destruct Hr as [G R]. split; [exact G|]. rewrite R. unfold sp3_items_text. cbn [map text_of flat_map].
      rewrite <- !app_assoc. reflexivity. }
    destruct (loop_item fuel i st line t vec it f _ Hi Hr' Hl) as (st1 & R1 & D1 & P1 & Q).
    destruct (item_facts i Hi) as (C & L & _ & _).
    assert (Lo : length (overlay (item_text i) line) = 128) by (rewrite overlay_length; lia).
    destruct i as [p|l].
    + destruct Q as (f' & _ & E). rewrite E.
      unfold records in *. cbn [positions flat_map app map length] in *. fold (positions is) in *.
      destruct (Nat.eq_dec it (length vec)) as [->|N].
      * unfold put_rec. rewrite Nat.ltb_irrefl. reflexivity.
      * rewrite put_rec_ok by lia. cbn [bind]. eapply (IH fuel st1); eauto; try lia.
        -- rewrite app_length, firstn_length. cbn [length]. rewrite skipn_length. lia.
        -- rewrite app_length, firstn_length. cbn [length]. rewrite skipn_length. lia.
    + rewrite Q. unfold records in *. cbn [positions flat_map app map length] in *. fold (positions is) in *.
      eapply (IH fuel st1); eauto; lia.
Qed.

(** a stream that is not good never gets good again: the loop goes on for ever *)
Lemma loop_dead : forall fuel st line t vec it f, good st = false -> length line = 128 ->
  sp3_loop fuel st line t vec it f = Fuel.
Proof.
  induction fuel as [|fuel IH]; intros st line t vec it f G L; [reflexivity|].
  cbn [sp3_loop]. unfold peek. rewrite G. unfold getline.
  assert (G2 : good (set_fail st) = false) by (unfold good; cbn; apply andb_false_r). rewrite G2.
  change (Some NUL :: nil) with (map Some (@nil ascii) ++ [Some NUL]).
  rewrite wr_bytes_overlay by (cbn [length]; lia). cbn [bind].
  replace (rd (overlay [] line) 0) with (Val NUL) by (symmetry; apply (rd_overlay_nul [])). cbn [bind].
  replace (ceqb NUL "P"%char) with false by reflexivity.
  rewrite strncmp_eof; [|constructor|discriminate|cbn; lia|exact L]. cbn [bind].
  apply IH; [unfold good; cbn; apply andb_false_r|]. rewrite overlay_length; cbn [length]; lia.
Qed.

(** lines that all belong to the epoch, then the end of the file *)
Lemma loop_no_end is fuel st line t vec it f :
  Forall sp3_item_ok is -> at_rest st (sp3_items_text is) -> length line = 128 ->
  it + length (records is) <= length vec ->
  sp3_loop fuel st line t vec it f = Fuel.
Proof.
  revert fuel st line t vec it f. induction is as [|i is IH]; intros fuel st line t vec it f Hok Hr Hl Hv.
  - destruct fuel as [|fuel]; [reflexivity|]. destruct Hr as [G R]. cbn in R. cbn [sp3_loop]. unfold peek. rewrite G, R.
    unfold getline. assert (G2 : good (set_eof st) = false) by (unfold good; reflexivity). rewrite G2.
    change (Some NUL :: nil) with (map Some (@nil ascii) ++ [Some NUL]).
    rewrite wr_bytes_overlay by (cbn [length]; lia). cbn [bind].
    replace (rd (overlay [] line) 0) with (Val NUL) by (symmetry; apply (rd_overlay_nul [])). cbn [bind].
    replace (ceqb NUL "P"%char) with false by reflexivity.
    rewrite strncmp_eof; [|constructor|discriminate|cbn; lia|exact Hl]. cbn [bind].
    apply loop_dead; [reflexivity|]. rewrite overlay_length; cbn [length]; lia.
  - inversion Hok as [|? ? Hi Hok']; subst. destruct fuel as [|fuel]; [reflexivity|].
    assert (Hr' : at_rest st (item_text i ++ NL :: sp3_items_text is)).
    { destruct Hr as [G R]. split; [exact G|]. rewrite R. unfold sp3_items_text. cbn [map text_of flat_map].
      rewrite <- !app_assoc. reflexivity. }
    destruct (loop_item fuel i st line t vec it f _ Hi Hr' Hl) as (st1 & R1 & D1 & P1 & Q).
    destruct (item_facts i Hi) as (C & L & _ & _).
    assert (Lo : length (overlay (item_text i) line) = 128) by (rewrite overlay_length; lia).
    destruct i as [p|l].
    + destruct Q as (f' & _ & E). rewrite E.
      unfold records in *. cbn [positions flat_map app map length] in *. fold (positions is) in *.
      rewrite put_rec_ok by lia. cbn [bind]. apply IH; auto.
      rewrite app_length, firstn_length. cbn [length]. rewrite skipn_length. lia.
    + rewrite Q. unfold records in *. cbn [positions flat_map app map length] in *. fold (positions is) in *.
      apply IH; auto.
Qed.
