(** ProofSp3: lemmas about ModelSp3. *)
From Coq Require Import Qround.
From Coq Require Import Qabs Qpower Lqa.
From Verif Require Import SpecB64 ProofB64.
From Verif Require Import Base BaseLemmas CNum CNumLemmas Stream ModelSatsys ModelSp3 SpecText SpecNum SpecObs SpecSp3
  ProofText ProofNum ProofStream.

(** ** flags *)
Definition event_eqb (a b : sp3event) : bool := (event_bit a =? event_bit b)%Z.
Lemma event_eqb_eq a b : event_eqb a b = true <-> a = b.
Proof. destruct a, b; cbn; split; intro; congruence. Qed.


Lemma is_set_testbit f e : flag_is_set f e = Z.testbit f (event_bit e).
Proof. unfold flag_is_set. rewrite <- Z.bit0_odd, Z.shiftr_spec by lia. f_equal. Qed.
Lemma bit_range e : (0 <= event_bit e < 8)%Z.
Proof. destruct e; cbn; lia. Qed.
Lemma one_bit e e' : Z.testbit (Z.shiftl 1 (event_bit e)) (event_bit e') = event_eqb e e'.
Proof. destruct e, e'; reflexivity. Qed.
Lemma is_set_set f e e' : flag_is_set (flag_set f e) e' = event_eqb e e' || flag_is_set f e'.
Proof.
  rewrite !is_set_testbit. unfold flag_set. change 256%Z with (2 ^ 8)%Z. rewrite Z.mod_pow2_bits_low by apply bit_range.
  rewrite Z.lor_spec, one_bit, orb_comm. reflexivity.
Qed.
Lemma is_set_clear f e e' : flag_is_set (flag_clear f e) e' = negb (event_eqb e e') && flag_is_set f e'.
Proof.
  rewrite !is_set_testbit. unfold flag_clear. change 256%Z with (2 ^ 8)%Z. rewrite Z.mod_pow2_bits_low by apply bit_range.
  rewrite Z.land_spec, Z.lnot_spec by apply bit_range. rewrite one_bit, andb_comm. reflexivity.
Qed.
Lemma is_set_reset f e : flag_is_set (flag_reset f) e = false.
Proof. destruct e; reflexivity. Qed.

Lemma flag_history e : forall ops f,
  flag_is_set (fold_left flag_apply ops f) e = true <->
  last_put_in e ops \/ (flag_is_set f e = true /\ ~ In (FClear e) ops /\ ~ In FReset ops).
Proof.
  induction ops as [|op ops IH]; intro f.
  - cbn. split; [intro H; right; auto|]. intros [(a & b & H & _)|[H _]]; [destruct a; discriminate|exact H].
  - cbn [fold_left]. rewrite IH. clear IH. split.
    + intros [(a & b & -> & H)|(H & N1 & N2)].
      * left. exists (op :: a), b. auto.
      * destruct op as [x|x|]; cbn [flag_apply] in H.
        -- rewrite is_set_set in H. destruct (event_eqb x e) eqn:E.
           ++ apply event_eqb_eq in E. subst x. left. exists [], ops. auto.
           ++ right. split; [exact H|]. split; intros [Q|Q]; try discriminate; auto.
        -- rewrite is_set_clear in H. apply andb_true_iff in H as [E H]. right. split; [exact H|]. split; intros [Q|Q]; auto.
           ++ injection Q as ->. unfold event_eqb in E. rewrite Z.eqb_refl in E. discriminate.
           ++ discriminate.
        -- rewrite is_set_reset in H. discriminate.
    + intros [(a & b & E & H1 & H2)|(H & N1 & N2)].
      * destruct a as [|o a]; injection E as -> ->.
        -- right. cbn [flag_apply]. rewrite is_set_set. split; [|auto]. unfold event_eqb. rewrite Z.eqb_refl. reflexivity.
        -- left. exists a, b. auto.
      * right. split; [|split; intro; [apply N1|apply N2]; right; assumption].
        destruct op as [x|x|]; cbn [flag_apply].
        -- rewrite is_set_set, H. apply orb_true_r.
        -- rewrite is_set_clear, H. destruct (event_eqb x e) eqn:E; [|reflexivity].
           apply event_eqb_eq in E. subst x. exfalso. apply N1. left. reflexivity.
        -- exfalso. apply N2. left. reflexivity.
Qed.

Theorem flag_set_algebra ops e : flag_is_set (flag_run ops) e = true <-> last_put_in e ops.
Proof.
  unfold flag_run. rewrite flag_history. split; [|auto]. intros [H|(H & _)]; [exact H|]. destruct e; discriminate.
Qed.

(** ** position lines *)
Lemma cstr_at a b buf k : k = length a -> ~ In NUL (a ++ b) -> cstr (overlay (a ++ b) buf) k = Val b.
Proof.
  intros -> H. rewrite cstr_overlay_off; [|exact H|rewrite app_length; lia].
  rewrite skipn_app, skipn_all, Nat.sub_diag. reflexivity.
Qed.
Lemma num_stop_blank' n r : num_stop n (" "%char :: r).
Proof. unfold num_stop. split; [unfold digit; cbn; lia|]. split; intros; repeat split; discriminate. Qed.
Lemma rjust_blank w s : length s < w -> exists t, rjust w s = " "%char :: t.
Proof. intro H. unfold rjust. destruct (w - length s) as [|k] eqn:E; [lia|]. cbn. eauto. Qed.
Lemma strtod_rjust w n r : num_ok n -> length (num_text n) <= w -> num_stop n r ->
  strtod (rjust w (num_text n) ++ r) = (DFin (num_val n), w, false).
Proof.
  intros H L S. unfold rjust. rewrite <- app_assoc, strtod_text; auto. repeat f_equal. lia.
Qed.
Lemma strtol_rjust w ds r : digits ds -> ds <> [] -> length ds <= w -> w <= 9 -> nondigit_head r ->
  strtol (rjust w ds ++ r) = (dec_val ds, w, false).
Proof.
  intros H N L W S. unfold rjust. rewrite <- app_assoc, strtol_field; auto.
  - repeat f_equal. lia.
  - pose proof (dec_val_bound ds H) as B. assert (10 ^ Z.of_nat (length ds) <= 10 ^ 9)%Z by (apply Z.pow_le_mono_r; lia).
    unfold LONG_MAX. lia.
Qed.
Lemma length_rjust' w s : length s <= w -> length (rjust w s) = w.
Proof. intro. unfold rjust, blanks. rewrite app_length, repeat_length. lia. Qed.
Lemma to_i32_small z : (0 <= z < 2147483648)%Z -> to_i32 z = z.
Proof. intro H. unfold to_i32. rewrite Z.mod_small by lia. lia. Qed.
Lemma field_i32 w ds : w <= 9 -> field_ok w ds -> to_i32 (dec_val ds) = dec_val ds.
Proof.
  intros W (D & N & L). apply to_i32_small. pose proof (dec_val_nonneg ds D). pose proof (dec_val_bound ds D).
  assert (10 ^ Z.of_nat (length ds) <= 10 ^ 9)%Z by (apply Z.pow_le_mono_r; lia). lia.
Qed.

Lemma clean_digits ds : digits ds -> clean ds.
Proof.
  intro H. eapply Forall_impl; [|exact H]. intros c Hc. unfold digit in Hc. split; intros ->; cbn in Hc; lia.
Qed.
Lemma clean_sign s : sign_ok s -> clean (sign_text s).
Proof. destruct s as [c|]; cbn; [|constructor]. intros [->| ->]; repeat constructor; discriminate. Qed.
Lemma clean_app' a b : clean a -> clean b -> clean (a ++ b).
Proof. intros. apply Forall_app. auto. Qed.
Lemma clean_num n : num_ok n -> clean (num_text n).
Proof.
  intros (Hs & Hi & Hf & _ & _ & _ & He). unfold num_text, mant_text, exp_text.
  apply clean_app'; [apply clean_sign; exact Hs|]. apply clean_app'; [apply clean_app'; [apply clean_digits; exact Hi|]|].
  - destruct (ndot n); [|constructor]. constructor; [split; discriminate|apply clean_digits; exact Hf].
  - destruct (nexp n) as [[[e sg] ds]|]; [|constructor]. destruct He as ([->| ->] & Hsg & Hd & _);
      (constructor; [split; discriminate|]; apply clean_app'; [apply clean_sign; exact Hsg|apply clean_digits; exact Hd]).
Qed.
Lemma clean_blanks' k : clean (blanks k).
Proof. induction k; constructor; auto. split; discriminate. Qed.
Lemma clean_rjust w s : clean s -> clean (rjust w s).
Proof. intro. apply clean_app'; [apply clean_blanks'|assumption]. Qed.
Lemma clean_nonul l : clean l -> ~ In NUL l.
Proof. intros H Hin. destruct (proj1 (Forall_forall _ _) H _ Hin). congruence. Qed.
Lemma clean_nonl l : clean l -> ~ In NL l.
Proof. intros H Hin. destruct (proj1 (Forall_forall _ _) H _ Hin). congruence. Qed.

Lemma letter_clean c s : In (c, s) satsys_letters -> clean [c].
Proof. cbn. intro H. repeat destruct H as [H|H]; try contradiction; injection H as <- _; repeat constructor; discriminate. Qed.

Lemma pos_line_clean p : pos_ok p -> clean (pos_line p).
Proof.
  intros (Hl & (Pd & _) & (X & _) & (Y & _) & (Z & _) & (C & _) & T & _). unfold pos_line.
  repeat (apply clean_app'; [auto using clean_rjust, clean_digits, clean_num|]); auto.
  - repeat constructor; discriminate.
  - eapply letter_clean; eauto.
Qed.
Lemma pos_line_length p : pos_ok p -> length (pos_line p) = 60 + length (s_tail p).
Proof.
  intros (Hl & (_ & _ & P2) & (_ & X) & (_ & Y) & (_ & Z) & (_ & C) & _). unfold pos_line.
  rewrite !app_length, !length_rjust' by lia. cbn. lia.
Qed.

(** the flags for which the line itself is long enough *)
Definition flags_of (bp bc ce cp mn op : bool) : sp3flag :=
  let f1 := if bp then flag_set 0%Z BadPosition else 0%Z in
  let f2 := if bc then flag_set f1 BadClock else f1 in
  let f3 := if ce then flag_set f2 ClockEvent else f2 in
  let f4 := if cp then flag_set f3 ClockPrediction else f3 in
  let f5 := if mn then flag_set f4 Maneuver else f4 in
  if op then flag_set f5 OrbitPrediction else f5.
Lemma flags_of_is bp bc ce cp mn op e : flag_is_set (flags_of bp bc ce cp mn op) e =
  match e with BadPosition => bp | BadClock => bc | ClockEvent => ce | ClockPrediction => cp | Maneuver => mn | OrbitPrediction => op end.
Proof. destruct bp, bc, ce, cp, mn, op, e; reflexivity. Qed.

Definition pos_vals (p : pos_src) : list cdbl :=
  [DFin (b64 (num_val (s_x p) * 1000)); DFin (b64 (num_val (s_y p) * 1000)); DFin (b64 (num_val (s_z p) * 1000)); DFin (num_val (s_clk p))].
Lemma thousand n : Qeq_bool (b64 (num_val n * 1000)) 0 = Qeq_bool (num_val n) 0.
Proof.
  apply eq_true_iff_eq. rewrite !Qeq_bool_iff. assert (D : double (num_val n)) by apply b64_double. split; intro H.
  - destruct (Qlt_le_dec 0 (num_val n)) as [P|P].
    + assert (L : (num_val n <= num_val n * 1000)%Q) by lra. apply (b64_ge _ _ D) in L. lra.
    + assert (L : (num_val n * 1000 <= num_val n)%Q) by lra. apply (b64_le _ _ D) in L. lra.
  - rewrite b64_zero; [reflexivity|]. rewrite H. reflexivity.
Qed.

(** whatever is in the buffer: the numbers, and the four flag bytes as found *)
Lemma position_general p buf f : pos_ok p -> length buf = 128 ->
  sp3_position (overlay (pos_line p) buf) f =
    (do c74 <- rd (overlay (pos_line p) buf) 74; do c75 <- rd (overlay (pos_line p) buf) 75;
     do c78 <- rd (overlay (pos_line p) buf) 78; do c79 <- rd (overlay (pos_line p) buf) 79;
     Val (inr (mkSp3 (s_sys p) (dec_val (s_prn p)) (pos_vals p)
       (flags_of (pos_flag "E"%char p BadPosition) (pos_flag "E"%char p BadClock) (ceqb c74 "E"%char)
          (ceqb c75 "P"%char) (ceqb c78 "M"%char) (ceqb c79 "E"%char))))).
Proof.
  intros Hp Lb. pose proof (clean_nonul _ (pos_line_clean p Hp)) as NN.
  pose proof Hp as (Hl & (Pd & Pn & P2) & (X & X13) & (Y & Y13) & (Z & Z13) & (C & C13) & T & T67 & Tb).
  set (line := pos_line p) in *.
  assert (E0 : line = lit "P" ++ ([s_letter p] ++ rjust 2 (s_prn p) ++ rjust 14 (num_text (s_x p)) ++ rjust 14 (num_text (s_y p)) ++
     rjust 14 (num_text (s_z p)) ++ rjust 14 (num_text (s_clk p)) ++ s_tail p)) by reflexivity.
  unfold sp3_position.
  rewrite (rd_overlay line buf 0 "P"%char) by reflexivity. cbn [bind]. rewrite ceqb_refl. cbn [negb].
  rewrite (rd_overlay line buf 1 (s_letter p)) by reflexivity. cbn [bind].
  rewrite (proj2 (proj1 (char_to_satsys_spec (s_letter p)) (s_sys p)) Hl).
  (* the prn *)
  assert (E2 : cstr (overlay line buf) 2 = Val (rjust 2 (s_prn p) ++ rjust 14 (num_text (s_x p)) ++ rjust 14 (num_text (s_y p)) ++
     rjust 14 (num_text (s_z p)) ++ rjust 14 (num_text (s_clk p)) ++ s_tail p)).
  { apply (cstr_at (lit "P" ++ [s_letter p])); [reflexivity|]. exact NN. }
  unfold strtol_at. rewrite E2. cbn [bind].
  destruct (rjust_blank 14 (num_text (s_x p)) ltac:(lia)) as (tx & Ex).
  destruct (rjust_blank 14 (num_text (s_y p)) ltac:(lia)) as (ty & Ey).
  destruct (rjust_blank 14 (num_text (s_z p)) ltac:(lia)) as (tz & Ez).
  destruct (rjust_blank 14 (num_text (s_clk p)) ltac:(lia)) as (tc & Ec).
  rewrite strtol_rjust; auto; [|lia|rewrite Ex; reflexivity].
  cbn [orb Nat.eqb].
  assert (A : forall k a r, k = length a -> line = a ++ r -> cstr (overlay line buf) k = Val r).
  { intros k a r Hk E. rewrite E in *. apply cstr_at; auto. }
  assert (G4 : cstr (overlay line buf) 4 = Val (rjust 14 (num_text (s_x p)) ++ rjust 14 (num_text (s_y p)) ++
     rjust 14 (num_text (s_z p)) ++ rjust 14 (num_text (s_clk p)) ++ s_tail p)).
  { apply (A 4 (lit "P" ++ [s_letter p] ++ rjust 2 (s_prn p))); [rewrite !app_length, !length_rjust' by lia; reflexivity|rewrite <- !app_assoc; reflexivity]. }
  assert (G18 : cstr (overlay line buf) 18 = Val (rjust 14 (num_text (s_y p)) ++
     rjust 14 (num_text (s_z p)) ++ rjust 14 (num_text (s_clk p)) ++ s_tail p)).
  { apply (A 18 (lit "P" ++ [s_letter p] ++ rjust 2 (s_prn p) ++ rjust 14 (num_text (s_x p)))); [rewrite !app_length, !length_rjust' by lia; reflexivity|rewrite <- !app_assoc; reflexivity]. }
  assert (G32 : cstr (overlay line buf) 32 = Val (rjust 14 (num_text (s_z p)) ++ rjust 14 (num_text (s_clk p)) ++ s_tail p)).
  { apply (A 32 (lit "P" ++ [s_letter p] ++ rjust 2 (s_prn p) ++ rjust 14 (num_text (s_x p)) ++ rjust 14 (num_text (s_y p)))); [rewrite !app_length, !length_rjust' by lia; reflexivity|rewrite <- !app_assoc; reflexivity]. }
  assert (G46 : cstr (overlay line buf) 46 = Val (rjust 14 (num_text (s_clk p)) ++ s_tail p)).
  { apply (A 46 (lit "P" ++ [s_letter p] ++ rjust 2 (s_prn p) ++ rjust 14 (num_text (s_x p)) ++ rjust 14 (num_text (s_y p)) ++
       rjust 14 (num_text (s_z p)))); [rewrite !app_length, !length_rjust' by lia; reflexivity|rewrite <- !app_assoc; reflexivity]. }
  assert (N : sp3_numbers 4 (overlay line buf) 0 4 =
     Val (inr [DFin (num_val (s_x p)); DFin (num_val (s_y p)); DFin (num_val (s_z p)); DFin (num_val (s_clk p))])).
  { unfold sp3_numbers, strtod_at. cbn [Nat.add]. rewrite G4. cbn [bind].
    rewrite strtod_rjust; [|auto|lia|rewrite Ey; apply num_stop_blank']. cbn [orb Nat.eqb].
    rewrite G18. cbn [bind]. rewrite strtod_rjust; [|auto|lia|rewrite Ez; apply num_stop_blank']. cbn [orb Nat.eqb].
    rewrite G32. cbn [bind]. rewrite strtod_rjust; [|auto|lia|rewrite Ec; apply num_stop_blank']. cbn [orb Nat.eqb].
    rewrite G46. cbn [bind]. rewrite strtod_rjust; [reflexivity|auto|lia|].
    destruct Tb as [->|(t & ->)]; [exact I|apply num_stop_blank']. }
  rewrite N. cbn [bind].
  destruct (rd (overlay line buf) 74); cbn [bind]; try reflexivity.
  destruct (rd (overlay line buf) 75); cbn [bind]; try reflexivity.
  destruct (rd (overlay line buf) 78); cbn [bind]; try reflexivity.
  destruct (rd (overlay line buf) 79); cbn [bind]; try reflexivity.
  rewrite (field_i32 2) by (try lia; repeat split; auto).
  cbv zeta. rewrite !km_val by assumption. unfold any_zero, flag_reset. cbn [existsb dis_zero app dge]. rewrite !thousand, orb_false_r, orb_assoc.
  reflexivity.
Qed.

Lemma column_rd line buf n c x : 1 <= n -> nth_error line (n - 1) = Some x ->
  rd (overlay line buf) (n - 1) = Val x /\ column_is n c line = ceqb x c.
Proof. intros H E. split; [apply rd_overlay; exact E|]. unfold column_is. rewrite E. reflexivity. Qed.

(** lines of at least 80 columns *)
Theorem position_exact p buf f : pos_ok p -> 20 <= length (s_tail p) -> length buf = 128 ->
  sp3_position (overlay (pos_line p) buf) f =
    Val (inr (mkSp3 (s_sys p) (dec_val (s_prn p)) (pos_vals p)
      (flags_of (pos_flag "E"%char p BadPosition) (pos_flag "E"%char p BadClock) (pos_flag "E"%char p ClockEvent)
          (pos_flag "E"%char p ClockPrediction) (pos_flag "E"%char p Maneuver) (pos_flag "E"%char p OrbitPrediction)))).
Proof.
  intros Hp Ht Lb. rewrite position_general by auto.
  assert (L : length (pos_line p) = 60 + length (s_tail p)) by (apply pos_line_length; exact Hp).
  assert (F : forall n, n <= 80 -> 1 <= n -> exists x, nth_error (pos_line p) (n - 1) = Some x).
  { intros n H1 H2. destruct (nth_error (pos_line p) (n - 1)) eqn:E; [eauto|]. apply nth_error_None in E. lia. }
  destruct (F 75 ltac:(lia) ltac:(lia)) as (x75 & E75). destruct (F 76 ltac:(lia) ltac:(lia)) as (x76 & E76).
  destruct (F 79 ltac:(lia) ltac:(lia)) as (x79 & E79). destruct (F 80 ltac:(lia) ltac:(lia)) as (x80 & E80).
  destruct (column_rd _ buf 75 "E"%char _ ltac:(lia) E75) as [R75 C75].
  destruct (column_rd _ buf 76 "P"%char _ ltac:(lia) E76) as [R76 C76].
  destruct (column_rd _ buf 79 "M"%char _ ltac:(lia) E79) as [R79 C79].
  destruct (column_rd _ buf 80 "E"%char _ ltac:(lia) E80) as [R80 C80].
  cbn [Nat.sub] in R75, R76, R79, R80. rewrite R75, R76, R79, R80. cbn [bind].
  cbn [pos_flag]. rewrite C75, C76, C79, C80. reflexivity.
Qed.

Definition rec_of (p : pos_src) : sp3rec :=
  mkSp3 (s_sys p) (dec_val (s_prn p)) (pos_vals p)
      (flags_of (pos_flag "E"%char p BadPosition) (pos_flag "E"%char p BadClock) (pos_flag "E"%char p ClockEvent)
          (pos_flag "E"%char p ClockPrediction) (pos_flag "E"%char p Maneuver) (pos_flag "E"%char p OrbitPrediction)).
Lemma rec_of_is p : is_record "E"%char (rec_of p) p.
Proof. repeat split. intro e. cbn [rec_of p_flag]. rewrite flags_of_is. destruct e; reflexivity. Qed.
Lemma is_record_flag r p c : is_record c r p -> flag_is_set (p_flag r) OrbitPrediction = column_is 80 c (pos_line p).
Proof. intros (_ & _ & _ & H). apply H. Qed.
