(** ProofNum: strtol and strtod read the texts of SpecNum exactly. *)
From Coq Require Import Qabs Qpower Lqa.
From Verif Require Import SpecB64 ProofB64.
From Verif Require Import Base BaseLemmas CNum CNumLemmas SpecNum.
Local Open Scope Z_scope.

Lemma is_digit_iff c : is_digit c = true <-> digit c.
Proof.
  unfold is_digit, digit. rewrite andb_true_iff, Nat.leb_le, Nat.leb_le. tauto.
Qed.

Lemma is_digit_false c : is_digit c = false <-> ~ digit c.
Proof. rewrite <- is_digit_iff. destruct (is_digit c); intuition congruence. Qed.

Definition dec_acc (acc : Z) (s : list ascii) : Z :=
  fold_left (fun a c => a * 10 + (Z.of_nat (nat_of_ascii c) - 48)) s acc.

Lemma dec_acc_app acc a b : dec_acc acc (a ++ b) = dec_acc (dec_acc acc a) b.
Proof. apply fold_left_app. Qed.

Lemma scan_digits_dec ds r acc :
  digits ds -> nondigit_head r -> scan_digits (ds ++ r) acc = (dec_acc acc ds, length ds, r).
Proof.
  intros H Hr. revert acc. induction H as [|c ds Hc _ IH]; intro acc.
  - apply scan_digits_nondigit. exact Hr.
  - cbn [app scan_digits]. apply is_digit_iff in Hc. rewrite Hc.
    unfold digit_val. rewrite IH. reflexivity.
Qed.

Lemma dec_acc_bound ds acc :
  digits ds -> 0 <= acc ->
  acc * 10 ^ Z.of_nat (length ds) <= dec_acc acc ds < (acc + 1) * 10 ^ Z.of_nat (length ds).
Proof.
  intro H. revert acc. induction H as [|c ds Hc _ IH]; intros acc Ha.
  - simpl. lia.
  - cbn [length]. rewrite Nat2Z.inj_succ, Z.pow_succ_r by lia.
    unfold dec_acc. cbn [fold_left]. fold (dec_acc (acc * 10 + (Z.of_nat (nat_of_ascii c) - 48)) ds).
    unfold digit in Hc.
    specialize (IH (acc * 10 + (Z.of_nat (nat_of_ascii c) - 48)) ltac:(lia)).
    assert (0 < 10 ^ Z.of_nat (length ds)) by (apply Z.pow_pos_nonneg; lia).
    nia.
Qed.

Lemma dec_val_nonneg ds : digits ds -> 0 <= dec_val ds.
Proof. intro H. pose proof (dec_acc_bound ds 0 H). unfold dec_val, dec_acc in *. lia. Qed.

Lemma dec_val_bound ds : digits ds -> dec_val ds < 10 ^ Z.of_nat (length ds).
Proof. intro H. pose proof (dec_acc_bound ds 0 H). unfold dec_val, dec_acc in *. lia. Qed.

Lemma digits_app a b : digits (a ++ b) <-> digits a /\ digits b.
Proof. apply Forall_app. Qed.

Lemma digit_facts c : digit c ->
  is_space c = false /\ ceqb c "-"%char = false /\ ceqb c "+"%char = false /\ is_digit c = true.
Proof.
  intro H. apply is_digit_iff in H. destruct (is_digit_cases c H) as (a & b & d). auto.
Qed.

Lemma nondigit_head_stop c r : ~ digit c -> nondigit_head (c :: r).
Proof. intro H. simpl. apply is_digit_false. exact H. Qed.

(** ** strtol *)
Lemma strtol_field k ds r :
  digits ds -> ds <> [] -> dec_val ds <= LONG_MAX -> nondigit_head r ->
  strtol (blanks k ++ ds ++ r) = (dec_val ds, (k + length ds)%nat, false).
Proof.
  intros H Hne Hv Hr. destruct ds as [|c t]; [congruence|].
  inversion H as [|? ? Hc Ht]; subst. destruct (digit_facts c Hc) as (Hs & Hm & Hp & Hd).
  unfold strtol, blanks. rewrite (skip_ws_blanks k ((c :: t) ++ r) c (t ++ r) eq_refl Hs).
  assert (S : scan_sign ((c :: t) ++ r) = (false, O, (c :: t) ++ r)).
  { simpl. rewrite Hm, Hp. reflexivity. }
  rewrite S, scan_digits_dec by assumption. cbn [length]. cbn iota.
  change (dec_acc 0 (c :: t)) with (dec_val (c :: t)).
  pose proof (dec_val_nonneg _ H). unfold LONG_MAX, LONG_MIN in *.
  destruct (_ >? _) eqn:E1; [lia|]. destruct (_ <? _) eqn:E2; [lia|].
  repeat f_equal. lia.
Qed.

(** ** strtod *)
Lemma scan_sign_text sg r :
  sign_ok sg -> (forall c t, r = c :: t -> ceqb c "-"%char = false /\ ceqb c "+"%char = false) ->
  scan_sign (sign_text sg ++ r) = (is_neg sg, length (sign_text sg), r).
Proof.
  intros H Hr. destruct sg as [c|]; simpl in *.
  - destruct H as [->| ->]; reflexivity.
  - destruct r as [|c t]; [reflexivity|]. simpl. destruct (Hr c t eq_refl) as [-> ->]. reflexivity.
Qed.

Lemma lower_not_alpha c : digit c -> lower c = c.
Proof.
  intro H. unfold lower, digit in *.
  destruct (65 <=? nat_of_ascii c)%nat eqn:E; [apply Nat.leb_le in E; lia|reflexivity].
Qed.

Lemma digit_ceqb c x : digit c -> ~ digit x -> ceqb x c = false.
Proof. intros H Hx. apply ceqb_neq. intros ->. contradiction. Qed.

Lemma ceqb_sym a b : ceqb a b = ceqb b a.
Proof.
  destruct (ceqb a b) eqn:E.
  - apply ceqb_eq in E. subst. symmetry. apply ceqb_refl.
  - symmetry. apply ceqb_neq. apply ceqb_neq in E. congruence.
Qed.

(** mantissa and exponent *)
Lemma scan_exp_text n r :
  num_ok n -> num_stop n r ->
  scan_exp "e"%char (exp_text n ++ r) = (exp_val n, length (exp_text n)).
Proof.
  intros (_ & _ & _ & _ & _ & _ & He) Hr. unfold exp_text, exp_val, num_stop in *.
  destruct (nexp n) as [[[e sg] ds]|].
  - destruct He as (He & Hs & Hd & Hne & Hv).
    assert (Hr' : nondigit_head r).
    { destruct r; simpl; auto. apply is_digit_false. tauto. }
    assert (L : ceqb (lower e) "e"%char = true) by (destruct He as [->| ->]; reflexivity).
    cbn [app scan_exp]. rewrite L. rewrite <- app_assoc. rewrite scan_sign_text; auto.
    2:{ intros c t E. destruct ds as [|d ds]; [congruence|]. inv E. inv Hd.
        destruct (digit_facts c H1) as (_ & ? & ? & _). auto. }
    rewrite scan_digits_dec by assumption.
    destruct ds as [|d ds]; [congruence|]. cbn [length]. cbn iota.
    change (dec_acc 0 (d :: ds)) with (dec_val (d :: ds)).
    rewrite app_length. cbn [length]. destruct (is_neg sg); f_equal; lia.
  - cbn [app]. destruct r as [|c r]; [reflexivity|]. cbn [scan_exp].
    destruct Hr as (_ & Hr & _). destruct (Hr eq_refl) as [H1 H2].
    assert (L : ceqb (lower c) "e"%char = false).
    { apply ceqb_neq. clear Hr. destruct c as [[][][][][][][][]]; vm_compute; try congruence;
        intro; first [apply H1; reflexivity | apply H2; reflexivity]. }
    rewrite L. reflexivity.
Qed.

Lemma exp_text_nondigit n r : num_ok n -> num_stop n r -> nondigit_head (exp_text n ++ r).
Proof.
  intros (_ & _ & _ & _ & _ & _ & He) Hr. unfold exp_text, num_stop in *.
  destruct (nexp n) as [[[e sg] ds]|]; simpl.
  - destruct He as ([->| ->] & _); reflexivity.
  - destruct r; simpl; auto. apply is_digit_false. tauto.
Qed.

Lemma exp_text_nodot n r c t : num_ok n -> num_stop n r -> ndot n = false ->
  exp_text n ++ r = c :: t -> ceqb c "."%char = false.
Proof.
  intros (_ & _ & _ & _ & _ & _ & He) Hr Hd E. unfold exp_text, num_stop in *.
  destruct (nexp n) as [[[e sg] ds]|]; simpl in E.
  - inv E. destruct He as ([->| ->] & _); reflexivity.
  - subst. apply ceqb_neq. destruct Hr as (_ & _ & Hr). destruct (Hr eq_refl Hd). assumption.
Qed.

Lemma scaleQ_pow10 m e : scaleQ m 10 e = (inject_Z m * pow10 e)%Q.
Proof.
  unfold scaleQ, pow10. destruct (e >=? 0).
  - unfold inject_Z, Qmult. simpl. f_equal.
  - unfold inject_Z, Qmult. simpl. f_equal. lia.
Qed.

Lemma scan_decimal_text n r :
  num_ok n -> num_stop n r ->
  scan_decimal (mant_text n ++ exp_text n ++ r) =
  (scaleQ (dec_val (nint n ++ nfrac n)) 10 (exp_val n - Z.of_nat (length (nfrac n))),
   (length (mant_text n) + length (exp_text n))%nat) /\ (0 < length (mant_text n))%nat.
Proof.
  intros Hok Hr. pose proof (exp_text_nondigit n r Hok Hr) as Hnd.
  pose proof (scan_exp_text n r Hok Hr) as Hexp.
  pose proof (exp_text_nodot n r) as Hdot.
  destruct Hok as (Hs & Hi & Hf & Hne & Hdf & Hlen & He) eqn:Hok'. clear Hok'.
  unfold scan_decimal, mant_text.
  destruct (ndot n) eqn:D.
  - rewrite <- app_assoc. cbn [app].
    rewrite (scan_digits_dec (nint n) ("."%char :: nfrac n ++ exp_text n ++ r) 0);
      [|assumption|reflexivity].
    cbn iota. rewrite ceqb_refl. rewrite scan_digits_dec by assumption.
    rewrite <- dec_acc_app. change (dec_acc 0 (nint n ++ nfrac n)) with (dec_val (nint n ++ nfrac n)).
    rewrite app_length in *. cbn [length].
    destruct (length (nint n) + length (nfrac n))%nat eqn:E.
    { exfalso. apply Hne. destruct (nint n), (nfrac n); simpl in E; try lia; reflexivity. }
    rewrite Hexp. split; [f_equal; lia|lia].
  - rewrite (Hdf eq_refl) in *. rewrite !app_nil_r in *. 
    rewrite scan_digits_dec by assumption.
    assert (M : match exp_text n ++ r with
       | [] => (dec_acc 0 (nint n), O, O, exp_text n ++ r)
       | c :: r0 =>
           if ceqb c "."%char
           then let '(v2, k2, t) := scan_digits r0 (dec_acc 0 (nint n)) in (v2, k2, 1%nat, t)
           else (dec_acc 0 (nint n), O, O, exp_text n ++ r)
       end = (dec_acc 0 (nint n), O, O, exp_text n ++ r)).
    { destruct (exp_text n ++ r) as [|c t] eqn:E; [reflexivity|].
      rewrite (Hdot c t); auto. }
    rewrite M. cbn iota. change (dec_acc 0 (nint n)) with (dec_val (nint n)).
    cbn [length].
    destruct (length (nint n) + 0)%nat eqn:E.
    { exfalso. apply Hne. destruct (nint n); simpl in E; try lia; reflexivity. }
    rewrite Hexp. split; [f_equal; lia|lia].
Qed.

Lemma mant_head n r : num_ok n ->
  exists c t, mant_text n ++ r = c :: t /\ (digit c \/ c = "."%char).
Proof.
  intros (Hs & Hi & Hf & Hne & Hdf & Hlen & He). unfold mant_text.
  destruct (nint n) as [|c t] eqn:E.
  - destruct (ndot n); [|simpl in Hne; rewrite Hdf in Hne by auto; congruence].
    exists "."%char, (nfrac n ++ r). split; auto.
  - inv Hi. exists c. eexists. split; [reflexivity|auto].
Qed.

Lemma prefix_ci_head p ps c t :
  (digit c \/ c = "."%char) -> ~ digit p -> p <> "."%char -> prefix_ci (p :: ps) (c :: t) = false.
Proof.
  intros H Hp Hd. cbn [prefix_ci].
  replace (ceqb p (lower c)) with false; [reflexivity|].
  symmetry. apply ceqb_neq. destruct H as [H| ->].
  - rewrite lower_not_alpha by exact H. intros ->. contradiction.
  - exact Hd.
Qed.

Lemma not_hex n r : num_ok n -> num_stop n r ->
  prefix_ci (lit "0x") (mant_text n ++ exp_text n ++ r) = false.
Proof.
  intros Hok Hr. destruct (mant_head n (exp_text n ++ r) Hok) as (c & t & E & Hc).
  rewrite E. cbn [lit prefix_ci].
  destruct (ceqb "0"%char (lower c)) eqn:E0; [|reflexivity]. cbn [andb].
  destruct t as [|d t]; [reflexivity|]. cbn [prefix_ci].
  assert (X : ceqb "x"%char (lower d) = false); [|rewrite X; reflexivity].
  assert (Hx : digit d \/ d = "."%char \/ (d <> "x"%char /\ d <> "X"%char)).
  2:{ apply ceqb_neq. destruct Hx as [Hx|[->|[H1 H2]]].
      - rewrite lower_not_alpha by exact Hx. intros <-. unfold digit in Hx. vm_compute in Hx. lia.
      - discriminate.
      - clear -H1 H2. destruct d as [[][][][][][][][]]; vm_compute; try congruence;
        intro; first [apply H1; reflexivity | apply H2; reflexivity]. }
  destruct Hok as (Hs & Hi & Hf & Hne & Hdf & Hlen & He).
  unfold mant_text in E. destruct (nint n) as [|a [|b i]] eqn:EI.
  - destruct (ndot n); [|simpl in Hne; rewrite Hdf in Hne by auto; congruence].
    inv E. discriminate E0.
  - destruct (ndot n) eqn:D.
    + inv E. auto.
    + cbn [app] in E. inversion E; subst. right. right.
      unfold exp_text, num_stop in *. destruct (nexp n) as [[[e sg] ds]|].
      * inversion H1; subst. destruct He as ([->| ->] & _); split; discriminate.
      * simpl in H1. subst r. destruct Hr as (_ & _ & Hr). destruct (Hr eq_refl D). tauto.
  - cbn [app] in E. inv E. inv Hi. inv H2. auto.
Qed.

Lemma pow10_le a b : 0 <= a <= b -> 10 ^ a <= 10 ^ b.
Proof. intro. apply Z.pow_le_mono_r; lia. Qed.

Lemma big_over : 10 ^ 200 < DBL_OVER.
Proof. reflexivity. Qed.
Lemma big_under : 10 ^ 200 < 2 ^ 1022.
Proof. reflexivity. Qed.

Lemma mkfin_small neg m e k :
  0 <= m < 10 ^ Z.of_nat k -> (k <= 100)%nat -> (Z.of_nat k <= 100) -> - 200 <= e <= 100 ->
  mkfin neg (scaleQ m 10 e) =
  (DFin (b64 (inject_Z (if neg then - m else m) * pow10 e)%Q), false).
Proof.
  intros Hm Hk Hk' He. unfold mkfin.
  assert (B : 10 ^ Z.of_nat k <= 10 ^ 100) by (apply pow10_le; lia).
  assert (O : overflows (scaleQ m 10 e) = false).
  { unfold overflows, scaleQ. rewrite Z.geb_leb. apply Z.leb_gt.
    destruct (e >=? 0) eqn:E.
    - unfold inject_Z. cbn [Qnum Qden]. rewrite Z.mul_1_r.
      assert (10 ^ e <= 10 ^ 100) by (apply pow10_le; lia).
      assert (0 < 10 ^ e) by (apply Z.pow_pos_nonneg; lia).
      rewrite Z.abs_eq by nia.
      assert (m * 10 ^ e <= 10 ^ 100 * 10 ^ 100) by nia.
      rewrite <- Z.pow_add_r in H1 by lia. pose proof big_over.
      change (100 + 100) with 200 in H1. lia.
    - cbn [Qnum Qden].
      assert (0 < 10 ^ (-e)) by (apply Z.pow_pos_nonneg; lia).
      rewrite Z2Pos.id by lia. rewrite Z.abs_eq by lia.
      assert (10 ^ 100 <= 10 ^ 200) by (apply pow10_le; lia).
      pose proof big_over.
      assert (DBL_OVER <= DBL_OVER * 10 ^ (- e)) by nia. lia. }
  assert (U : underflows (scaleQ m 10 e) = false).
  { unfold underflows. destruct (Z.eqb_spec (Qnum (scaleQ m 10 e)) 0) as [Z0|Z0]; [reflexivity|].
    cbn [negb andb]. apply Z.ltb_ge. unfold scaleQ in *. destruct (e >=? 0) eqn:E.
    - unfold inject_Z in *. cbn [Qnum Qden] in *.
      assert (0 < 2 ^ 1022) by reflexivity.
      assert (1 <= Z.abs (m * 10 ^ e)) by lia. nia.
    - cbn [Qnum Qden] in *.
      assert (0 < 10 ^ (-e)) by (apply Z.pow_pos_nonneg; lia).
      rewrite Z2Pos.id by lia. assert (1 <= Z.abs m) by lia.
      assert (10 ^ (-e) <= 10 ^ 200) by (apply pow10_le; lia).
      pose proof big_under. nia. }
  rewrite O, U. f_equal. f_equal. f_equal. rewrite scaleQ_pow10.
  destruct neg; [|reflexivity]. unfold Qopp, Qmult, inject_Z. cbn [Qnum Qden]. f_equal. lia.
Qed.

Lemma strtonum_text mk k n r :
  num_ok n -> num_stop n r ->
  let x := mk (is_neg (nsign n)) (scaleQ (dec_val (nint n ++ nfrac n)) 10 (exp_val n - Z.of_nat (length (nfrac n)))) in
  strtonum mk (blanks k ++ num_text n ++ r) = (fst x, (k + length (num_text n))%nat, snd x).
Proof. cbv zeta.
  intros Hok Hr. destruct (mant_head n (exp_text n ++ r) Hok) as (c & t & E & Hc).
  assert (Hns : is_space c = false /\ ceqb c "-"%char = false /\ ceqb c "+"%char = false).
  { destruct Hc as [Hc| ->]; [destruct (digit_facts c Hc) as (?&?&?&?); auto|auto]. }
  assert (Hsg : sign_ok (nsign n)) by (destruct Hok; auto).
  unfold strtonum, num_text. rewrite <- !app_assoc.
  unfold blanks.
  assert (W : skip_ws (repeat " "%char k ++ sign_text (nsign n) ++ mant_text n ++ exp_text n ++ r)
              = (k, sign_text (nsign n) ++ mant_text n ++ exp_text n ++ r)).
  { destruct (nsign n) as [sc|].
    - apply skip_ws_blanks with (c := sc) (t := mant_text n ++ exp_text n ++ r); [reflexivity|].
      destruct Hsg as [->| ->]; reflexivity.
    - cbn [sign_text app]. rewrite E. apply skip_ws_blanks with (c := c) (t := t); [reflexivity|tauto]. }
  rewrite W. rewrite scan_sign_text; auto.
  2:{ intros c' t' E'. rewrite E in E'. inv E'. tauto. }
  assert (N : forall w, (forall p ps, w = p :: ps -> ~ digit p /\ p <> "."%char) -> w <> [] ->
     prefix_ci w (mant_text n ++ exp_text n ++ r) = false).
  { intros w Hw Hne. rewrite E. destruct w as [|p ps]; [congruence|].
    destruct (Hw p ps eq_refl). apply prefix_ci_head; auto. }
  rewrite (N (lit "infinity")), (N (lit "inf")), (N (lit "nan")); try discriminate;
    try (intros p ps Ep; cbn in Ep; inversion Ep; subst; split; [unfold digit; vm_compute; lia|discriminate]).
  rewrite (not_hex n r Hok Hr). cbn iota.
  destruct (scan_decimal_text n r Hok Hr) as [S L]. rewrite S.
  destruct (length (mant_text n) + length (exp_text n))%nat as [|len] eqn:El; [lia|].
  destruct (mk _ _) as [d er]. cbn [fst snd]. rewrite <- El. rewrite !app_length. f_equal. f_equal. lia.
Qed.

Theorem strtod_text k n r :
  num_ok n -> num_stop n r ->
  strtod (blanks k ++ num_text n ++ r) = (DFin (num_val n), (k + length (num_text n))%nat, false).
Proof.
  intros Hok Hr. unfold strtod. rewrite (strtonum_text mkfin k n r Hok Hr).
  pose proof Hok as (_ & Hi & Hf & Hne & Hdf & Hlen & He).
  assert (Hd : digits (nint n ++ nfrac n)) by (apply digits_app; auto).
  rewrite (mkfin_small (is_neg (nsign n)) _ _ (length (nint n ++ nfrac n))).
  - reflexivity.
  - split; [apply dec_val_nonneg; exact Hd|apply dec_val_bound; exact Hd].
  - exact Hlen.
  - lia.
  - rewrite app_length in Hlen. unfold exp_val. destruct (nexp n) as [[[ec sg] ds]|].
    + destruct He as (_ & _ & Hds & _ & Hv). pose proof (dec_val_nonneg ds Hds).
      destruct (is_neg sg); lia.
    + lia.
Qed.

(** a version number is in the range of a float *)
Lemma mkflt_small v : num_ok v -> nexp v = None -> (length (num_text v) <= 9)%nat ->
  mkflt (is_neg (nsign v)) (scaleQ (dec_val (nint v ++ nfrac v)) 10 (exp_val v - Z.of_nat (length (nfrac v)))) = (DFin (num_flt v), false).
Proof.
  intros (_ & Di & Df & _ & Nd & _ & _) Ne L. unfold num_flt, num_dec, exp_val. rewrite Ne. set (m := dec_val (nint v ++ nfrac v)).
  assert (Dm : digits (nint v ++ nfrac v)) by (apply Forall_app; split; assumption).
  pose proof (dec_val_bound _ Dm) as B. pose proof (dec_val_nonneg _ Dm) as B0. fold m in B, B0.
  assert (L9 : (length (nint v ++ nfrac v) <= 9 /\ length (nfrac v) <= 9)%nat).
  { unfold num_text, mant_text in L. rewrite !app_length in L. rewrite app_length. destruct (ndot v) eqn:Ed; [cbn [length] in L; lia|]. rewrite (Nd eq_refl). cbn [length] in *. lia. }
  destruct L9 as (La & Lf). assert (B9 : (0 <= m < 10 ^ 9)%Z).
  { split; [lia|]. eapply Z.lt_le_trans; [apply B|]. apply Z.pow_le_mono_r; lia. }
  set (k := length (nfrac v)) in *. clearbody m. clear B.
  rewrite scaleQ_pow10. set (d := (0 - Z.of_nat k)%Z).
  assert (P : exists c, (Zpos c <= 10 ^ 9)%Z /\ pow10 d = Qmake 1 c).
  { unfold d. clearbody k. do 10 (destruct k as [|k]; [eexists; split; [|reflexivity]; vm_compute; discriminate|]). lia. }
  destruct P as (c & Hc & ->). unfold mkflt, flt_overflows, flt_underflows, inject_Z, Qmult. cbn [Qnum Qden]. rewrite Z.mul_1_r.
  rewrite Z.abs_eq by lia. change (1 * c)%positive with c.
  assert (O : (m >=? FLT_OVER * Z.pos c)%Z = false).
  { rewrite Z.geb_leb. apply Z.leb_gt. assert (FLT_OVER >= 10 ^ 9)%Z by (vm_compute; discriminate). nia. }
  rewrite O. assert (U : (negb (m =? 0) && (m * 2 ^ 126 <? Z.pos c))%Z = false).
  { destruct (Z.eqb_spec m 0) as [|N]; [reflexivity|]. cbn [negb andb]. apply Z.ltb_ge. assert (10 ^ 9 <= 2 ^ 126)%Z by (vm_compute; discriminate). nia. }
  rewrite U. f_equal. f_equal. f_equal. destruct (is_neg (nsign v)); [|rewrite Z.mul_1_r; reflexivity].
  unfold Qopp. cbn [Qnum Qden]. rewrite Z.mul_1_r. reflexivity.
Qed.
Theorem strtof_text k n r :
  num_ok n -> nexp n = None -> (length (num_text n) <= 9)%nat -> num_stop n r ->
  strtof (blanks k ++ num_text n ++ r) = (DFin (num_flt n), (k + length (num_text n))%nat, false).
Proof.
  intros Hok Ne L Hr. unfold strtof. rewrite (strtonum_text mkflt k n r Hok Hr), mkflt_small by assumption. reflexivity.
Qed.
(** strtof stops where strtod stops *)
Lemma strtof_len s : snd (fst (strtof s)) = snd (fst (strtod s)).
Proof.
  unfold strtof, strtod, strtonum. destruct (skip_ws s) as [w s1]. destruct (scan_sign s1) as [[neg sg] s2].
  destruct (prefix_ci (lit "infinity") s2); [reflexivity|]. destruct (prefix_ci (lit "inf") s2); [reflexivity|].
  destruct (prefix_ci (lit "nan") s2); [reflexivity|].
  destruct (if prefix_ci (lit "0x") s2 then _ else _) as [q [|k]].
  - destruct (scan_decimal s2) as [q' [|k']]; [reflexivity|]. destruct (mkflt neg q'), (mkfin neg q'). reflexivity.
  - destruct (mkflt neg q), (mkfin neg q). reflexivity.
Qed.

(** ** no overflow *)
Lemma dfin_fin q : (Qabs q <= 2 ^ 1000)%Q -> dfin q = DFin (b64 q).
Proof.
  intro H. unfold dfin. apply Qabs_Qle_condition in H as (A & B).
  assert (D : double (2 ^ 1000)%Q) by (exists 1, 1000; split; [reflexivity|split; [discriminate|ring]]).
  assert (D' : double (- 2 ^ 1000)%Q) by (exists (-1), 1000; split; [reflexivity|split; [discriminate|ring]]).
  pose proof (b64_ge _ q D' A) as A1. pose proof (b64_le _ q D B) as B1.
  assert (L : (Qabs (b64 q) <= 2 ^ 1000)%Q) by (apply Qabs_Qle_condition; split; assumption).
  destruct (Qle_bool (inject_Z (2 ^ 1024)) (Qabs (b64 q))) eqn:E; [|reflexivity].
  apply Qle_bool_iff in E. pose proof (Qle_trans _ _ _ E L) as X. vm_compute in X. destruct X. reflexivity.
Qed.
Lemma pow10_nonneg e : (0 <= pow10 e)%Q.
Proof. unfold pow10. destruct (e >=? 0) eqn:E; [|discriminate]. change 0%Q with (inject_Z 0). rewrite <- Zle_Qle. apply Z.pow_nonneg. lia. Qed.
Lemma pow10_up e : e <= 100 -> (pow10 e <= inject_Z (10 ^ 100))%Q.
Proof.
  intro H. unfold pow10. destruct (e >=? 0) eqn:E.
  - rewrite <- Zle_Qle. apply Z.pow_le_mono_r; lia.
  - apply (Qle_trans _ 1); [|vm_compute; discriminate]. unfold Qle. cbn [Qnum Qden]. lia.
Qed.
Lemma num_dec_range n : num_ok n -> (Qabs (num_dec n) <= 2 ^ 700)%Q.
Proof.
  intros (Hs & Hi & Hf & Hne & Hdf & Hlen & He). unfold num_dec. cbv zeta.
  assert (Hd : digits (nint n ++ nfrac n)) by (apply digits_app; auto).
  pose proof (dec_val_nonneg _ Hd) as B0. pose proof (dec_val_bound _ Hd) as B1. set (m := dec_val (nint n ++ nfrac n)) in *.
  assert (B2 : m <= 10 ^ 100). { eapply Z.le_trans; [apply Z.lt_le_incl, B1|]. apply Z.pow_le_mono_r; lia. }
  set (e := exp_val n - Z.of_nat (length (nfrac n))).
  assert (Ee : e <= 100). { unfold e, exp_val. destruct (nexp n) as [[[ec sg] ds]|]; [|lia]. destruct He as (_ & _ & D & _ & V). pose proof (dec_val_nonneg _ D). destruct (is_neg sg); lia. }
  rewrite Qabs_Qmult. rewrite (Qabs_pos (pow10 e)) by apply pow10_nonneg.
  assert (A : (Qabs (inject_Z (if is_neg (nsign n) then - m else m)) <= inject_Z (10 ^ 100))%Q).
  { destruct (is_neg (nsign n)); [rewrite inject_Z_opp, Qabs_opp|]; rewrite Qabs_pos; try (change 0%Q with (inject_Z 0); rewrite <- Zle_Qle; lia); rewrite <- Zle_Qle; lia. }
  apply (Qle_trans _ (inject_Z (10 ^ 100) * inject_Z (10 ^ 100))); [|vm_compute; discriminate].
  eapply Qle_trans; [apply Qmult_le_compat_r; [exact A|apply pow10_nonneg]|].
  apply Qmult_le_l; [reflexivity|]. apply pow10_up. exact Ee.
Qed.
Lemma num_val_range n : num_ok n -> (Qabs (num_val n) <= 2 ^ 700)%Q.
Proof.
  intro H. apply num_dec_range in H. apply Qabs_Qle_condition in H as (A & B). unfold num_val. apply Qabs_Qle_condition. split.
  - apply b64_ge; [|exact A]. exists (-1), 700. split; [reflexivity|split; [discriminate|ring]].
  - apply b64_le; [|exact B]. exists 1, 700. split; [reflexivity|split; [discriminate|ring]].
Qed.
Lemma num_val_red n : b64 (num_val n) = num_val n.
Proof. apply b64_idem. Qed.
Lemma km_val n : num_ok n -> dmul (DFin (num_val n)) (DFin 1000) = DFin (b64 (num_val n * 1000)).
Proof.
  intro H. cbn [dmul]. apply dfin_fin. rewrite Qabs_Qmult. pose proof (num_val_range n H) as B.
  apply (Qle_trans _ (2 ^ 700 * 1000)); [|vm_compute; discriminate]. apply Qmult_le_compat_r; [exact B|discriminate].
Qed.
