(** PropertiesText2: C85, the text of an observable *)
From Verif Require Import Base BaseLemmas CNum CNumLemmas ModelSatsys ModelObs ModelObsText SpecText SpecNum ProofText ProofNum PropertiesText.
From Coq Require Import Qabs.
Open Scope string_scope.
Open Scope list_scope.

(** ** digits *)
Lemma digit_char_digit k : (0 <= k <= 9)%Z -> digit (digit_char k).
Proof. intro H. unfold digit, digit_char. rewrite nat_ascii_embedding by lia. lia. Qed.
Lemma digit_char_val k : (0 <= k <= 9)%Z -> (Z.of_nat (nat_of_ascii (digit_char k)) - 48 = k)%Z.
Proof. intro H. unfold digit_char. rewrite nat_ascii_embedding by lia. lia. Qed.
Lemma mod10 k : (0 <= k mod 10 <= 9)%Z.
Proof. pose proof (Z.mod_pos_bound k 10 ltac:(lia)). lia. Qed.
Lemma six_digits_ok m : digits (six_digits m) /\ length (six_digits m) = 6%nat.
Proof. split; [|reflexivity]. unfold digits, six_digits. repeat (apply Forall_cons; [apply digit_char_digit, mod10|]). apply Forall_nil. Qed.
Lemma dec_six m acc : (0 <= m < 1000000)%Z -> fold_left (fun a c => a * 10 + (Z.of_nat (nat_of_ascii c) - 48))%Z (six_digits m) acc = (acc * 1000000 + m)%Z.
Proof.
  intro H. unfold six_digits. cbn [fold_left]. rewrite !digit_char_val by apply mod10.
  assert (E1 : (m / 100 = m / 10 / 10)%Z) by (rewrite Z.div_div by lia; reflexivity).
  assert (E2 : (m / 1000 = m / 10 / 10 / 10)%Z) by (rewrite !Z.div_div by lia; reflexivity).
  assert (E3 : (m / 10000 = m / 10 / 10 / 10 / 10)%Z) by (rewrite !Z.div_div by lia; reflexivity).
  assert (E4 : (m / 100000 = m / 10 / 10 / 10 / 10 / 10)%Z) by (rewrite !Z.div_div by lia; reflexivity).
  assert (E5 : (m / 10 / 10 / 10 / 10 / 10 < 10)%Z) by (rewrite !Z.div_div by lia; apply Z.div_lt_upper_bound; lia).
  rewrite E4, E3, E2, E1. clear E1 E2 E3 E4.
  pose proof (Z.div_mod m 10 ltac:(lia)). pose proof (Z.div_pos m 10 ltac:(lia) ltac:(lia)). set (m1 := (m / 10)%Z) in *.
  pose proof (Z.div_mod m1 10 ltac:(lia)). pose proof (Z.div_pos m1 10 ltac:(lia) ltac:(lia)). set (m2 := (m1 / 10)%Z) in *.
  pose proof (Z.div_mod m2 10 ltac:(lia)). pose proof (Z.div_pos m2 10 ltac:(lia) ltac:(lia)). set (m3 := (m2 / 10)%Z) in *.
  pose proof (Z.div_mod m3 10 ltac:(lia)). pose proof (Z.div_pos m3 10 ltac:(lia) ltac:(lia)). set (m4 := (m3 / 10)%Z) in *.
  pose proof (Z.div_mod m4 10 ltac:(lia)). pose proof (Z.div_pos m4 10 ltac:(lia) ltac:(lia)). set (m5 := (m4 / 10)%Z) in *.
  rewrite (Z.mod_small m5 10) by lia. lia.
Qed.
Lemma six_inj m m' : (0 <= m < 1000000)%Z -> (0 <= m' < 1000000)%Z -> six_digits m = six_digits m' -> m = m'.
Proof. intros H H' E. pose proof (dec_six m 0 H) as A. rewrite E, (dec_six m' 0 H') in A. lia. Qed.
Lemma nonneg_digits z : digits (string_of_nonneg z).
Proof.
  pose proof (string_of_nonneg_digits z) as D. induction (string_of_nonneg z) as [|c t IH]; [constructor|]. cbn [all_digits] in D. apply andb_prop in D as (A & B). apply andb_prop in A as (A1 & A2).
  constructor; [|exact (IH B)]. apply Nat.leb_le in A1, A2. split; assumption.
Qed.
Lemma dec_nonneg z : (0 <= z)%Z -> dec_val (string_of_nonneg z) = z.
Proof.
  intro H. pose proof (scan_digits_nonneg z [] H I) as A. pose proof (scan_digits_dec (string_of_nonneg z) [] 0 (nonneg_digits z) I) as B. rewrite A in B. injection B as B. symmetry. exact B.
Qed.

(** ** rounding *)
Lemma round6_nonneg q : (0 <= round6 q)%Z.
Proof.
  unfold round6. set (n := (Z.abs (Qnum q) * 1000000)%Z). assert (0 <= n / Zpos (Qden q))%Z by (apply Z.div_pos; lia).
  destruct (_ <? _)%Z; [assumption|]. destruct (_ <? _)%Z; [lia|]. destruct (Z.even _); lia.
Qed.
Lemma round6_near q : (2 * Z.abs (Z.abs (Qnum q) * 1000000 - round6 q * Zpos (Qden q)) <= Zpos (Qden q))%Z.
Proof.
  unfold round6. set (n := (Z.abs (Qnum q) * 1000000)%Z). set (d := Zpos (Qden q)). assert (Hd : (0 < d)%Z) by reflexivity.
  pose proof (Z.div_mod n d ltac:(lia)) as E. pose proof (Z.mod_pos_bound n d Hd) as B. set (k := (n / d)%Z) in *. set (r := (n mod d)%Z) in *.
  destruct (Z.ltb_spec (2 * r) d); [nia|]. destruct (Z.ltb_spec d (2 * r)); [nia|]. destruct (Z.even k); nia.
Qed.
Lemma round6_exact q k : q == k # 1000000 -> round6 q = Z.abs k.
Proof.
  intro E. unfold Qeq in E. cbn [Qnum Qden] in E. unfold round6. set (d := Zpos (Qden q)) in *. assert (Hd : (0 < d)%Z) by reflexivity.
  assert (En : (Z.abs (Qnum q) * 1000000 = Z.abs k * d)%Z) by (rewrite <- (Z.abs_eq 1000000), <- (Z.abs_eq d), <- !Z.abs_mul by lia; f_equal; lia).
  rewrite En, Z.div_mul, Z.mod_mul by lia. destruct (Z.ltb_spec (2 * 0) d); [reflexivity|lia].
Qed.
Lemma round6_wd q q' : q == q' -> round6 q = round6 q'.
Proof.
  (* the rounding is a function of the value *)
  intro E. unfold Qeq in E. pose proof (round6_near q) as A. pose proof (round6_near q') as B. revert A B. 
  unfold round6. set (n := (Z.abs (Qnum q) * 1000000)%Z). set (n' := (Z.abs (Qnum q') * 1000000)%Z). set (d := Zpos (Qden q)) in *. set (d' := Zpos (Qden q')) in *. intros _ _.
  assert (Hd : (0 < d)%Z) by reflexivity. assert (Hd' : (0 < d')%Z) by reflexivity.
  assert (En : (n * d' = n' * d)%Z).
  { unfold n, n'. rewrite <- (Z.abs_eq d), <- (Z.abs_eq d') by lia. replace (Z.abs (Qnum q) * 1000000 * Z.abs d')%Z with (1000000 * Z.abs (Qnum q * d'))%Z by (rewrite Z.abs_mul; ring).
    rewrite E, Z.abs_mul. ring. }
  assert (K : (n / d = n' / d')%Z) by (rewrite <- (Z.div_mul_cancel_r n d d'), <- (Z.div_mul_cancel_r n' d' d), En by lia; f_equal; lia).
  assert (R : (n mod d * d' = n' mod d' * d)%Z) by (rewrite !Z.mod_eq, K by lia; nia).
  rewrite K. set (k := (n' / d')%Z). set (r := (n mod d)%Z) in *. set (r' := (n' mod d')%Z) in *.
  destruct (Z.ltb_spec (2 * r) d), (Z.ltb_spec (2 * r') d'); try reflexivity; try (exfalso; nia).
  destruct (Z.ltb_spec d (2 * r)), (Z.ltb_spec d' (2 * r')); try reflexivity; exfalso; nia.
Qed.

(** ** C85: the text of an observable *)
(** the coefficient is written as a decimal number with six decimals, the nearest one *)
Theorem C85_coefficient : forall q, exists n, num_text n = to_string_double (DFin q) /\ nexp n = None /\ length (nfrac n) = 6%nat /\
  digits (nint n) /\ digits (nfrac n) /\ (Qabs (num_dec n - q) <= 1 # 2000000)%Q.
Proof.
  intro q. pose proof (round6_nonneg q) as Hn. pose proof (round6_near q) as Hr. pose proof (Z.div_mod (round6 q) 1000000 ltac:(lia)) as Ed. pose proof (Z.mod_pos_bound (round6 q) 1000000 ltac:(lia)) as Eb.
  pose proof (Z.div_pos (round6 q) 1000000 Hn ltac:(lia)) as Ep.
  exists (mkNum (if (Qnum q <? 0)%Z then Some "-"%char else None) (string_of_nonneg (round6 q / 1000000)) true (six_digits (round6 q mod 1000000)) None).
  split; [|split; [reflexivity|split; [reflexivity|split; [apply nonneg_digits|split; [apply six_digits_ok|]]]]].
  - unfold num_text, mant_text, exp_text. cbn [nsign nint ndot nfrac nexp to_string_double]. rewrite app_nil_r. destruct (Qnum q <? 0)%Z; reflexivity.
  - assert (V : dec_val (string_of_nonneg (round6 q / 1000000) ++ six_digits (round6 q mod 1000000)) = round6 q).
    { unfold dec_val. rewrite fold_left_app. change (fold_left _ (string_of_nonneg _) 0%Z) with (dec_val (string_of_nonneg (round6 q / 1000000))).
      rewrite dec_nonneg, dec_six by assumption. lia. }
    unfold num_dec. cbn [nsign nint nfrac nexp exp_val]. rewrite V. change (length (six_digits _)) with 6%nat. change (pow10 (0 - Z.of_nat 6)) with (1 # 1000000)%Q.
    apply Qabs_Qle_condition. destruct q as [a d]. cbn [Qnum Qden] in *. set (r := round6 (a # d)) in *. clearbody r. clear V Ed Eb Ep.
    unfold Qle, Qminus, Qplus, Qmult, Qopp, inject_Z. cbn [Qnum Qden]. rewrite !Pos2Z.inj_mul.
    destruct (Z.ltb_spec a 0) as [L|L]; cbn [is_neg]; [change (Ascii.eqb "-" "-") with true; cbv iota|]; [rewrite (Z.abs_neq a) in Hr by lia|rewrite (Z.abs_eq a) in Hr by lia]; split; lia.
Qed.
Print Assumptions C85_coefficient.
Example C85_coefficient_ex : to_string_double (DFin (25457277801631593 # 10000000000000000)) = lit "2.545728" /\ to_string_double (DFin (-1 # 1)) = lit "-1.000000" /\
  to_string_double (DFin (5 # 10000000)) = lit "0.000000" /\ to_string_double (DFin (15 # 10000000)) = lit "0.000002".
Proof. repeat split; vm_compute; reflexivity. Qed.

(** the text tells observables apart: false, as coefficients are cut and equality ignores the order *)
Definition C85_full : Prop := forall a b ta tb, observable_to_string a = Val ta -> observable_to_string b = Val tb -> (ta = tb <-> observable_eqb a b = true).
Definition l1 (q : Q) : obspart := mkPart (mkRaw Gps (mkCode CarrierPhase 1 "C"%char)) (DFin q).
Theorem C85_full_refuted : ~ C85_full.
Proof.
  intro F. destruct (F [l1 1] [l1 (10000001 # 10000000)] _ _ eq_refl eq_refl) as (A & _).
  assert (X : observable_eqb [l1 1] [l1 (10000001 # 10000000)] = false) by reflexivity. rewrite A in X; [discriminate|]. vm_compute. reflexivity.
Qed.
Print Assumptions C85_full_refuted.
(** an observable that was emptied cannot be written *)
Theorem C85_empty : observable_to_string [] = UB.
Proof. reflexivity. Qed.
Print Assumptions C85_empty.

(** parts whose code can be written and whose coefficient has at most six decimals *)
Definition exact_part (p : obspart) : Prop := printable_code (rcode (ptype p)) /\ exists q k, pcoef p = DFin q /\ q == k # 1000000.
Definition same_part (p p' : obspart) : Prop := ptype p = ptype p' /\ exists q q', pcoef p = DFin q /\ pcoef p' = DFin q' /\ q == q'.
Definition noplus (s : list ascii) : Prop := ~ In "+"%char s.
Definition tail_ok (r : list ascii) : Prop := r = [] \/ exists r', r = "+"%char :: r'.
Lemma cut_plus a b r r' : noplus a -> noplus b -> tail_ok r -> tail_ok r' -> a ++ r = b ++ r' -> a = b /\ r = r'.
Proof.
  revert b. induction a as [|x a IH]; intros [|y b] Ha Hb Hr Hr' E; cbn [app] in E.
  - auto.
  - exfalso. destruct Hr as [-> |(t & ->)]; [discriminate|]. injection E as <- _. apply Hb. left. reflexivity.
  - exfalso. destruct Hr' as [-> |(t & ->)]; [discriminate|]. injection E as -> _. apply Ha. left. reflexivity.
  - injection E as -> E. destruct (IH b) as (-> & ->); auto; intro X; [apply Ha|apply Hb]; right; exact X.
Qed.
Lemma digits_noplus s : digits s -> ~ In "+"%char s /\ ~ In "."%char s /\ ~ In "-"%char s.
Proof. intro H. unfold digits in H. rewrite Forall_forall in H. repeat split; intro X; specialize (H _ X); unfold digit in H; cbn in H; lia. Qed.
Lemma cut_dot a b r r' : ~ In "."%char a -> ~ In "."%char b -> a ++ "."%char :: r = b ++ "."%char :: r' -> a = b /\ r = r'.
Proof.
  revert b. induction a as [|x a IH]; intros [|y b] Ha Hb E; cbn [app] in E.
  - injection E as ->. auto.
  - exfalso. injection E as <- _. apply Hb. left. reflexivity.
  - exfalso. injection E as -> _. apply Ha. left. reflexivity.
  - injection E as -> E. destruct (IH b) as (-> & ->); auto; intro X; [apply Ha|apply Hb]; right; exact X.
Qed.
Lemma coef_noplus q : noplus (to_string_double (DFin q)).
Proof.
  unfold noplus. cbn [to_string_double]. rewrite !in_app_iff. intros [X|[X|[X|X]]].
  - destruct (Qnum q <? 0)%Z; [destruct X as [X|[]]; discriminate|destruct X].
  - apply (digits_noplus _ (nonneg_digits _)) in X. exact X.
  - discriminate.
  - apply (digits_noplus _ (proj1 (six_digits_ok _))) in X. exact X.
Qed.
Lemma coef_inj q q' k k' : q == k # 1000000 -> q' == k' # 1000000 -> to_string_double (DFin q) = to_string_double (DFin q') -> q == q'.
Proof.
  intros Ek Ek' E. cbn [to_string_double] in E. rewrite (round6_exact q k Ek), (round6_exact q' k' Ek') in E.
  assert (Sg : forall q k, q == k # 1000000 -> (Qnum q <? 0)%Z = (k <? 0)%Z).
  { clear. intros q k E. unfold Qeq in E. cbn [Qnum Qden] in E. destruct (Z.ltb_spec (Qnum q) 0), (Z.ltb_spec k 0); try reflexivity; nia. }
  rewrite (Sg q k Ek), (Sg q' k' Ek') in E.
  assert (Hd : forall z r, exists c t, string_of_nonneg z ++ r = c :: t /\ c <> "-"%char).
  { intros z r. destruct (string_of_nonneg_head z) as (c & t & Ec & Dc). exists c, (t ++ r). rewrite Ec. split; [reflexivity|]. intros ->. discriminate. }
  assert (Sp : forall a b, (0 <= a)%Z -> (0 <= b)%Z -> string_of_nonneg (a / 1000000) ++ "."%char :: six_digits (a mod 1000000) = string_of_nonneg (b / 1000000) ++ "."%char :: six_digits (b mod 1000000) -> a = b).
  { intros a b Pa Pb X. apply cut_dot in X; try apply (digits_noplus _ (nonneg_digits _)). destruct X as (X1 & X2).
    apply string_of_nonneg_inj in X1; [|apply Z.div_pos; lia|apply Z.div_pos; lia]. apply six_inj in X2; try (apply Z.mod_pos_bound; lia).
    rewrite (Z.div_mod a 1000000), (Z.div_mod b 1000000), X1, X2 by lia. reflexivity. }
  assert (K : k = k').
  { destruct (Z.ltb_spec k 0), (Z.ltb_spec k' 0); cbn [app] in E.
    - injection E as E. apply Sp in E; lia.
    - exfalso. match type of E with _ = string_of_nonneg ?z ++ ?r => destruct (Hd z r) as (c & t & Ec & Nc) end. rewrite Ec in E. injection E as <- _. contradiction.
    - exfalso. match type of E with string_of_nonneg ?z ++ ?r = _ => destruct (Hd z r) as (c & t & Ec & Nc) end. rewrite Ec in E. injection E as -> _. contradiction.
    - apply Sp in E; lia. }
  rewrite Ek, Ek', K. reflexivity.
Qed.
Lemma raw_text_inj r r' s s' : printable_code (rcode r) -> printable_code (rcode r') -> rawobs_to_string r ++ s = rawobs_to_string r' ++ s' -> r = r' /\ s = s'.
Proof.
  intros P P' E. destruct r as [sy c], r' as [sy' c']. unfold rawobs_to_string, obscode_to_string in E. cbn [rsys rcode app] in E. change (lit "::") with [":"%char; ":"%char] in E. cbn [app] in E.
  injection E as E1 E2 E3 E4 E5. apply satsys_to_char_inj in E1. cbn [rcode] in *.
  assert (c = c') by (apply obscode_print_inj; [assumption|assumption|unfold obscode_to_string; congruence]). subst. auto.
Qed.
(** with such parts the text determines the parts and their order *)
Theorem C85_distinct_partial : forall a b t, Forall exact_part a -> Forall exact_part b ->
  observable_to_string a = Val t -> observable_to_string b = Val t -> Forall2 same_part a b.
Proof.
  assert (G : forall a b, Forall exact_part a -> Forall exact_part b ->
    flat_map (fun q => "+"%char :: part_to_string q) a = flat_map (fun q => "+"%char :: part_to_string q) b -> Forall2 same_part a b).
  { induction a as [|p a IH]; intros [|p' b] Ha Hb E; cbn [flat_map app] in E; try discriminate; [constructor|].
    inversion Ha as [|? ? (P1 & q & k & Q1 & K1) Ha']; subst. inversion Hb as [|? ? (P2 & q' & k' & Q2 & K2) Hb']; subst.
    apply (f_equal (@tl ascii)) in E. cbn [tl] in E. change (part_to_string p ++ ?r) with ((rawobs_to_string (ptype p) ++ "*"%char :: to_string_double (pcoef p)) ++ r) in E. change (part_to_string p' ++ ?r) with ((rawobs_to_string (ptype p') ++ "*"%char :: to_string_double (pcoef p')) ++ r) in E. rewrite <- !app_assoc in E. apply raw_text_inj in E as (Er & E); try assumption.
    cbn [app] in E. apply (f_equal (@tl ascii)) in E. cbn [tl] in E. rewrite Q1, Q2 in E.
    assert (T : forall l, tail_ok (flat_map (fun x => "+"%char :: rawobs_to_string (ptype x) ++ "*"%char :: to_string_double (pcoef x)) l)) by (intros [|x l]; [left; reflexivity|right; eexists; reflexivity]).
    apply cut_plus in E as (E1 & E2); try apply coef_noplus; try apply T.
    constructor; [|apply IH; assumption]. split; [exact Er|]. exists q, q'. split; [exact Q1|]. split; [exact Q2|]. eapply coef_inj; eassumption. }
  intros a b t Ha Hb A B. destruct a as [|p a]; [discriminate|]. destruct b as [|p' b]; [discriminate|]. apply G; try assumption. cbn [flat_map app]. f_equal.
  apply Val_inj in A, B. congruence.
Qed.
Print Assumptions C85_distinct_partial.
(** and equal parts in the same order always have the same text *)
Theorem C85_same : forall a b, a <> [] -> Forall2 same_part a b -> exists t, observable_to_string a = Val t /\ observable_to_string b = Val t.
Proof.
  assert (P : forall p p', same_part p p' -> part_to_string p = part_to_string p').
  { intros p p' (Et & q & q' & Q1 & Q2 & E). unfold part_to_string. rewrite Et, Q1, Q2. cbn [to_string_double]. rewrite (round6_wd q q' E).
    replace (Qnum q <? 0)%Z with (Qnum q' <? 0)%Z; [reflexivity|]. unfold Qeq in E. destruct (Z.ltb_spec (Qnum q') 0), (Z.ltb_spec (Qnum q) 0); try reflexivity; nia. }
  intros a b N F. destruct F as [|p p' a b E F]; [congruence|]. exists (part_to_string p ++ flat_map (fun q => "+"%char :: part_to_string q) a). split; [reflexivity|].
  cbn [observable_to_string]. rewrite (P _ _ E). do 2 f_equal. clear - F P. induction F as [|x y a b E F IH]; [reflexivity|]. cbn [flat_map]. rewrite (P _ _ E), IH. reflexivity.
Qed.
Print Assumptions C85_same.
Definition iono_free : observable := [l1 (2545728 # 1000000); mkPart (mkRaw Gps (mkCode CarrierPhase 2 "W"%char)) (DFin (-1545728 # 1000000))].
Example C85_example : observable_to_string iono_free = Val (lit "G::L1C*2.545728+G::L2W*-1.545728") /\ Forall exact_part iono_free.
Proof.
  split; [vm_compute; reflexivity|]. repeat (apply Forall_cons; [split; [repeat split; try discriminate; cbn; lia|]|]); [| |apply Forall_nil].
  - exists (2545728 # 1000000), 2545728%Z. split; reflexivity.
  - exists (-1545728 # 1000000), (-1545728)%Z. split; reflexivity.
Qed.
