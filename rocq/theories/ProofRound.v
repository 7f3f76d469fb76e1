(** ProofRound: rounding of SP3 times and positions *)
From Coq Require Import ZArith Lia Lqa QArith Qround Qabs Qpower.
From Verif Require Import Base B64 SpecB64 ProofB64 SpecText SpecNum ModelSp3 SpecSp3 SpecRound ProofText ProofNum ProofSp3Epoch.
Local Open Scope Q_scope.

Lemma pow10_cancel f : (0 <= f)%Z -> pow10 (- f) * inject_Z (10 ^ f) == 1.
Proof.
  intro F. unfold pow10. destruct (Z.geb_spec (- f) 0) as [G|G].
  - assert (f = 0)%Z by lia. subst f. reflexivity.
  - rewrite Z.opp_involutive. assert (P : (0 < 10 ^ f)%Z) by (apply Z.pow_pos_nonneg; lia).
    unfold Qeq, Qmult, inject_Z. cbn -[Z.pow Z.mul]. rewrite Pos2Z.inj_mul, Z2Pos.id by exact P. ring.
Qed.
Lemma dec_grid n (d : nat) : nsign n = None -> nexp n = None -> (length (nfrac n) <= d)%nat ->
  exists M, num_dec n * inject_Z (10 ^ Z.of_nat d) == inject_Z M.
Proof.
  intros Hs He L. unfold num_dec, exp_val. rewrite Hs, He. cbn [is_neg]. set (m := dec_val _). set (f := Z.of_nat (length (nfrac n))).
  assert (F : (0 <= f <= Z.of_nat d)%Z) by (subst f; lia).
  exists (m * 10 ^ (Z.of_nat d - f))%Z. replace (Z.of_nat d) with (f + (Z.of_nat d - f))%Z at 1 by ring.
  rewrite Z.pow_add_r, !inject_Z_mult by lia. replace (0 - f)%Z with (- f)%Z by ring. pose proof (pow10_cancel f (proj1 F)) as C.
  transitivity (inject_Z m * (pow10 (- f) * inject_Z (10 ^ f)) * inject_Z (10 ^ (Z.of_nat d - f))); [ring|]. rewrite C. ring.
Qed.
Lemma floor_of q z : inject_Z z <= q -> q < inject_Z (z + 1) -> Qfloor q = z.
Proof.
  intros A B. apply Z.le_antisymm.
  - apply Zlt_succ_le. rewrite Zlt_Qlt. eapply Qle_lt_trans; [apply Qfloor_le|exact B].
  - apply Qfloor_resp_le in A. rewrite Qfloor_Z in A. exact A.
Qed.
Lemma floor_eqv q q' : q == q' -> Qfloor q = Qfloor q'.
Proof. intro H. apply Z.le_antisymm; apply Qfloor_resp_le; rewrite H; apply Qle_refl. Qed.

(** two roundings move the product by less than 1/100 *)
Lemma usec_close x : 0 <= x <= 100000 -> Qabs (b64 (b64 x * 1000000) - x * 1000000) < 1 # 100.
Proof.
  intros (L & U).
  assert (A : Qabs (b64 x - x) <= 2 ^ (17 - 54)).
  { apply b64_abs; [discriminate|]. rewrite Qabs_pos by exact L. eapply Qle_lt_trans; [exact U|reflexivity]. }
  assert (Up : b64 x <= 100000) by (apply b64_le; [apply (double_int 100000); discriminate|exact U]).
  pose proof (b64_nonneg x L) as Lo.
  assert (B : Qabs (b64 (b64 x * 1000000) - b64 x * 1000000) <= 2 ^ (37 - 54)).
  { apply b64_abs; [discriminate|]. rewrite Qabs_pos by lra. apply Qle_lt_trans with 100000000000; [lra|reflexivity]. }
  change (2 ^ (17 - 54)) with (1 # 137438953472) in A. change (2 ^ (37 - 54)) with (1 # 131072) in B.
  apply Qabs_Qle_condition in A. apply Qabs_Qle_condition in B.
  set (y := b64 (b64 x * 1000000)) in *. set (a := b64 x) in *.
  apply Qle_lt_trans with (1 # 50000); [apply Qabs_Qle_condition; lra|reflexivity].
Qed.
Lemma usec_near x M : 0 <= x <= 100000 -> x * 100000000 == inject_Z M ->
  let u := Qfloor (b64 (b64 x * 1000000)) in
  (u = whole_usec x \/ integral (x * 1000000) /\ u = whole_usec x - 1)%Z.
Proof.
  intros R HM u. pose proof (usec_close x R) as C. unfold u, whole_usec. clear u. apply Qabs_Qlt_condition in C.
  set (y := b64 (b64 x * 1000000)) in *. set (w := Qfloor (x * 1000000)).
  assert (Wx : w = (M / 100)%Z).
  { unfold w. apply floor_of.
    - pose proof (Z.mul_div_le M 100 ltac:(lia)) as H. rewrite Zle_Qle, inject_Z_mult in H. change (inject_Z 100) with 100 in H. lra.
    - pose proof (Z.mul_succ_div_gt M 100 ltac:(lia)) as H. rewrite Zlt_Qlt, inject_Z_mult in H. change (inject_Z 100) with 100 in H. unfold Z.succ in H. lra. }
  destruct (Z.eq_dec (M mod 100) 0) as [E|E].
  - assert (Mw : M = (100 * w)%Z) by (rewrite Wx; apply Z_div_exact_full_2; [discriminate|exact E]).
    rewrite Mw, inject_Z_mult in HM. change (inject_Z 100) with 100 in HM.
    destruct (Qlt_le_dec y (inject_Z w)) as [Lt|Ge].
    + right. split; [exists w; lra|]. apply floor_of; [replace (w - 1)%Z with (w + -1)%Z by ring|replace (w - 1 + 1)%Z with w by ring; exact Lt].
      rewrite inject_Z_plus. change (inject_Z (-1)) with (-1 # 1). lra.
    + left. apply floor_of; [exact Ge|]. rewrite inject_Z_plus. change (inject_Z 1) with 1. lra.
  - left. pose proof (Z.mod_pos_bound M 100 ltac:(lia)) as B. pose proof (Z.div_mod M 100 ltac:(lia)) as D. rewrite <- Wx in D.
    assert (B1 : (100 * w + 1 <= M <= 100 * w + 99)%Z) by lia. destruct B1 as (B1 & B2). rewrite Zle_Qle, inject_Z_plus, inject_Z_mult in B1, B2.
    change (inject_Z 100) with 100 in *. change (inject_Z 1) with 1 in *. change (inject_Z 99) with 99 in *.
    apply floor_of; [|rewrite inject_Z_plus; change (inject_Z 1) with 1]; lra.
Qed.
(** a number of 1/64 seconds is exact *)
Lemma usec_64 x : 0 <= x <= 100000 -> integral (x * 64) -> Qfloor (b64 (b64 x * 1000000)) = whole_usec x.
Proof.
  intros (L & U) (z & E). assert (Z0 : (0 <= z <= 6400000)%Z).
  { split; rewrite Zle_Qle; rewrite <- E; [change (inject_Z 0) with 0|change (inject_Z 6400000) with 6400000]; lra. }
  assert (D : double x).
  { exists z, (-6)%Z. split; [lia|]. split; [discriminate|]. change (2 ^ (-6)) with (1 # 64). lra. }
  assert (P : b64 x * 1000000 == inject_Z (z * 15625)) by (rewrite (b64_fix x D), inject_Z_mult; change (inject_Z 15625) with 15625; lra).
  rewrite (floor_eqv _ (inject_Z (z * 15625))).
  - unfold whole_usec. rewrite Qfloor_Z. symmetry. rewrite <- (Qfloor_Z (z * 15625)). apply floor_eqv. rewrite inject_Z_mult. change (inject_Z 15625) with 15625. lra.
  - rewrite (b64_wd _ _ P). apply b64_int. lia.
Qed.

(** ** a day number plus a fraction of 1/2^k *)
Lemma grid_round (j : Z) (g : Z) mjd x z : (15 <= j <= 16)%Z -> g = (2 ^ (52 - j))%Z -> (2 ^ j <= mjd < 2 ^ (j + 1))%Z ->
  inject_Z mjd <= x <= inject_Z (mjd + 1) -> (0 <= z <= g)%Z ->
  Qabs (inject_Z mjd * inject_Z g + inject_Z z - x * inject_Z g) < 1 # 2 -> b64 x * inject_Z g == inject_Z mjd * inject_Z g + inject_Z z.
Proof.
  intros J Hg Hm (Lx & Ux) Hz C.
  assert (G0 : (0 < g)%Z) by (subst g; apply Z.pow_pos_nonneg; lia).
  assert (Gq : 0 < inject_Z g) by (rewrite Zlt_Qlt in G0; exact G0).
  assert (Gp : 2 ^ (j - 52) * inject_Z g == 1).
  { rewrite Hg, <- pow_z by lia. rewrite <- pow_add. replace (j - 52 + (52 - j))%Z with 0%Z by ring. reflexivity. }
  set (d := inject_Z (mjd * g + z) * 2 ^ (j - 52)).
  assert (Bd : (Z.abs (mjd * g + z) <= 2 ^ 53)%Z).
  { rewrite Z.abs_eq by nia. replace 53%Z with ((j + 1) + (52 - j))%Z by ring. rewrite Z.pow_add_r, <- Hg by lia. nia. }
  assert (Dd : double d) by (apply double_ge; [exact Bd|lia]).
  assert (Ed : d * inject_Z g == inject_Z mjd * inject_Z g + inject_Z z).
  { unfold d. transitivity (inject_Z (mjd * g + z) * (2 ^ (j - 52) * inject_Z g)); [ring|]. rewrite Gp, inject_Z_plus, inject_Z_mult. ring. }
  pose proof (b64_nearest x) as (Dy & Near & _). specialize (Near d Dd).
  assert (Ly : inject_Z mjd <= b64 x).
  { apply b64_ge; [|exact Lx]. apply double_int. rewrite Z.abs_eq by lia. apply Z.le_trans with (2 ^ 17)%Z; [|vm_compute; discriminate].
    apply Z.le_trans with (2 ^ (j + 1))%Z; [lia|]. apply Z.pow_le_mono_r; lia. }
  set (y := b64 x) in *.
  assert (Gy : exists m, y * inject_Z g == inject_Z m).
  { destruct Dy as (m & e & Bm & Be & Ey). assert (Pe : (j - 53 < e)%Z).
    { apply pow_lt_inv. apply (Qmult_lt_r _ _ (inject_Z (2 ^ 53))); [reflexivity|]. rewrite <- (pow_z 53) by lia. rewrite <- pow_add.
      replace (j - 53 + 53)%Z with j by ring. rewrite pow_z by lia. apply Qle_lt_trans with y.
      - eapply Qle_trans; [|exact Ly]. rewrite <- Zle_Qle. lia.
      - rewrite Ey. rewrite Qmult_comm. apply Qmult_lt_l; [apply pow_pos|]. rewrite pow_z by lia. rewrite <- Zlt_Qlt. lia. }
    exists (m * 2 ^ (e + (52 - j)))%Z. rewrite Ey, Hg, inject_Z_mult, <- !pow_z by lia. rewrite pow_add. ring. }
  destruct Gy as (m & Gy).
  assert (Cd : Qabs (d - x) * inject_Z g < 1 # 2).
  { rewrite <- (Qabs_pos (inject_Z g)) by (apply Qlt_le_weak; exact Gq). rewrite <- Qabs_Qmult.
    rewrite (Qabs_wd ((d - x) * inject_Z g) (inject_Z mjd * inject_Z g + inject_Z z - x * inject_Z g)); [exact C|]. rewrite <- Ed. ring. }
  assert (Cy : Qabs (y - x) * inject_Z g < 1 # 2) by (eapply Qle_lt_trans; [apply Qmult_le_compat_r; [exact Near|apply Qlt_le_weak; exact Gq]|exact Cd]).
  rewrite <- (Qabs_pos (inject_Z g)), <- Qabs_Qmult in Cd, Cy by (apply Qlt_le_weak; exact Gq).
  apply Qabs_Qlt_condition in Cd. apply Qabs_Qlt_condition in Cy.
  assert (E : inject_Z m - (inject_Z mjd * inject_Z g + inject_Z z) < 1 /\ -(1) < inject_Z m - (inject_Z mjd * inject_Z g + inject_Z z)).
  { rewrite <- Gy, <- Ed. split; lra. }
  rewrite Gy. rewrite <- inject_Z_mult, <- inject_Z_plus in *. destruct E as (E1 & E2).
  assert (m < mjd * g + z + 1)%Z by (rewrite Zlt_Qlt, (inject_Z_plus _ 1); change (inject_Z 1) with 1; lra).
  assert (mjd * g + z < m + 1)%Z by (rewrite Zlt_Qlt, (inject_Z_plus _ 1); change (inject_Z 1) with 1; lra).
  replace m with (mjd * g + z)%Z by lia. reflexivity.
Qed.

(** ** seconds of the day and the day fraction with 13 decimals *)
(** second [s] on the grid 1/g: the point [z] next to it is next to its fraction of 13 decimals, too *)
Definition sec_ok (g s : Z) : bool :=
  let z := ((2 * s * g + 86400) / 172800)%Z in
  let k := ((2 * s * 10 ^ 13 + 86400) / 172800)%Z in
  ((Z.abs (2 * (z * 86400 - s * g)) <? 86400) && (2 * Z.abs (z * 10 ^ 13 - k * g) + 152587891 <? 10 ^ 13))%Z%bool.
Fixpoint upto (g step : Z) (n : nat) (s : Z) : bool :=
  match n with O => true | S n' => if sec_ok g s then upto g step n' (s + step)%Z else false end.
Lemma upto_all g step n : forall s, upto g step n s = true -> forall i, (0 <= i < Z.of_nat n)%Z -> sec_ok g (s + i * step) = true.
Proof.
  induction n as [|n IH]; intros s H i Hi; [lia|]. cbn [upto] in H. destruct (sec_ok g s) eqn:E; [|discriminate H].
  destruct (Z.eq_dec i 0) as [->|Ni]; [replace (s + 0 * step)%Z with s by ring; exact E|].
  replace (s + i * step)%Z with (s + step + (i - 1) * step)%Z by ring. apply IH; [exact H|lia].
Qed.
(** 675 seconds are a whole number of grid points and of 13th decimals *)
Lemma sec_ok_shift g s q : sec_ok (128 * g) (s + 675 * q) = sec_ok (128 * g) s.
Proof.
  unfold sec_ok. cbv zeta.
  replace (2 * (s + 675 * q) * (128 * g) + 86400)%Z with (2 * s * (128 * g) + 86400 + q * g * 172800)%Z by ring.
  replace (2 * (s + 675 * q) * 10 ^ 13 + 86400)%Z with (2 * s * 10 ^ 13 + 86400 + q * 78125000000 * 172800)%Z by ring.
  rewrite !Z.div_add by discriminate. set (z := ((2 * s * (128 * g) + 86400) / 172800)%Z). set (k := ((2 * s * 10 ^ 13 + 86400) / 172800)%Z).
  replace (2 * ((z + q * g) * 86400 - (s + 675 * q) * (128 * g)))%Z with (2 * (z * 86400 - s * (128 * g)))%Z by ring.
  replace ((z + q * g) * 10 ^ 13 - (k + q * 78125000000) * (128 * g))%Z with (z * 10 ^ 13 - k * (128 * g))%Z by ring. reflexivity.
Qed.
Lemma seconds_fine s : sec_ok (2 ^ 37) s = true.
Proof.
  change (2 ^ 37)%Z with (128 * 2 ^ 30)%Z. rewrite (Z.div_mod s 675), Z.add_comm, sec_ok_shift by discriminate.
  assert (A : upto (128 * 2 ^ 30) 1 675 0 = true) by (vm_compute; reflexivity).
  pose proof (upto_all _ _ _ _ A (s mod 675)) as Q. replace (0 + s mod 675 * 1)%Z with (s mod 675)%Z in Q by ring. apply Q. apply Z.mod_pos_bound. reflexivity.
Qed.
Lemma fives_fine i : sec_ok (2 ^ 36) (5 * i) = true.
Proof.
  change (2 ^ 36)%Z with (128 * 2 ^ 29)%Z. rewrite (Z.div_mod i 135) by discriminate. replace (5 * (135 * (i / 135) + i mod 135))%Z with (5 * (i mod 135) + 675 * (i / 135))%Z by ring.
  rewrite sec_ok_shift. assert (A : upto (128 * 2 ^ 29) 5 135 0 = true) by (vm_compute; reflexivity).
  pose proof (upto_all _ _ _ _ A (i mod 135)) as Q. replace (0 + i mod 135 * 5)%Z with (5 * (i mod 135))%Z in Q by ring. apply Q. apply Z.mod_pos_bound. reflexivity.
Qed.

Lemma sec_round (j : Z) mjd s f : (15 <= j <= 16)%Z -> (2 ^ j <= mjd < 2 ^ (j + 1))%Z -> (0 <= s < 86400)%Z -> sec_ok (2 ^ (52 - j)) s = true ->
  0 <= f -> (exists k, f * inject_Z (10 ^ 13) == inject_Z k) -> Qabs (f - inject_Z s / 86400) <= 1 # (2 * 10 ^ 13) ->
  b64 (b64 f + inject_Z mjd) == b64 (inject_Z mjd + inject_Z s / 86400).
Proof.
  intros J Hm Hs Ok F0 (k & Hk) Fs. set (g := (2 ^ (52 - j))%Z) in *.
  assert (G0 : (0 < g)%Z) by (subst g; apply Z.pow_pos_nonneg; lia).
  assert (G37 : (g <= 2 ^ 37)%Z) by (subst g; apply Z.pow_le_mono_r; lia).
  unfold sec_ok in Ok. cbv zeta in Ok. set (z := ((2 * s * g + 86400) / 172800)%Z) in *. apply andb_true_iff in Ok as (Oz & Ok). apply Z.ltb_lt in Oz, Ok.
  assert (Sg : (0 <= s * g <= 86399 * g)%Z) by nia.
  assert (Hz : (0 <= z <= g)%Z) by lia.
  apply Qabs_Qle_condition in Fs.
  assert (Sq : 0 <= inject_Z s /\ inject_Z s <= 86399).
  { split; [change 0 with (inject_Z 0)|change 86399 with (inject_Z 86399)]; rewrite <- Zle_Qle; lia. }
  assert (S8 : inject_Z s / 86400 == inject_Z s * (1 # 86400)) by reflexivity.
  change (1 # 2 * 10 ^ 13) with (1 # 20000000000000) in Fs. change (10 ^ 13)%Z with 10000000000000%Z in *. change (inject_Z 10000000000000) with 10000000000000 in *.
  assert (K : k = ((2 * s * 10000000000000 + 86400) / 172800)%Z).
  { assert (A : (2 * (k * 86400 - s * 10000000000000) <= 86400)%Z).
    { rewrite Zle_Qle. unfold Z.sub. rewrite inject_Z_mult, inject_Z_plus, inject_Z_opp, !inject_Z_mult, <- Hk.
      change (inject_Z 2) with 2. change (inject_Z 86400) with 86400. change (inject_Z 10000000000000) with 10000000000000. lra. }
    assert (B : (-86400 <= 2 * (k * 86400 - s * 10000000000000))%Z).
    { rewrite Zle_Qle. unfold Z.sub. rewrite inject_Z_mult, inject_Z_plus, inject_Z_opp, !inject_Z_mult, <- Hk.
      change (inject_Z 2) with 2. change (inject_Z 86400) with 86400. change (inject_Z 10000000000000) with 10000000000000. change (inject_Z (-86400)) with (-86400 # 1). lra. }
    assert (T : (2 * (k * 86400 - s * 10000000000000) <> -86400)%Z).
    { intro E. assert (X : (675 * (2 * k + 1) = 2 * (78125000000 * s))%Z) by lia. apply (f_equal Z.odd) in X. rewrite !Z.odd_mul, Z.odd_add, Z.odd_mul in X. discriminate X. }
    apply (Z.div_unique _ _ _ (2 * s * 10000000000000 + 86400 - 172800 * k)); lia. }
  rewrite <- K in Ok.
  assert (Ef : Qabs (b64 f - f) <= 2 ^ (0 - 54)).
  { apply b64_abs; [discriminate|]. rewrite Qabs_pos by exact F0. change (2 ^ 0) with 1. lra. }
  change (2 ^ (0 - 54)) with (1 # 18014398509481984) in Ef. apply Qabs_Qle_condition in Ef. pose proof (b64_nonneg f F0) as B0.
  assert (Gq : 0 < inject_Z g) by (change 0 with (inject_Z 0); rewrite <- Zlt_Qlt; exact G0).
  assert (Gq2 : inject_Z g <= 137438953472) by (change 137438953472 with (inject_Z 137438953472); rewrite <- Zle_Qle; exact G37).
  assert (X1 : b64 (inject_Z mjd + inject_Z s / 86400) * inject_Z g == inject_Z mjd * inject_Z g + inject_Z z).
  { apply (grid_round j); [exact J|reflexivity|exact Hm|rewrite inject_Z_plus; change (inject_Z 1) with 1; split; lra|exact Hz|].
    assert (A : (2 * (z * 86400 - s * g) < 86400)%Z) by lia. assert (B : (-86400 < 2 * (z * 86400 - s * g))%Z) by lia.
    rewrite Zlt_Qlt in A, B. unfold Z.sub in A, B. rewrite inject_Z_mult, inject_Z_plus, inject_Z_opp, !inject_Z_mult in A, B.
    change (inject_Z 2) with 2 in *. change (inject_Z 86400) with 86400 in *. change (inject_Z (-86400)) with (-86400 # 1) in *.
    set (sg := inject_Z s * inject_Z g) in *. apply Qabs_Qlt_condition.
    assert (R : inject_Z mjd * inject_Z g + inject_Z z - (inject_Z mjd + inject_Z s / 86400) * inject_Z g == inject_Z z - sg * (1 # 86400)) by (unfold sg; rewrite S8; ring).
    rewrite R. split; lra. }
  assert (X2 : b64 (b64 f + inject_Z mjd) * inject_Z g == inject_Z mjd * inject_Z g + inject_Z z).
  { apply (grid_round j); [exact J|reflexivity|exact Hm|rewrite inject_Z_plus; change (inject_Z 1) with 1; split; lra|exact Hz|].
    assert (A : (2 * (z * 10000000000000 - k * g) + 152587891 < 10000000000000)%Z) by lia. assert (B : (- 10000000000000 < 2 * (z * 10000000000000 - k * g) - 152587891)%Z) by lia.
    rewrite Zlt_Qlt in A, B. unfold Z.sub in A, B. rewrite !inject_Z_plus, inject_Z_mult, inject_Z_plus, !inject_Z_opp, !inject_Z_mult, <- Hk in A, B.
    change (inject_Z 2) with 2 in *. change (inject_Z 10000000000000) with 10000000000000 in *. change (inject_Z 152587891) with 152587891 in *. change (inject_Z (-10000000000000)) with (-10000000000000 # 1) in B. change (inject_Z (- (152587891))) with (-152587891 # 1) in B.
    set (fg := f * inject_Z g) in *.
    assert (Dg : Qabs ((b64 f - f) * inject_Z g) <= 1 # 131072).
    { rewrite Qabs_Qmult, (Qabs_pos (inject_Z g)) by lra. apply Qle_trans with ((1 # 18014398509481984) * 137438953472); [|vm_compute; discriminate].
      apply Qle_trans with ((1 # 18014398509481984) * inject_Z g); [apply Qmult_le_compat_r; [apply Qabs_Qle_condition; exact Ef|lra]|].
      rewrite (Qmult_comm _ (inject_Z g)), (Qmult_comm _ 137438953472). apply Qmult_le_compat_r; [exact Gq2|discriminate]. }
    apply Qabs_Qle_condition in Dg. set (dg := (b64 f - f) * inject_Z g) in *.
    assert (R : inject_Z mjd * inject_Z g + inject_Z z - (b64 f + inject_Z mjd) * inject_Z g == inject_Z z - fg - dg) by (unfold fg, dg; ring).
    assert (R2 : f * 10000000000000 * inject_Z g == fg * 10000000000000) by (unfold fg; ring). rewrite R2 in A, B.
    apply Qabs_Qlt_condition. rewrite R. split; lra. }
  rewrite <- X1 in X2. assert (Ng : ~ inject_Z g == 0) by (intro E; rewrite E in Gq; discriminate Gq). exact (proj1 (Qmult_inj_r _ _ _ Ng) X2).
Qed.

(** ** headers *)
Lemma plain_range n w : plain_num w n -> (length (nint n) <= 5)%nat -> 0 <= num_dec n <= 100000.
Proof.
  intros (H & Hs & He & _) L. destruct (num_dec_bound n H Hs He) as (A & B). split; [exact A|]. eapply Qle_trans; [exact B|].
  change 100000 with (inject_Z (10 ^ 5)). rewrite <- Zle_Qle. apply Z.pow_le_mono_r; lia.
Qed.
Lemma of_week_wd s s' : s == s' -> of_week s = of_week s'.
Proof. intro H. apply floor_eqv. rewrite H. reflexivity. Qed.
Lemma sec_of_week_wd s s' : s == s' -> sec_of_week s == sec_of_week s'.
Proof. intro H. unfold sec_of_week. rewrite (of_week_wd _ _ H), H. reflexivity. Qed.
Lemma whole_floor S : Qfloor (inject_Z S / 86400) = (S / 86400)%Z.
Proof. unfold Qfloor, Qdiv, Qmult, Qinv, inject_Z. cbn [Qnum Qden]. rewrite Z.mul_1_r. reflexivity. Qed.
Lemma whole_part S : day_part (inject_Z S) == inject_Z (S mod 86400) / 86400.
Proof.
  unfold day_part, day_number. rewrite whole_floor. rewrite (Z.div_mod S 86400) at 1 by lia. rewrite inject_Z_plus, inject_Z_mult. field.
Qed.
Lemma day_part_wd s s' : s == s' -> day_part s == day_part s'.
Proof. intro H. unfold day_part, day_number. rewrite (floor_eqv (s / 86400) (s' / 86400)) by (rewrite H; reflexivity). rewrite H. reflexivity. Qed.

Lemma dates_from_sec minute h : sp3h_ok h -> eight_decimals 2 (t_sec (h_start h)) -> dates_right minute h -> integral (num_dec (t_sec (h_start h))) ->
  ((32768 <= dec_val (h_mjd h) < 65536)%Z \/ (65536 <= dec_val (h_mjd h))%Z /\ integral (num_dec (t_sec (h_start h)) / 5)) ->
  dates_agree (lib_wsow minute) (lib_mjd minute) h.
Proof.
  intros H (D2 & _) (Rw & Rs & Rm & Rf & Rp) (z & Hz) Rg t (Ht1 & Ht2).
  destruct H as (_ & _ & St & _ & _ & _ & _ & _ & _ & _ & _ & _ & _ & _ & _ & _ & Fm & _ & Pf & _).
  assert (Px : 0 <= num_dec (t_sec (h_start h)) <= 100000).
  { apply (plain_range _ 11); [|lia]. destruct St as (_ & _ & _ & _ & _ & _ & _ & A & B & C & D & _). exact (conj A (conj B (conj C D))). }
  assert (U : inject_Z (t_usec t) / 1000000 == num_dec (t_sec (h_start h))).
  { rewrite Ht2. unfold num_val. rewrite usec_64; [|exact Px|exists (z * 64)%Z; rewrite Hz, inject_Z_mult; reflexivity].
    unfold whole_usec. rewrite (floor_eqv _ (inject_Z (z * 1000000))) by (rewrite Hz, inject_Z_mult; reflexivity).
    rewrite Qfloor_Z, inject_Z_mult, Hz. field. }
  assert (L : lib_seconds minute t == start_seconds minute h) by (unfold lib_seconds, start_seconds; rewrite Ht1, U; reflexivity).
  set (S := (minute (map dec_val [t_year (h_start h); t_month (h_start h); t_day (h_start h); t_hour (h_start h); t_min (h_start h)]) * 60 + z)%Z).
  assert (LS : start_seconds minute h == inject_Z S) by (unfold start_seconds, S; rewrite Hz, inject_Z_plus, inject_Z_mult; reflexivity).
  split; [|split].
  - cbn [lib_wsow fst]. rewrite Rw. apply of_week_wd. exact L.
  - cbn [lib_wsow snd]. unfold num_val. rewrite (b64_wd _ _ (sec_of_week_wd _ _ L)), (b64_wd _ _ Rs). reflexivity.
  - unfold lib_mjd. set (mjd := dec_val (h_mjd h)) in *. set (s := (S mod 86400)%Z).
    assert (Hs : (0 <= s < 86400)%Z) by (apply Z.mod_pos_bound; lia).
    assert (M : mjd = (S / 86400)%Z).
    { rewrite Rm. unfold day_number. rewrite (floor_eqv _ (inject_Z S / 86400)) by (rewrite LS; reflexivity). apply whole_floor. }
    assert (V : lib_seconds minute t / 86400 == inject_Z mjd + inject_Z s / 86400).
    { rewrite L, LS, M. unfold s. rewrite (Z.div_mod S 86400) at 1 by lia. rewrite inject_Z_plus, inject_Z_mult. field. }
    rewrite (b64_wd _ _ V). symmetry. unfold num_val.
    assert (F0 : 0 <= num_dec (h_frac h)) by (destruct Pf as (A & B & C & _); apply (num_dec_bound _ A B C)).
    assert (Fg : exists k, num_dec (h_frac h) * inject_Z (10 ^ 13) == inject_Z k) by (destruct Pf as (A & B & C & _); exact (dec_grid _ 13 B C Rf)).
    assert (Fs : Qabs (num_dec (h_frac h) - inject_Z s / 86400) <= 1 # (2 * 10 ^ 13)).
    { eapply Qle_trans; [|exact Rp]. apply Qle_lteq. right. apply Qabs_wd. unfold s. rewrite <- whole_part, (day_part_wd _ _ LS). reflexivity. }
    destruct Rg as [Rg|(Rg & (i & Hi))].
    + apply (sec_round 15 mjd s); [lia|exact Rg|exact Hs|apply seconds_fine|exact F0|exact Fg|exact Fs].
    + assert (Z5 : z = (5 * i)%Z).
      { assert (inject_Z z == inject_Z (5 * i)) as X; [|apply (proj1 (inject_Z_injective _ _)) in X; exact X]. rewrite <- Hz, inject_Z_mult, <- Hi. field. }
      assert (S5 : s = (5 * (s / 5))%Z).
      { apply Z_div_exact_full_2; [discriminate|]. unfold s. pose proof (Z.div_mod S 86400 ltac:(discriminate)) as Dm. replace (S mod 86400)%Z with ((12 * minute (map dec_val [t_year (h_start h); t_month (h_start h); t_day (h_start h); t_hour (h_start h); t_min (h_start h)]) + i - 17280 * (S / 86400)) * 5)%Z; [apply Z_mod_mult|].
        unfold S in Dm |- *. lia. }
      assert (Mx : (mjd < 100000)%Z).
      { unfold mjd. destruct Fm as (Fd & _ & Fl). eapply Z.lt_le_trans; [apply (dec_val_bound _ Fd)|]. change 100000%Z with (10 ^ 5)%Z. apply Z.pow_le_mono_r; lia. }
      apply (sec_round 16 mjd s); [lia|change (2 ^ 16)%Z with 65536%Z; change (2 ^ (16 + 1))%Z with 131072%Z; lia|exact Hs|rewrite S5; apply fives_fine|exact F0|exact Fg|exact Fs].
Qed.

(** ** positions *)
Lemma two_rounds q k : 2 ^ (-1000) <= Qabs q \/ q == 0 -> 1 <= k -> as_written (b64 (b64 q * k)) (q * k).
Proof.
  intros H K. unfold as_written. destruct H as [H|H].
  - assert (A : Qabs (b64 q - q) <= 2 ^ (-53) * Qabs q) by (apply b64_rel; eapply Qle_trans; [|exact H]; apply pow_le; lia).
    assert (T : 2 ^ (-53) * Qabs q <= (1 # 2) * Qabs q) by (apply Qmult_le_compat_r; [vm_compute; discriminate|apply Qabs_nonneg]).
    assert (Lo : (1 # 2) * Qabs q <= Qabs (b64 q)).
    { pose proof (Qabs_triangle (b64 q) (q - b64 q)) as X. rewrite (Qabs_wd (b64 q + (q - b64 q)) q) in X by ring.
      rewrite (Qabs_wd (q - b64 q) (- (b64 q - q))), Qabs_opp in X by ring. lra. }
    assert (Hi : Qabs (b64 q) <= (1 + 2 ^ (-53)) * Qabs q).
    { pose proof (Qabs_triangle q (b64 q - q)) as X. rewrite (Qabs_wd (q + (b64 q - q)) (b64 q)) in X by ring. lra. }
    assert (B : Qabs (b64 (b64 q * k) - b64 q * k) <= 2 ^ (-53) * Qabs (b64 q * k)).
    { apply b64_rel. rewrite Qabs_Qmult, (Qabs_pos k) by lra. apply Qle_trans with (Qabs (b64 q) * 1); [|rewrite (Qmult_comm _ 1), (Qmult_comm _ k); apply Qmult_le_compat_r; [exact K|apply Qabs_nonneg]].
      apply Qle_trans with ((1 # 2) * 2 ^ (-1000)); [vm_compute; discriminate|]. lra. }
    rewrite !Qabs_Qmult, (Qabs_pos k) in * by lra.
    pose proof (Qabs_triangle (b64 (b64 q * k) - b64 q * k) ((b64 q - q) * k)) as X.
    rewrite (Qabs_wd (b64 (b64 q * k) - b64 q * k + (b64 q - q) * k) (b64 (b64 q * k) - q * k)) in X by ring. rewrite Qabs_Qmult, (Qabs_pos k) in X by lra.
    set (aq := Qabs q) in *. set (E := Qabs (b64 (b64 q * k) - q * k)) in *. set (E1 := Qabs (b64 (b64 q * k) - b64 q * k)) in *. set (E2 := Qabs (b64 q - q)) in *. set (ab := Qabs (b64 q)) in *.
    assert (Aq : 0 <= aq) by apply Qabs_nonneg.
    assert (Y1 : E2 * k <= 2 ^ (-53) * aq * k) by (apply Qmult_le_compat_r; [exact A|lra]).
    assert (Y2 : ab * k <= (1 + 2 ^ (-53)) * aq * k) by (apply Qmult_le_compat_r; [exact Hi|lra]).
    assert (W : 0 <= aq * k) by (apply Qmult_le_0_compat; lra). set (w := aq * k) in *.
    assert (Y1' : E2 * k <= 2 ^ (-53) * w) by (unfold w; rewrite Qmult_assoc; exact Y1).
    assert (Y2' : ab * k <= (1 + 2 ^ (-53)) * w) by (unfold w; rewrite Qmult_assoc; exact Y2).
    change (2 ^ (-53)) with (1 # 9007199254740992) in *. change (2 ^ (-51)) with (1 # 2251799813685248).
    clearbody w. set (v := ab * k) in *. set (u := E2 * k) in *. clearbody u v E E1. clear - X Y1' Y2' B W. lra.
  - assert (Z : b64 q * k == 0) by (rewrite (b64_zero q H); ring). rewrite (b64_zero _ Z). rewrite H. vm_compute. discriminate.
Qed.
Lemma num_dec_far n : num_ok n -> 2 ^ (-1000) <= Qabs (num_dec n) \/ num_dec n == 0.
Proof.
  intros (_ & Hi & Hf & _ & _ & Ln & He). unfold num_dec. set (m := dec_val _). set (sm := if is_neg (nsign n) then (- m)%Z else m).
  destruct (Z.eq_dec sm 0) as [->|N]; [right; ring|left].
  set (e := (exp_val n - Z.of_nat (length (nfrac n)))%Z).
  assert (Ev : (-200 <= e)%Z).
  { rewrite app_length in Ln. assert (Ex : (-100 <= exp_val n)%Z).
    { unfold exp_val. destruct (nexp n) as [[[c sg] ds]|]; [|lia]. destruct He as (_ & _ & Dd & _ & Le). pose proof (dec_val_nonneg _ Dd). destruct (is_neg sg); lia. }
    unfold e. lia. }
  rewrite Qabs_Qmult, (Qabs_pos (pow10 e)) by apply pow10_nonneg.
  apply Qle_trans with (1 * (1 # Z.to_pos (10 ^ 200))); [vm_compute; discriminate|].
  apply Qle_trans with (1 * pow10 e).
  - rewrite !Qmult_1_l. unfold pow10. destruct (Z.geb_spec e 0) as [G|G].
    + apply Qle_trans with 1; [vm_compute; discriminate|]. change 1 with (inject_Z 1). rewrite <- Zle_Qle. assert (0 < 10 ^ e)%Z by (apply Z.pow_pos_nonneg; lia). lia.
    + unfold Qle. cbn [Qnum Qden]. rewrite !Z.mul_1_l. assert (P : (0 < 10 ^ - e)%Z) by (apply Z.pow_pos_nonneg; lia). rewrite !Z2Pos.id by (try exact P; reflexivity). apply Z.pow_le_mono_r; lia.
  - apply Qmult_le_compat_r; [|apply pow10_nonneg]. change (Qabs (inject_Z sm)) with (inject_Z (Z.abs sm)). change 1 with (inject_Z 1). rewrite <- Zle_Qle. lia.
Qed.
Lemma b64_lower q : 2 ^ (-1000) <= Qabs q -> (1 # 2) * Qabs q <= Qabs (b64 q).
Proof.
  intro H. assert (A : Qabs (b64 q - q) <= 2 ^ (-53) * Qabs q) by (apply b64_rel; eapply Qle_trans; [|exact H]; apply pow_le; lia).
  assert (T : 2 ^ (-53) * Qabs q <= (1 # 2) * Qabs q) by (apply Qmult_le_compat_r; [vm_compute; discriminate|apply Qabs_nonneg]).
  pose proof (Qabs_triangle (b64 q) (q - b64 q)) as X. rewrite (Qabs_wd (b64 q + (q - b64 q)) q) in X by ring.
  rewrite (Qabs_wd (q - b64 q) (- (b64 q - q))), Qabs_opp in X by ring. lra.
Qed.
Lemma num_zero n : num_ok n -> (num_val n == 0 <-> num_dec n == 0).
Proof.
  intro H. split; intro Z.
  - destruct (num_dec_far n H) as [F|F]; [|exact F]. exfalso. pose proof (b64_lower _ F) as L. fold (num_val n) in L. rewrite Z in L. change (Qabs 0) with 0 in L.
    assert (0 < 2 ^ (-1000)) by apply pow_pos. lra.
  - unfold num_val. rewrite (b64_zero _ Z). reflexivity.
Qed.
Lemma num_limit n : coord_field n -> (999999 <= num_val n <-> 999999 <= num_dec n).
Proof.
  intros (H & L). assert (Dl : double 999999) by (apply (double_int 999999); discriminate).
  split; [|intro G; apply b64_ge; assumption]. intro G. destruct (Qlt_le_dec (num_dec n) 999999) as [Lt|Ge]; [exfalso|exact Ge].
  assert (Up : forall x, double x -> num_dec n <= x -> x < 999999 -> False).
  { intros x Dx Lx X. pose proof (b64_le x _ Dx Lx) as Y. fold (num_val n) in Y. lra. }
  destruct (Qlt_le_dec (num_dec n) 0) as [Ng|Nn]; [apply (Up 0); [apply (double_int 0); discriminate|lra|reflexivity]|].
  assert (Gap : num_dec n <= 999999 - (1 # 10000000)).
  { destruct H as (Sg & Hi & Hf & _ & Nd & _ & _). unfold num_dec in *. set (m := dec_val _) in *. set (sm := if is_neg (nsign n) then (- m)%Z else m) in *.
    assert (Dm : digits (nint n ++ nfrac n)) by (apply digits_app; split; assumption).
    assert (Bm : (Z.abs sm < 10 ^ 13)%Z).
    { pose proof (dec_val_nonneg _ Dm) as N. pose proof (dec_val_bound _ Dm) as B. fold m in N, B. assert (Z.abs sm = m) as -> by (unfold sm; destruct (is_neg (nsign n)); lia).
      eapply Z.lt_le_trans; [exact B|]. apply Z.pow_le_mono_r; [lia|]. unfold num_text, mant_text in L. rewrite !app_length in L. rewrite app_length.
      destruct (ndot n); [cbn [length] in L; lia|rewrite (Nd eq_refl); cbn [length]; lia]. }
    set (e := (exp_val n - Z.of_nat (length (nfrac n)))%Z) in *.
    assert (Int : forall d, (0 <= d <= 7)%Z -> inject_Z sm * pow10 e * inject_Z (10 ^ d) == inject_Z sm * inject_Z (10 ^ (e + d)) -> (0 <= e + d)%Z -> inject_Z sm * pow10 e <= 999999 - (1 # 10000000)).
    { intros d Hd E Pd. set (q := inject_Z sm * pow10 e) in *. assert (X : (sm * 10 ^ (e + d) < 999999 * 10 ^ d)%Z).
      { rewrite Zlt_Qlt, !inject_Z_mult, <- E. apply Qmult_lt_r; [|exact Lt]. change 0 with (inject_Z 0). rewrite <- Zlt_Qlt. apply Z.pow_pos_nonneg; lia. }
      assert (Y : (sm * 10 ^ (e + d) + 1 <= 999999 * 10 ^ d)%Z) by lia. rewrite Zle_Qle, inject_Z_plus, !inject_Z_mult, <- E in Y. change (inject_Z 1) with 1 in Y. change (inject_Z 999999) with 999999 in Y.
      assert (T1 : 0 < inject_Z (10 ^ d)) by (change 0 with (inject_Z 0); rewrite <- Zlt_Qlt; apply Z.pow_pos_nonneg; lia).
      assert (T2 : inject_Z (10 ^ d) <= 10000000) by (change 10000000 with (inject_Z (10 ^ 7)); rewrite <- Zle_Qle; apply Z.pow_le_mono_r; lia).
      destruct (Qlt_le_dec (999999 - (1 # 10000000)) q) as [Bad|Ok]; [exfalso|exact Ok].
      assert (W : (999999 - (1 # 10000000)) * inject_Z (10 ^ d) < q * inject_Z (10 ^ d)) by (apply Qmult_lt_r; assumption). lra. }
    destruct (Z_le_gt_dec 0 e) as [P|P].
    - apply (Int 0%Z); [lia| |lia]. replace (e + 0)%Z with e by ring. change (inject_Z (10 ^ 0)) with 1. rewrite Qmult_1_r. unfold pow10. destruct (Z.geb_spec e 0); [reflexivity|lia].
    - pose proof (pow10_cancel (- e) ltac:(lia)) as C. rewrite Z.opp_involutive in C.
      destruct (Z_le_gt_dec (- e) 7) as [D|D].
      + apply (Int (- e)%Z); [lia| |lia]. rewrite Z.add_opp_diag_r. change (inject_Z (10 ^ 0)) with 1. rewrite <- Qmult_assoc, C. reflexivity.
      + assert (X : pow10 e <= 1 # 100000000).
        { unfold pow10. destruct (Z.geb_spec e 0); [lia|]. unfold Qle. cbn [Qnum Qden]. rewrite !Z.mul_1_l, Z2Pos.id by (apply Z.pow_pos_nonneg; lia). change 100000000%Z with (10 ^ 8)%Z. apply Z.pow_le_mono_r; lia. }
        apply Qle_trans with (inject_Z (10 ^ 13) * (1 # 100000000)); [|vm_compute; discriminate].
        apply Qle_trans with (inject_Z (10 ^ 13) * pow10 e); [apply Qmult_le_compat_r; [rewrite <- Zle_Qle; lia|apply pow10_nonneg]|].
        rewrite !(Qmult_comm (inject_Z (10 ^ 13))). apply Qmult_le_compat_r; [exact X|discriminate]. }
  assert (A : Qabs (b64 (num_dec n) - num_dec n) <= 2 ^ (20 - 54)).
  { apply b64_abs; [discriminate|]. rewrite Qabs_pos by exact Nn. eapply Qlt_trans; [exact Lt|reflexivity]. }
  fold (num_val n) in A. change (2 ^ (20 - 54)) with (1 # 17179869184) in A. apply Qabs_Qle_condition in A. lra.
Qed.
