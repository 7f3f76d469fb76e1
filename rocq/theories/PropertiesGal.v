(** PropertiesGal: C105, signal accuracy and issue of data of a Galileo message *)
From Coq Require Import Qabs Qround Lqa.
From Verif Require Import Base CNum Stream ModelSatsys ModelNav ModelGal SpecB64 ProofB64 SpecText SpecNum SpecObs SpecHeader SpecNav ProofNav ProofStream PropertiesNav.
Local Open Scope Q_scope.

(** RINEX 3.04 table A8: IODnav is the first number of the first orbit line, SISA (m) the first of the sixth *)
Definition iod_of (b : nav_src) : option numlit := match nth_error (b_orb b) 0 with Some l => match nth_error (fst l) 0 with Some o => o | None => None end | None => None end.
Definition sisa_of (b : nav_src) : option numlit := match nth_error (b_orb b) 5 with Some l => match nth_error (fst l) 0 with Some o => o | None => None end | None => None end.
Lemma iod_at b : iod_of b = number_at b 3. Proof. reflexivity. Qed.
Lemma sisa_at b : sisa_of b = number_at b 23. Proof. reflexivity. Qed.

Lemma quot_int q z : q == inject_Z z -> Z.quot (Qnum q) (Zpos (Qden q)) = z.
Proof. destruct q as [n d]. unfold Qeq. cbn. intro H. rewrite Z.mul_1_r in H. rewrite H. apply Z.quot_mul. discriminate. Qed.

(** a block that has been read gives its issue of data ... *)
Theorem C105_iod : forall strp cal b tail st f n z, reads_dates strp cal -> block_ok b -> b_sys b = Galileo -> length (f_data f) = 31%nat ->
  at_rest st (block_text b ++ tail) -> iod_of b = Some n -> num_dec n == inject_Z z -> (- 2 ^ 31 <= z < 2 ^ 31)%Z ->
  exists g st', read_next_record strp st f 0 = Val (mkNav 0 g st' 0) /\ gal_iod_nav g = Val z.
Proof.
  intros strp cal b tail st f n z RD Ok Sy L R N Hz Bz.
  destruct (C39_decode_partial strp cal b tail st f RD Ok) as (g & st' & E & _ & _ & _ & _ & _ & S); [rewrite Sy; discriminate|exact L|exact R|].
  exists g, st'. split; [exact E|]. unfold gal_iod_nav, datum. rewrite iod_at in N. rewrite Sy in S. rewrite (S 3%nat n eq_refl N). cbn [bind si_value]. unfold to_int, trunc_in.
  assert (V : num_val n == inject_Z z) by (unfold num_val; rewrite (b64_wd _ _ Hz); apply b64_int; lia).
  rewrite (quot_int _ _ V). destruct (Z.leb_spec (-2147483648) z); [|lia]. destruct (Z.leb_spec z 2147483647); [|lia]. reflexivity.
Qed.
Print Assumptions C105_iod.

Lemma abs_le_pow q k : (-1000 <= k)%Z -> Qabs q < 2 ^ k -> Qabs (b64 q) <= 2 ^ k.
Proof.
  intros Hk H. assert (D : double (2 ^ k)) by (apply (double_wd (inject_Z 1 * 2 ^ k)); [ring|apply double_ge; [cbn; lia|lia]]).
  assert (D' : double (- 2 ^ k)) by (apply (double_wd (inject_Z (-1) * 2 ^ k)); [unfold inject_Z; ring|apply double_ge; [cbn; lia|lia]]).
  apply Qabs_Qlt_condition in H. apply Qabs_Qle_condition. split; [apply b64_ge; [exact D'|lra]|apply b64_le; [exact D|lra]].
Qed.
Lemma no_overflow q : Qabs q <= 2 ^ 127 -> flt_overflows q = false.
Proof.
  intro H. unfold flt_overflows. rewrite Z.geb_leb. apply Z.leb_gt. destruct q as [n d]. unfold Qabs in H. rewrite (pow_z 127) in H by lia. unfold Qle in H. cbn [Qnum Qden inject_Z] in *. unfold FLT_OVER. nia.
Qed.
(** ... and its accuracy as a float: within 2^-23 of the written number, relative to the next power of two above it,
    and exactly when that is an integer (-1: no accuracy prediction) *)
Theorem C105_sisa : forall strp cal b tail st f n k, reads_dates strp cal -> block_ok b -> b_sys b = Galileo -> length (f_data f) = 31%nat ->
  at_rest st (block_text b ++ tail) -> sisa_of b = Some n -> (-100 <= k <= 127)%Z -> Qabs (num_dec n) < 2 ^ k ->
  exists g st' v, read_next_record strp st f 0 = Val (mkNav 0 g st' 0) /\ gal_sisa g = Val (DFin v) /\
    float v /\ Qabs (v - num_dec n) <= 2 ^ (k - 23) /\ (forall z, (Z.abs z <= 2 ^ 24)%Z -> num_dec n == inject_Z z -> v == inject_Z z).
Proof.
  intros strp cal b tail st f n k RD Ok Sy L R N Bk Hk.
  destruct (C39_decode_partial strp cal b tail st f RD Ok) as (g & st' & E & _ & _ & _ & _ & _ & S); [rewrite Sy; discriminate|exact L|exact R|].
  exists g, st', (b32 (num_val n)). split; [exact E|]. unfold gal_sisa, datum. rewrite sisa_at in N. rewrite Sy in S. rewrite (S 23%nat n eq_refl N). cbn [bind si_value to_float].
  assert (A : Qabs (num_val n) <= 2 ^ k) by (apply abs_le_pow; [lia|exact Hk]).
  assert (A' : Qabs (num_val n) < 2 ^ (k + 1)) by (eapply Qle_lt_trans; [exact A|apply pow_lt; lia]).
  rewrite no_overflow by (eapply Qle_trans; [exact A|apply pow_le; lia]). split; [reflexivity|]. split; [apply (b32_nearest (num_val n))|]. split.
  - assert (B : Qabs (b32 (num_val n) - num_val n) <= 2 ^ (k + 1 - 25)) by (apply b32_abs; [lia|exact A']).
    assert (C : Qabs (num_val n - num_dec n) <= 2 ^ (k - 54)) by (apply b64_abs; [lia|exact Hk]).
    setoid_replace (b32 (num_val n) - num_dec n) with ((b32 (num_val n) - num_val n) + (num_val n - num_dec n)) by ring.
    eapply Qle_trans; [apply Qabs_triangle|]. assert (P1 : 2 ^ (k - 54) <= 2 ^ (k - 24)) by (apply pow_le; lia).
    assert (P2 : 2 ^ (k - 23) == 2 ^ (k - 24) + 2 ^ (k - 24)) by (replace (k - 23)%Z with (k - 24 + 1)%Z by lia; rewrite pow_add; change (2 ^ 1) with 2; ring).
    replace (k + 1 - 25)%Z with (k - 24)%Z in B by lia. rewrite P2. lra.
  - intros z Bz Hz. assert (V : num_val n == inject_Z z) by (unfold num_val; rewrite (b64_wd _ _ Hz); apply b64_int; lia).
    rewrite (b32_wd _ _ V). apply b32_int. exact Bz.
Qed.
Print Assumptions C105_sisa.
(** ... and a number that no float can hold becomes the infinity of its sign *)
Theorem C105_sisa_too_large : forall strp cal b tail st f n, reads_dates strp cal -> block_ok b -> b_sys b = Galileo -> length (f_data f) = 31%nat ->
  at_rest st (block_text b ++ tail) -> sisa_of b = Some n -> 2 ^ 128 <= Qabs (num_dec n) ->
  exists g st' neg, read_next_record strp st f 0 = Val (mkNav 0 g st' 0) /\ gal_sisa g = Val (DInf neg) /\ (neg = true <-> num_dec n < 0).
Proof.
  intros strp cal b tail st f n RD Ok Sy L R N Bk.
  destruct (C39_decode_partial strp cal b tail st f RD Ok) as (g & st' & E & _ & _ & _ & _ & _ & S); [rewrite Sy; discriminate|exact L|exact R|].
  exists g, st', (Qnum (num_val n) <? 0)%Z. split; [exact E|]. unfold gal_sisa, datum. rewrite sisa_at in N. rewrite Sy in S. rewrite (S 23%nat n eq_refl N). cbn [bind si_value to_float].
  assert (D : double (2 ^ 128)) by (apply (double_wd (inject_Z 1 * 2 ^ 128)); [ring|apply double_ge; [cbn; lia|lia]]).
  assert (D' : double (- 2 ^ 128)) by (apply (double_wd (inject_Z (-1) * 2 ^ 128)); [unfold inject_Z; ring|apply double_ge; [cbn; lia|lia]]).
  assert (P : 0 < 2 ^ 128) by apply pow_pos.
  assert (C : (0 <= num_dec n /\ 2 ^ 128 <= num_val n) \/ (num_dec n < 0 /\ num_val n <= - 2 ^ 128)).
  { destruct (Qlt_le_dec (num_dec n) 0) as [H|H]; [right|left]; (split; [exact H|]).
    - apply b64_le; [exact D'|]. rewrite Qabs_neg in Bk by lra. lra.
    - apply b64_ge; [exact D|]. rewrite Qabs_pos in Bk by exact H. exact Bk. }
  assert (O : flt_overflows (num_val n) = true).
  { assert (B : 2 ^ 128 <= Qabs (num_val n)) by (destruct C as [(_ & C)|(_ & C)]; [rewrite Qabs_pos by lra; exact C|rewrite Qabs_neg by lra; lra]).
    clear -B. set (q := num_val n) in *. clearbody q. unfold flt_overflows. rewrite Z.geb_leb. apply Z.leb_le. destruct q as [m d]. unfold Qabs in B.
    rewrite (pow_z 128) in B by lia. unfold Qle in B. cbn [Qnum Qden inject_Z] in *. unfold FLT_OVER. nia. }
  rewrite O. split; [reflexivity|]. rewrite Z.ltb_lt. set (q := num_val n) in *. clearbody q. destruct q as [m d].
  destruct C as [(H & C)|(H & C)]; split; intro K; try lra.
  - exfalso. assert (0 < m # d) by lra. unfold Qlt in H0. cbn in *. nia.
  - assert (X : m # d < 0) by lra. unfold Qlt in X. cbn in *. nia.
Qed.
Print Assumptions C105_sisa_too_large.
(** *** IODnav 78, SISA 3.12 m; and SISA -1 *)
Definition n78 := nv "7" "800000000000" "01".
Definition n312 := nv "3" "120000000000" "00".
Lemma n78_ok : nav_field n78. Proof. navf. Qed.
Lemma n312_ok : nav_field n312. Proof. navf. Qed.
Ltac nok ::= first [exact n0_ok|exact n1_ok|exact nm1_ok|exact weekn_ok|exact sown_ok|exact fitn_ok|exact n78_ok|exact n312_ok].
Definition gal_b2 : nav_src := mkNavSrc "E"%char Galileo (lit "11") date1 [nm1; n1; n0] 0
  [full n78 nm1 n1 n1; full nm1 n1 nm1 n1; full sown n1 n1 nm1; full n1 n1 n1 nm1; ([Some n1; Some n1; Some weekn], 0%nat); full n312 n0 nm1 n1; ([Some sown], 0%nat)].
Lemma gal_b2_ok : block_ok gal_b2. Proof. blk. split; split; vm_compute; discriminate. Qed.
Example C105_ex : exists g st, read_next_record strp_fix (open_stream (block_text gal_b2)) frame0 0 = Val (mkNav 0 g st 0) /\ gal_iod_nav g = Val 78%Z.
Proof.
  apply (C105_iod strp_fix civil gal_b2 [] _ frame0 n78 78 strp_fix_reads gal_b2_ok eq_refl eq_refl); [rewrite app_nil_r; apply open_rest|reflexivity|vm_compute; reflexivity|lia].
Qed.
Example C105_sisa_ex : exists g st v, read_next_record strp_fix (open_stream (block_text gal_b2)) frame0 0 = Val (mkNav 0 g st 0) /\ gal_sisa g = Val (DFin v) /\ Qabs (v - (312 # 100)) <= 1 # 2000000.
Proof.
  destruct (C105_sisa strp_fix civil gal_b2 [] (open_stream (block_text gal_b2)) frame0 n312 2 strp_fix_reads gal_b2_ok eq_refl eq_refl) as (g & st & v & A & B & _ & D & _); [rewrite app_nil_r; apply open_rest|reflexivity|lia|vm_compute; reflexivity|].
  exists g, st, v. split; [exact A|]. split; [exact B|]. eapply Qle_trans; [|eapply Qle_trans; [exact D|]]; [|vm_compute; discriminate].
  assert (X : num_dec n312 == 312 # 100) by (vm_compute; reflexivity). rewrite X. apply Qle_refl.
Qed.
(** SISA -9.876543210987D+40 *)
Definition nhuge : numlit := mkNum (Some "-"%char) (lit "9") true (lit "876543210987") (Some ("D"%char, Some "+"%char, lit "40")).
Lemma nhuge_ok : nav_field nhuge. Proof. navf. Qed.
Ltac nok ::= first [exact n0_ok|exact n1_ok|exact nm1_ok|exact weekn_ok|exact sown_ok|exact fitn_ok|exact n78_ok|exact nhuge_ok].
Definition gal_b3 : nav_src := mkNavSrc "E"%char Galileo (lit "11") date1 [nm1; n1; n0] 0
  [full n78 nm1 n1 n1; full nm1 n1 nm1 n1; full sown n1 n1 nm1; full n1 n1 n1 nm1; ([Some n1; Some n1; Some weekn], 0%nat); full nhuge n0 nm1 n1; ([Some sown], 0%nat)].
Lemma gal_b3_ok : block_ok gal_b3. Proof. blk. split; split; vm_compute; discriminate. Qed.
Example C105_too_large_ex : exists g st, read_next_record strp_fix (open_stream (block_text gal_b3)) frame0 0 = Val (mkNav 0 g st 0) /\ gal_sisa g = Val (DInf true).
Proof.
  destruct (C105_sisa_too_large strp_fix civil gal_b3 [] (open_stream (block_text gal_b3)) frame0 nhuge strp_fix_reads gal_b3_ok eq_refl eq_refl) as (g & st & s & A & B & C); [rewrite app_nil_r; apply open_rest|reflexivity|vm_compute; discriminate|].
  exists g, st. split; [exact A|]. rewrite B. destruct s; [reflexivity|]. exfalso. assert (X : num_dec nhuge < 0) by (vm_compute; reflexivity). apply C in X. discriminate X.
Qed.
