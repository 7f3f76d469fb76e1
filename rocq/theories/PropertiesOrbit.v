(** PropertiesOrbit: C46-C51, C57, C68-C71 *)
From Coq Require Import Reals Lra Lia ZArith List Qreals QArith.
From Verif Require Import B64 CNum SpecNum ModelSatsys ModelNav SpecNav ModelOrbit SpecOrbit ProofOrbit ProofGlo PropertiesNav.
Import ListNotations.
Local Open Scope R_scope.

Definition sys_of (s : kepsys) : satsys := match s with KGps => Gps | KGal => Galileo | KBds => Beidou end.
Lemma mi_ok s : mi_sys s = mu_of (sys_of s). Proof. destruct s; cbn; lra. Qed.
Lemma oe_ok s : omegae s = Oe_of (sys_of s). Proof. destruct s; cbn; lra. Qed.
Lemma f_ok s : f_clock s = F_of (sys_of s).
Proof.
  destruct s; cbn [f_clock F_of sys_of]; try reflexivity.
  replace (3986004418 * 10 ^ 5) with 398600441800000 by lra. replace (299792458 ^ 2) with (299792458 * 299792458) by lra. reflexivity.
Qed.

(** ** C46: Kepler's equation *)
(** the iterates contract *)
Theorem C46_contracts : forall e M n, 0 <= e ->
  Rabs (kepler_iter e M (S (S n)) - kepler_iter e M (S n)) <= e * Rabs (kepler_iter e M (S n) - kepler_iter e M n).
Proof.
  intros e M n He. set (x := kepler_iter e M (S n)). set (y := kepler_iter e M n).
  change (kepler_iter e M (S (S n))) with (M + e * sin x). assert (X : x = M + e * sin y) by reflexivity.
  rewrite X at 2. replace (M + e * sin x - (M + e * sin y)) with (e * (sin x - sin y)) by ring.
  rewrite Rabs_mult, (Rabs_pos_eq e He). apply Rmult_le_compat_l; [exact He|apply sin_lip].
Qed.
Print Assumptions C46_contracts.
(** success: the residual and the distance to the one solution *)
Theorem C46_residual : forall e M E, 0 <= e -> kepler_solve e M = Some E -> Rabs (E - e * sin E - M) <= e * / 10 ^ 14.
Proof. exact residual. Qed.
Print Assumptions C46_residual.
Theorem C46_root : forall e M E, 0 <= e < 1 -> kepler_solve e M = Some E ->
  exists E', kepler_eq e M E' /\ (forall E'', kepler_eq e M E'' -> E'' = E') /\ Rabs (E - E') <= e / (1 - e) * / 10 ^ 14.
Proof.
  intros e M E He S. destruct (root_exists e M He) as (E' & K). exists E'. split; [exact K|]. split.
  - intros E'' K''. assert (X : Rabs (E'' - E') * (1 - e) <= 0).
    { apply (near_root e M); [exact He|exact K|]. unfold kepler_eq in K''. rewrite K'', Rminus_eq_0, Rabs_R0. lra. }
    assert (Y : Rabs (E'' - E') = 0) by (pose proof (Rabs_pos (E'' - E')); nra).
    destruct (Req_dec (E'' - E') 0) as [|N]; [lra|]. apply Rabs_no_R0 in N. lra.
  - pose proof (near_root e M E E' _ He K (residual e M E (proj1 He) S)) as X. fold LIMIT.
    apply Rmult_le_reg_r with (1 - e); [lra|]. replace (e / (1 - e) * LIMIT * (1 - e)) with (e * LIMIT) by (field; lra). exact X.
Qed.
Print Assumptions C46_root.
(** always stops; fails iff none of the first 1000 changes is within 1e-14 *)
Theorem C46_stops : forall e M, (fst (kepler_loop 1001 0 M 0 e M) <= 1001)%nat.
Proof. exact loop_steps. Qed.
Print Assumptions C46_stops.
Theorem C46_fails_iff : forall e M, kepler_solve e M = None <-> forall n, (n <= 999)%nat -> / 10 ^ 14 < kepler_gap e M n.
Proof. exact solve_none. Qed.
Print Assumptions C46_fails_iff.
(** eccentricities up to 0.96 (navigation satellites: below 0.03; the broadcast field ends at 0.5) *)
Theorem C46_succeeds : forall e M, 0 <= e <= 96 / 100 -> exists E, kepler_solve e M = Some E.
Proof. intros e M He. destruct (kepler_solve e M) as [E|] eqn:Q; [eauto|]. destruct (solve_converges e M He Q). Qed.
Print Assumptions C46_succeeds.
Example C46_ex : exists E, kepler_solve (1 / 100) (PI / 2) = Some E /\ E <> PI / 2.
Proof.
  destruct (C46_succeeds (1 / 100) (PI / 2) ltac:(lra)) as (E & H). exists E. split; [exact H|]. intros ->.
  pose proof (C46_residual (1 / 100) (PI / 2) (PI / 2) ltac:(lra) H) as R. rewrite sin_PI2 in R.
  replace (PI / 2 - 1 / 100 * 1 - PI / 2) with (- (1 / 100)) in R by ring. rewrite Rabs_Ropp, Rabs_pos_eq in R by lra. lra.
Qed.

(** ** C47: orbit geometry *)
(** the position is that of IS-GPS-200 table 20-IV, with the anomaly found for the mean anomaly
    M0 + n tk *)
Theorem C47_position : forall s f t k, 0 <= r_data f 8 < 1 -> kepler2state s f t = Some k ->
  let p := eph_of (r_data f) in let tk := t - r_toe f in
  icd_position (mu_of (sys_of s)) (Oe_of (sys_of s)) p tk (k_E k) (k_x k) (k_y k) (k_z k) /\
  exists E', kepler_eq (ecc p) (M0 p + mean_motion (mu_of (sys_of s)) p * tk) E' /\
             Rabs (k_E k - E') <= ecc p / (1 - ecc p) * / 10 ^ 14.
Proof.
  intros s f t k He S p tk. unfold kepler2state in S. fold tk in S.
  destruct (kepler_solve (r_data f 8) (mean_anomaly s f tk)) as [E|] eqn:KS; [|discriminate]. injection S as <-.
  cbn [k_x k_y k_z k_E]. split.
  - pose proof (anomaly_ok (r_data f 8) E He) as TA.
    set (v := atan2 (sqrt (1 - r_data f 8 * r_data f 8) * sin E / (1 - r_data f 8 * cos E)) ((cos E - r_data f 8) / (1 - r_data f 8 * cos E))) in *.
    unfold icd_position. do 6 eexists. split; [exact TA|]. rewrite <- oe_ok. unfold p, eph_of. cbn [ecc sqrtA omega Cus Cuc Crs Crc i0 Cis Cic IDOT Omega0 OMEGADOT toe_sow].
    repeat (split; [reflexivity|]).
    replace (r_data f 10 ^ 2) with (r_data f 10 * r_data f 10) by ring. split; [ring|]. split; ring.
  - assert (M : mean_anomaly s f tk = M0 p + mean_motion (mu_of (sys_of s)) p * tk).
    { unfold mean_anomaly, mean_motion, p, eph_of. cbn [M0 sqrtA Deltan]. rewrite mi_ok. do 5 f_equal. ring. }
    rewrite M in KS. destruct (C46_root _ _ _ He KS) as (E' & K & _ & B). exists E'. split; [exact K|exact B].
Qed.
Print Assumptions C47_position.
(** distance from the geocentre: |r|, r = A (1 - e cos E) + dr; |z| <= |r| *)
Lemma sphere r u i Om : 
  (r * cos u * cos Om - r * sin u * cos i * sin Om) ^ 2 + (r * cos u * sin Om + r * sin u * cos i * cos Om) ^ 2 + (r * sin u * sin i) ^ 2 = r ^ 2.
Proof.
  pose proof (sin2_cos2 u) as U. pose proof (sin2_cos2 i) as I. pose proof (sin2_cos2 Om) as O. unfold Rsqr in *.
  transitivity (r ^ 2 * ((cos u * cos u + sin u * sin u * (cos i * cos i)) * (sin Om * sin Om + cos Om * cos Om) + sin u * sin u * (sin i * sin i))); [ring|].
  rewrite O. transitivity (r ^ 2 * (cos u * cos u + sin u * sin u * (sin i * sin i + cos i * cos i))); [ring|]. rewrite I.
  transitivity (r ^ 2 * (sin u * sin u + cos u * cos u)); [ring|]. rewrite U. ring.
Qed.
Theorem C47_radius : forall s f t k, 0 <= r_data f 8 < 1 -> kepler2state s f t = Some k ->
  let p := eph_of (r_data f) in
  exists v, true_anomaly (ecc p) (k_E k) v /\
    let r := sqrtA p ^ 2 * (1 - ecc p * cos (k_E k)) + (Crs p * sin (2 * (v + omega p)) + Crc p * cos (2 * (v + omega p))) in
    norm3 (k_x k) (k_y k) (k_z k) = Rabs r /\ Rabs (k_z k) <= Rabs r.
Proof.
  intros s f t k He S p. destruct (C47_position s f t k He S) as ((v & Phi & u & r & i & Om & TA & -> & Hu & Hr & Hi & HO & Hx & Hy & Hz) & _).
  exists v. split; [exact TA|]. intro r'. assert (R : r' = r) by (rewrite Hr; reflexivity). rewrite R.
  assert (Q : k_x k ^ 2 + k_y k ^ 2 + k_z k ^ 2 = r ^ 2) by (rewrite Hx, Hy, Hz; apply sphere).
  split.
  - unfold norm3. rewrite Q. replace (r ^ 2) with (Rsqr r) by (unfold Rsqr; ring). apply sqrt_Rsqr_abs.
  - apply Rsqr_le_abs_0. unfold Rsqr. nra.
Qed.
Print Assumptions C47_radius.
Local Opaque kepler_solve.
(** only the documented slots 4..19 and the ephemeris epoch matter *)
Theorem C47_slots : forall s f g t, (forall i, (4 <= i <= 19)%nat -> r_data f i = r_data g i) -> r_toe f = r_toe g ->
  kepler2state s f t = kepler2state s g t.
Proof.
  intros s f g t H T. unfold kepler2state, mean_anomaly. rewrite T, !H by lia. reflexivity.
Qed.
Print Assumptions C47_slots.
(** it succeeds, and a point in the orbit at perigee *)
Theorem C47_defined : forall s f t, 0 <= r_data f 8 <= 96 / 100 -> exists k, kepler2state s f t = Some k.
Proof.
  intros s f t H. unfold kepler2state. destruct (C46_succeeds (r_data f 8) (mean_anomaly s f (t - r_toe f)) H) as (E & ->). eexists. reflexivity.
Qed.
Print Assumptions C47_defined.
Definition slot (l : list (nat * R)) (i : nat) : R :=
  match find (fun p => Nat.eqb (fst p) i) l with Some p => snd p | None => 0 end.
Definition gps_ex : rframe := mkR (slot [(10%nat, 5153); (8%nat, 1 / 100)]) 7200 7200.
Lemma solve_zero e : kepler_solve e 0 = Some 0.
Proof.
  apply solve_some. exists 0%nat. split; [lia|]. split; [reflexivity|]. cbn. rewrite Rabs_R0. pose proof limit_pos. split; [lra|]. intros; lia.
Qed.
Example C47_ex : exists k, kepler2state KGps gps_ex 7200 = Some k /\ norm3 (k_x k) (k_y k) (k_z k) = 5153 ^ 2 * (99 / 100).
Proof.
  destruct (kepler2state KGps gps_ex 7200) as [k|] eqn:S.
  - exists k. split; [reflexivity|]. destruct (C47_radius KGps gps_ex 7200 k) as (v & _ & R & _); [cbn; lra|exact S|].
    rewrite R. clear R. unfold kepler2state, mean_anomaly in S. cbn [gps_ex r_data r_toe slot find fst snd Nat.eqb] in S.
    replace (0 + (sqrt (mi_sys KGps / (5153 * 5153 * (5153 * 5153) * (5153 * 5153))) + 0) * (7200 - 7200)) with 0 in S by ring.
    rewrite solve_zero in S. injection S as <-. cbn [k_E gps_ex r_data eph_of sqrtA ecc Crs Crc slot find fst snd Nat.eqb]. rewrite cos_0, !Rmult_0_l. rewrite Rabs_pos_eq; lra.
  - exfalso. destruct (C47_defined KGps gps_ex 7200) as (k & K); [cbn; lra|congruence].
Qed.

(** ** C71: BeiDou geostationary satellites (PRN 1 to 5) need another rotation *)
Definition C71_full : Prop := forall prn f t k, (1 <= prn)%Z -> 0 <= r_data f 8 < 1 -> kepler2state KBds f t = Some k ->
  (if (prn <=? 5)%Z then bds_geo_position else icd_position)
    (mu_of Beidou) (Oe_of Beidou) (eph_of (r_data f)) (t - r_toe f) (k_E k) (k_x k) (k_y k) (k_z k).
(** perigee in direction y, orbit in the equator *)
Definition geo_ex : rframe := mkR (slot [(10%nat, 6493); (17%nat, PI / 2)]) 7200 7200.
Theorem C71_full_refuted : ~ C71_full.
Proof.
  intro H. destruct (kepler2state KBds geo_ex 7200) as [k|] eqn:S.
  2: { destruct (C47_defined KBds geo_ex 7200) as (k & K); [cbn; lra|congruence]. }
  specialize (H 1%Z geo_ex 7200 k ltac:(lia) ltac:(cbn; lra) S). cbn [Z.leb] in H. change (1 <=? 5)%Z with true in H. cbv iota in H.
  unfold kepler2state, mean_anomaly in S. cbn [geo_ex r_data r_toe slot find fst snd Nat.eqb] in S.
  replace (0 + (sqrt (mi_sys KBds / (6493 * 6493 * (6493 * 6493) * (6493 * 6493))) + 0) * (7200 - 7200)) with 0 in S by ring.
  rewrite solve_zero in S. injection S as <-. cbn [k_E k_x k_y k_z] in H.
  destruct H as (v & Phi & u & r & i & Om & X & Y & Z & (Cv & Sv) & -> & Hu & Hr & Hi & HO & HX & HY & HZ & H).
  cbn [geo_ex eph_of r_data r_toe slot find fst snd Nat.eqb ecc sqrtA omega Cus Cuc Crs Crc i0 Cis Cic IDOT Omega0 OMEGADOT toe_sow] in *.
  rewrite cos_0, sin_0 in *. 
  assert (Hi0 : i = 0) by lra. assert (HO0 : Om = 0) by lra. assert (Hr0 : r = 6493 ^ 2) by lra. assert (Hu0 : u = v + PI / 2) by lra.
  assert (Cv1 : cos v = 1) by lra. 
  rewrite Hi0, HO0, cos_0, sin_0 in *.
  assert (Su : sin u = 1). { rewrite Hu0, sin_plus, cos_PI2, sin_PI2, Cv1. ring. }
  rewrite Su in *. assert (Z0 : Z = 0) by lra. assert (Y0 : Y = 6493 ^ 2) by (rewrite HY, Hr0; ring).
  cbv zeta in H. destruct H as (_ & _ & H). rewrite Z0, Y0 in H.
  replace (0 + (0 * sin (2 * (atan2 (sqrt (1 - 0 * 0) * 0 / (1 - 0 * 1)) ((1 - 0) / (1 - 0 * 1)) + PI / 2)) + 0 * cos (2 * (atan2 (sqrt (1 - 0 * 0) * 0 / (1 - 0 * 1)) ((1 - 0) / (1 - 0 * 1)) + PI / 2))) + 0 * (7200 - 7200)) with 0 in H by ring.
  rewrite sin_0, sin_neg in H. assert (P : 0 < sin (5 * PI / 180)) by (pose proof PI_RGT_0; apply sin_gt_0; lra). lra.
Qed.
Print Assumptions C71_full_refuted.
(** for the others (PRN 6 and above) it holds *)
Theorem C71_not_geo_partial : forall prn f t k, (6 <= prn)%Z -> 0 <= r_data f 8 < 1 -> kepler2state KBds f t = Some k ->
  (if (prn <=? 5)%Z then bds_geo_position else icd_position)
    (mu_of Beidou) (Oe_of Beidou) (eph_of (r_data f)) (t - r_toe f) (k_E k) (k_x k) (k_y k) (k_z k).
Proof.
  intros prn f t k P He S. destruct (Z.leb_spec prn 5); [lia|]. exact (proj1 (C47_position KBds f t k He S)).
Qed.
Print Assumptions C71_not_geo_partial.

(** ** C48: the satellite clock *)
(** the value; [E] is the anomaly handed in, or the one found for the time since ToC *)
Theorem C48_value : forall s f t Ein c, 0 <= r_data f 8 < 1 -> sv_clock s f t Ein = Some c ->
  let p := eph_of (r_data f) in let dt := t - r_toc f in
  exists E, c = r_data f 0 + r_data f 1 * dt + r_data f 2 * dt ^ 2 + F_of (sys_of s) * ecc p * sqrtA p * sin E /\
    match Ein with
    | Some E0 => E = E0
    | None => exists E', kepler_eq (ecc p) (M0 p + mean_motion (mu_of (sys_of s)) p * dt) E' /\ Rabs (E - E') <= ecc p / (1 - ecc p) * / 10 ^ 14
    end.
Proof.
  intros s f t Ein c He S p dt. unfold sv_clock in S. fold dt in S. rewrite f_ok in S.
  destruct Ein as [E0|].
  - injection S as <-. exists E0. split; [|reflexivity]. unfold p, eph_of. cbn [ecc sqrtA]. ring.
  - destruct (kepler_solve (r_data f 8) (mean_anomaly s f dt)) as [E|] eqn:KS; [|discriminate]. injection S as <-. exists E.
    split; [unfold p, eph_of; cbn [ecc sqrtA]; ring|].
    assert (M : mean_anomaly s f dt = M0 p + mean_motion (mu_of (sys_of s)) p * dt).
    { unfold mean_anomaly, mean_motion, p, eph_of. cbn [M0 sqrtA Deltan]. rewrite mi_ok. do 5 f_equal. ring. }
    rewrite M in KS. destruct (C46_root _ _ _ He KS) as (E' & K & _ & B). exists E'. auto.
Qed.
Print Assumptions C48_value.
(** the relativistic part is bounded by |F| e sqrt(A) and vanishes without eccentricity *)
Theorem C48_bound : forall s f t Ein c, sv_clock s f t Ein = Some c ->
  let dt := t - r_toc f in
  Rabs (c - (r_data f 0 + r_data f 1 * dt + r_data f 2 * dt ^ 2)) <= Rabs (F_of (sys_of s)) * Rabs (r_data f 8) * Rabs (r_data f 10).
Proof.
  intros s f t Ein c S dt. unfold sv_clock in S. fold dt in S. rewrite f_ok in S.
  destruct (match Ein with Some E => Some E | None => kepler_solve (r_data f 8) (mean_anomaly s f dt) end) as [E|]; [|discriminate].
  injection S as <-. replace (r_data f 0 + r_data f 1 * dt + r_data f 2 * dt * dt + F_of (sys_of s) * (r_data f 8 * r_data f 10 * sin E) - (r_data f 0 + r_data f 1 * dt + r_data f 2 * dt ^ 2)) with (F_of (sys_of s) * r_data f 8 * r_data f 10 * sin E) by ring.
  rewrite !Rabs_mult. rewrite <- (Rmult_1_r (Rabs (F_of (sys_of s)) * Rabs (r_data f 8) * Rabs (r_data f 10))) at 2.
  apply Rmult_le_compat_l; [|apply Rabs_le; pose proof (SIN_bound E); lra].
  apply Rmult_le_pos; [apply Rmult_le_pos|]; apply Rabs_pos.
Qed.
Print Assumptions C48_bound.
Theorem C48_circular : forall s f t Ein c, r_data f 8 = 0 -> sv_clock s f t Ein = Some c ->
  c = r_data f 0 + r_data f 1 * (t - r_toc f) + r_data f 2 * (t - r_toc f) ^ 2.
Proof.
  intros s f t Ein c Z S. pose proof (C48_bound s f t Ein c S) as B. cbv zeta in B. rewrite Z, Rabs_R0, Rmult_0_r, Rmult_0_l in B.
  set (p := r_data f 0 + r_data f 1 * (t - r_toc f) + r_data f 2 * (t - r_toc f) ^ 2) in *.
  destruct (Req_dec (c - p) 0); [lra|]. apply Rabs_no_R0 in H. pose proof (Rabs_pos (c - p)). lra.
Qed.
Print Assumptions C48_circular.
Theorem C48_defined : forall s f t, 0 <= r_data f 8 <= 96 / 100 -> exists c, sv_clock s f t None = Some c.
Proof.
  intros s f t H. unfold sv_clock. destruct (C46_succeeds (r_data f 8) (mean_anomaly s f (t - r_toc f)) H) as (E & ->). eexists. reflexivity.
Qed.
Print Assumptions C48_defined.

(** full: E is the eccentric anomaly at that instant, [el] seconds after ToE and [dt] after ToC *)
Definition C48_full : Prop := forall s f el dt c E', 0 <= r_data f 8 < 1 ->
  sv_clock s f (r_toc f + dt) None = Some c ->
  (r_toe f + el = r_toc f + dt) ->
  let p := eph_of (r_data f) in
  kepler_eq (ecc p) (M0 p + mean_motion (mu_of (sys_of s)) p * el) E' ->
  Rabs (c - (r_data f 0 + r_data f 1 * dt + r_data f 2 * dt ^ 2 + F_of (sys_of s) * ecc p * sqrtA p * sin E')) <=
    Rabs (F_of (sys_of s)) * ecc p * Rabs (sqrtA p) * (ecc p / (1 - ecc p)) * / 10 ^ 14.
(** the anomaly is computed with the time since ToC in place of the time since ToE: this frame has
    the two one second apart (and mean motion 1) *)
Definition clk_ex : rframe := mkR (slot [(10%nat, 1); (8%nat, 1 / 2); (5%nat, 1 - sqrt (mu_of Gps / (1 ^ 2) ^ 3))]) 0 1.
Theorem C48_full_refuted : ~ C48_full.
Proof.
  intro H. destruct (root_exists (1 / 2) 1 ltac:(lra)) as (E' & K).
  destruct (C48_defined KGps clk_ex 1) as (c & C); [cbn; lra|].
  specialize (H KGps clk_ex 1 0 c E'). cbn [clk_ex r_data r_toe r_toc slot find fst snd Nat.eqb eph_of ecc sqrtA M0 Deltan sys_of mean_motion] in H.
  specialize (H ltac:(lra)). replace (1 + 0) with 1 in H by ring. specialize (H C ltac:(ring)). cbv zeta in H.
  unfold mean_motion, eph_of in H. cbn [Deltan sqrtA slot find fst snd Nat.eqb] in H.
  replace (0 + (sqrt (mu_of Gps / (1 ^ 2) ^ 3) + (1 - sqrt (mu_of Gps / (1 ^ 2) ^ 3))) * 1) with 1 in H by ring. specialize (H K).
  assert (C0 : c = 0).
  { unfold sv_clock, mean_anomaly in C. cbn [clk_ex r_data r_toe r_toc slot find fst snd Nat.eqb] in C.
    replace (1 - 1) with 0 in C by ring. rewrite Rmult_0_r, Rplus_0_r in C. rewrite solve_zero, sin_0 in C. injection C as <-. ring. }
  subst c. set (s := sin E') in *. set (F := F_of Gps) in *.
  assert (F0 : 0 < Rabs F) by (apply Rabs_pos_lt; unfold F, F_of; lra).
  replace (0 - (0 + 0 * 0 + 0 * 0 ^ 2 + F * (1 / 2) * 1 * s)) with (- (F * (s / 2))) in H by field.
  rewrite Rabs_Ropp, Rabs_mult, (Rabs_pos_eq 1) in H by lra.
  assert (S : Rabs (s / 2) <= / 10 ^ 14). { apply Rmult_le_reg_l with (Rabs F); [exact F0|]. eapply Rle_trans; [exact H|]. replace (1 / 2 / (1 - 1 / 2)) with 1 by field.
    pose proof limit_pos as L0. unfold LIMIT in L0. pose proof (Rmult_lt_0_compat _ _ F0 L0). lra. }
  assert (S2 : - / 10 ^ 14 <= s / 2 <= / 10 ^ 14) by (unfold Rabs in S; destruct (Rcase_abs (s / 2)); lra).
  unfold kepler_eq in K. fold s in K.
  (* E' is within 1e-14 of 1 while sin E' is almost 0 *)
  assert (L : Rabs (sin E' - sin 1) <= Rabs (E' - 1)) by apply sin_lip. fold s in L.
  assert (P : 1 / 2 < sin 1).
  { assert (P6 : sin (PI / 6) = 1 / 2) by apply sin_PI6. rewrite <- P6. apply sin_increasing_1; pose proof PI_4; pose proof PI2_1; lra. }
  replace (E' - 1) with (s / 2) in L by lra. unfold Rabs in L. destruct (Rcase_abs (s - sin 1)), (Rcase_abs (s / 2)); lra.
Qed.
Print Assumptions C48_full_refuted.
(** right when ToC and ToE are the same instant; in general off by at most
    |F| e sqrt(A) (n |ToC - ToE| + e 1e-14) / (1 - e) *)
Theorem C48_error_partial : forall s f el dt c E', 0 <= r_data f 8 < 1 ->
  sv_clock s f (r_toc f + dt) None = Some c ->
  let p := eph_of (r_data f) in
  let n := mean_motion (mu_of (sys_of s)) p in
  kepler_eq (ecc p) (M0 p + n * el) E' ->
  Rabs (c - (r_data f 0 + r_data f 1 * dt + r_data f 2 * dt ^ 2 + F_of (sys_of s) * ecc p * sqrtA p * sin E')) <=
    Rabs (F_of (sys_of s)) * ecc p * Rabs (sqrtA p) * ((Rabs n * Rabs (dt - el) + ecc p * / 10 ^ 14) / (1 - ecc p)).
Proof.
  intros s f el dt c E' He S p n K. unfold sv_clock in S. replace (r_toc f + dt - r_toc f) with dt in S by ring. rewrite f_ok in S.
  assert (M : mean_anomaly s f dt = M0 p + n * dt).
  { unfold mean_anomaly, n, mean_motion, p, eph_of. cbn [M0 sqrtA Deltan]. rewrite mi_ok. do 5 f_equal. ring. }
  destruct (kepler_solve (r_data f 8) (mean_anomaly s f dt)) as [E|] eqn:KS; [|discriminate]. injection S as <-.
  assert (Ee : ecc p = r_data f 8) by reflexivity. assert (Aa : sqrtA p = r_data f 10) by reflexivity. rewrite Ee, Aa in *.
  replace (r_data f 0 + r_data f 1 * dt + r_data f 2 * dt * dt + F_of (sys_of s) * (r_data f 8 * r_data f 10 * sin E) - (r_data f 0 + r_data f 1 * dt + r_data f 2 * dt ^ 2 + F_of (sys_of s) * r_data f 8 * r_data f 10 * sin E'))
    with (F_of (sys_of s) * r_data f 8 * r_data f 10 * (sin E - sin E')) by ring.
  rewrite !Rabs_mult, (Rabs_pos_eq (r_data f 8)) by lra.
  apply Rmult_le_compat_l. { apply Rmult_le_pos; [apply Rmult_le_pos; [apply Rabs_pos|lra]|apply Rabs_pos]. }
  eapply Rle_trans; [apply sin_lip|].
  assert (R : Rabs (E - r_data f 8 * sin E - (M0 p + n * el)) <= Rabs n * Rabs (dt - el) + r_data f 8 * / 10 ^ 14).
  { pose proof (residual _ _ _ (proj1 He) KS) as R. rewrite M in R. fold LIMIT.
    replace (E - r_data f 8 * sin E - (M0 p + n * el)) with (n * (dt - el) + (E - r_data f 8 * sin E - (M0 p + n * dt))) by ring.
    eapply Rle_trans; [apply Rabs_triang|]. rewrite Rabs_mult. lra. }
  pose proof (near_root _ _ _ _ _ He K R) as N. apply Rmult_le_reg_r with (1 - r_data f 8); [lra|].
  unfold Rdiv. rewrite Rmult_assoc, Rinv_l, Rmult_1_r by lra. exact N.
Qed.
Print Assumptions C48_error_partial.
Example C48_ex : exists c, sv_clock KGps gps_ex 7200 None = Some c /\ c = 0.
Proof.
  unfold sv_clock, mean_anomaly. cbn [gps_ex r_data r_toe r_toc slot find fst snd Nat.eqb]. replace (7200 - 7200) with 0 by ring.
  rewrite Rmult_0_r, Rplus_0_r, solve_zero, sin_0. eexists. split; [reflexivity|ring].
Qed.

(** ** C68: GLONASS equations of motion and their integration *)
Definition vec_of (l : list R) : vec6 :=
  match l with [a; b; c; d; e; f] => mk6 a b c d e f | _ => mk6 0 0 0 0 0 0 end.
Definition code_motion (f : rframe) (l : list R) : list R := six (glo_state_deriv (vec_of l) (pull f)).
Theorem C68_motion : forall f, glo_motion (r_data f 5) (r_data f 9) (r_data f 13) (code_motion f).
Proof.
  intros f x y z vx vy vz N. unfold code_motion. cbn [vec_of]. unfold glo_state_deriv, six. cbn [s0 s1 s2 s3 s4 s5 pull a0 a1 a2].
  do 3 eexists. split; [reflexivity|]. unfold icd_accel. set (r := sqrt (x ^ 2 + y ^ 2 + z ^ 2)).
  assert (P : 0 < x ^ 2 + y ^ 2 + z ^ 2) by (pose proof (pow2_ge_0 x); pose proof (pow2_ge_0 y); pose proof (pow2_ge_0 z); lra).
  assert (R0 : 0 < r) by (apply sqrt_lt_R0; exact P).
  assert (E : x * x + y * y + z * z = r ^ 2). { unfold r. rewrite <- Rsqr_pow2, Rsqr_sqrt by lra. ring. }
  rewrite E. assert (Q : sqrt (r ^ 2) = r) by (rewrite <- Rsqr_pow2; apply sqrt_Rsqr; lra). rewrite Q.
  unfold GM_GLO, AE_GLO, J2_GLO, OMEGA_GLO. split; [|split]; field; lra.
Qed.
Print Assumptions C68_motion.
Lemma rk4_code h f v : six (rk4_step h (pull f) v) = rk4 (code_motion f) h (six v).
Proof.
  unfold rk4. destruct v as [x0 x1 x2 x3 x4 x5]. set (v := mk6 x0 x1 x2 x3 x4 x5).
  assert (L : forall w k, lin (six v) w (six k) = six (axpy v w k)) by reflexivity.
  assert (V : forall u, vec_of (six u) = u) by (intros []; reflexivity).
  unfold code_motion. repeat (rewrite L || rewrite V).
  unfold rk4_step. set (k1 := glo_state_deriv v (pull f)). set (k2 := glo_state_deriv (axpy v (h / 2) k1) (pull f)).
  set (k3 := glo_state_deriv (axpy v (h / 2) k2) (pull f)). set (k4 := glo_state_deriv (axpy v h k3) (pull f)).
  unfold six, axpy. cbn [lin s0 s1 s2 s3 s4 s5]. repeat (apply f_equal2; [field|]). reflexivity.
Qed.
Lemma steps_code h f : forall n v, six (steps n h (pull f) v) = rk4_steps (code_motion f) h n (six v).
Proof. induction n as [|n IH]; intro v; cbn [steps rk4_steps]; [reflexivity|]. rewrite IH, rk4_code. reflexivity. Qed.
(** the state is the result of whole Runge-Kutta steps of 60 seconds from the broadcast state *)
Definition broadcast (f : rframe) : list R := [r_data f 3; r_data f 7; r_data f 11; r_data f 4; r_data f 8; r_data f 12].
Theorem C68_integrates : forall f t fuel, (720 < fuel)%nat -> exists g v F,
  glo_ecef fuel f t = Some g /\ q_state g = Some v /\ glo_motion (r_data f 5) (r_data f 9) (r_data f 13) F /\
  exists h, (h = 60 \/ h = -60) /\ six v = rk4_steps F h (q_steps g) (broadcast f) /\ q_ti g = r_toe f + INR (q_steps g) * h.
Proof.
  intros f t fuel Fu. destruct (glo_run f t) as (n & h & N & H & E & _). specialize (E fuel Fu).
  do 2 eexists. exists (code_motion f). split; [exact E|]. split; [reflexivity|]. split; [apply C68_motion|]. exists h. cbn [q_steps q_ti].
  split; [unfold h_step in H; lra|]. split; [apply steps_code|reflexivity].
Qed.
Print Assumptions C68_integrates.

(** ** C50: bounded work *)
Theorem C50_bounded : forall f t fuel, (720 < fuel)%nat -> exists g v,
  glo_ecef fuel f t = Some g /\ q_state g = Some v /\ (q_steps g <= 720)%nat /\
  q_status g = (if Rle_dec (Rabs (t - r_toe f)) 900 then 0 else -1)%Z.
Proof.
  intros f t fuel Fu. destruct (glo_run f t) as (n & h & N & _ & E & _). specialize (E fuel Fu). do 2 eexists.
  split; [exact E|]. split; [reflexivity|]. split; [exact N|]. cbn [q_status]. unfold status_of.
  destruct (Rlt_dec (15 * 60) (Rabs (t - r_toe f))), (Rle_dec (Rabs (t - r_toe f)) 900); try reflexivity; lra.
Qed.
Print Assumptions C50_bounded.
(** the time after n steps, in the direction of the request *)
Theorem C50_time : forall f t fuel g, (720 < fuel)%nat -> glo_ecef fuel f t = Some g ->
  q_ti g = r_toe f + INR (q_steps g) * (if Rle_dec (r_toe f) t then 60 else -60).
Proof.
  intros f t fuel g Fu G. destruct (glo_run f t) as (n & h & N & _ & E & U & D & Q). specialize (E fuel Fu). rewrite E in G. injection G as <-. cbn [q_ti q_steps].
  unfold h_step in *. destruct (Rle_dec (r_toe f) t) as [L|L].
  - destruct (Req_dec t (r_toe f)) as [X|X]; [rewrite (Q X); cbn; ring|]. rewrite (proj1 (U ltac:(lra))). reflexivity.
  - rewrite (proj1 (D ltac:(lra))). reflexivity.
Qed.
Print Assumptions C50_time.
(** 720 steps are needed for an instant half a day away *)
Definition glo_ex : rframe := mkR (slot [(3%nat, 7000000); (7%nat, -1500000); (11%nat, 24000000); (4%nat, 1000); (8%nat, 2000); (12%nat, 500); (0%nat, 1 / 10000); (1%nat, 1 / 10 ^ 12)]) 900 900.
Example C50_ex : exists g, glo_ecef 721 glo_ex (900 + 43199) = Some g /\ q_steps g = 720%nat.
Proof.
  destruct (glo_run glo_ex (900 + 43199)) as (n & h & N & _ & E & U & _). specialize (E 721%nat ltac:(lia)). eexists. split; [exact E|].
  cbn [q_steps]. destruct U as (_ & C); [cbn; lra|]. rewrite span_small in C by (cbn [glo_ex r_toe]; rewrite Rabs_pos_eq; lra).
  apply (span_unique (43199) n 720). { cbn [glo_ex r_toe] in C. replace (900 + 43199 - 900) with 43199 in C by ring. exact C. }
  split; [|right]; rewrite (INR_IZR_INZ 720); change (IZR (Z.of_nat 720)) with 720; lra.
Qed.

(** ** C49: the instant that is reached *)
Definition C49_full : Prop := forall f t fuel, (720 < fuel)%nat -> Rabs (t - r_toe f) <= 900 ->
  exists g, glo_ecef fuel f t = Some g /\ q_ti g = t.
(** half a minute after ToE the state returned is the one a minute after *)
Theorem C49_full_refuted : ~ C49_full.
Proof.
  intro H. destruct (H glo_ex 930 721%nat ltac:(lia)) as (g & E & T); [cbn [glo_ex r_toe]; rewrite Rabs_pos_eq; lra|].
  destruct (glo_run glo_ex 930) as (n & h & N & _ & E' & U & _). specialize (E' 721%nat ltac:(lia)). rewrite E' in E. injection E as <-. cbn [q_ti] in T.
  destruct U as (-> & C); [cbn; lra|]. unfold h_step in T. cbn [glo_ex r_toe] in T.
  assert (X : INR n * 2 = 1) by lra. assert (Y : (n * 2 = 1)%nat) by (apply INR_eq; rewrite mult_INR; cbn; lra). lia.
Qed.
Print Assumptions C49_full_refuted.
(** within half a day of ToE: at most a minute beyond, and exact iff whole minutes were asked for *)
Theorem C49_reached_partial : forall f t fuel, (720 < fuel)%nat -> Rabs (t - r_toe f) < 43200 ->
  exists g v, glo_ecef fuel f t = Some g /\ q_state g = Some v /\
    0 <= Rabs (q_ti g - r_toe f) - Rabs (t - r_toe f) < 60 /\ Rabs (q_ti g - t) < 60 /\
    (q_ti g = t <-> exists k, t - r_toe f = 60 * IZR k).
Proof.
  intros f t fuel Fu B. destruct (glo_run f t) as (n & h & N & _ & E & U & D & Q). specialize (E fuel Fu). do 2 eexists.
  split; [exact E|]. split; [reflexivity|]. cbn [q_ti]. rewrite (span_small f t B) in U, D. unfold h_step in *.
  destruct (Rtotal_order (r_toe f) t) as [L|[L|L]].
  - destruct (U L) as (-> & C1 & C2). replace (r_toe f + INR n * 60 - r_toe f) with (60 * INR n) by ring.
    assert (P : 0 < 60 * INR n) by lra. rewrite !Rabs_pos_eq by lra. destruct C2 as [->|C2]; [cbn in P; lra|]. split; [lra|].
    split; [lra|]. split.
    + intro X. exists (Z.of_nat n). rewrite <- INR_IZR_INZ. lra.
    + intros (k & K). rewrite K in C1, C2. rewrite INR_IZR_INZ in *. assert (X : k = Z.of_nat n); [|subst k; lra].
      assert (A1 : (k <= Z.of_nat n)%Z) by (apply le_IZR; lra). assert (A2 : (Z.of_nat n - 1 < k)%Z) by (apply lt_IZR; rewrite minus_IZR; lra). lia.
  - rewrite (Q (eq_sym L)). cbn [INR]. rewrite Rmult_0_l, Rplus_0_r, L, !Rminus_eq_0, !Rabs_R0. split; [lra|]. split; [lra|]. split; [|lra].
    intros _. exists 0%Z. lra.
  - destruct (D L) as (-> & C1 & C2). replace (r_toe f + INR n * - (60) - r_toe f) with (- (60 * INR n)) by ring. rewrite Rabs_Ropp.
    assert (P : 0 < 60 * INR n) by lra. rewrite (Rabs_pos_eq (60 * INR n)) by lra. rewrite (Rabs_left (t - r_toe f)) by lra.
    destruct C2 as [->|C2]; [cbn in P; lra|]. split; [lra|]. split; [rewrite Rabs_left1; lra|]. split.
    + intro X. exists (- Z.of_nat n)%Z. rewrite opp_IZR, <- INR_IZR_INZ. lra.
    + intros (k & K). rewrite INR_IZR_INZ in *. assert (X : (- k = Z.of_nat n)%Z); [|rewrite <- X, opp_IZR; lra].
      assert (A1 : (- k <= Z.of_nat n)%Z) by (apply le_IZR; rewrite opp_IZR; lra). assert (A2 : (Z.of_nat n - 1 < - k)%Z) by (apply lt_IZR; rewrite minus_IZR, opp_IZR; lra). lia.
Qed.
Print Assumptions C49_reached_partial.
(** so all instants within the same minute get the same state *)
Theorem C49_same_minute : forall f t u k fuel, (720 < fuel)%nat -> (k <= 718)%nat ->
  (60 * INR k < t - r_toe f <= 60 * (INR k + 1) /\ 60 * INR k < u - r_toe f <= 60 * (INR k + 1) \/
   60 * INR k < r_toe f - t <= 60 * (INR k + 1) /\ 60 * INR k < r_toe f - u <= 60 * (INR k + 1)) ->
  exists g g', glo_ecef fuel f t = Some g /\ glo_ecef fuel f u = Some g' /\ q_state g = q_state g' /\ q_state g <> None.
Proof.
  intros f t u k fuel Fu K H. pose proof (pos_INR k) as K0. assert (K1 : INR k <= 718) by (apply le_INR in K; rewrite (INR_IZR_INZ 718) in K; change (IZR (Z.of_nat 718)) with 718 in K; exact K).
  destruct (glo_run f t) as (n & h & N & _ & E & U & D & _). destruct (glo_run f u) as (m & h' & M & _ & E' & U' & D' & _).
  specialize (E fuel Fu). specialize (E' fuel Fu). do 2 eexists. split; [exact E|]. split; [exact E'|]. cbn [q_state].
  assert (X : h = h' /\ n = m).
  { destruct H as [(A & B)|(A & B)].
    - destruct (U ltac:(lra)) as (-> & C). destruct (U' ltac:(lra)) as (-> & C'). split; [reflexivity|].
      rewrite span_small in C, C' by (rewrite Rabs_pos_eq; lra).
      assert (S1 : covers_span (t - r_toe f) (S k)) by (split; [|right]; rewrite S_INR; lra).
      assert (S2 : covers_span (u - r_toe f) (S k)) by (split; [|right]; rewrite S_INR; lra).
      rewrite (span_unique _ _ _ C S1), (span_unique _ _ _ C' S2). reflexivity.
    - destruct (D ltac:(lra)) as (-> & C). destruct (D' ltac:(lra)) as (-> & C'). split; [reflexivity|].
      rewrite span_small in C, C' by (rewrite Rabs_left; lra).
      assert (S1 : covers_span (- (t - r_toe f)) (S k)) by (split; [|right]; rewrite S_INR; lra).
      assert (S2 : covers_span (- (u - r_toe f)) (S k)) by (split; [|right]; rewrite S_INR; lra).
      rewrite (span_unique _ _ _ C S1), (span_unique _ _ _ C' S2). reflexivity. }
  destruct X as (-> & ->). split; [reflexivity|discriminate].
Qed.
Print Assumptions C49_same_minute.
(** hence whatever the true trajectory [phi], in each coordinate the error for one of two such
    instants is at least half the distance travelled between them *)
Theorem C49_error : forall f t u k fuel g g' y y' (phi : R -> vec6) (coord : vec6 -> R) eps, (720 < fuel)%nat -> (k <= 718)%nat ->
  60 * INR k < t - r_toe f <= 60 * (INR k + 1) -> 60 * INR k < u - r_toe f <= 60 * (INR k + 1) ->
  glo_ecef fuel f t = Some g -> q_state g = Some y -> glo_ecef fuel f u = Some g' -> q_state g' = Some y' ->
  Rabs (coord y - coord (phi t)) <= eps -> Rabs (coord y' - coord (phi u)) <= eps ->
  Rabs (coord (phi t) - coord (phi u)) <= 2 * eps.
Proof.
  intros f t u k fuel g g' y y' phi coord eps Fu K A B G Y G' Y' H H'.
  destruct (C49_same_minute f t u k fuel Fu K (or_introl (conj A B))) as (x & x' & X & X' & S & _).
  rewrite X in G. injection G as ->. rewrite X' in G'. injection G' as ->. rewrite Y, Y' in S. injection S as <-.
  replace (coord (phi t) - coord (phi u)) with ((coord y - coord (phi u)) - (coord y - coord (phi t))) by ring.
  eapply Rle_trans; [apply Rabs_triang|]. rewrite Rabs_Ropp. lra.
Qed.
Print Assumptions C49_error.
(** more than half a day away (and less than a day): the broadcast state itself *)
Theorem C49_day_wrap : forall f t fuel, (720 < fuel)%nat -> 43200 < Rabs (t - r_toe f) < 86400 ->
  exists g v, glo_ecef fuel f t = Some g /\ q_state g = Some v /\ six v = broadcast f /\ q_status g = (-1)%Z.
Proof.
  intros f t fuel Fu B. destruct (glo_run f t) as (n & h & N & _ & E & U & D & Q). specialize (E fuel Fu). do 2 eexists.
  split; [exact E|]. split; [reflexivity|]. split.
  2: { cbn [q_status]. unfold status_of. destruct (Rlt_dec (15 * 60) (Rabs (t - r_toe f))); [reflexivity|lra]. }
  assert (Z : n = 0%nat); [|rewrite Z; reflexivity].
  assert (R : forall z, Rabs ((t - r_toe f) / 86400 - IZR z) < 1 / 2 -> span f t = t - r_toe f - IZR z * 86400) by (intros z H; unfold span; rewrite (round_unique _ z H); reflexivity).
  unfold Rabs in B. destruct (Rcase_abs (t - r_toe f)) as [L|L].
  - assert (S : span f t = t - r_toe f - (-1) * 86400) by (apply R; apply Rabs_def1; lra).
    destruct (D ltac:(lra)) as (_ & C). apply (span_unique _ _ _ C). split; [cbn; lra|left; reflexivity].
  - assert (S : span f t = t - r_toe f - 1 * 86400) by (apply R; apply Rabs_def1; lra).
    destruct (U ltac:(lra)) as (_ & C). apply (span_unique _ _ _ C). split; [cbn; lra|left; reflexivity].
Qed.
Print Assumptions C49_day_wrap.
(** at ToE: the broadcast state *)
Theorem C49_at_toe : forall f fuel, exists g v, glo_ecef fuel f (r_toe f) = Some g /\ q_state g = Some v /\ six v = broadcast f /\ q_status g = 0%Z.
Proof.
  intros f fuel. unfold glo_ecef. destruct (Req_EM_T (r_toe f) (r_toe f)); [|lra]. do 2 eexists. split; [reflexivity|]. split; [reflexivity|].
  split; [reflexivity|]. cbn [q_status]. rewrite Rminus_eq_0, Rabs_R0. destruct (Rlt_dec (15 * 60) 0); [lra|reflexivity].
Qed.
Print Assumptions C49_at_toe.
Example C49_ex : exists g g', glo_ecef 721 glo_ex 901 = Some g /\ glo_ecef 721 glo_ex 959 = Some g' /\ q_state g = q_state g'.
Proof.
  destruct (C49_same_minute glo_ex 901 959 0 721 ltac:(lia) ltac:(lia)) as (g & g' & A & B & C & _); [left; cbn; lra|]. eauto.
Qed.

(** ** C51: the GLONASS clock *)
Theorem C51_clock : forall f t, exists s, reduced_day (t - r_toe f) s /\ glo_clock f t = r_data f 0 + r_data f 1 * s.
Proof.
  intros f t. exists (span f t). split; [|unfold glo_clock, span; reflexivity]. split.
  - apply Rabs_le. apply span_half.
  - unfold span. destruct (round_spec ((t - r_toe f) / 86400)) as (z & -> & _). exists z. ring.
Qed.
Print Assumptions C51_clock.
Theorem C51_half_day : forall f t, Rabs (t - r_toe f) < 43200 -> glo_clock f t = r_data f 0 + r_data f 1 * (t - r_toe f).
Proof.
  intros f t H. transitivity (r_data f 0 + r_data f 1 * span f t); [reflexivity|]. rewrite span_small by exact H. reflexivity.
Qed.
Print Assumptions C51_half_day.
Example C51_ex : glo_clock glo_ex 1000 = 1 / 10000 + 1 / 10 ^ 10.
Proof. rewrite C51_half_day; cbn [glo_ex r_toe r_data slot find fst snd Nat.eqb]; [field|rewrite Rabs_pos_eq; lra]. Qed.

(** ** C57: GPS accuracy *)
Lemma pw2 n : Rpower 2 (INR n) = 2 ^ n. Proof. apply Rpower_pow; lra. Qed.
Lemma pw_half x : Rpower 2 (x + 1 / 2) = Rpower 2 x * sqrt 2.
Proof. rewrite Rpower_plus. f_equal. rewrite <- Rpower_sqrt by lra. f_equal. lra. Qed.
Lemma sqrt2_b : 1.414 < sqrt 2 < 1.415.
Proof.
  split.
  - replace 1.414 with (sqrt (1.414 * 1.414)) by (apply sqrt_square; lra). apply sqrt_lt_1; lra.
  - replace 1.415 with (sqrt (1.415 * 1.415)) by (apply sqrt_square; lra). apply sqrt_lt_1; lra.
Qed.
Definition ura (i : R) : R := gps_ura (mkR (fun k => if Nat.eqb k 23 then i else 0) 0 0).
Lemma ura_of f : gps_ura f = ura (r_data f 23). Proof. reflexivity. Qed.
Lemma rnd10 x z : Rabs (x * 10 - IZR z) < 1 / 2 -> rround (x * 10) / 10 = IZR z / 10.
Proof. intro H. rewrite (round_unique _ _ H). reflexivity. Qed.
(** the table for the indices 0 to 14 *)
Definition ura_table : list R := [2; 2.8; 4; 5.7; 8; 11.3; 16; 32; 64; 128; 256; 512; 1024; 2048; 4096].
Lemma ura_low (i : R) (n : nat) (z : Z) : i <= 6 -> 1 + i / 2 = INR n -> IZR z = 2 ^ n * 10 -> ura i = IZR z / 10.
Proof.
  intros H N Z. unfold ura, gps_ura. cbn [r_data Nat.eqb]. destruct (Rle_dec i 6); [|lra]. apply rnd10. rewrite N, pw2, <- Z, Rminus_eq_0, Rabs_R0. lra.
Qed.
Lemma ura_mid (i : R) (n : nat) (z : Z) : i <= 6 -> 1 + i / 2 = INR n + 1 / 2 -> IZR z - 1 / 2 < 2 ^ n * sqrt 2 * 10 < IZR z + 1 / 2 -> ura i = IZR z / 10.
Proof.
  intros H N Z. unfold ura, gps_ura. cbn [r_data Nat.eqb]. destruct (Rle_dec i 6); [|lra]. apply rnd10. rewrite N, pw_half, pw2. apply Rabs_def1; lra.
Qed.
Lemma ura_high (i : R) (n : nat) (z : Z) : 6 < i < 15 -> i - 2 = INR n -> IZR z = 2 ^ n * 10 -> ura i = IZR z / 10.
Proof.
  intros H N Z. unfold ura, gps_ura. cbn [r_data Nat.eqb]. destruct (Rle_dec i 6); [lra|]. destruct (Rlt_dec i 15); [|lra]. apply rnd10. rewrite N, pw2, <- Z, Rminus_eq_0, Rabs_R0. lra.
Qed.
Theorem C57_table : forall f i v, nth_error ura_table i = Some v -> r_data f 23 = INR i -> gps_ura f = v.
Proof.
  intros f i v T D. rewrite ura_of, D. pose proof sqrt2_b as B.
  destruct i as [|[|[|[|[|[|[|[|[|[|[|[|[|[|[|i]]]]]]]]]]]]]]]; cbn [nth_error ura_table] in T; try (injection T as <-); clear D.
  - rewrite (ura_low _ 1 20); cbn; lra.
  - rewrite (ura_mid _ 1 28); cbn; lra.
  - rewrite (ura_low _ 2 40); cbn; lra.
  - rewrite (ura_mid _ 2 57); cbn; lra.
  - rewrite (ura_low _ 3 80); cbn; lra.
  - rewrite (ura_mid _ 3 113); cbn; lra.
  - rewrite (ura_low _ 4 160); cbn; lra.
  - rewrite (ura_high _ 5 320); cbn; lra.
  - rewrite (ura_high _ 6 640); cbn; lra.
  - rewrite (ura_high _ 7 1280); cbn; lra.
  - rewrite (ura_high _ 8 2560); cbn; lra.
  - rewrite (ura_high _ 9 5120); cbn; lra.
  - rewrite (ura_high _ 10 10240); cbn; lra.
  - rewrite (ura_high _ 11 20480); cbn; lra.
  - rewrite (ura_high _ 12 40960); cbn; lra.
  - destruct i; discriminate T.
Qed.
Print Assumptions C57_table.
(** unusable from 15 on; monotone in the (real) index *)
Theorem C57_unusable : forall f, 15 <= r_data f 23 -> gps_ura f = (2 - / 2 ^ 23) * 2 ^ 127.
Proof. intros f H. unfold gps_ura. destruct (Rle_dec (r_data f 23) 6); [lra|]. destruct (Rlt_dec (r_data f 23) 15); [lra|reflexivity]. Qed.
Print Assumptions C57_unusable.
Lemma pw_le x y : x <= y -> Rpower 2 x <= Rpower 2 y. Proof. intro H. apply Rle_Rpower; lra. Qed.
Theorem C57_monotone : forall f g, r_data f 23 <= r_data g 23 -> gps_ura f <= gps_ura g.
Proof.
  assert (B15 : Rpower 2 (15 - 2) = 8192). { replace (15 - 2) with (INR 13) by (cbn; lra). rewrite pw2. lra. }
  assert (B4 : Rpower 2 4 = 16). { replace 4 with (INR 4) by (cbn; lra). rewrite pw2. lra. }
  assert (M : 10000 <= FLT_MAX). { unfold FLT_MAX. assert (2 ^ 14 <= 2 ^ 127) by (apply Rle_pow; [lra|lia]). assert (0 < / 2 ^ 23 < 1) by lra. nra. }
  assert (T : forall x z, x <= IZR z -> rround x <= IZR z).
  { intros x z H. rewrite <- (round_unique (IZR z) z) by (rewrite Rminus_eq_0, Rabs_R0; lra). apply round_le. exact H. }
  intros f g H. rewrite !ura_of. set (x := r_data f 23) in *. set (y := r_data g 23) in *. unfold ura, gps_ura. cbn [r_data Nat.eqb].
  destruct (Rle_dec x 6), (Rle_dec y 6); try lra.
  - unfold Rdiv. apply Rmult_le_compat_r; [lra|]. apply round_le. apply Rmult_le_compat_r; [lra|]. apply pw_le. lra.
  - assert (X : Rpower 2 (1 + x / 2) <= 16) by (rewrite <- B4; apply pw_le; lra).
    assert (X' : rround (Rpower 2 (1 + x / 2) * 10) <= 160) by (apply T; lra).
    destruct (Rlt_dec y 15); [|lra].
    assert (Y : 16 <= Rpower 2 (y - 2)) by (rewrite <- B4; apply pw_le; lra).
    assert (Y' : 160 <= rround (Rpower 2 (y - 2) * 10)) by (rewrite <- (round_unique 160 160) by (rewrite Rminus_eq_0, Rabs_R0; lra); apply round_le; lra). lra.
  - destruct (Rlt_dec x 15), (Rlt_dec y 15); try lra.
    + unfold Rdiv. apply Rmult_le_compat_r; [lra|]. apply round_le. apply Rmult_le_compat_r; [lra|]. apply pw_le. lra.
    + assert (X : Rpower 2 (x - 2) <= 8192) by (rewrite <- B15; apply pw_le; lra).
      assert (X' : rround (Rpower 2 (x - 2) * 10) <= 81920) by (apply T; lra). lra.
Qed.
Print Assumptions C57_monotone.
(** but the RINEX field (slot 23 holds metres): an accuracy of 16 m or more is reported as unusable *)
Theorem C57_metres_refuted : ~ (forall f, 2 <= r_data f 23 -> r_data f 23 <= 4096 -> gps_ura f <= 4096).
Proof.
  intro H. specialize (H (mkR (fun _ => 16) 0 0)). cbn [r_data] in H. rewrite C57_unusable in H by (cbn; lra). specialize (H ltac:(lra) ltac:(lra)).
  assert (2 ^ 14 <= 2 ^ 127) by (apply Rle_pow; [lra|lia]). assert (0 < / 2 ^ 23 < 1) by lra. nra.
Qed.
Print Assumptions C57_metres_refuted.
Example C57_ex : ura 3 = 5.7. Proof. apply (C57_table _ 3); [reflexivity|cbn; lra]. Qed.

(** ** C69: stateNclock *)
(** the instant day [m], [tk] ticks of 1/[fac] s, in seconds *)
Definition instant (m tk : Z) (fac : positive) : R := IZR m * 86400 + IZR tk / IZR (Zpos fac).
Lemma q2r_inst m tk fac : Q2R (inject_Z (m * 86400) + Qmake tk fac) = instant m tk fac.
Proof. rewrite Q2R_plus. unfold Q2R, instant. cbn [Qnum Qden inject_Z]. rewrite mult_IZR. field. apply (IZR_neq (Zpos fac) 0). discriminate. Qed.
Lemma q2r_inj z : Q2R (inject_Z z) = IZR z. Proof. unfold Q2R. cbn. field. Qed.
Lemma toe_elapsed g f m tk fac : reals_of g f -> (-2147483648 <= m - f_toe g / 86400 <= 2147483647)%Z ->
  Q2R (ref2toe g m tk fac) - r_toe f = instant m tk fac - IZR (f_toe g).
Proof.
  intros (_ & T & _) H. pose proof (C45_ref2toe g m tk fac H) as E. apply Qeq_eqR in E. rewrite !Q2R_minus, q2r_inst, !q2r_inj in E. rewrite T. exact E.
Qed.
Lemma toc_elapsed g f m tk fac : reals_of g f -> (-2147483648 <= m - f_toc g / 86400 <= 2147483647)%Z ->
  Q2R (ref2toc g m tk fac) - r_toc f = instant m tk fac - IZR (f_toc g).
Proof.
  intros (_ & _ & T) H. pose proof (C45_ref2toc g m tk fac H) as E. apply Qeq_eqR in E. rewrite !Q2R_minus, q2r_inst, !q2r_inj in E. rewrite T. exact E.
Qed.
Definition near_days (g : frame) (m : Z) : Prop :=
  (-2147483648 <= m - f_toe g / 86400 <= 2147483647)%Z /\ (-2147483648 <= m - f_toc g / 86400 <= 2147483647)%Z.
Lemma kep_sys sys : In sys [Gps; Galileo; Beidou] -> exists s, sys = sys_of s /\ forall fuel f te tc, stateNclock fuel sys f te tc = Some (kep_result s f te tc).
Proof. intros [<-|[<-|[<-|[]]]]; [exists KGps|exists KGal|exists KBds]; split; reflexivity. Qed.
(** GPS, Galileo, BeiDou: position by the interface document at the time since ToE, clock with the
    time since ToC (the anomaly in the clock: see C48) *)
Theorem C69_kepler : forall fuel sys g f m tk fac, In sys [Gps; Galileo; Beidou] -> reals_of g f -> near_days g m ->
  0 <= r_data f 8 <= 96 / 100 ->
  let T := instant m tk fac in
  let p := eph_of (r_data f) in
  let n := mean_motion (mu_of sys) p in
  let te := T - IZR (f_toe g) in let tc := T - IZR (f_toc g) in
  exists x y z c E Ec E' Ec',
    stateNclock fuel sys f (Q2R (ref2toe g m tk fac)) (Q2R (ref2toc g m tk fac)) = Some (Runs 0 (Some [x; y; z]) (Some c)) /\
    icd_position (mu_of sys) (Oe_of sys) p te E x y z /\
    kepler_eq (ecc p) (M0 p + n * te) E' /\ Rabs (E - E') <= ecc p / (1 - ecc p) * / 10 ^ 14 /\
    c = r_data f 0 + r_data f 1 * tc + r_data f 2 * tc ^ 2 + F_of sys * ecc p * sqrtA p * sin Ec /\
    kepler_eq (ecc p) (M0 p + n * tc) Ec' /\ Rabs (Ec - Ec') <= ecc p / (1 - ecc p) * / 10 ^ 14.
Proof.
  intros fuel sys g f m tk fac Hs Hr (D1 & D2) He T p n te tc. destruct (kep_sys sys Hs) as (s & -> & St).
  set (a := Q2R (ref2toe g m tk fac)). set (b := Q2R (ref2toc g m tk fac)).
  assert (A : a - r_toe f = te) by (apply toe_elapsed; assumption). assert (B : b - r_toc f = tc) by (apply toc_elapsed; assumption).
  destruct (C47_defined s f a He) as (k & K). destruct (C48_defined s f b He) as (c & C).
  destruct (C47_position s f a k ltac:(lra) K) as (P & E' & KE & DE). rewrite A in P, KE.
  destruct (C48_value s f b None c ltac:(lra) C) as (Ec & V & Ec' & KC & DC). rewrite B in V, KC.
  exists (k_x k), (k_y k), (k_z k), c, (k_E k), Ec, E', Ec'.
  rewrite St. unfold kep_result, kep_stateNclock. rewrite K, C. cbn [option_map xyz].
  split; [reflexivity|]. split; [exact P|]. split; [exact KE|]. split; [exact DE|]. split; [exact V|]. split; assumption.
Qed.
Print Assumptions C69_kepler.
(** GLONASS: status 0 within a quarter of an hour of ToE, with state and clock; otherwise -1, with the
    state written and the clock left as it was *)
Theorem C69_glonass : forall fuel g f m tk fac tc, (720 < fuel)%nat -> reals_of g f -> near_days g m ->
  let el := instant m tk fac - IZR (f_toe g) in
  exists v, stateNclock fuel Glonass f (Q2R (ref2toe g m tk fac)) tc =
    Some (if Rle_dec (Rabs el) 900 then Runs 0 (Some (six v)) (Some (r_data f 0 + r_data f 1 * el)) else Runs (-1) (Some (six v)) None).
Proof.
  intros fuel g f m tk fac tc Fu Hr (D1 & _) el. set (a := Q2R (ref2toe g m tk fac)). assert (A : a - r_toe f = el) by (apply toe_elapsed; assumption).
  destruct (C50_bounded f a fuel Fu) as (q & v & Q & S & _ & St). exists v. cbn [stateNclock]. unfold glo_stateNclock. rewrite Q, S, St, A.
  destruct (Rle_dec (Rabs el) 900) as [L|L]; cbn [Z.eqb option_map]; [|reflexivity]. change (0 =? 0)%Z with true. cbv iota.
  rewrite C51_half_day by (rewrite A; lra). rewrite A. reflexivity.
Qed.
Print Assumptions C69_glonass.
Theorem C69_others : forall fuel sys f te tc, In sys [Sbas; Qzss; Irnss; Mixed] -> stateNclock fuel sys f te tc = Some Throws.
Proof. intros fuel sys f te tc [<-|[<-|[<-|[<-|[]]]]]; reflexivity. Qed.
Print Assumptions C69_others.
Lemma reals_exist g : exists f, reals_of g f.
Proof.
  exists (mkR (fun i => match nth_error (f_data g) i with Some (DFin q) => Q2R q | _ => 0 end) (IZR (f_toe g mod 86400)) (IZR (f_toc g mod 86400))).
  split; [|split; reflexivity]. intros i q H. cbn [r_data]. rewrite H. reflexivity.
Qed.
Example C69_ex : exists g f, reals_of g f /\ near_days g 59128 /\ 0 <= r_data f 8 <= 96 / 100 /\ r_data f 10 = 5153.
Proof.
  set (d := repeat (DFin 0) 8 ++ [DFin (1 # 100); DFin 0; DFin 5153] ++ repeat (DFin 0) 20).
  set (g := mkFrame Gps 5 (59128 * 86400) (59128 * 86400) d). destruct (reals_exist g) as (f & H). exists g, f. split; [exact H|].
  split; [unfold near_days, g; cbn [f_toe f_toc]; change (59128 * 86400 / 86400)%Z with 59128%Z; lia|]. destruct H as (H & _).
  rewrite (H 8%nat _ eq_refl), (H 10%nat _ eq_refl). unfold Q2R. cbn. lra.
Qed.

(** ** C70: a GLONASS message as it was read *)
Theorem C70_at_toe : forall cal g b f fuel tc n3 n4 n7 n8 n11 n12, is_block cal g b -> b_sys b = Glonass -> reals_of g f ->
  number_at b 3 = Some n3 -> number_at b 7 = Some n7 -> number_at b 11 = Some n11 ->
  number_at b 4 = Some n4 -> number_at b 8 = Some n8 -> number_at b 12 = Some n12 ->
  let km n := Q2R (b64 (num_val n * 1000)) in
  exists c, stateNclock fuel Glonass f (r_toe f) tc = Some (Runs 0 (Some [km n3; km n7; km n11; km n4; km n8; km n12]) (Some c)) /\
    forall n0, number_at b 0 = Some n0 -> c = Q2R (num_val n0).
Proof.
  intros cal g b f fuel tc n3 n4 n7 n8 n11 n12 (_ & _ & _ & _ & B) S (R & _) H3 H7 H11 H4 H8 H12 km. rewrite S in B.
  destruct (C49_at_toe f fuel) as (q & v & Q & V & W & St). exists (glo_clock f (r_toe f)). cbn [stateNclock]. unfold glo_stateNclock. rewrite Q, V, St.
  change (0 =? 0)%Z with true. cbn [option_map]. rewrite W. unfold broadcast.
  assert (X : forall i n, documented Glonass i = true -> number_at b i = Some n -> r_data f i = Q2R (si_value Glonass i n)) by (intros i n D N; apply R, B; assumption).
  rewrite (X 3%nat n3 eq_refl H3), (X 4%nat n4 eq_refl H4), (X 7%nat n7 eq_refl H7), (X 8%nat n8 eq_refl H8), (X 11%nat n11 eq_refl H11), (X 12%nat n12 eq_refl H12).
  cbn [si_value existsb glo_km Nat.eqb orb]. split; [reflexivity|].
  intros n0 H0. rewrite C51_half_day by (rewrite Rminus_eq_0, Rabs_R0; lra). rewrite Rminus_eq_0, Rmult_0_r, Rplus_0_r. apply (X 0%nat n0 eq_refl H0).
Qed.
Print Assumptions C70_at_toe.
Example C70_ex : block_ok glo_b /\ b_sys glo_b = Glonass /\ exists n, number_at glo_b 3 = Some n /\ number_at glo_b 12 <> None /\ number_at glo_b 8 <> None.
Proof. split; [apply glo_b_ok|]. split; [reflexivity|]. eexists. split; [reflexivity|]. split; discriminate. Qed.
