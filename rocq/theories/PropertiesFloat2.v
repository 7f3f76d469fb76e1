(** PropertiesFloat2: C69 in doubles, from the date to the state *)
From Coq Require Import Qabs Reals Qreals Lra Lia ZArith QArith List.
From Verif Require Import B64 SpecB64 ModelSatsys ModelOrbit ModelFloat SpecFloat SpecOrbit ProofOrbit ProofFloat PropertiesFloat.
From Verif Require Base ProofB64 PropertiesOrbit ProofNavList.
Import ListNotations.
Local Open Scope R_scope.

Lemma b64_int_R z : (Z.abs z <= 2 ^ 53)%Z -> Q2R (b64 (inject_Z z)) = IZR z.
Proof. intro H. rewrite (Qeq_eqR _ _ (ProofB64.b64_int z H)). apply Q2R_inj. Qed.
Lemma Zpos_b64 fac : (Zpos fac <= 10 ^ 9)%Z -> Q2R (b64 (inject_Z (Zpos fac))) = IZR (Zpos fac).
Proof. intro H. apply b64_int_R. rewrite Z.abs_eq by lia. lia. Qed.
(** the difference of two times, in doubles *)
Lemma ref2_near ref mjd tk fac : (0 <= tk < 86400 * Zpos fac)%Z -> (Zpos fac <= 10 ^ 9)%Z ->
  Rabs (PropertiesOrbit.instant mjd tk fac - IZR ref) <= 302400 ->
  ap i_tk (fsub (ref2_d ref mjd tk fac) (sec_d ref)) (PropertiesOrbit.instant mjd tk fac - IZR ref).
Proof.
  intros Tk F9 H. pose proof (Zpos_b64 fac F9) as BF. assert (BT : Q2R (b64 (inject_Z tk)) = IZR tk) by (apply b64_int_R; rewrite Z.abs_eq by lia; lia).
  assert (FP : 0 < IZR (Zpos fac)) by (apply IZR_lt; reflexivity).
  set (r := IZR tk / IZR (Zpos fac)).
  assert (RB : 0 <= r < 86400).
  { unfold r. split; [apply Rmult_le_pos; [apply IZR_le; lia|apply Rlt_le, Rinv_0_lt_compat, FP]|]. apply (Rmult_lt_reg_r (IZR (Zpos fac))); [exact FP|].
    unfold Rdiv. rewrite Rmult_assoc, Rinv_l, Rmult_1_r by lra. change 86400 with (IZR 86400). rewrite <- mult_IZR. apply IZR_lt. lia. }
  assert (Q0 : Q2R (b64 (inject_Z tk) / b64 (inject_Z (Zpos fac))) = r).
  { rewrite Q2R_div, BT, BF; [reflexivity|]. intro Z. apply Qeq_eqR in Z. rewrite BF, Q2R_0 in Z. lra. }
  set (q0 := (b64 (inject_Z tk) / b64 (inject_Z (Zpos fac)))%Q) in *.
  assert (E0 : Rabs (Q2R (b64 q0) - r) <= / 2 ^ 37).
  { rewrite <- Q0. apply (b64_below q0 17); [discriminate| |].
    - rewrite Q0. change (2 ^ 17)%Q with (131072 # 1). rewrite Q2R_frac. rewrite Rabs_pos_eq; lra.
    - change (2 ^ (17 - 54))%Q with (1 # 137438953472). rewrite Q2R_frac. lra. }
  pose proof (Z.div_mod ref 86400 ltac:(lia)) as DM. pose proof (Z.mod_pos_bound ref 86400 ltac:(lia)) as MB.
  unfold ref2_d, sec_d. fold (fdiv (b64 (inject_Z tk)) (b64 (inject_Z (Zpos fac)))). unfold fdiv. fold q0.
  set (dd := (ref / 86400)%Z) in *. set (sc := (ref mod 86400)%Z) in *.
  assert (T : PropertiesOrbit.instant mjd tk fac - IZR ref = r + 86400 * IZR (mjd - dd) - IZR sc).
  { unfold PropertiesOrbit.instant. fold r. rewrite DM. rewrite plus_IZR, mult_IZR, minus_IZR. ring. }
  rewrite T in *. clear T. set (D := (mjd - dd)%Z) in *. assert (SB : 0 <= IZR sc <= 86399) by (split; apply IZR_le; lia).
  apply Rabs_le_inv in H. assert (DB : (-5 <= D <= 5)%Z). { split; apply le_IZR; cbn; lra. }
  rewrite ProofNavList.i32_id by lia.
  assert (SC : Q2R (b64 (inject_Z sc)) = IZR sc) by (apply b64_int_R; rewrite Z.abs_eq by lia; lia).
  apply Rabs_le_inv in E0. clearbody r q0 dd sc D.
  apply (ap_w (rnd (-302400) 302400 (5 # 137438953472))); [|vm_compute; reflexivity].
  apply ap_rnd.
  { replace (Q2R (-302400)) with (-302400) by (unfold Q2R; cbn; lra). replace (Q2R 302400) with 302400 by (unfold Q2R; cbn; lra). lra. }
  rewrite Q2R_minus, SC, Q2R_frac. apply Rabs_le. destruct (Z.eqb_spec D 0) as [->|ND]; [lra|].
  assert (B5 : Q2R (fmul 86400 (b64 (inject_Z D))) = 86400 * IZR D).
  { unfold fmul. rewrite (ProofB64.b64_wd _ (inject_Z (86400 * D))).
    - rewrite b64_int_R by lia. rewrite mult_IZR. reflexivity.
    - rewrite (ProofB64.b64_int D) by lia. rewrite inject_Z_mult. reflexivity. }
  set (w := fmul 86400 (b64 (inject_Z D))) in *. clearbody w. unfold fadd.
  assert (E1 : Rabs (Q2R (b64 (b64 q0 + w)) - Q2R (b64 q0 + w)) <= / 2 ^ 35).
  { apply (b64_below _ 19); [discriminate| |].
    - rewrite Q2R_plus, B5. change (2 ^ 19)%Q with (524288 # 1). rewrite Q2R_frac. apply Rabs_def1; lra.
    - change (2 ^ (19 - 54))%Q with (1 # 34359738368). rewrite Q2R_frac. lra. }
  rewrite Q2R_plus, B5 in E1. apply Rabs_le_inv in E1. lra.
Qed.
(** ** C69: from a date to the state and the clock: within a tenth of a millimetre and 1e-17 s of the interface document
    at the date, whatever its day, if it is within half a week of ToE and of ToC *)
Theorem C69_doubles : forall m s d toe toc mjd tk fac, accurate m -> broadcast d -> broadcast_clock d ->
  (0 <= tk < 86400 * Zpos fac)%Z -> (Zpos fac <= 10 ^ 9)%Z ->
  let T := PropertiesOrbit.instant mjd tk fac in
  Rabs (T - IZR toe) <= 302400 -> Rabs (T - IZR toc) <= 302400 ->
  let p := eph_of (fun i => Q2R (d i)) in let n := mean_motion (mu_of (PropertiesOrbit.sys_of s)) p in
  let te := T - IZR toe in let tc := T - IZR toc in
  exists E x y z Ec xh yh zh ch,
    kep_stateNclock_d m s d toe toc mjd tk fac = (0%Z, Some (xh, yh, zh), Some ch) /\
    kepler_eq (ecc p) (M0 p + n * te) E /\
    icd_position (mu_of (PropertiesOrbit.sys_of s)) (Oe_of (PropertiesOrbit.sys_of s)) p te E x y z /\
    Rabs (Q2R xh - x) <= / 10 ^ 4 /\ Rabs (Q2R yh - y) <= / 10 ^ 4 /\ Rabs (Q2R zh - z) <= / 10 ^ 4 /\
    kepler_eq (ecc p) (M0 p + n * tc) Ec /\
    Rabs (Q2R ch - (Q2R (d 0%nat) + Q2R (d 1%nat) * tc + Q2R (d 2%nat) * tc ^ 2 + F_of (PropertiesOrbit.sys_of s) * ecc p * sqrtA p * sin Ec)) <= / 10 ^ 17.
Proof.
  intros m s d toe toc mjd tk fac Hm Hd Hc Tk F9 T He Hcl p n te tc.
  assert (R : forall M, exists E, kepler_eq (ecc p) M E).
  { intro M. apply root_exists. pose proof (ecc_R d Hd) as B. unfold p, eph_of. cbn [ecc]. lra. }
  destruct (R (M0 p + n * te)) as (E & K). destruct (R (M0 p + n * tc)) as (Ec & Kc).
  destruct (position_near m s d Hm Hd _ _ te E (ref2_near toe mjd tk fac Tk F9 He) K) as (Eh & xh & yh & zh & x & y & z & A & B & _ & ix & iy & iz & X & Y & Z & X' & Y' & Z').
  destruct (clock_near m s d Hm Hd Hc _ _ tc Ec (ref2_near toc mjd tk fac Tk F9 Hcl) Kc) as (c & i & A' & B' & C).
  assert (V : Q2R (1 # 10000) = / 10 ^ 4) by (rewrite Q2R_frac; lra).
  exists E, x, y, z, Ec, xh, yh, zh, c. unfold kep_stateNclock_d. rewrite A, A'.
  split; [reflexivity|]. split; [exact K|]. split; [exact B|]. do 3 (split; [eapply er_le; eassumption|]). split; [exact Kc|].
  pose proof (er_le _ _ _ _ (/ 10 ^ 17) B' C ltac:(rewrite Q2R_frac; lra)) as G. unfold p, eph_of. cbn [ecc sqrtA].
  match goal with |- Rabs (_ - ?a) <= _ => match type of G with Rabs (_ - ?b) <= _ => replace a with b by ring end end. exact G.
Qed.
Print Assumptions C69_doubles.
(** a Galileo ephemeris of MJD 59128, 02:00:00, 30 hours later, in microseconds *)
Example C69_doubles_ex : exists xh yh zh ch,
  kep_stateNclock_d some_libm KGal eph_some (59128 * 86400 + 7200) (59128 * 86400) 59129 (28800 * 1000000 + 500000) 1000000 = (0%Z, Some (xh, yh, zh), Some ch).
Proof.
  destruct (C69_doubles some_libm KGal eph_some (59128 * 86400 + 7200) (59128 * 86400) 59129 (28800 * 1000000 + 500000) 1000000 some_libm_accurate (proj1 eph_some_broadcast) (proj2 eph_some_broadcast))
    as (E & x & y & z & Ec & xh & yh & zh & ch & A & _).
  - lia.
  - lia.
  - unfold PropertiesOrbit.instant. apply Rabs_le. cbn. lra.
  - unfold PropertiesOrbit.instant. apply Rabs_le. cbn. lra.
  - exists xh, yh, zh, ch. exact A.
Qed.
