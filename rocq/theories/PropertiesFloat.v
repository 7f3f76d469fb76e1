(** PropertiesFloat: C106-C108, the Keplerian orbit and clock computed in doubles; C57, the accuracy index in floats *)
From Coq Require Import Qabs Reals Qreals Lra Lia ZArith QArith Qround List.
From Coq Require Lqa.
From Verif Require Import B64 SpecB64 ModelSatsys ModelOrbit ModelFloat SpecFloat SpecOrbit ProofOrbit ProofFloat.
From Verif Require ProofB64 PropertiesOrbit.
Import ListNotations.
Local Open Scope R_scope.

(** ** C106: Kepler's equation *)
(** eccentricities up to 0.2, mean anomalies up to ten revolutions *)
Theorem C106_medium : forall m e M, accurate m -> double e -> double M -> 0 <= Q2R e <= 1 / 5 -> Rabs (Q2R M) <= 63 ->
  exists E, kepler_solve_d m e M = Some E /\ Rabs (Q2R E - Q2R e * sin (Q2R E) - Q2R M) <= 56 / 10 ^ 16 /\
    forall E', kepler_eq (Q2R e) (Q2R M) E' -> Rabs (Q2R E - E') <= 7 / 10 ^ 15.
Proof.
  intros m e M Hm De DM He HM. destruct (solve_medium m e M Hm De DM He HM) as (E & K & _ & R). exists E. split; [exact K|]. split; [exact R|].
  intros E' K'. pose proof (near_root (Q2R e) _ _ _ _ ltac:(lra) K' R) as N. pose proof (Rabs_pos (Q2R E - E')).
  assert (Rabs (Q2R E - E') * (4 / 5) <= Rabs (Q2R E - E') * (1 - Q2R e)) by (apply Rmult_le_compat_l; lra). lra.
Qed.
Print Assumptions C106_medium.
(** up to 0.5 (the end of the broadcast field), five revolutions *)
Theorem C106_half : forall m e M, accurate m -> double e -> double M -> 0 <= Q2R e <= 1 / 2 -> Rabs (Q2R M) <= 31 ->
  exists E, kepler_solve_d m e M = Some E /\ Rabs (Q2R E - Q2R e * sin (Q2R E) - Q2R M) <= 70 / 10 ^ 16 /\
    forall E', kepler_eq (Q2R e) (Q2R M) E' -> Rabs (Q2R E - E') <= 14 / 10 ^ 15.
Proof.
  intros m e M Hm De DM He HM. destruct (solve_half m e M Hm De DM He HM) as (E & K & _ & R). exists E. split; [exact K|]. split; [exact R|].
  intros E' K'. pose proof (near_root (Q2R e) _ _ _ _ ltac:(lra) K' R) as N. pose proof (Rabs_pos (Q2R E - E')).
  assert (Rabs (Q2R E - E') * (1 / 2) <= Rabs (Q2R E - E') * (1 - Q2R e)) by (apply Rmult_le_compat_l; lra). lra.
Qed.
Print Assumptions C106_half.
(** up to 0.85, one revolution *)
Theorem C106_turn : forall m e M, accurate m -> double e -> double M -> 0 <= Q2R e <= 85 / 100 -> Rabs (Q2R M) <= 3149 / 1000 ->
  exists E, kepler_solve_d m e M = Some E /\ Rabs (Q2R E - Q2R e * sin (Q2R E) - Q2R M) <= 90 / 10 ^ 16 /\
    forall E', kepler_eq (Q2R e) (Q2R M) E' -> Rabs (Q2R E - E') <= 60 / 10 ^ 15.
Proof.
  intros m e M Hm De DM He HM. destruct (solve_turn m e M Hm De DM He HM) as (E & K & _ & R). exists E. split; [exact K|]. split; [exact R|].
  intros E' K'. pose proof (near_root (Q2R e) _ _ _ _ ltac:(lra) K' R) as N. pose proof (Rabs_pos (Q2R E - E')).
  assert (Rabs (Q2R E - E') * (15 / 100) <= Rabs (Q2R E - E') * (1 - Q2R e)) by (apply Rmult_le_compat_l; lra). lra.
Qed.
Print Assumptions C106_turn.

(** ** Intervals of the ephemeris *)
Ltac apx := lazymatch goal with
  | |- ap _ (fadd _ _) _ => eapply ap_add; [apx|apx]
  | |- ap _ (fsub _ _) _ => eapply ap_sub; [apx|apx]
  | |- ap _ (fmul _ _) _ => eapply ap_mul; [apx|apx]
  | |- ap _ (fdiv _ _) _ => eapply ap_div; [apx|apx|vm_compute; reflexivity]
  | |- ap _ (m_sqrt _ _) _ => eapply ap_sqrt; [eassumption|apx|vm_compute; reflexivity]
  | |- ap _ (m_sin _ _) _ => eapply ap_sin; [eassumption|apx]
  | |- ap _ (m_cos _ _) _ => eapply ap_cos; [eassumption|apx]
  | |- _ => eassumption
  end.
Ltac apn H := lazymatch type of H with ap ?i _ _ => let E := fresh in let j := eval vm_compute in i in assert (E : i = j) by (vm_compute; reflexivity); rewrite E in H; clear E end.
Tactic Notation "have" constr(x) "near" constr(r) "as" ident(H) :=
  let i := open_constr:(_ : itv) in assert (H : ap i x r); [apx|apn H].

Lemma ap_one : ap (mkI 1 1 0) 1%Q 1.
Proof. pose proof (ap_exact 1 1 1 (ProofB64.double_int 1 ltac:(discriminate)) ltac:(split; discriminate)) as H. rewrite Q2R_1 in H. exact H. Qed.
Lemma Q2R_2 : Q2R 2 = 2. Proof. unfold Q2R. cbn [Qnum Qden]. lra. Qed.
Lemma ap_two : ap (mkI 2 2 0) 2%Q 2.
Proof. pose proof (ap_exact 2 2 2 (ProofB64.double_int 2 ltac:(discriminate)) ltac:(split; discriminate)) as H. rewrite Q2R_2 in H. exact H. Qed.
Definition i_mi : itv := mkI 398600441800000 398600500000000 (1 # 20).
Lemma ap_mi s : ap i_mi (mi_d s) (mu_of (PropertiesOrbit.sys_of s)).
Proof.
  destruct s; unfold mi_d; (eapply ap_w; [|]); 
  [ pose proof (ap_lit 398600500000000) as H; replace (Q2R 398600500000000) with (mu_of (PropertiesOrbit.sys_of KGps)) in H; [exact H|unfold Q2R; cbn; lra] | vm_compute; reflexivity
  | pose proof (ap_lit 398600441800000) as H; replace (Q2R 398600441800000) with (mu_of (PropertiesOrbit.sys_of KGal)) in H; [exact H|unfold Q2R; cbn; lra] | vm_compute; reflexivity
  | pose proof (ap_lit 398600441800000) as H; replace (Q2R 398600441800000) with (mu_of (PropertiesOrbit.sys_of KBds)) in H; [exact H|unfold Q2R; cbn; lra] | vm_compute; reflexivity ].
Qed.
Definition i_oe : itv := mkI (729211 # 10000000000) (729212 # 10000000000) (1 # 100000000000000000000).
Lemma ap_oe s : ap i_oe (omegae_d s) (Oe_of (PropertiesOrbit.sys_of s)).
Proof.
  destruct s; unfold omegae_d; (eapply ap_w; [|]);
  [ pose proof (ap_lit (72921151467 # 1000000000000000)) as H; replace (Q2R (72921151467 # 1000000000000000)) with (Oe_of (PropertiesOrbit.sys_of KGps)) in H; [exact H|unfold Q2R; cbn; lra] | vm_compute; reflexivity
  | pose proof (ap_lit (72921151467 # 1000000000000000)) as H; replace (Q2R (72921151467 # 1000000000000000)) with (Oe_of (PropertiesOrbit.sys_of KGal)) in H; [exact H|unfold Q2R; cbn; lra] | vm_compute; reflexivity
  | pose proof (ap_lit (72921150 # 1000000000000)) as H; replace (Q2R (72921150 # 1000000000000)) with (Oe_of (PropertiesOrbit.sys_of KBds)) in H; [exact H|unfold Q2R; cbn; lra] | vm_compute; reflexivity ].
Qed.
Definition i_tk : itv := mkI (-302400) 302400 (8 # 100000000000).
Lemma ap_tk t t0 : half_week t t0 -> ap i_tk (fsub t t0) (Q2R t - Q2R t0).
Proof.
  intro H. apply Qabs_Qle_condition in H. destruct H as (A & B). apply Qle_Rle in A, B. apply (ap_w (rnd (-302400) 302400 0)); [|vm_compute; reflexivity].
  apply ap_rnd; rewrite <- Q2R_minus; [split; assumption|]. rewrite Rminus_eq_0, Rabs_R0, Q2R_0. lra.
Qed.

Section Orbit.
Variables (m : libm) (s : kepsys) (d : nat -> Q).
Hypothesis (Hm : accurate m) (Hd : broadcast d).
Let dR (i : nat) : R := Q2R (d i).
Let mu := mu_of (PropertiesOrbit.sys_of s).
Let Oe := Oe_of (PropertiesOrbit.sys_of s).
Lemma f10 : ap (mkI 5000 6600 0) (d 10%nat) (dR 10). Proof. apply ap_exact; [apply (b_double d Hd)|apply (b_sqrtA d Hd)]. Qed.
Lemma f8 : ap (mkI 0 (1 # 5) 0) (d 8%nat) (dR 8). Proof. apply ap_exact; [apply (b_double d Hd)|apply (b_ecc d Hd)]. Qed.
Lemma fang i : In i [6; 13; 15; 17]%nat -> ap (mkI (- (32 # 10)) (32 # 10) 0) (d i) (dR i).
Proof. intro H. apply ap_exact_abs; [apply (b_double d Hd)|apply (b_angles d Hd), H]. Qed.
Lemma fsmall i : In i [7; 9; 12; 14]%nat -> ap (mkI (- (1 # 10000)) (1 # 10000) 0) (d i) (dR i).
Proof. intro H. apply ap_exact_abs; [apply (b_double d Hd)|apply (b_small d Hd), H]. Qed.
Lemma frad i : In i [4; 16]%nat -> ap (mkI (- (2048)) (2048) 0) (d i) (dR i).
Proof. intro H. apply ap_exact_abs; [apply (b_double d Hd)|apply (b_radius d Hd), H]. Qed.
Lemma f5 : ap (mkI (- (2 # 100000000)) (2 # 100000000) 0) (d 5%nat) (dR 5). Proof. apply ap_exact_abs; [apply (b_double d Hd)|apply (b_deltan d Hd)]. Qed.
Lemma f19 : ap (mkI (- (1 # 100000000)) (1 # 100000000) 0) (d 19%nat) (dR 19). Proof. apply ap_exact_abs; [apply (b_double d Hd)|apply (b_idot d Hd)]. Qed.
Lemma f18 : ap (mkI (- (4 # 1000000)) (4 # 1000000) 0) (d 18%nat) (dR 18). Proof. apply ap_exact_abs; [apply (b_double d Hd)|apply (b_omegadot d Hd)]. Qed.
Lemma f11 : ap (mkI 0 604800 0) (d 11%nat) (dR 11). Proof. apply ap_exact; [apply (b_double d Hd)|apply (b_toe d Hd)]. Qed.
Lemma ecc_R : 0 <= dR 8 <= 1 / 5.
Proof. destruct (b_ecc d Hd) as (A & B). apply Qle_Rle in A, B. rewrite Q2R_0 in A. rewrite Q2R_frac in B. unfold dR. lra. Qed.

Definition i_M : itv := mkI (-53) 53 (12 # 100000000000000).
Lemma mean_anomaly_near dt D : ap i_tk dt D ->
  ap i_M (mean_anomaly_d m s d dt) (dR 6 + (sqrt (mu / (dR 10 * dR 10 * (dR 10 * dR 10) * (dR 10 * dR 10))) + dR 5) * D).
Proof.
  intro HD. pose proof f5 as F5. pose proof (fang 6 ltac:(cbn; tauto)) as F6. pose proof (ap_mi s) as Fmi. fold mu in Fmi.
  assert (F10 : ap (mkI 5000 5400 0) (d 10%nat) (dR 10) \/ ap (mkI 5400 5700 0) (d 10%nat) (dR 10) \/ ap (mkI 5700 6100 0) (d 10%nat) (dR 10) \/ ap (mkI 6100 6600 0) (d 10%nat) (dR 10)).
  { destruct (b_sqrtA d Hd) as (A & B). destruct (Qlt_le_dec (d 10%nat) 5400); [left; apply ap_exact; [apply (b_double d Hd)|split; [exact A|apply Qlt_le_weak; assumption]]|].
    destruct (Qlt_le_dec (d 10%nat) 5700); [right; left; apply ap_exact; [apply (b_double d Hd)|split; [assumption|apply Qlt_le_weak; assumption]]|].
    destruct (Qlt_le_dec (d 10%nat) 6100); [right; right; left; apply ap_exact; [apply (b_double d Hd)|split; [assumption|apply Qlt_le_weak; assumption]]|].
    right; right; right; apply ap_exact; [apply (b_double d Hd)|split; assumption]. }
  unfold mean_anomaly_d.
  destruct F10 as [F10|[F10|[F10|F10]]];
  (have (fmul (d 10%nat) (d 10%nat)) near (dR 10 * dR 10) as HA; set (A := fmul (d 10%nat) (d 10%nat)) in *; clearbody A; set (AR := dR 10 * dR 10) in *; clearbody AR;
  have (m_sqrt m (fdiv (mi_d s) (fmul (fmul A A) A))) near (sqrt (mu / (AR * AR * AR))) as Hn;
  set (n0 := m_sqrt m _) in *; clearbody n0; set (nR := sqrt _) in *; clearbody nR;
  eapply ap_w; [apx|vm_compute; reflexivity]).
Qed.

Lemma eqR a b : a = b -> forall i x, ap i x a -> ap i x b.
Proof. intros ->; auto. Qed.
Lemma position_near : forall t toe tk E, ap i_tk (fsub t toe) tk ->
  let p := eph_of dR in
  kepler_eq (ecc p) (M0 p + mean_motion mu p * tk) E ->
  exists Eh xh yh zh x y z, kepler2state_d m s d toe t = Some (Eh, xh, yh, zh) /\ icd_position mu Oe p tk E x y z /\ Rabs (Q2R Eh - E) <= 2 / 10 ^ 13 /\ exists ix iy iz, ap ix xh x /\ ap iy yh y /\ ap iz zh z /\ Qle_bool (er ix) (1 # 10000) = true /\ Qle_bool (er iy) (1 # 10000) = true /\ Qle_bool (er iz) (1 # 10000) = true.
Proof.
  intros t toe tk E Htk p K. unfold kepler2state_d.
  pose proof (mean_anomaly_near _ _ Htk) as HM.
  replace (dR 6 + (sqrt (mu / (dR 10 * dR 10 * (dR 10 * dR 10) * (dR 10 * dR 10))) + dR 5) * tk) with (M0 p + mean_motion mu p * tk) in HM
    by (unfold mean_motion, p, eph_of; cbn [M0 sqrtA Deltan]; do 5 f_equal; ring).
  set (Mk := mean_anomaly_d m s d _) in *. clearbody Mk. set (tkh := fsub t toe) in *. clearbody tkh.
  destruct (ap_kepler m i_M (d 8%nat) Mk _ Hm (b_double d Hd 8) ecc_R HM ltac:(vm_compute; reflexivity)) as (Eh & -> & HE).
  specialize (HE E K). apn HE.
  pose proof ap_one as One. pose proof ap_two as Two. pose proof f8 as F8. pose proof f10 as F10. pose proof f11 as F11. pose proof f18 as F18. pose proof f19 as F19.
  pose proof (fang 13 ltac:(cbn; tauto)) as F13. pose proof (fang 15 ltac:(cbn; tauto)) as F15. pose proof (fang 17 ltac:(cbn; tauto)) as F17.
  pose proof (fsmall 7 ltac:(cbn; tauto)) as F7. pose proof (fsmall 9 ltac:(cbn; tauto)) as F9. pose proof (fsmall 12 ltac:(cbn; tauto)) as F12. pose proof (fsmall 14 ltac:(cbn; tauto)) as F14.
  pose proof (frad 4 ltac:(cbn; tauto)) as F4. pose proof (frad 16 ltac:(cbn; tauto)) as F16. pose proof (ap_oe s) as FOe. fold Oe in FOe.
  assert (TA : exists v, true_anomaly (dR 8) E v) by (eexists; apply anomaly_ok; pose proof ecc_R; lra). destruct TA as (v & Cv & Sv).
  have (m_sin m Eh) near (sin E) as HsE. have (m_cos m Eh) near (cos E) as HcE.
  set (sE := m_sin m Eh) in *. set (cE := m_cos m Eh) in *.
  have (fsub 1 (fmul (d 8%nat) cE)) near (1 - dR 8 * cos E) as Hec. set (ec := fsub 1 (fmul (d 8%nat) cE)) in *.
  have (fdiv (fmul (m_sqrt m (fsub 1 (fmul (d 8%nat) (d 8%nat)))) sE) ec) near (sqrt (1 - dR 8 * dR 8) * sin E / (1 - dR 8 * cos E)) as Hvs. rewrite <- Sv in Hvs.
  have (fdiv (fsub cE (d 8%nat)) ec) near ((cos E - dR 8) / (1 - dR 8 * cos E)) as Hvc. rewrite <- Cv in Hvc.
  set (vs := fdiv _ ec) in Hvs |- *. set (vc := fdiv _ ec) in Hvc |- *. clearbody vs vc.
  destruct (ap_angle m _ _ vs vc v Hm Hvs Hvc ltac:(vm_compute; reflexivity)) as (f & Cf & Sf & Hf). apn Hf.
  set (vh := m_atan2 m vs vc) in *. clearbody vh. rewrite <- Cf in Cv. rewrite <- Sf in Sv. clear Hvs Hvc Cf Sf v vs vc.
  have (fadd vh (d 17%nat)) near (f + dR 17) as HF. set (Fk := fadd vh _) in *. clearbody Fk. set (F := f + dR 17) in *.
  have (m_sin m (fmul 2 Fk)) near (sin (2 * F)) as Hs2. have (m_cos m (fmul 2 Fk)) near (cos (2 * F)) as Hc2.
  set (s2 := m_sin m (fmul 2 Fk)) in *. set (c2 := m_cos m (fmul 2 Fk)) in *. clearbody s2 c2.
  have (fadd Fk (fadd (fmul (d 9%nat) s2) (fmul (d 7%nat) c2))) near (F + (dR 9 * sin (2 * F) + dR 7 * cos (2 * F))) as Hu.
  set (uh := fadd Fk _) in *. clearbody uh. set (u := F + (dR 9 * sin (2 * F) + dR 7 * cos (2 * F))) in *.
  have (fadd (fmul (fmul (d 10%nat) (d 10%nat)) ec) (fadd (fmul (d 4%nat) s2) (fmul (d 16%nat) c2))) near (dR 10 * dR 10 * (1 - dR 8 * cos E) + (dR 4 * sin (2 * F) + dR 16 * cos (2 * F))) as Hr.
  set (rh := fadd (fmul (fmul _ _) ec) _) in *. clearbody rh. set (r := dR 10 * dR 10 * (1 - dR 8 * cos E) + (dR 4 * sin (2 * F) + dR 16 * cos (2 * F))) in *.
  have (fadd (fadd (d 15%nat) (fadd (fmul (d 14%nat) s2) (fmul (d 12%nat) c2))) (fmul (d 19%nat) tkh)) near (dR 15 + (dR 14 * sin (2 * F) + dR 12 * cos (2 * F)) + dR 19 * tk) as Hi.
  set (ih := fadd (fadd (d 15%nat) _) _) in *. clearbody ih. set (i := dR 15 + (dR 14 * sin (2 * F) + dR 12 * cos (2 * F)) + dR 19 * tk) in *.
  have (fsub (fadd (d 13%nat) (fmul (fsub (d 18%nat) (omegae_d s)) tkh)) (fmul (omegae_d s) (d 11%nat))) near (dR 13 + (dR 18 - Oe) * tk - Oe * dR 11) as HO.
  set (oh := fsub (fadd (d 13%nat) _) _) in *. clearbody oh. set (Om := dR 13 + (dR 18 - Oe) * tk - Oe * dR 11) in *.
  assert (Fin : icd_position mu Oe p tk E (r * cos u * cos Om - r * sin u * sin Om * cos i) (r * cos u * sin Om + r * sin u * cos Om * cos i) (r * sin u * sin i)).
  { exists f, F, u, r, i, Om. unfold p, eph_of. cbn [ecc omega Cus Cuc Crs Crc sqrtA i0 Cis Cic IDOT Omega0 OMEGADOT toe_sow].
    split; [split; assumption|]. repeat (split; [unfold r; try reflexivity; ring|]). ring. }
  clear One Two F8 F10 F11 F18 F19 F13 F15 F17 F7 F9 F12 F14 F4 F16 FOe HsE HcE Hec HF Hs2 Hc2 HM Htk.
  do 7 eexists. split; [reflexivity|]. split; [exact Fin|]. split.
  { destruct HE as (_ & _ & HE). eapply Rle_trans; [exact HE|]. unfold er. unfold Q2R. cbn [Qnum Qden]. lra. }
  clearbody r u i Om sE cE.
  have (fmul rh (m_cos m uh)) near (r * cos u) as Hx. have (fmul rh (m_sin m uh)) near (r * sin u) as Hy.
  set (xd := fmul rh (m_cos m uh)) in *. set (yd := fmul rh (m_sin m uh)) in *. clearbody xd yd.
  do 3 eexists. split; [apx|]. split; [apx|]. split; [apx|]. split; [|split]; vm_compute; reflexivity.
Qed.

(** the clock *)
Definition i_F : itv := mkI (- (5 # 10000000000)) (5 # 10000000000) (1 # 1000000000000000000000000).
Lemma ap_F : ap i_F (f_clock_d m s) (F_of (PropertiesOrbit.sys_of s)).
Proof.
  destruct s; unfold f_clock_d; (eapply ap_w; [|]).
  - pose proof (ap_opp _ _ _ (ap_lit (4442807633 # 10000000000000000000))) as H. replace (- Q2R (4442807633 # 10000000000000000000)) with (F_of (PropertiesOrbit.sys_of KGps)) in H; [exact H|unfold Q2R; cbn; lra].
  - vm_compute; reflexivity.
  - pose proof (ap_opp _ _ _ (ap_lit (4442807309 # 10000000000000000000))) as H. replace (- Q2R (4442807309 # 10000000000000000000)) with (F_of (PropertiesOrbit.sys_of KGal)) in H; [exact H|unfold Q2R; cbn; lra].
  - vm_compute; reflexivity.
  - pose proof (ap_opp _ _ _ ap_two) as H2. pose proof (ap_lit 398600441800000) as HM. pose proof (ap_lit 299792458) as HC. apn H2. apn HM. apn HC.
    replace (F_of (PropertiesOrbit.sys_of KBds)) with (- (2) * sqrt (Q2R 398600441800000) / (Q2R 299792458 * Q2R 299792458)); [apx|].
    cbn [PropertiesOrbit.sys_of F_of]. replace (Q2R 398600441800000) with (3986004418 * 10 ^ 5) by (unfold Q2R; cbn; lra). replace (Q2R 299792458) with 299792458 by (unfold Q2R; cbn; lra).
    field.
  - vm_compute; reflexivity.
Qed.
Lemma clock_near : broadcast_clock d -> forall t toc dt E, ap i_tk (fsub t toc) dt ->
  let p := eph_of dR in
  kepler_eq (ecc p) (M0 p + mean_motion mu p * dt) E ->
  exists c i, sv_clock_d m s d toc t = Some c /\
    ap i c (dR 0 + dR 1 * dt + dR 2 * dt * dt + F_of (PropertiesOrbit.sys_of s) * (dR 8 * dR 10 * sin E)) /\
    Qle_bool (er i) (1 # 100000000000000000) = true.
Proof.
  intros Hc t toc dt E Htk p K. unfold sv_clock_d.
  pose proof (mean_anomaly_near _ _ Htk) as HM.
  replace (dR 6 + (sqrt (mu / (dR 10 * dR 10 * (dR 10 * dR 10) * (dR 10 * dR 10))) + dR 5) * dt) with (M0 p + mean_motion mu p * dt) in HM
    by (unfold mean_motion, p, eph_of; cbn [M0 sqrtA Deltan]; do 5 f_equal; ring).
  set (Mk := mean_anomaly_d m s d _) in *. clearbody Mk. set (tkh := fsub t toc) in *. clearbody tkh.
  destruct (ap_kepler m i_M (d 8%nat) Mk _ Hm (b_double d Hd 8) ecc_R HM ltac:(vm_compute; reflexivity)) as (Eh & -> & HE).
  specialize (HE E K). apn HE. pose proof f8 as F8. pose proof f10 as F10. pose proof ap_F as FF.
  pose proof (ap_exact_abs _ _ (b_double d Hd 0) (c_bias d Hc)) as F0. pose proof (ap_exact_abs _ _ (b_double d Hd 1) (c_drift d Hc)) as F1. pose proof (ap_exact_abs _ _ (b_double d Hd 2) (c_rate d Hc)) as F2.
  fold (dR 0) in F0. fold (dR 1) in F1. fold (dR 2) in F2. clear HM.
  do 2 eexists. split; [reflexivity|]. split; [apx|]. vm_compute. reflexivity.
Qed.
End Orbit.

(** ** C107: the position, within a tenth of a millimetre of the exact formulas of the interface documents *)
Lemma er_le i xh x q v : ap i xh x -> Qle_bool (er i) q = true -> Q2R q = v -> Rabs (Q2R xh - x) <= v.
Proof. intros (_ & _ & E) H <-. apply qle_b in H. lra. Qed.
Theorem C107_position : forall m s d toe t, accurate m -> broadcast d -> half_week t toe ->
  let p := eph_of (fun i => Q2R (d i)) in let tk := Q2R t - Q2R toe in
  let mu := mu_of (PropertiesOrbit.sys_of s) in let Oe := Oe_of (PropertiesOrbit.sys_of s) in
  exists E x y z, kepler_eq (ecc p) (M0 p + mean_motion mu p * tk) E /\ icd_position mu Oe p tk E x y z /\
  exists Eh xh yh zh, kepler2state_d m s d toe t = Some (Eh, xh, yh, zh) /\
    Rabs (Q2R Eh - E) <= 2 / 10 ^ 13 /\
    Rabs (Q2R xh - x) <= / 10 ^ 4 /\ Rabs (Q2R yh - y) <= / 10 ^ 4 /\ Rabs (Q2R zh - z) <= / 10 ^ 4.
Proof.
  intros m s d toe t Hm Hd HW p tk mu Oe.
  assert (R : exists E, kepler_eq (ecc p) (M0 p + mean_motion mu p * tk) E).
  { apply root_exists. pose proof (ecc_R d Hd) as B. unfold p, eph_of. cbn [ecc]. lra. }
  destruct R as (E & K). destruct (position_near m s d Hm Hd t toe tk E (ap_tk t toe HW) K) as (Eh & xh & yh & zh & x & y & z & A & B & C & ix & iy & iz & X & Y & Z & X' & Y' & Z').
  assert (V : Q2R (1 # 10000) = / 10 ^ 4) by (rewrite Q2R_frac; lra).
  exists E, x, y, z. split; [exact K|]. split; [exact B|]. exists Eh, xh, yh, zh. split; [exact A|]. split; [exact C|].
  split; [|split]; eapply er_le; eassumption.
Qed.
Print Assumptions C107_position.

(** ** C108: the clock, within 1e-17 s *)
Theorem C108_clock : forall m s d toc t, accurate m -> broadcast d -> broadcast_clock d -> half_week t toc ->
  let p := eph_of (fun i => Q2R (d i)) in let dt := Q2R t - Q2R toc in
  exists E c, kepler_eq (ecc p) (M0 p + mean_motion (mu_of (PropertiesOrbit.sys_of s)) p * dt) E /\
    sv_clock_d m s d toc t = Some c /\
    Rabs (Q2R c - (Q2R (d 0%nat) + Q2R (d 1%nat) * dt + Q2R (d 2%nat) * dt ^ 2 + F_of (PropertiesOrbit.sys_of s) * ecc p * sqrtA p * sin E)) <= / 10 ^ 17.
Proof.
  intros m s d toc t Hm Hd Hc HW p dt.
  assert (R : exists E, kepler_eq (ecc p) (M0 p + mean_motion (mu_of (PropertiesOrbit.sys_of s)) p * dt) E).
  { apply root_exists. pose proof (ecc_R d Hd) as B. unfold p, eph_of. cbn [ecc]. lra. }
  destruct R as (E & K). destruct (clock_near m s d Hm Hd Hc t toc dt E (ap_tk t toc HW) K) as (c & i & A & B & C). exists E, c. split; [exact K|]. split; [exact A|].
  pose proof (er_le _ _ _ _ (/ 10 ^ 17) B C ltac:(rewrite Q2R_frac; lra)) as G. fold dt in G. unfold p, eph_of. cbn [ecc sqrtA].
  match goal with |- Rabs (_ - ?a) <= _ => match type of G with Rabs (_ - ?b) <= _ => replace a with b by ring end end. exact G.
Qed.
Print Assumptions C108_clock.

(** ** A <cmath> that is accurate, and an ephemeris in the ranges *)
Definition grid (x : R) : Q := inject_Z (Rdefinitions.up (x * (2 ^ 60 - 4))) * (1 # 1152921504606846976).
Lemma grid_near x b : Rabs x <= b -> Rabs (Q2R (grid x) - x) <= (4 * b + 1) / 2 ^ 60 /\ Rabs (Q2R (grid x)) <= b * (1 - 4 / 2 ^ 60) + 1 / 2 ^ 60.
Proof.
  intro H. unfold grid. rewrite Q2R_mult, Q2R_inj, Q2R_frac. pose proof (archimed (x * (2 ^ 60 - 4))) as (A & B).
  set (z := IZR (Rdefinitions.up (x * (2 ^ 60 - 4)))) in *. clearbody z. apply Rabs_le_inv in H. split; apply Rabs_le; lra.
Qed.
Lemma grid_one x : Rabs x <= 1 -> Rabs (Q2R (b64 (grid x)) - x) <= / 2 ^ 53.
Proof.
  intro H. destruct (grid_near x 1 H) as (A & B).
  assert (C : Rabs (Q2R (b64 (grid x)) - Q2R (grid x)) <= / 2 ^ 54).
  { apply (b64_below _ 0); [discriminate| |].
    - change (2 ^ 0)%Q with (1 # 1)%Q. rewrite Q2R_frac. lra.
    - change (2 ^ (0 - 54))%Q with (1 # 18014398509481984)%Q. rewrite Q2R_frac. lra. }
  apply Rabs_le_inv in A, C. apply Rabs_le. lra.
Qed.
Lemma grid_four x : Rabs x <= 4 -> Rabs (Q2R (b64 (grid x)) - x) <= / 2 ^ 51.
Proof.
  intro H. destruct (grid_near x 4 H) as (A & B).
  assert (C : Rabs (Q2R (b64 (grid x)) - Q2R (grid x)) <= / 2 ^ 52).
  { apply (b64_below _ 2); [discriminate| |].
    - change (2 ^ 2)%Q with (4 # 1)%Q. rewrite Q2R_frac. lra.
    - change (2 ^ (2 - 54))%Q with (1 # 4503599627370496)%Q. rewrite Q2R_frac. lra. }
  apply Rabs_le_inv in A, C. apply Rabs_le. lra.
Qed.
(** square roots on a grid of 2^-600 *)
Definition grid_sqrt (x : R) : Q := (inject_Z (Rdefinitions.up (x * IZR (2 ^ 600))) * (1 # (2 ^ 600)))%Q.
Definition some_libm : libm :=
  mkLibm (fun x => b64 (grid_sqrt (sqrt (Q2R x)))) (fun x => b64 (grid (sin (Q2R x)))) (fun x => b64 (grid (cos (Q2R x))))
         (fun y x => b64 (grid (atan2 (Q2R y) (Q2R x)))).
Lemma sqrt_grid x : (2 ^ (-1022) <= x)%Q -> Rabs (Q2R (b64 (grid_sqrt (sqrt (Q2R x)))) - sqrt (Q2R x)) <= / 2 ^ 52 * sqrt (Q2R x).
Proof.
  intro H. set (T := IZR (2 ^ 511)). assert (T0 : 1 <= T) by (apply IZR_le; vm_compute; discriminate).
  assert (T1 : IZR (2 ^ 600) = T * IZR (2 ^ 89)) by (unfold T; rewrite <- mult_IZR; f_equal).
  assert (T2 : Q2R (2 ^ (-1022)) = / (T * T)).
  { change (2 ^ (-1022))%Q with (/ (2 ^ 1022))%Q. rewrite Q2R_inv by (vm_compute; discriminate). f_equal. rewrite (Qeq_eqR _ _ (ProofB64.pow_z 1022 ltac:(discriminate))), Q2R_inj. unfold T. rewrite <- mult_IZR. f_equal. }
  apply Qle_Rle in H. rewrite T2 in H. pose proof T2 as T2'.
  assert (S : / T <= sqrt (Q2R x)).
  { rewrite <- (sqrt_square (/ T)) by (apply Rlt_le, Rinv_0_lt_compat; lra). apply sqrt_le_1_alt. rewrite <- Rinv_mult. exact H. }
  set (v := sqrt (Q2R x)) in *. clearbody v. clear H T2 x.
  assert (I0 : 0 < / T) by (apply Rinv_0_lt_compat; lra).
  pose proof (archimed (v * IZR (2 ^ 600))) as (A & B). set (q := grid_sqrt v).
  assert (V : Q2R q = IZR (Rdefinitions.up (v * IZR (2 ^ 600))) * / IZR (2 ^ 600)).
  { unfold q, grid_sqrt. rewrite Q2R_mult, Q2R_inj, Q2R_frac. unfold Rdiv. rewrite Rmult_1_l. reflexivity. }
  set (z := IZR (Rdefinitions.up _)) in *. clearbody z. set (K := IZR (2 ^ 600)) in *.
  assert (K0 : 0 < K) by (apply IZR_lt; reflexivity).
  assert (E1 : v < Q2R q <= v + / K).
  { rewrite V. assert (K1 : 0 < / K) by (apply Rinv_0_lt_compat; lra). assert (K2 : K * / K = 1) by (apply Rinv_r; lra).
    assert (X : v = v * K * / K) by (rewrite Rmult_assoc, K2; ring). rewrite X at 1 2. split; [apply Rmult_lt_compat_r; lra|].
    rewrite <- (Rmult_1_l (/ K)) at 3. rewrite <- Rmult_plus_distr_r. apply Rmult_le_compat_r; lra. }
  set (w := IZR (2 ^ 89)) in *. assert (W : 2 ^ 60 <= w) by (unfold w; apply Rle_trans with (IZR (2 ^ 60)); [change (IZR (2 ^ 60)) with (IZR 1152921504606846976); lra|apply IZR_le; vm_compute; discriminate]).
  assert (E2 : / K <= v * / 2 ^ 60).
  { rewrite T1, Rinv_mult. apply Rmult_le_compat; [lra|apply Rlt_le, Rinv_0_lt_compat; lra|exact S|apply Rinv_le_contravar; lra]. }
  assert (v0 : 0 < v) by lra. clearbody q. clear A B V K0 T1 W z.
  assert (N : (2 ^ (-1022) <= Qabs q)%Q).
  { apply Rle_Qle. rewrite T2', Q2R_abs, Rabs_pos_eq by lra. apply Rle_trans with (/ T); [|lra]. apply Rinv_le_contravar; [lra|nra]. }
  pose proof (ProofB64.b64_rel q N) as R. apply Qle_Rle in R. change (2 ^ (-53))%Q with uQ in R. rewrite Q2R_mult, !Q2R_abs, Q2R_minus, u_val, (Rabs_pos_eq (Q2R q)) in R by lra.
  apply Rabs_le_inv in R. apply Rabs_le. clear T2' N. clearbody K. lra.
Qed.
Lemma some_libm_accurate : accurate some_libm.
Proof.
  split; cbn [some_libm m_sin m_cos m_sqrt m_atan2]; intros; try apply ProofB64.b64_double.
  - apply grid_one. apply Rabs_le. pose proof (SIN_bound (Q2R x)). lra.
  - apply grid_one. apply Rabs_le. pose proof (COS_bound (Q2R x)). lra.
  - apply sqrt_grid. assumption.
  - apply grid_four. pose proof (atan2_range (Q2R y) (Q2R x)). pose proof PI_4. lra.
Qed.
Definition eph_values : list Q := [1 # 16384; 1 # 137438953472; 0; 77; 88; 1 # 268435456; 3 # 2; 1 # 262144; 1 # 64; 1 # 131072; 5153; 7200; 0; - (11 # 8); 1 # 8388608; 61 # 64; 200; 1 # 2; - (1 # 134217728); 0]%Q.
Definition eph_some (i : nat) : Q := nth i eph_values 0%Q.
Lemma eph_some_double i : double (eph_some i).
Proof.
  assert (F : Forall double eph_values).
  { unfold eph_values. repeat (apply Forall_cons; [match goal with |- double ?q => apply (ProofB64.double_wd (b64 q)); [vm_compute; reflexivity|apply ProofB64.b64_double] end|]). constructor. }
  unfold eph_some. destruct (nth_in_or_default i eph_values 0%Q) as [I| ->].
  - rewrite Forall_forall in F. apply F, I.
  - apply (ProofB64.double_int 0). discriminate.
Qed.
Lemma eph_some_broadcast : broadcast eph_some /\ broadcast_clock eph_some.
Proof.
  split; split.
  - exact eph_some_double.
  - split; discriminate.
  - split; discriminate.
  - intros i H. cbn in H. repeat (destruct H as [<-|H]; [discriminate|]). destruct H.
  - discriminate.
  - discriminate.
  - discriminate.
  - intros i H. cbn in H. repeat (destruct H as [<-|H]; [discriminate|]). destruct H.
  - intros i H. cbn in H. repeat (destruct H as [<-|H]; [discriminate|]). destruct H.
  - split; discriminate.
  - discriminate.
  - discriminate.
  - discriminate.
Qed.
Example C106_ex : exists E, kepler_solve_d some_libm (1 # 64) (3 # 2) = Some E /\ Rabs (Q2R E - Q2R (1 # 64) * sin (Q2R E) - Q2R (3 # 2)) <= 56 / 10 ^ 16.
Proof.
  destruct (C106_medium some_libm (1 # 64) (3 # 2) some_libm_accurate) as (E & A & B & _).
  - apply (ProofB64.double_wd (b64 (1 # 64))); [vm_compute; reflexivity|apply ProofB64.b64_double].
  - apply (ProofB64.double_wd (b64 (3 # 2))); [vm_compute; reflexivity|apply ProofB64.b64_double].
  - rewrite Q2R_frac. lra.
  - rewrite Q2R_frac. rewrite Rabs_pos_eq; lra.
  - exists E. auto.
Qed.
Example C107_ex : exists x y z Eh xh yh zh, kepler2state_d some_libm KGps eph_some 7200 9000 = Some (Eh, xh, yh, zh) /\
  Rabs (Q2R xh - x) <= / 10 ^ 4 /\ Rabs (Q2R yh - y) <= / 10 ^ 4 /\ Rabs (Q2R zh - z) <= / 10 ^ 4 /\
  exists E, icd_position (mu_of Gps) (Oe_of Gps) (eph_of (fun i => Q2R (eph_some i))) (Q2R 9000 - Q2R 7200) E x y z.
Proof.
  destruct (C107_position some_libm KGps eph_some 7200 9000 some_libm_accurate (proj1 eph_some_broadcast) ltac:(discriminate)) as (E & x & y & z & _ & P & Eh & xh & yh & zh & K & _ & X & Y & Z).
  exists x, y, z, Eh, xh, yh, zh. split; [exact K|]. split; [exact X|]. split; [exact Y|]. split; [exact Z|]. exists E. exact P.
Qed.
Example C108_ex : exists c, sv_clock_d some_libm KBds eph_some 7200 9000 = Some c.
Proof.
  destruct (C108_clock some_libm KBds eph_some 7200 9000 some_libm_accurate (proj1 eph_some_broadcast) (proj2 eph_some_broadcast) ltac:(discriminate)) as (E & c & _ & A & _).
  exists c. exact A.
Qed.

Ltac qlra := Lqa.lra.
(** ** C57: the GPS accuracy index in floats *)
Lemma fr_mono p emin q q' : (1 < p)%Z -> (q <= q')%Q -> (fround p emin q <= fround p emin q')%Q.
Proof.
  intros P H. destruct (Qlt_le_dec (fround p emin q') (fround p emin q)) as [L|L]; [|exact L]. exfalso.
  destruct (ProofB64.fr_nearest p emin P q) as (F & B & _). destruct (ProofB64.fr_nearest p emin P q') as (F' & B' & _).
  specialize (B _ F'). specialize (B' _ F). set (x := fround p emin q) in *. set (y := fround p emin q') in *.
  apply Qle_Rle in B, B', H. rewrite !Q2R_abs, !Q2R_minus in B, B'. apply Qlt_Rlt in L.
  assert (Q2R q = Q2R q') as EQ.
  { unfold Rabs in B, B'. destruct (Rcase_abs _), (Rcase_abs _) in B; destruct (Rcase_abs _), (Rcase_abs _) in B'; lra. }
  apply eqR_Qeq in EQ. assert (x = y) as XY by (apply ProofB64.fr_wd; assumption). rewrite XY in L. lra.
Qed.
Lemma b64_mono q q' : (q <= q')%Q -> (b64 q <= b64 q')%Q. Proof. apply fr_mono; reflexivity. Qed.
Lemma b32_mono q q' : (q <= q')%Q -> (b32 q <= b32 q')%Q. Proof. apply fr_mono; reflexivity. Qed.
Lemma floor_of q z : (inject_Z z <= q)%Q -> (q < inject_Z (z + 1))%Q -> Qfloor q = z.
Proof.
  intros A B. pose proof (Qfloor_le q) as C. pose proof (Qlt_floor q) as D.
  assert (inject_Z z < inject_Z (Qfloor q + 1))%Q by (eapply Qle_lt_trans; eassumption).
  assert (inject_Z (Qfloor q) < inject_Z (z + 1))%Q by (eapply Qle_lt_trans; eassumption).
  rewrite <- Zlt_Qlt in *. lia.
Qed.
Lemma round_away_near q z : (0 <= z)%Z -> Rabs (Q2R q - IZR z) <= 49 / 100 -> round_away q = z.
Proof.
  intros P H. apply Rabs_le_inv in H. unfold round_away. destruct (Qle_bool 0 q) eqn:E.
  - apply floor_of.
    + apply Rle_Qle. rewrite Q2R_plus, Q2R_inj, Q2R_frac. lra.
    + apply Rlt_Qlt. rewrite Q2R_plus, Q2R_inj, Q2R_frac, plus_IZR. lra.
  - assert (N : Q2R q < 0). { rewrite <- Q2R_0. apply Qlt_Rlt. apply Qnot_le_lt. intro K. apply Qle_bool_iff in K. congruence. }
    assert (z = 0)%Z. { destruct (Z.eq_dec z 0); [assumption|]. assert (1 <= z)%Z as K by lia. apply IZR_le in K. lra. } subst z.
    rewrite (floor_of _ 0); [reflexivity| |].
    + apply Rle_Qle. rewrite Q2R_plus, Q2R_opp, Q2R_inj, Q2R_frac. lra.
    + apply Rlt_Qlt. rewrite Q2R_plus, Q2R_opp, Q2R_inj, Q2R_frac. change (0 + 1)%Z with 1%Z. lra.
Qed.
Lemma round_away_mono q q' : (q <= q')%Q -> (round_away q <= round_away q')%Z.
Proof.
  intro H. unfold round_away. destruct (Qle_bool 0 q) eqn:A, (Qle_bool 0 q') eqn:B.
  - apply Qfloor_resp_le. qlra.
  - exfalso. apply Qle_bool_iff in A. assert (Qle_bool 0 q' = true) by (apply Qle_bool_iff; qlra). congruence.
  - assert (C : (q < 0)%Q) by (apply Qnot_le_lt; intro K; apply Qle_bool_iff in K; congruence). apply Qle_bool_iff in B.
    assert (0 <= Qfloor (- q + (1 # 2)))%Z by (change 0%Z with (Qfloor 0); apply Qfloor_resp_le; qlra).
    assert (0 <= Qfloor (q' + (1 # 2)))%Z by (change 0%Z with (Qfloor 0); apply Qfloor_resp_le; qlra). lia.
  - assert (Qfloor (- q' + (1 # 2)) <= Qfloor (- q + (1 # 2)))%Z by (apply Qfloor_resp_le; qlra). lia.
Qed.
Lemma ura_tenth_mono p p' : (p <= p')%Q -> (ura_tenth p <= ura_tenth p')%Q.
Proof.
  intro H. unfold ura_tenth, fdiv, fmul. apply b32_mono, b64_mono. apply Qmult_le_compat_r; [|discriminate]. apply b32_mono.
  rewrite <- Zle_Qle. apply round_away_mono, b64_mono. apply Qmult_le_compat_r; [|discriminate]. apply b32_mono, H.
Qed.
Lemma ura_tenth_near p v z : (0 <= z <= 2 ^ 24)%Z -> 0 <= v <= 9000 -> Rabs (Q2R p - v) <= / 2 ^ 30 -> Rabs (10 * v - IZR z) <= 44 / 100 ->
  ura_tenth p = b32 (b64 (inject_Z z / 10)).
Proof.
  intros Z V P T. apply Rabs_le_inv in P. apply Rabs_le_inv in T.
  assert (A : Rabs (Q2R (b32 p) - Q2R p) <= / 2 ^ 11).
  { assert (L : (Qabs p < 2 ^ 14)%Q). { apply Rlt_Qlt. rewrite Q2R_abs. change (2 ^ 14)%Q with (16384 # 1). rewrite Q2R_frac. apply Rabs_def1; lra. }
    pose proof (ProofB64.b32_abs p 14 ltac:(discriminate) L) as B. apply Qle_Rle in B. rewrite Q2R_abs, Q2R_minus in B.
    change (2 ^ (14 - 25))%Q with (1 # 2048) in B. rewrite Q2R_frac in B. lra. }
  apply Rabs_le_inv in A.
  assert (M : Rabs (Q2R (fmul (b32 p) 10) - Q2R (b32 p) * 10) <= / 2 ^ 30).
  { unfold fmul. set (q := (b32 p * 10)%Q). assert (Q : Q2R q = Q2R (b32 p) * 10) by (unfold q; rewrite Q2R_mult; f_equal; unfold Q2R; cbn [Qnum Qden]; lra).
    assert (L : (Qabs q < 2 ^ 20)%Q). { apply Rlt_Qlt. rewrite Q2R_abs, Q. change (2 ^ 20)%Q with (1048576 # 1). rewrite Q2R_frac. apply Rabs_def1; lra. }
    pose proof (ProofB64.b64_abs q 20 ltac:(discriminate) L) as B. apply Qle_Rle in B. rewrite Q2R_abs, Q2R_minus, Q in B.
    change (2 ^ (20 - 54))%Q with (1 # 2 ^ 34) in B. rewrite Q2R_frac in B. change (IZR (Zpos (2 ^ 34))) with (IZR 17179869184) in B. lra. }
  apply Rabs_le_inv in M. unfold ura_tenth. rewrite (round_away_near _ z); [|lia|apply Rabs_le; lra]. unfold fdiv. f_equal. apply ProofB64.b64_wd.
  rewrite (ProofB64.b32_int z) by lia. reflexivity.
Qed.
Lemma pow_int pw y n : pow_accurate pw -> double y -> (y == inject_Z (Z.of_nat n))%Q -> (n <= 12)%nat -> Rabs (Q2R (pw 2%Q y) - 2 ^ n) <= / 2 ^ 30 /\ 0 <= 2 ^ n <= 9000.
Proof.
  intros A D E N. assert (R : Q2R y = INR n) by (rewrite (Qeq_eqR _ _ E), Q2R_inj, <- INR_IZR_INZ; reflexivity).
  assert (2 ^ n <= 2 ^ 12) by (apply Rle_pow; [lra|lia]). assert (0 < 2 ^ n) by (apply pow_lt; lra).
  split; [|lra]. specialize (A y D). rewrite R, Rpower_pow in A by lra. eapply Rle_trans; [apply A|lra].
  rewrite E. split.
  - apply Qle_trans with 0%Q; [discriminate|]. change 0%Q with (inject_Z 0). rewrite <- Zle_Qle. lia.
  - change 16%Q with (inject_Z 16). rewrite <- Zle_Qle. lia.
Qed.
Lemma pow_halfway pw y n : pow_accurate pw -> double y -> (y == inject_Z (Z.of_nat n) + (1 # 2))%Q -> (n <= 11)%nat -> Rabs (Q2R (pw 2%Q y) - 2 ^ n * sqrt 2) <= / 2 ^ 30 /\ 0 <= 2 ^ n * sqrt 2 <= 9000.
Proof.
  intros A D E N. assert (R : Q2R y = INR n + / 2) by (rewrite (Qeq_eqR _ _ E), Q2R_plus, Q2R_inj, <- INR_IZR_INZ, Q2R_frac; lra).
  assert (2 ^ n <= 2 ^ 11) by (apply Rle_pow; [lra|lia]). assert (0 < 2 ^ n) by (apply pow_lt; lra).
  assert (S : 1 < sqrt 2 < 3 / 2). { split; [rewrite <- sqrt_1 at 1; apply sqrt_lt_1; lra|]. replace (3 / 2) with (sqrt (9 / 4)) by (replace (9 / 4) with ((3 / 2) * (3 / 2)) by lra; apply sqrt_square; lra). apply sqrt_lt_1; lra. }
  assert (0 <= 2 ^ n * sqrt 2 <= 2 ^ 11 * (3 / 2)) by (split; [apply Rmult_le_pos; lra|apply Rmult_le_compat; lra]).
  split; [|lra]. specialize (A y D). rewrite R, Rpower_plus, Rpower_pow, Rpower_sqrt in A by lra. eapply Rle_trans; [apply A|lra].
  rewrite E. split.
  - apply Qle_trans with (0 + 0)%Q; [discriminate|]. apply Qplus_le_compat; [|discriminate]. change 0%Q with (inject_Z 0). rewrite <- Zle_Qle. lia.
  - apply Qle_trans with (inject_Z 11 + 1)%Q; [|discriminate]. apply Qplus_le_compat; [|discriminate]. rewrite <- Zle_Qle. lia.
Qed.
Lemma sqrt2_b : 1.41421 < sqrt 2 < 1.41422.
Proof.
  split; [replace 1.41421 with (sqrt (1.41421 * 1.41421)) by (apply sqrt_square; lra)|replace 1.41422 with (sqrt (1.41422 * 1.41422)) by (apply sqrt_square; lra)]; apply sqrt_lt_1; lra.
Qed.
Lemma ura_le6 pw d : Qle_bool (b32 d) 6 = true -> gps_ura_d pw d = ura_tenth (pw 2 (fadd 1 (fdiv (b32 d) 2)))%Q.
Proof. intro H. unfold gps_ura_d. rewrite H. reflexivity. Qed.
Lemma ura_gt6 pw d : Qle_bool (b32 d) 6 || Qle_bool 15 (b32 d) = false -> gps_ura_d pw d = ura_tenth (pw 2 (fsub (b32 d) 2))%Q.
Proof. intro H. apply Bool.orb_false_iff in H. destruct H as (A & B). unfold gps_ura_d. rewrite A, B. reflexivity. Qed.
(** the float nearest to the accuracy, for every index *)
Theorem C57_float_table : forall pw i v, pow_accurate pw -> nth_error ura_metres i = Some v ->
  nearest_float v (gps_ura_d pw (inject_Z (Z.of_nat i))).
Proof.
  intros pw i v A T. assert (gps_ura_d pw (inject_Z (Z.of_nat i)) = b32 v) as ->; [|apply ProofB64.b32_nearest]. pose proof sqrt2_b as S.
  assert (LO : forall (y : Q) (n : nat) (z : Z), double y -> (y == inject_Z (Z.of_nat n))%Q -> (n <= 12)%nat -> IZR z = 2 ^ n * 10 -> b32 (b64 (inject_Z z / 10)) = b32 v -> ura_tenth (pw 2%Q y) = b32 v).
  { intros y n z D E N Z B. destruct (pow_int pw y n A D E N) as (P & V). rewrite <- B. apply (ura_tenth_near _ (2 ^ n)); [|exact V|exact P|apply Rabs_le; lra].
    split; apply le_IZR; rewrite Z; [|change (IZR (2 ^ 24)) with (IZR 16777216)]; lra. }
  assert (MID : forall (y : Q) (n : nat) (z : Z), double y -> (y == inject_Z (Z.of_nat n) + (1 # 2))%Q -> (n <= 11)%nat -> Rabs (10 * (2 ^ n * sqrt 2) - IZR z) <= 44 / 100 -> b32 (b64 (inject_Z z / 10)) = b32 v -> ura_tenth (pw 2%Q y) = b32 v).
  { intros y n z D E N Z B. destruct (pow_halfway pw y n A D E N) as (P & V). rewrite <- B. apply (ura_tenth_near _ (2 ^ n * sqrt 2)); [|exact V|exact P|exact Z].
    apply Rabs_le_inv in Z. split; apply le_IZR; [|change (IZR (2 ^ 24)) with (IZR 16777216)]; [|lra]. apply IZR_le. assert (-1 < z)%Z; [|lia]. apply lt_IZR. lra. }
  destruct i as [|[|[|[|[|[|[|[|[|[|[|[|[|[|[|i]]]]]]]]]]]]]]]; cbn [nth_error ura_metres] in T; [..|destruct i; discriminate T]; injection T as <-; cbn [Z.of_nat Pos.of_succ_nat Pos.succ];
    first [rewrite ura_le6 by (vm_compute; reflexivity)|rewrite ura_gt6 by (vm_compute; reflexivity)].
  - eapply (LO _ 1%nat 20%Z); [apply ProofB64.b64_double|vm_compute; reflexivity|lia|cbn; lra|vm_compute; reflexivity].
  - eapply (MID _ 1%nat 28%Z); [apply ProofB64.b64_double|vm_compute; reflexivity|lia|apply Rabs_le; cbn; lra|vm_compute; reflexivity].
  - eapply (LO _ 2%nat 40%Z); [apply ProofB64.b64_double|vm_compute; reflexivity|lia|cbn; lra|vm_compute; reflexivity].
  - eapply (MID _ 2%nat 57%Z); [apply ProofB64.b64_double|vm_compute; reflexivity|lia|apply Rabs_le; cbn; lra|vm_compute; reflexivity].
  - eapply (LO _ 3%nat 80%Z); [apply ProofB64.b64_double|vm_compute; reflexivity|lia|cbn; lra|vm_compute; reflexivity].
  - eapply (MID _ 3%nat 113%Z); [apply ProofB64.b64_double|vm_compute; reflexivity|lia|apply Rabs_le; cbn; lra|vm_compute; reflexivity].
  - eapply (LO _ 4%nat 160%Z); [apply ProofB64.b64_double|vm_compute; reflexivity|lia|cbn; lra|vm_compute; reflexivity].
  - eapply (LO _ 5%nat 320%Z); [apply ProofB64.b64_double|vm_compute; reflexivity|lia|cbn; lra|vm_compute; reflexivity].
  - eapply (LO _ 6%nat 640%Z); [apply ProofB64.b64_double|vm_compute; reflexivity|lia|cbn; lra|vm_compute; reflexivity].
  - eapply (LO _ 7%nat 1280%Z); [apply ProofB64.b64_double|vm_compute; reflexivity|lia|cbn; lra|vm_compute; reflexivity].
  - eapply (LO _ 8%nat 2560%Z); [apply ProofB64.b64_double|vm_compute; reflexivity|lia|cbn; lra|vm_compute; reflexivity].
  - eapply (LO _ 9%nat 5120%Z); [apply ProofB64.b64_double|vm_compute; reflexivity|lia|cbn; lra|vm_compute; reflexivity].
  - eapply (LO _ 10%nat 10240%Z); [apply ProofB64.b64_double|vm_compute; reflexivity|lia|cbn; lra|vm_compute; reflexivity].
  - eapply (LO _ 11%nat 20480%Z); [apply ProofB64.b64_double|vm_compute; reflexivity|lia|cbn; lra|vm_compute; reflexivity].
  - eapply (LO _ 12%nat 40960%Z); [apply ProofB64.b64_double|vm_compute; reflexivity|lia|cbn; lra|vm_compute; reflexivity].
Qed.
Print Assumptions C57_float_table.
Definition flt_max : Q := (inject_Z (2 ^ 24 - 1) * 2 ^ 104)%Q.
(** unusable from 15 on *)
Theorem C57_float_unusable : forall pw d, (15 <= d)%Q -> (gps_ura_d pw d == flt_max)%Q.
Proof.
  intros pw d H. assert (F : float 15) by (exists 15%Z, 0%Z; repeat split; discriminate).
  pose proof (ProofB64.b32_ge 15 d F H) as B. unfold gps_ura_d. destruct (Qle_bool (b32 d) 6) eqn:C; [apply Qle_bool_iff in C; qlra|].
  apply Qle_bool_iff in B. rewrite B. vm_compute. reflexivity.
Qed.
Print Assumptions C57_float_unusable.
(** monotone in the slot's double *)
Theorem C57_float_monotone : forall pw d d', pow_accurate pw -> pow_monotone pw -> (d <= d')%Q -> (gps_ura_d pw d <= gps_ura_d pw d')%Q.
Proof.
  intros pw d d' A M H. pose proof (b32_mono _ _ H) as B. unfold gps_ura_d. set (x := b32 d) in *. set (y := b32 d') in *. clearbody x y. clear H.
  assert (P : forall u w, double u -> double w -> (u <= w)%Q -> (ura_tenth (pw 2 u) <= ura_tenth (pw 2 w))%Q) by (intros; apply ura_tenth_mono, M; assumption).
  assert (NL : forall a b, Qle_bool a b = false -> (b < a)%Q) by (intros a b K; apply Qnot_le_lt; intro K'; apply Qle_bool_iff in K'; congruence).
  assert (D4 : double 4) by (apply (ProofB64.double_int 4); discriminate). assert (D13 : double 13) by (apply (ProofB64.double_int 13); discriminate).
  assert (LO4 : Qle_bool x 6 = true -> (fadd 1 (fdiv x 2) <= 4)%Q).
  { intro K. apply Qle_bool_iff in K. apply ProofB64.b64_le; [exact D4|]. assert (fdiv x 2 <= 3)%Q; [|qlra]. apply ProofB64.b64_le; [apply (ProofB64.double_int 3); discriminate|].
    apply Qle_shift_div_r; [reflexivity|qlra]. }
  assert (MX : forall u, double u -> (u <= 13)%Q -> (ura_tenth (pw 2 u) <= (2 - (1 # 8388608)) * 2 ^ 127)%Q).
  { intros u D K. apply Qle_trans with (ura_tenth (pw 2 13)%Q); [apply P; assumption|].
    pose proof (A 13%Q D13 ltac:(split; discriminate)) as Q. replace (Q2R 13) with (INR 13) in Q by (unfold Q2R; cbn; lra). rewrite Rpower_pow in Q by lra.
    rewrite (ura_tenth_near _ 8192 81920); [vm_compute; discriminate|lia|lra| |apply Rabs_le; lra]. replace (2 ^ 13) with 8192 in Q by lra. lra. }
  destruct (Qle_bool x 6) eqn:X.
  - specialize (LO4 eq_refl). apply Qle_bool_iff in X. destruct (Qle_bool y 6) eqn:Y; [|destruct (Qle_bool 15 y) eqn:Y'].
    + apply P; try apply ProofB64.b64_double. apply b64_mono. apply Qplus_le_compat; [apply Qle_refl|]. apply b64_mono. apply Qmult_le_compat_r; [exact B|discriminate].
    + apply MX; [apply ProofB64.b64_double|qlra].
    + apply NL in Y. apply P; try apply ProofB64.b64_double. apply Qle_trans with 4%Q; [exact LO4|]. apply ProofB64.b64_ge; [exact D4|qlra].
  - apply NL in X. destruct (Qle_bool y 6) eqn:Y; [apply Qle_bool_iff in Y; qlra|]. destruct (Qle_bool 15 x) eqn:X'.
    + apply Qle_bool_iff in X'. destruct (Qle_bool 15 y) eqn:Y'; [apply Qle_refl|]. apply NL in Y'. qlra.
    + apply NL in X'. destruct (Qle_bool 15 y) eqn:Y'.
      * apply MX; [apply ProofB64.b64_double|]. apply ProofB64.b64_le; [exact D13|qlra].
      * apply P; try apply ProofB64.b64_double. apply b64_mono. qlra.
Qed.
Print Assumptions C57_float_monotone.
(** such a power exists *)
Definition some_pow (x y : Q) : Q := b64 (inject_Z (Rdefinitions.up (Rpower (Q2R x) (Q2R y) * 2 ^ 60)) * (1 # 2 ^ 60))%Q.
Lemma up_mono x y : x <= y -> (Rdefinitions.up x <= Rdefinitions.up y)%Z.
Proof.
  intro H. destruct (archimed x) as (A & B), (archimed y) as (C & D). assert (Rdefinitions.up x < Rdefinitions.up y + 1)%Z; [|lia]. apply lt_IZR. rewrite plus_IZR. lra.
Qed.
Lemma some_pow_accurate : pow_accurate some_pow.
Proof.
  intros y D (L & H). apply Qle_Rle in L, H. replace (Q2R (-1)) with (-1) in L by (unfold Q2R; cbn; lra). replace (Q2R 16) with 16 in H by (unfold Q2R; cbn; lra).
  unfold some_pow. replace (Q2R 2) with 2 by (unfold Q2R; cbn; lra). set (v := Rpower 2 (Q2R y)).
  assert (V : / 2 <= v). { unfold v. replace (/ 2) with (Rpower 2 (- (1))) by (rewrite Rpower_Ropp, Rpower_1; lra). apply Rle_Rpower; lra. }
  set (q := (inject_Z (Rdefinitions.up (v * 2 ^ 60)) * (1 # 2 ^ 60))%Q).
  assert (A : v < Q2R q <= v + / 2 ^ 60).
  { destruct (archimed (v * 2 ^ 60)) as (A & B). unfold q. rewrite Q2R_mult, Q2R_inj, Q2R_frac. change (IZR (Zpos (2 ^ 60))) with (IZR 1152921504606846976). lra. }
  pose proof (b64_R q) as R. rewrite u_val, (Rabs_pos_eq (Q2R q)) in R by lra.
  assert (K : Q2R hQ <= / 2 ^ 60). { replace (/ 2 ^ 60) with (Q2R (1 # 2 ^ 60)) by (rewrite Q2R_frac; change (IZR (Zpos (2 ^ 60))) with (IZR 1152921504606846976); lra). apply qle_b. reflexivity. }
  apply Rabs_le_inv in R. apply Rabs_le. clearbody v q. lra.
Qed.
Lemma some_pow_monotone : pow_monotone some_pow.
Proof.
  intros y y' _ _ H. unfold some_pow. apply b64_mono. apply Qmult_le_compat_r; [|discriminate]. rewrite <- Zle_Qle. apply up_mono.
  apply Rmult_le_compat_r; [lra|]. apply Rle_Rpower; [unfold Q2R; cbn; lra|]. apply Qle_Rle, H.
Qed.
Example C57_float_ex : nearest_float (57 # 10) (gps_ura_d some_pow 3) /\ (gps_ura_d some_pow 3 <= gps_ura_d some_pow 4)%Q /\ (gps_ura_d some_pow 16 == flt_max)%Q.
Proof.
  split; [exact (C57_float_table some_pow 3 _ some_pow_accurate eq_refl)|]. split.
  - apply C57_float_monotone; [exact some_pow_accurate|exact some_pow_monotone|discriminate].
  - apply C57_float_unusable. discriminate.
Qed.
