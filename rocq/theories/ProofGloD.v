(** ProofGloD: one GLONASS integration step in doubles against the exact one *)
From Coq Require Import Qabs Qround Reals Qreals Lra Lia ZArith QArith List.
From Verif Require Import B64 SpecB64 ModelOrbit ModelFloat ModelFloat2 SpecFloat ProofFloat PropertiesFloat.
From Verif Require ProofB64.
Local Open Scope R_scope.

(** ** intervals on a coarser grid *)
Definition up8 (q : Q) : Q := Qceiling (q * (2 ^ 80 # 1)) # (2 ^ 80).
Definition dn8 (q : Q) : Q := Qfloor (q * (2 ^ 80 # 1)) # (2 ^ 80).
Lemma back8 z : ((z # 2 ^ 80) == inject_Z z * (1 # 2 ^ 80))%Q.
Proof. unfold Qeq. cbn [Qnum Qden Qmult inject_Z]. rewrite Pos.mul_1_l. ring. Qed.
Lemma scale8 q : (q == q * (2 ^ 80 # 1) * (1 # 2 ^ 80))%Q.
Proof. rewrite <- Qmult_assoc. setoid_replace ((2 ^ 80 # 1) * (1 # 2 ^ 80))%Q with 1%Q by reflexivity. ring. Qed.
Lemma up8_ge q : Q2R q <= Q2R (up8 q).
Proof.
  apply Qle_Rle. unfold up8. rewrite back8. apply Qle_trans with (q * (2 ^ 80 # 1) * (1 # 2 ^ 80))%Q; [rewrite <- scale8; apply Qle_refl|]. apply Qmult_le_compat_r; [apply Qle_ceiling|discriminate].
Qed.
Lemma dn8_le q : Q2R (dn8 q) <= Q2R q.
Proof.
  apply Qle_Rle. unfold dn8. rewrite back8. apply Qle_trans with (q * (2 ^ 80 # 1) * (1 # 2 ^ 80))%Q; [apply Qmult_le_compat_r; [apply Qfloor_le|discriminate]|]. rewrite <- scale8. apply Qle_refl.
Qed.
Definition cz (i : itv) : itv := mkI (dn8 (lo i)) (up8 (hi i)) (up8 (er i)).
Lemma ap_c i xh x : ap i xh x -> ap (cz i) xh x.
Proof.
  intros (D & B & E). pose proof (dn8_le (lo i)). pose proof (up8_ge (hi i)). pose proof (up8_ge (er i)).
  split; [exact D|]. unfold cz. cbn [lo hi er]. lra.
Qed.
Definition cadd i j := cz (iadd i j).
Definition csub i j := cz (isub i j).
Definition cmul i j := cz (imul i j).
Definition cdiv i j := cz (idiv i j).
Definition csqrt i := cz (isqrt i).
Lemma ac_add i j xh yh x y : ap i xh x -> ap j yh y -> ap (cadd i j) (fadd xh yh) (x + y). Proof. intros. apply ap_c, ap_add; assumption. Qed.
Lemma ac_sub i j xh yh x y : ap i xh x -> ap j yh y -> ap (csub i j) (fsub xh yh) (x - y). Proof. intros. apply ap_c, ap_sub; assumption. Qed.
Lemma ac_mul i j xh yh x y : ap i xh x -> ap j yh y -> ap (cmul i j) (fmul xh yh) (x * y). Proof. intros. apply ap_c, ap_mul; assumption. Qed.
Definition dok (j : itv) : bool := Qle_bool (1 # 2 ^ 160) (lo j) && Qle_bool (1 # 2 ^ 160) (lo j - er j) && Qle_bool (lo j) (hi j).
Definition sok (i : itv) : bool := Qle_bool (1 # 2 ^ 160) (lo i) && Qle_bool (lo i) (hi i) && Qle_bool (1 # 2 ^ 160) (lo i - er i) && Qle_bool (1 # 2 ^ 160) (sq_lo (lo i)).
Lemma ac_div i j xh yh x y : ap i xh x -> ap j yh y -> dok j = true -> ap (cdiv i j) (fdiv xh yh) (x / y). Proof. intros. apply ap_c, ap_div; assumption. Qed.
Lemma ac_sqrt m i xh x : accurate m -> ap i xh x -> sok i = true -> ap (csqrt i) (m_sqrt m xh) (sqrt x). Proof. intros. apply ap_c, ap_sqrt; assumption. Qed.

(** ** intervals of one evaluation of the equations of motion *)
Definition i_om : itv := rnd (72921151467 # 1000000000000000) (72921151467 # 1000000000000000) 0.
Definition i_gm : itv := Eval vm_compute in cz (rnd 398600441800000 398600441800000 0).
Definition i_j2 : itv := rnd (108262575 # 100000000000) (108262575 # 100000000000) 0.
Definition i_15 : itv := rnd (3 # 2) (3 # 2) 0.
Definition i_ae : itv := mkI 6378136 6378136 0.
Definition i_1 : itv := mkI 1 1 0.
Definition i_2 : itv := mkI 2 2 0.
Definition i_5 : itv := mkI 5 5 0.
Definition i_acc : itv := mkI (- (1 # 100000)) (1 # 100000) 0.
Definition i_num : itv := Eval vm_compute in cz (imul (imul (imul i_15 i_j2) i_gm) (imul i_ae i_ae)).
Definition i_om2 : itv := Eval vm_compute in cz (imul i_om i_om).
Definition i_2om : itv := Eval vm_compute in cz (imul i_2 i_om).
Lemma ap_om : ap i_om OMEGA_d OMEGA_GLO.
Proof. eapply eqR; [|apply ap_lit]. rewrite Q2R_frac. unfold OMEGA_GLO. lra. Qed.
Lemma ap_gm : ap i_gm GM_d GM_GLO.
Proof. eapply ap_w; [eapply eqR; [|apply ap_lit]; unfold Q2R, GM_GLO; cbn [Qnum Qden]; lra|vm_compute; reflexivity]. Qed.
Lemma ap_j2 : ap i_j2 J2_d J2_GLO.
Proof. eapply eqR; [|apply ap_lit]. rewrite Q2R_frac. unfold J2_GLO. lra. Qed.
Lemma ap_15 : ap i_15 (flit (3 # 2)) (3 / 2).
Proof. eapply eqR; [|apply ap_lit]. rewrite Q2R_frac. lra. Qed.
Lemma ap_int z : (Z.abs z <= 2 ^ 53)%Z -> ap (mkI (inject_Z z) (inject_Z z) 0) (inject_Z z) (IZR z).
Proof. intro H. eapply eqR; [|apply ap_exact; [apply ProofB64.double_int, H|split; apply Qle_refl]]. apply Q2R_inj. Qed.
Lemma ap_ae : ap i_ae AE_d AE_GLO. Proof. apply (ap_int 6378136). discriminate. Qed.
Lemma ap_5 : ap i_5 5%Q 5. Proof. apply (ap_int 5). discriminate. Qed.
Lemma ap_num : ap i_num (fmul (fmul (fmul (flit (3 # 2)) J2_d) GM_d) (fmul AE_d AE_d)) (3 / 2 * J2_GLO * GM_GLO * (AE_GLO * AE_GLO)).
Proof.
  pose proof (ap_mul _ _ _ _ _ _ (ap_mul _ _ _ _ _ _ (ap_mul _ _ _ _ _ _ ap_15 ap_j2) ap_gm) (ap_mul _ _ _ _ _ _ ap_ae ap_ae)) as H.
  eapply ap_w; [exact H|vm_compute; reflexivity].
Qed.
Lemma ap_om2 : ap i_om2 (fmul OMEGA_d OMEGA_d) (OMEGA_GLO * OMEGA_GLO).
Proof. eapply ap_w; [exact (ap_mul _ _ _ _ _ _ ap_om ap_om)|vm_compute; reflexivity]. Qed.
Lemma ap_2om : ap i_2om (fmul 2 OMEGA_d) (2 * OMEGA_GLO).
Proof. eapply ap_w; [exact (ap_mul _ _ _ _ _ _ ap_two ap_om)|vm_compute; reflexivity]. Qed.

(** a number known to lie in a smaller range *)
Lemma ap_range l h i xh x : ap i xh x -> Q2R l <= x <= Q2R h -> ap (mkI l h (er i)) xh x.
Proof. intros (D & _ & E) B. split; [exact D|]. split; [exact B|exact E]. Qed.

(** a box: displacement from the start and its error per axis, speed and its error per axis *)
Record box := mkB { bD : Q; bV : Q; bp : Q; bv : Q }.
Definition bix (b : box) : itv := let P := (26000000 + bD b)%Q in mkI (- P) P (bp b).
Definition biv (b : box) : itv := mkI (- bV b) (bV b) (bv b).
Definition c3 : Q := 17321 # 10000.
Definition brl (b : box) : Q := let r := (25000000 - c3 * bD b)%Q in dn8 (r * r).
Definition brh (b : box) : Q := let r := (26000000 + c3 * bD b)%Q in up8 (r * r).
Definition pos_near (b : box) (p : R) (xh : Q) (x : R) : Prop := double xh /\ Rabs (x - p) <= Q2R (bD b) /\ Rabs (Q2R xh - x) <= Q2R (bp b).
Definition started (p q r : R) : Prop := 25000000 * 25000000 <= p * p + q * q + r * r <= 26000000 * 26000000.
Lemma Q2R_z z : Q2R (z # 1) = IZR z. Proof. unfold Q2R. cbn [Qnum Qden]. rewrite Rinv_1. ring. Qed.
Lemma pos_ap b p xh x : Rabs p <= 26000000 -> pos_near b p xh x -> ap (bix b) xh x.
Proof.
  intros B (D & N & E). split; [exact D|]. split; [|exact E]. unfold bix. cbn [lo hi]. rewrite Q2R_opp, Q2R_plus, Q2R_z.
  apply Rabs_le_inv in B, N. lra.
Qed.
Lemma start_axis p q r : started p q r -> Rabs p <= 26000000 /\ Rabs q <= 26000000 /\ Rabs r <= 26000000.
Proof.
  intros (_ & H). assert (G : forall a, a * a <= 26000000 * 26000000 -> Rabs a <= 26000000).
  { intros a A. rewrite <- (Rabs_pos_eq 26000000) by lra. apply Rsqr_le_abs_0. exact A. }
  pose proof (Rle_0_sqr p). pose proof (Rle_0_sqr q). pose proof (Rle_0_sqr r). unfold Rsqr in *. repeat split; apply G; lra.
Qed.
Lemma c3_sq : 3 <= Q2R c3 * Q2R c3. Proof. unfold c3. rewrite Q2R_frac. lra. Qed.
Lemma c3_pos : 0 < Q2R c3. Proof. unfold c3. rewrite Q2R_frac. lra. Qed.
Lemma radius b p q r x y z : started p q r -> Rabs (x - p) <= Q2R (bD b) -> Rabs (y - q) <= Q2R (bD b) -> Rabs (z - r) <= Q2R (bD b) ->
  Q2R c3 * Q2R (bD b) <= 25000000 -> Q2R (brl b) <= x * x + y * y + z * z <= Q2R (brh b).
Proof.
  intros (S1 & S2) X Y Z K. set (D := Q2R (bD b)) in *. assert (D0 : 0 <= D) by (pose proof (Rabs_pos (x - p)); lra).
  set (u := x - p) in *. set (v := y - q) in *. set (w := z - r) in *.
  set (dl := sqrt (u * u + v * v + w * w)). set (r0 := sqrt (p * p + q * q + r * r)).
  assert (sq : forall a, Rabs a <= D -> a * a <= D * D). { intros a A. apply Rabs_le_inv in A. nra. }
  pose proof (sq _ X). pose proof (sq _ Y). pose proof (sq _ Z).
  assert (pos : forall a, 0 <= a * a) by (intro a; apply Rle_0_sqr).
  pose proof (pos u). pose proof (pos v). pose proof (pos w). pose proof (pos p). pose proof (pos q). pose proof (pos r).
  assert (Dl : dl * dl = u * u + v * v + w * w) by (apply sqrt_sqrt; lra). assert (R0 : r0 * r0 = p * p + q * q + r * r) by (apply sqrt_sqrt; lra).
  assert (dl0 : 0 <= dl) by apply sqrt_pos. assert (r00 : 0 <= r0) by apply sqrt_pos.
  pose proof c3_sq as C3. pose proof c3_pos as C0. set (c := Q2R c3) in *.
  assert (DB : dl <= c * D).
  { apply Rsqr_incr_0_var; [|apply Rmult_le_pos; lra]. unfold Rsqr. rewrite Dl. assert (3 * (D * D) <= c * c * (D * D)) by (apply Rmult_le_compat_r; [apply pos|lra]). lra. }
  assert (RB : 25000000 <= r0 <= 26000000) by (split; apply Rsqr_incr_0_var; unfold Rsqr; lra).
  assert (CS : Rabs (p * u + q * v + r * w) <= r0 * dl).
  { rewrite <- (Rabs_pos_eq (r0 * dl)) by (apply Rmult_le_pos; lra). apply Rsqr_le_abs_0. unfold Rsqr.
    replace (r0 * dl * (r0 * dl)) with ((r0 * r0) * (dl * dl)) by ring. rewrite R0, Dl.
    pose proof (pos (p * v - q * u)). pose proof (pos (p * w - r * u)). pose proof (pos (q * w - r * v)). lra. }
  apply Rabs_le_inv in CS.
  assert (E : x * x + y * y + z * z = r0 * r0 + 2 * (p * u + q * v + r * w) + dl * dl).
  { rewrite R0, Dl. unfold u, v, w. ring. }
  rewrite E. unfold brl, brh. pose proof (dn8_le ((25000000 - c3 * bD b) * (25000000 - c3 * bD b))) as L. pose proof (up8_ge ((26000000 + c3 * bD b) * (26000000 + c3 * bD b))) as U.
  cbv zeta. rewrite Q2R_mult, Q2R_minus, Q2R_mult, Q2R_z in L. rewrite Q2R_mult, Q2R_plus, Q2R_mult, Q2R_z in U.
  assert (A1 : (25000000 - c * D) * (25000000 - c * D) <= (r0 - dl) * (r0 - dl)) by (apply Rmult_le_compat; lra).
  assert (A2 : (r0 + dl) * (r0 + dl) <= (26000000 + c * D) * (26000000 + c * D)) by (apply Rmult_le_compat; lra).
  unfold D, c in *. lra.
Qed.

(** the intervals of one evaluation *)
Definition ir2 (b : box) (X : itv) : itv := let s := cmul X X in mkI (brl b) (brh b) (er (cadd (cadd s s) s)).
Definition ir3 (R2 : itv) : itv := cmul R2 (csqrt R2).
Definition ia (R2 R3 : itv) : itv := cdiv (cdiv i_num R2) R3.
Definition ib (X R2 : itv) : itv := cdiv (cmul (cmul i_5 X) X) R2.
Definition ic (R3 A B : itv) : itv := csub (cdiv (iopp i_gm) R3) (cmul A (csub i_1 B)).
Definition iax (C X V : itv) : itv := cadd (cadd (cmul (cadd C i_om2) X) (cmul i_2om V)) i_acc.
Definition iay (C X V : itv) : itv := cadd (csub (cmul (cadd C i_om2) X) (cmul i_2om V)) i_acc.
Definition iaz (C A X : itv) : itv := cadd (cmul (csub C (cmul i_2 A)) X) i_acc.
Definition mag3 (i j k : itv) : Q := qmax (mag (lo i) (hi i)) (qmax (mag (lo j) (hi j)) (mag (lo k) (hi k))).
Definition err3 (i j k : itv) : Q := qmax (er i) (qmax (er j) (er k)).
(** bound and error of the accelerations, and whether the divisors are positive *)
Definition accel (b : box) : Q * Q * bool :=
  let X := bix b in let V := biv b in let R2 := ir2 b X in let R3 := ir3 R2 in
  let A := ia R2 R3 in let C := ic R3 A (ib X R2) in
  let ix := iax C X V in let iy := iay C X V in let iz := iaz C A X in
  (mag3 ix iy iz, err3 ix iy iz, Qle_bool (c3 * bD b) 25000000 && sok R2 && dok R2 && dok R3).
Definition sym (A e : Q) : itv := mkI (- A) A e.
Lemma ap_sym i xh x A e : ap i xh x -> (Q2R (mag (lo i) (hi i)) <= Q2R A) -> Q2R (er i) <= Q2R e -> ap (sym A e) xh x.
Proof.
  intros (D & B & E) H1 H2. split; [exact D|]. unfold sym. cbn [lo hi er]. split; [|lra]. apply mag_ok in B. apply Rabs_le_inv in B. rewrite Q2R_opp. lra.
Qed.
(** the six components *)
Definition inside (b : box) (p q r : R) (y : vec6d) (v : vec6) : Prop :=
  pos_near b p (d0 y) (s0 v) /\ pos_near b q (d1 y) (s1 v) /\ pos_near b r (d2 y) (s2 v) /\
  ap (biv b) (d3 y) (s3 v) /\ ap (biv b) (d4 y) (s4 v) /\ ap (biv b) (d5 y) (s5 v).
Definition slopes (V ev A e : Q) (k : vec6d) (v : vec6) : Prop :=
  ap (sym V ev) (d0 k) (s0 v) /\ ap (sym V ev) (d1 k) (s1 v) /\ ap (sym V ev) (d2 k) (s2 v) /\
  ap (sym A e) (d3 k) (s3 v) /\ ap (sym A e) (d4 k) (s4 v) /\ ap (sym A e) (d5 k) (s5 v).
Definition acc_near (acc : vec3d) (a : vec3) : Prop := ap i_acc (e0 acc) (a0 a) /\ ap i_acc (e1 acc) (a1 a) /\ ap i_acc (e2 acc) (a2 a).
Local Opaque fadd fsub fmul fdiv flit b64 cadd csub cmul cdiv csqrt cz iadd isub imul idiv isqrt rnd i_num i_om2 i_2om i_gm.
Lemma deriv_near m b p q r y v acc a : accurate m -> started p q r -> snd (accel b) = true -> acc_near acc a ->
  inside b p q r y v -> slopes (bV b) (bv b) (fst (fst (accel b))) (snd (fst (accel b))) (deriv_d m y acc) (glo_state_deriv v a).
Proof.
  intros Hm St Ok (Ax & Ay & Az) (X & Y & Z & U & V & W). unfold accel in *. cbv zeta in *. cbn [fst snd] in *.
  set (R2i := ir2 b (bix b)) in *. set (R3i := ir3 R2i) in *. set (Ai := ia R2i R3i) in *. set (Bi := ib (bix b) R2i) in *. set (Ci := ic R3i Ai Bi) in *.
  set (ix := iax Ci (bix b) (biv b)) in *. set (iy := iay Ci (bix b) (biv b)) in *. set (iz := iaz Ci Ai (bix b)) in *.
  apply andb_prop in Ok. destruct Ok as (Ok & D3). apply andb_prop in Ok. destruct Ok as (Ok & D2).
  apply andb_prop in Ok. destruct Ok as (K & S2). apply qle_b in K. rewrite Q2R_mult, Q2R_z in K.
  destruct (start_axis _ _ _ St) as (P & Q & R).
  assert (B2 : Q2R (brl b) <= s0 v * s0 v + s1 v * s1 v + s2 v * s2 v <= Q2R (brh b)).
  { apply (radius b p q r); [exact St|apply X|apply Y|apply Z|exact K]. }
  apply (pos_ap _ _ _ _ P) in X. apply (pos_ap _ _ _ _ Q) in Y. apply (pos_ap _ _ _ _ R) in Z.
  pose proof (ap_range _ _ _ _ _ (ac_add _ _ _ _ _ _ (ac_add _ _ _ _ _ _ (ac_mul _ _ _ _ _ _ X X) (ac_mul _ _ _ _ _ _ Y Y)) (ac_mul _ _ _ _ _ _ Z Z)) B2 : ap R2i _ _) as R2.
  unfold slopes, deriv_d, glo_state_deriv. cbn [d0 d1 d2 d3 d4 d5 s0 s1 s2 s3 s4 s5].
  set (r2h := fadd (fadd (fmul (d0 y) (d0 y)) (fmul (d1 y) (d1 y))) (fmul (d2 y) (d2 y))) in *.
  set (r2 := s0 v * s0 v + s1 v * s1 v + s2 v * s2 v) in *. clearbody r2h r2.
  pose proof (ac_mul _ _ _ _ _ _ R2 (ac_sqrt m _ _ _ Hm R2 S2) : ap R3i _ _) as R3. set (r3h := fmul r2h (m_sqrt m r2h)) in *. set (r3 := r2 * sqrt r2) in *. clearbody r3h r3.
  pose proof (ac_div _ _ _ _ _ _ (ac_div _ _ _ _ _ _ ap_num R2 D2) R3 D3 : ap Ai _ _) as HA.
  set (ah := fdiv (fdiv _ r2h) r3h) in *. set (ar := _ / r2 / r3) in *. clearbody ah ar.
  pose proof (ac_div _ _ _ _ _ _ (ac_mul _ _ _ _ _ _ (ac_mul _ _ _ _ _ _ ap_5 Z) Z) R2 D2 : ap Bi _ _) as HB.
  set (bh := fdiv (fmul (fmul 5 _) _) r2h) in *. set (br := 5 * s2 v * s2 v / r2) in *. clearbody bh br.
  pose proof (ac_sub _ _ _ _ _ _ (ac_div _ _ _ _ _ _ (ap_opp _ _ _ ap_gm) R3 D3) (ac_mul _ _ _ _ _ _ HA (ac_sub _ _ _ _ _ _ ap_one HB)) : ap Ci _ _) as HC.
  set (ch := fsub (fdiv _ r3h) _) in *. set (cr := - GM_GLO / r3 - ar * (1 - br)) in *. clearbody ch cr.
  pose proof ap_om2 as O2. pose proof ap_2om as O1. set (o2 := fmul OMEGA_d OMEGA_d) in *. set (o1 := fmul 2 OMEGA_d) in *. clearbody o1 o2.
  assert (Sx : forall xh x, ap ix xh x -> ap (sym (mag3 ix iy iz) (err3 ix iy iz)) xh x).
  { intros xh x H. eapply ap_sym; [exact H|apply qmax_l|apply qmax_l]. }
  assert (Sy : forall xh x, ap iy xh x -> ap (sym (mag3 ix iy iz) (err3 ix iy iz)) xh x).
  { intros xh x H. eapply ap_sym; [exact H| |]; (eapply Rle_trans; [|apply qmax_r]); apply qmax_l. }
  assert (Sz : forall xh x, ap iz xh x -> ap (sym (mag3 ix iy iz) (err3 ix iy iz)) xh x).
  { intros xh x H. eapply ap_sym; [exact H| |]; (eapply Rle_trans; [|apply qmax_r]); apply qmax_r. }
  split; [exact U|]. split; [exact V|]. split; [exact W|]. split; [|split].
  - apply Sx. exact (ac_add _ _ _ _ _ _ (ac_add _ _ _ _ _ _ (ac_mul _ _ _ _ _ _ (ac_add _ _ _ _ _ _ HC O2) X) (ac_mul _ _ _ _ _ _ O1 V)) Ax).
  - apply Sy. exact (ac_add _ _ _ _ _ _ (ac_sub _ _ _ _ _ _ (ac_mul _ _ _ _ _ _ (ac_add _ _ _ _ _ _ HC O2) Y) (ac_mul _ _ _ _ _ _ O1 U)) Ay).
  - apply Sz. exact (ac_add _ _ _ _ _ _ (ac_mul _ _ _ _ _ _ (ac_sub _ _ _ _ _ _ HC (ac_mul _ _ _ _ _ _ ap_two HA)) Z) Az).
Qed.

(** ** y + w * k *)
Record slope := mkS { sV : Q; sve : Q; sA : Q; sae : Q }.
Definition sloped (k : slope) := slopes (sV k) (sve k) (sA k) (sae k).
Definition wmax (iw : itv) : Q := mag (lo iw) (hi iw).
Definition axpy_box (b : box) (iw : itv) (k : slope) : box :=
  mkB (up8 (bD b + wmax iw * sV k)) (up8 (bV b + wmax iw * sA k))
      (er (cadd (bix b) (cmul iw (sym (sV k) (sve k))))) (er (cadd (biv b) (cmul iw (sym (sA k) (sae k))))).
Lemma sym_abs A e xh x : ap (sym A e) xh x -> Rabs x <= Q2R A.
Proof. intros (_ & B & _). unfold sym in B. cbn [lo hi] in B. rewrite Q2R_opp in B. apply Rabs_le. lra. Qed.
Lemma axpy_pos b iw k p xh x kh kr wh w : Rabs p <= 26000000 -> pos_near b p xh x -> ap (sym (sV k) (sve k)) kh kr -> ap iw wh w ->
  pos_near (axpy_box b iw k) p (fadd xh (fmul wh kh)) (x + w * kr).
Proof.
  intros P X K W. pose proof (ac_add _ _ _ _ _ _ (pos_ap _ _ _ _ P X) (ac_mul _ _ _ _ _ _ W K)) as (D & _ & E).
  split; [exact D|]. split; [|exact E]. unfold axpy_box. cbn [bD]. eapply Rle_trans; [|apply up8_ge]. rewrite Q2R_plus, Q2R_mult.
  replace (x + w * kr - p) with ((x - p) + w * kr) by ring. eapply Rle_trans; [apply Rabs_triang|]. apply Rplus_le_compat; [apply X|].
  rewrite Rabs_mult. apply sym_abs in K. apply Rmult_le_compat; try apply Rabs_pos; [|exact K]. apply mag_ok. apply W.
Qed.
Lemma axpy_vel b iw k xh x kh kr wh w : ap (biv b) xh x -> ap (sym (sA k) (sae k)) kh kr -> ap iw wh w ->
  ap (biv (axpy_box b iw k)) (fadd xh (fmul wh kh)) (x + w * kr).
Proof.
  intros X K W. pose proof (ac_add _ _ _ _ _ _ X (ac_mul _ _ _ _ _ _ W K)) as H.
  apply (ap_range (- bV (axpy_box b iw k)) (bV (axpy_box b iw k))) in H; [exact H|]. rewrite Q2R_opp.
  assert (G : Rabs (x + w * kr) <= Q2R (bV (axpy_box b iw k))); [|apply Rabs_le_inv in G; lra].
  unfold axpy_box. cbn [bV]. eapply Rle_trans; [|apply up8_ge]. rewrite Q2R_plus, Q2R_mult. eapply Rle_trans; [apply Rabs_triang|].
  apply Rplus_le_compat; [apply (sym_abs _ _ _ _ X)|]. rewrite Rabs_mult. apply sym_abs in K. apply Rmult_le_compat; try apply Rabs_pos; [|exact K]. apply mag_ok. apply W.
Qed.
Lemma axpy_near b iw k p q r y v kh kr wh w : started p q r -> inside b p q r y v -> sloped k kh kr -> ap iw wh w ->
  inside (axpy_box b iw k) p q r (axpy_d y wh kh) (axpy v w kr).
Proof.
  intros St (X & Y & Z & U & V & T) (K0 & K1 & K2 & K3 & K4 & K5) W. destruct (start_axis _ _ _ St) as (P & Q & R).
  unfold inside, axpy_d, axpy. cbn [d0 d1 d2 d3 d4 d5 s0 s1 s2 s3 s4 s5].
  split; [apply axpy_pos; assumption|]. split; [apply axpy_pos; assumption|]. split; [apply axpy_pos; assumption|].
  split; [apply axpy_vel; assumption|]. split; apply axpy_vel; assumption.
Qed.
Definition k_of (b : box) : slope := let a := accel b in mkS (bV b) (bv b) (fst (fst a)) (snd (fst a)).
(** k1 + 2 k2 + 2 k3 + k4 *)
Definition isum (i1 i2 i3 i4 : itv) : itv := cadd (cadd (cadd i1 (cmul i_2 i2)) (cmul i_2 i3)) i4.
Definition ksum (k1 k2 k3 k4 : slope) : slope :=
  let iv := isum (sym (sV k1) (sve k1)) (sym (sV k2) (sve k2)) (sym (sV k3) (sve k3)) (sym (sV k4) (sve k4)) in
  let ia := isum (sym (sA k1) (sae k1)) (sym (sA k2) (sae k2)) (sym (sA k3) (sae k3)) (sym (sA k4) (sae k4)) in
  mkS (mag (lo iv) (hi iv)) (er iv) (mag (lo ia) (hi ia)) (er ia).
Definition sum_d (k1 k2 k3 k4 : vec6d) : vec6d :=
  let s (p : vec6d -> Q) := fadd (fadd (fadd (p k1) (fmul 2 (p k2))) (fmul 2 (p k3))) (p k4) in mk6d (s d0) (s d1) (s d2) (s d3) (s d4) (s d5).
Definition sum_r (k1 k2 k3 k4 : vec6) : vec6 :=
  let s (p : vec6 -> R) := p k1 + 2 * p k2 + 2 * p k3 + p k4 in mk6 (s s0) (s s1) (s s2) (s s3) (s s4) (s s5).
Lemma isum_near i1 i2 i3 i4 x1 x2 x3 x4 y1 y2 y3 y4 : ap i1 x1 y1 -> ap i2 x2 y2 -> ap i3 x3 y3 -> ap i4 x4 y4 ->
  ap (sym (mag (lo (isum i1 i2 i3 i4)) (hi (isum i1 i2 i3 i4))) (er (isum i1 i2 i3 i4))) (fadd (fadd (fadd x1 (fmul 2 x2)) (fmul 2 x3)) x4) (y1 + 2 * y2 + 2 * y3 + y4).
Proof.
  intros A B C D. eapply ap_sym; [|apply Rle_refl|apply Rle_refl].
  exact (ac_add _ _ _ _ _ _ (ac_add _ _ _ _ _ _ (ac_add _ _ _ _ _ _ A (ac_mul _ _ _ _ _ _ ap_two B)) (ac_mul _ _ _ _ _ _ ap_two C)) D).
Qed.
Lemma sum_near k1 k2 k3 k4 a1 a2 a3 a4 b1 b2 b3 b4 : sloped k1 a1 b1 -> sloped k2 a2 b2 -> sloped k3 a3 b3 -> sloped k4 a4 b4 ->
  sloped (ksum k1 k2 k3 k4) (sum_d a1 a2 a3 a4) (sum_r b1 b2 b3 b4).
Proof.
  intros (A0 & A1 & A2 & A3 & A4 & A5) (B0 & B1 & B2 & B3 & B4 & B5) (C0 & C1 & C2 & C3 & C4 & C5) (D0 & D1 & D2 & D3 & D4 & D5).
  unfold sloped, slopes, sum_d, sum_r, ksum. cbn [d0 d1 d2 d3 d4 d5 s0 s1 s2 s3 s4 s5 sV sve sA sae].
  split; [apply isum_near; assumption|]. split; [apply isum_near; assumption|]. split; [apply isum_near; assumption|].
  split; [apply isum_near; assumption|]. split; apply isum_near; assumption.
Qed.
(** ** one step *)
Definition i_h : itv := mkI (-60) 60 0.
Definition i_6 : itv := mkI 6 6 0.
Definition i_h2 : itv := cdiv i_h i_2.
Definition i_h6 : itv := cdiv i_h i_6.
Lemma deriv_sloped m b p q r y v acc a : accurate m -> started p q r -> snd (accel b) = true -> acc_near acc a ->
  inside b p q r y v -> sloped (k_of b) (deriv_d m y acc) (glo_state_deriv v a).
Proof. intros. unfold k_of, sloped. cbv zeta. cbn [sV sve sA sae]. eapply deriv_near; eassumption. Qed.
(** the box after a step, and whether the bounds hold on the way *)
Definition kk (b : box) (a : Q * Q * bool) : slope := mkS (bV b) (bv b) (fst (fst a)) (snd (fst a)).
Definition step_box (b : box) : box * bool :=
  let a1 := accel b in let k1 := kk b a1 in
  let b2 := axpy_box b i_h2 k1 in let a2 := accel b2 in let k2 := kk b2 a2 in
  let b3 := axpy_box b i_h2 k2 in let a3 := accel b3 in let k3 := kk b3 a3 in
  let b4 := axpy_box b i_h k3 in let a4 := accel b4 in let k4 := kk b4 a4 in
  (axpy_box b i_h6 (ksum k1 k2 k3 k4), snd a1 && snd a2 && snd a3 && snd a4).
Lemma step_near m b p q r y v acc a hh h : accurate m -> started p q r -> snd (step_box b) = true -> acc_near acc a -> ap i_h hh h ->
  inside b p q r y v -> inside (fst (step_box b)) p q r (rk4_step_d m hh acc y) (rk4_step h a v).
Proof.
  intros Hm St Ok Ac H I. unfold step_box in *. cbv zeta in *. cbn [fst snd] in *.
  change (kk b (accel b)) with (k_of b) in *. set (b2 := axpy_box b i_h2 (k_of b)) in *. change (kk b2 (accel b2)) with (k_of b2) in *.
  set (b3 := axpy_box b i_h2 (k_of b2)) in *. change (kk b3 (accel b3)) with (k_of b3) in *.
  set (b4 := axpy_box b i_h (k_of b3)) in *. change (kk b4 (accel b4)) with (k_of b4) in *.
  apply andb_prop in Ok. destruct Ok as (Ok & O4). apply andb_prop in Ok. destruct Ok as (Ok & O3). apply andb_prop in Ok. destruct Ok as (O1 & O2).
  assert (H2 : ap i_h2 (fdiv hh 2) (h / 2)) by (apply ac_div; [exact H|exact ap_two|vm_compute; reflexivity]).
  assert (H6 : ap i_h6 (fdiv hh 6) (h / 6)) by (apply ac_div; [exact H|apply (ap_int 6); discriminate|vm_compute; reflexivity]).
  pose proof (deriv_sloped m b p q r _ _ acc a Hm St O1 Ac I) as K1. set (k1 := deriv_d m y acc) in *. set (c1 := glo_state_deriv v a) in *.
  pose proof (axpy_near b i_h2 (k_of b) p q r _ _ _ _ _ _ St I K1 H2 : inside b2 _ _ _ _ _) as I2.
  pose proof (deriv_sloped m b2 p q r _ _ acc a Hm St O2 Ac I2) as K2. set (k2 := deriv_d m (axpy_d y (fdiv hh 2) k1) acc) in *. set (c2 := glo_state_deriv (axpy v (h / 2) c1) a) in *.
  pose proof (axpy_near b i_h2 (k_of b2) p q r _ _ _ _ _ _ St I K2 H2 : inside b3 _ _ _ _ _) as I3.
  pose proof (deriv_sloped m b3 p q r _ _ acc a Hm St O3 Ac I3) as K3. set (k3 := deriv_d m (axpy_d y (fdiv hh 2) k2) acc) in *. set (c3' := glo_state_deriv (axpy v (h / 2) c2) a) in *.
  pose proof (axpy_near b i_h (k_of b3) p q r _ _ _ _ _ _ St I K3 H : inside b4 _ _ _ _ _) as I4.
  pose proof (deriv_sloped m b4 p q r _ _ acc a Hm St O4 Ac I4) as K4. set (k4 := deriv_d m (axpy_d y hh k3) acc) in *. set (c4 := glo_state_deriv (axpy v h c3') a) in *.
  pose proof (sum_near _ _ _ _ _ _ _ _ _ _ _ _ K1 K2 K3 K4) as S.
  exact (axpy_near b i_h6 _ p q r _ _ _ _ _ _ St I S H6).
Qed.
(** n steps *)
Fixpoint boxes (n : nat) (b : box) : list (box * bool) := match n with O => nil | S k => let s := step_box b in s :: boxes k (fst s) end.
Definition box0 : box := mkB 0 3700 0 0.
