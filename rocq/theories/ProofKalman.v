(** ProofKalman: linear algebra of the filter *)
From mathcomp Require Import all_ssreflect all_algebra.
From Verif Require Import ModelKalman SpecKalman RingAux.
Set Implicit Arguments.
Unset Strict Implicit.
Unset Printing Implicit Defensive.
Import GRing.Theory Num.Theory Order.TTheory.
Local Open Scope ring_scope.

Section Proof.
Variable R : rcfType.
Implicit Types (n : nat).

Lemma quadD n (A B : 'M[R]_n) x : quad (A + B) x = quad A x + quad B x.
Proof. by rewrite /quad mulmxDr mulmxDl mxE. Qed.
Lemma quadN n (A : 'M[R]_n) x : quad (- A) x = - quad A x.
Proof. by rewrite /quad mulmxN mulNmx mxE. Qed.
Lemma quadB n (A B : 'M[R]_n) x : quad (A - B) x = quad A x - quad B x.
Proof. by rewrite quadD quadN. Qed.
Lemma quadZ n (a : R) (A : 'M[R]_n) x : quad (a *: A) x = a * quad A x.
Proof. by rewrite /quad -scalemxAr -scalemxAl mxE. Qed.
Lemma quad_conj n m (K : 'M[R]_(n, m)) (M : 'M[R]_m) x : quad (K *m M *m K^T) x = quad M (x *m K).
Proof. by rewrite /quad trmx_mul !mulmxA. Qed.
Lemma quad_diag n (d : 'rV[R]_n) x : quad (diag_mx d) x = \sum_i d 0 i * x 0 i ^+ 2.
Proof.
rewrite /quad mxE; apply: eq_bigr => i _; rewrite mul_mx_diag !mxE expr2.
by rewrite mulrA [_ * d 0 i]mulrC.
Qed.
Lemma quad_dyad n (u : 'cV[R]_n) x : quad (u *m u^T) x = (x *m u) 0 0 ^+ 2.
Proof.
rewrite /quad -!mulmxA -trmx_mul mulmxA [LHS]mxE big_ord1 [(_^T) _ _]mxE.
by rewrite expr2.
Qed.
Lemma sum_sq_gt0 n (d : 'rV[R]_n) (x : 'rV[R]_n) : (forall i, 0 < d 0 i) -> x != 0 -> 0 < \sum_i d 0 i * x 0 i ^+ 2.
Proof.
move=> D X; have P i : 0 <= d 0 i * x 0 i ^+ 2 by rewrite mulr_ge0 ?sqr_ge0 // ltW.
rewrite lt_neqAle sumr_ge0 ?andbT //; apply/negP => /eqP /esym /eqP.
rewrite psumr_eq0 // => /allP Z; case/eqP: X; apply/rowP => i; rewrite mxE.
have:= Z i; rewrite mem_index_enum => /(_ isT) /=; rewrite mulf_eq0 sqrf_eq0 gt_eqF ?D //=.
by move/eqP.
Qed.
Lemma diag_pd n (d : 'rV[R]_n) : (forall i, 0 < d 0 i) -> posdef (diag_mx d).
Proof. by move=> D x X; rewrite quad_diag sum_sq_gt0. Qed.
Lemma pd_psd n (M : 'M[R]_n) : posdef M -> psd M.
Proof.
move=> H x; case: (eqVneq x 0) => [->|/H/ltW //].
by rewrite /quad mul0mx mul0mx mxE.
Qed.
Lemma pd_unit n (M : 'M[R]_n) : posdef M -> M \in unitmx.
Proof.
move=> H; rewrite -row_free_unit -kermx_eq0; apply: contraT => /rowV0Pn [v /sub_kermxP Hv V0].
by have:= H v V0; rewrite /quad Hv mul0mx mxE ltxx.
Qed.
Lemma pd_sum n (A B : 'M[R]_n) : psd A -> posdef B -> posdef (A + B).
Proof. by move=> HA HB x X; rewrite quadD ltr_paddl ?HB. Qed.
Lemma pd_suml n (A B : 'M[R]_n) : posdef A -> psd B -> posdef (A + B).
Proof. by move=> HA HB x X; rewrite quadD ltr_paddr ?HA. Qed.
Lemma psd_conj n m (K : 'M[R]_(n, m)) (M : 'M[R]_m) : psd M -> psd (K *m M *m K^T).
Proof. by move=> H x; rewrite quad_conj. Qed.
Lemma pd_conj n (K : 'M[R]_n) (M : 'M[R]_n) : K \in unitmx -> posdef M -> posdef (K *m M *m K^T).
Proof.
move=> U H x X; rewrite quad_conj H //; apply: contra X => /eqP E.
by rewrite -[x](mulmxK U) E mul0mx.
Qed.

Lemma rearr (G : zmodType) (P a b c d e : G) : P - b - (c - d) + e = P - a + (d + e - c - (b - a)).
Proof.
have -> : d + e - c - (b - a) = a + (d + e - c - b) by rewrite opprB addrCA.
rewrite subrKA opprB !addrA.
by rewrite (addrAC _ (- c) e) (addrAC P (- b) d) (addrAC (P + d) (- b) e) (addrAC (P + d + e) (- b) (- c)).
Qed.

Lemma rearr2 (G : zmodType) (a b s d q : G) : a + s + d - b - s + q - d = a - b + q.
Proof. by rewrite (addrAC _ (- b) (- s)) (addrAC _ d (- s)) addrK (addrAC _ q (- d)) (addrAC _ (- b) (- d)) addrK. Qed.

(** ** the update in general *)
Section Update.
Variables (n : nat) (P : 'M[R]_5) (H : 'M[R]_(n, 5)) (V : 'M[R]_n).
Hypotheses (Ps : P^T = P) (Vs : V^T = V).
Let S := H *m P *m H^T + V.
Hypothesis Su : S \in unitmx.
Let W := gain H P S.
Lemma S_sym : S^T = S.
Proof. by rewrite /S linearD /= Vs !trmx_mul trmxK Ps mulmxA. Qed.
Lemma W_S : W *m S = P *m H^T.
Proof. by rewrite /W /gain mulmxKV. Qed.
Lemma S_W : S *m W^T = H *m P.
Proof. by rewrite -[S]S_sym -trmx_mul W_S trmx_mul trmxK Ps. Qed.
Lemma WSW : W *m S *m W^T = W *m H *m P.
Proof. by rewrite -mulmxA S_W mulmxA. Qed.
Lemma new_P : P - W *m S *m W^T = (1%:M - W *m H) *m P.
Proof. by rewrite WSW mulmxBl mul1mx. Qed.
Lemma new_sym : (P - W *m S *m W^T)^T = P - W *m S *m W^T.
Proof. by rewrite linearB /= [(W *m S *m W^T)^T]trmx_mul [(W *m S)^T]trmx_mul trmxK S_sym Ps mulmxA. Qed.
Lemma any_gain K : with_gain P H V K = (P - W *m S *m W^T) + (K - W) *m S *m (K - W)^T.
Proof.
have T m p (A B : 'M[R]_(m, p)) : (A - B)^T = A^T - B^T by rewrite linearB.
rewrite /with_gain !T trmx1 [(K *m H)^T]trmx_mul !mulmxBl !mulmxBr !mul1mx !mulmx1.
have E1 : K *m S *m W^T = K *m H *m P by rewrite -mulmxA S_W mulmxA.
have E2 : W *m S *m K^T = P *m (H^T *m K^T) by rewrite W_S mulmxA.
have E3 : K *m S *m K^T = K *m H *m P *m (H^T *m K^T) + K *m V *m K^T by rewrite /S mulmxDr mulmxDl !mulmxA.
rewrite E1 E2 E3.
set a := W *m S *m W^T; set b := K *m H *m P; set c := P *m _; set d := b *m _; set e := K *m V *m _.
exact: rearr.
Qed.
End Update.

(** ** the concrete matrices *)
Lemma c5_eq (k : nat) (i : 'I_5) : (k < 5)%N -> (i == c5 k) = ((i : nat) == k).
Proof. by move=> K; rewrite -(inj_eq val_inj) /= inordK. Qed.
Lemma F_delta (dt : R) : F_mx dt = 1%:M + dt *: delta_mx (c5 3) (c5 4).
Proof.
apply/matrixP => i j; rewrite !mxE; case: (eqVneq i j) => [->|_] /=; last first.
  by rewrite mulr0n add0r; case: (_ && _); rewrite ?mulr1 ?mulr0.
rewrite !c5_eq //; case: eqP => [->|_] /=; rewrite ?mulr0 ?addr0 //.
Qed.
Lemma F_unit (dt : R) : F_mx dt \in unitmx.
Proof.
have E : F_mx dt *m F_mx (- dt) = 1%:M.
  rewrite !F_delta mulmxDl !mulmxDr !mul1mx mulmx1 -scalemxAl -scalemxAr mul_delta_mx_0 ?scaler0 ?addr0.
    by rewrite scaleNr -addrA addNr addr0.
  by rewrite c5_eq // inordK.
by case: (mulmx1_unit E).
Qed.
Lemma F_apply (dt : R) (s : 'cV[R]_5) (i : 'I_5) :
  (F_mx dt *m s) i 0 = s i 0 + (if i == c5 3 then dt * s (c5 4) 0 else 0).
Proof.
rewrite F_delta mulmxDl mul1mx mxE; congr (_ + _); rewrite -scalemxAl mxE.
rewrite mxE (bigD1 (c5 4)) //= big1 ?addr0; last by move=> k K; rewrite mxE (negbTE K) andbF mul0r.
by rewrite mxE eqxx andbT; case: (i == _); rewrite ?mul1r // mul0r mulr0.
Qed.
Lemma P_init_diag : P_init R = diag_mx (\row_i (if i == c5 4 then 30%:R else 50%:R * 50%:R)).
Proof. by apply/matrixP => i j; rewrite !mxE; case: eqP => [->|_]. Qed.
Lemma P_init_sym : (P_init R)^T = P_init R.
Proof. by rewrite P_init_diag tr_diag_mx. Qed.
Lemma P_init_pd : posdef (P_init R).
Proof.
rewrite P_init_diag; apply: diag_pd => i; rewrite mxE; case: ifP => _; first by rewrite ltr0n.
by rewrite mulr_gt0 // ltr0n.
Qed.
Lemma Q_sym : (Q_mx R)^T = Q_mx R.
Proof.
apply/matrixP => i j; rewrite !mxE !c5_eq //.
by (case: (eqVneq (i : nat) 3%N) => [Ei|_]; [rewrite ?Ei /=|case: (eqVneq (i : nat) 4%N) => [_|_] /=]); (case: (eqVneq (j : nat) 3%N) => [Ej|_]; [rewrite ?Ej /=|case: (eqVneq (j : nat) 4%N) => [_|_] /=]).
Qed.
Definition e5 k : 'cV[R]_5 := delta_mx (c5 k) 0.
Lemma Q_dyads : Q_mx R = (dec4 R 19) *: ((e5 3 + e5 4) *m (e5 3 + e5 4)^T) + ((dec4 R 95) *: (e5 3 *m (e5 3)^T) + (dec4 R 20) *: (e5 4 *m (e5 4)^T)).
Proof.
have A a b : dec4 R (a + b) = dec4 R a + dec4 R b by rewrite /dec4 natrD mulrDl.
apply/matrixP => i j; rewrite !mxE !big_ord1 !mxE !eqxx !andbT !c5_eq //.
(case: (eqVneq (i : nat) 3%N) => [Ei|_]; [rewrite ?Ei /=|case: (eqVneq (i : nat) 4%N) => [_|_] /=]); (case: (eqVneq (j : nat) 3%N) => [Ej|_]; [rewrite ?Ej /=|case: (eqVneq (j : nat) 4%N) => [_|_] /=]);
 rewrite ?(mulr1, mul1r, mulr0, mul0r, addr0, add0r, mulr0n, mulr1n) //=.
- by rewrite -[114%N]/(19 + 95)%N A.
- by rewrite -[39%N]/(19 + 20)%N A.
Qed.
Lemma dec4_gt0 k : (0 < k)%N -> 0 < dec4 R k.
Proof. by move=> K; rewrite divr_gt0 ?mulr_gt0 ?ltr0n. Qed.
Lemma Q_psd : psd (Q_mx R).
Proof.
move=> x; rewrite Q_dyads !quadD !quadZ !quad_dyad.
by rewrite !addr_ge0 // mulr_ge0 ?sqr_ge0 // ltW // dec4_gt0.
Qed.
Lemma weight_sym n (w : option 'cV[R]_n) : (weight w)^T = weight w.
Proof. by case: w => [w|] /=; rewrite ?tr_diag_mx ?trmx0. Qed.
Lemma weight_pd n (w : 'cV[R]_n) : (forall i, -100%:R < w i 0) -> posdef (weight (Some w)).
Proof. by move=> H; apply: diag_pd => i; rewrite mxE -ltr_subl_addl sub0r. Qed.

(** ** one update *)
Definition good_P (k : kalman R) : Prop := (k_idx k != 0)%N -> (k_P k)^T = k_P k.
Lemma pred_sym (k : kalman R) e : good_P k -> (pred_P k e)^T = pred_P k e.
Proof.
move=> G; rewrite /pred_P linearD /= Q_sym !trmx_mul trmxK mulmxA; congr (_ *m _ *m _ + _).
by case: eqP => [_|/eqP/G //]; rewrite P_init_sym.
Qed.
Lemma update_some (k k' : kalman R) e : update k e = Some k' ->
  let s := pred_state k e in let H := jacobian (ep_sv e) s (k_coef k) in let P := pred_P k e in
  let S := resid_cov H P (ep_w e) in let W := gain H P S in
  [/\ S \in unitmx, (forall i, range (ep_sv e) s i != 0), k_P k' = P - W *m S *m W^T,
      k_state k' = s + W *m (measurements (ep_obs e) (ep_sv e) (k_coef k) - pseudoranges (ep_sv e) s) &
      k_coef k' = k_coef k /\ k_idx k' = (k_idx k).+1].
Proof.
move=> U s H P S W; move: U; rewrite /update -/s -/H -/P -/S -/W.
by case: ifP => // /andP [Su /forallP A] [<-].
Qed.
Lemma update_good (k k' : kalman R) e : good_P k -> update k e = Some k' -> good_P k'.
Proof.
move=> G U; case: (update_some U) => Su _ E _ _ _; rewrite E.
by rewrite new_sym // ?weight_sym // pred_sym.
Qed.
Lemma updates_good es : forall (k k' : kalman R), good_P k -> updates k es = Some k' -> good_P k'.
Proof.
elim: es => [|e es IH] k k' G /=; first by case=> <-.
by case U: (update k e) => [k1|//]; apply: IH; apply: update_good U.
Qed.
End Proof.

Section Range.
Variable R : rcfType.
Lemma rth : Ring_theory.ring_theory (0 : R) 1 (fun a b => a + b) (fun a b => a * b) (fun a b => a - b) (fun a => - a) eq.
Proof. by split; [exact: add0r|exact: addrC|exact: addrA|exact: mul1r|exact: mulrC|exact: mulrA|exact: mulrDl|by []|exact: subrr]. Qed.
Lemma lagrangeR (u0 u1 u2 d0 d1 d2 : R) :
  (u0 * u0 + u1 * u1 + u2 * u2) * (d0 * d0 + d1 * d1 + d2 * d2) =
  (u0 * d0 + u1 * d1 + u2 * d2) * (u0 * d0 + u1 * d1 + u2 * d2) +
  ((u0 * d1 - u1 * d0) * (u0 * d1 - u1 * d0) + (u0 * d2 - u2 * d0) * (u0 * d2 - u2 * d0) + (u1 * d2 - u2 * d1) * (u1 * d2 - u2 * d1)).
Proof. exact (lagrange _ _ _ _ _ _ _ rth u0 u1 u2 d0 d1 d2). Qed.
Lemma movedR (u0 u1 u2 d0 d1 d2 : R) :
  (u0 - d0) * (u0 - d0) + (u1 - d1) * (u1 - d1) + (u2 - d2) * (u2 - d2) =
  (u0 * u0 + u1 * u1 + u2 * u2) - (1 + 1) * (u0 * d0 + u1 * d1 + u2 * d2) + (d0 * d0 + d1 * d1 + d2 * d2).
Proof. exact (moved _ _ _ _ _ _ _ rth u0 u1 u2 d0 d1 d2). Qed.
Lemma cs_gapR (A U D : R) : A * (A - (1 + 1) * U + D) - (A - U) * (A - U) = A * D - U * U.
Proof. exact (cs_gap _ _ _ _ _ _ _ rth A U D). Qed.
Lemma sq_gapR (r r' : R) : r * r + r' * r' - (1 + 1) * (r * r') = (r - r') * (r - r').
Proof. exact (sq_gap _ _ _ _ _ _ _ rth r r'). Qed.
Lemma hi_eqR (A U D x : R) : D - (x - A + U) * (1 + 1) = A + (A - (1 + 1) * U + D) - (1 + 1) * x.
Proof. exact (hi_eq _ _ _ _ _ _ _ rth A U D x). Qed.
Lemma lo_eqR (A U x : R) : x - A + U = x - (A - U).
Proof. exact (lo_eq _ _ _ _ _ _ _ rth A U x). Qed.
(** the distance after a displacement: between the tangent and the tangent plus D / (2 r) *)
Lemma tangent (u0 u1 u2 d0 d1 d2 : R) :
  let A := u0 * u0 + u1 * u1 + u2 * u2 in
  let U := u0 * d0 + u1 * d1 + u2 * d2 in
  let D := d0 * d0 + d1 * d1 + d2 * d2 in
  let r := Num.sqrt A in
  let r' := Num.sqrt ((u0 - d0) * (u0 - d0) + (u1 - d1) * (u1 - d1) + (u2 - d2) * (u2 - d2)) in
  r != 0 -> 0 <= r' - r + U / r <= D / (2%:R * r).
Proof.
move=> A U D r r' r0.
have sq x : 0 <= x * x :> R by rewrite -expr2 sqr_ge0.
have A0 : 0 <= A by rewrite !addr_ge0.
have B0 : 0 <= (u0 - d0) * (u0 - d0) + (u1 - d1) * (u1 - d1) + (u2 - d2) * (u2 - d2) by rewrite !addr_ge0.
have rr : r * r = A by rewrite -expr2 sqr_sqrtr.
have rr' : r' * r' = A - (1 + 1) * U + D by rewrite -expr2 sqr_sqrtr // movedR.
have rp : 0 < r by rewrite lt_neqAle eq_sym r0 sqrtr_ge0.
have rp' : 0 <= r' by rewrite sqrtr_ge0.
have CS : U * U <= A * D by rewrite /A /D lagrangeR ler_addl !addr_ge0.
have lo : A - U <= r * r'.
  case: (leP 0 (A - U)) => [H|/ltW H]; last by apply: le_trans H _; rewrite mulr_ge0 // ltW.
  rewrite -(@ler_pexpn2r _ 2) ?nnegrE ?mulr_ge0 ?(ltW rp) // !expr2.
  have -> : r * r' * (r * r') = A * (A - (1 + 1) * U + D) by rewrite mulrACA rr rr'.
  by rewrite -subr_ge0 cs_gapR subr_ge0.
have hi : (1 + 1) * (r * r') <= A + (A - (1 + 1) * U + D).
  by rewrite -subr_ge0 -rr' -[X in X + _ - _]rr sq_gapR sq.
have E : r' - r + U / r = (r * r' - A + U) / r.
  by rewrite mulrDl mulrBl -rr mulfK // mulrAC mulfV // mul1r.
rewrite E divr_ge0 ?(ltW rp) //=; last by rewrite lo_eqR subr_ge0.
rewrite invfM mulrA ler_pmul2r ?invr_gt0 // ler_pdivl_mulr ?ltr0n //.
by rewrite -subr_ge0 -[2%:R]/(1 + 1) hi_eqR subr_ge0.
Qed.
End Range.
