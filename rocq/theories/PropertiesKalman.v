(** PropertiesKalman: C52, C72-C77, for every real closed field of numbers *)
From mathcomp Require Import all_ssreflect all_algebra all_fingroup.
From Verif Require Import ModelKalman SpecKalman ProofKalman.
Set Implicit Arguments.
Unset Strict Implicit.
Unset Printing Implicit Defensive.
Import GRing.Theory Num.Theory Order.TTheory.
Local Open Scope ring_scope.

Section Statements.
Variable R : rcfType.
(** members after a history of updates from the constructor *)
Definition reached (k : kalman R) : Prop := exists s P c es, updates (kalman_init s P c) es = Some k.
(** the values of one update *)
Definition pred_H (k : kalman R) e := jacobian (ep_sv e) (pred_state k e) (k_coef k).
Definition pred_S (k : kalman R) e := resid_cov (pred_H k e) (pred_P k e) (ep_w e).
Definition pred_W (k : kalman R) e := gain (pred_H k e) (pred_P k e) (pred_S k e).
Definition innovation (k : kalman R) e :=
  measurements (ep_obs e) (ep_sv e) (k_coef k) - pseudoranges (ep_sv e) (pred_state k e).

Lemma reached_step k e k' : reached k -> update k e = Some k' -> reached k'.
Proof.
move=> [s [P [c [es H]]]] U; exists s, P, c, (es ++ [:: e]).
move: H; generalize (kalman_init s P c); elim: es => [|a es IH] k0 /=; first by case=> ->; rewrite U.
by case: (update k0 a) => [k1|] //; apply: IH.
Qed.
Lemma reached_sym k : reached k -> good_P k.
Proof. by move=> [s [P [c [es H]]]]; apply: updates_good H. Qed.

(** ** C52: symmetric covariance, P' = (I - W H) P *)
Theorem C52_symmetric k : reached k -> (0 < k_idx k)%N -> sym_mx (k_P k).
Proof. by move=> H I; apply: (reached_sym H); rewrite -lt0n. Qed.
Theorem C52_form k e k' : reached k -> update k e = Some k' ->
  k_P k' = (1%:M - pred_W k e *m pred_H k e) *m pred_P k e.
Proof.
move=> H U; case: (update_some U) => Su _ E _ _; rewrite E.
by apply: new_P; rewrite ?weight_sym // pred_sym //; apply: reached_sym.
Qed.

(** ** C72: the covariance is one, and does not grow by measuring *)
(** members after a history of updates with weights above -100 *)
Definition weighted (e : epoch R) : Prop := exists2 w, ep_w e = Some w & forall i, - 100%:R < w i 0.
Inductive reached_w : kalman R -> Prop :=
| rw_init s P c : reached_w (kalman_init s P c)
| rw_step k e k' : reached_w k -> weighted e -> update k e = Some k' -> reached_w k'.
Definition good_w (k : kalman R) : Prop := (k_idx k != 0)%N -> (k_P k)^T = k_P k /\ posdef (k_P k).
Lemma pred_pd k e : good_w k -> (pred_P k e)^T = pred_P k e /\ posdef (pred_P k e).
Proof.
move=> G; split; first by apply: pred_sym => /G [].
rewrite /pred_P; apply: pd_suml; last exact: Q_psd.
apply: pd_conj; first exact: F_unit.
by case: eqP => [_|/eqP/G [] //]; apply: P_init_pd.
Qed.
Lemma joseph k e k' : (pred_P k e)^T = pred_P k e -> update k e = Some k' ->
  k_P k' = with_gain (pred_P k e) (pred_H k e) (weight (ep_w e)) (pred_W k e).
Proof.
move=> Ps U; case: (update_some U) => Su _ E _ _; rewrite E.
by rewrite (any_gain Ps (weight_sym _) Su) subrr mul0mx mul0mx addr0.
Qed.
Lemma quad0 n (M : 'M[R]_n) : quad M 0 = 0.
Proof. by rewrite /quad !mul0mx mxE. Qed.
Lemma step_pd k e k' : good_w k -> weighted e -> update k e = Some k' -> good_w k'.
Proof.
move=> G [w Ew Hw] U _; have [Ps Pd] := pred_pd e G; have J := joseph Ps U.
have [Su _ E _ _] := update_some U.
split; first by rewrite E new_sym // weight_sym.
move=> x X; rewrite J /with_gain quadD quad_conj quad_conj Ew.
case: (eqVneq (x *m pred_W k e) 0) => [Z|NZ].
  by rewrite mulmxBr mulmx1 mulmxA Z mul0mx subr0 quad0 addr0; apply: Pd.
by rewrite ltr_paddl ?(pd_psd Pd) // (weight_pd Hw).
Qed.
Lemma reached_pd k : reached_w k -> good_w k.
Proof. by elim=> [//|k0 e k1 _ G]; apply: step_pd. Qed.
(** positive definite after every history with weights above -100 *)
Theorem C72_positive k : reached_w k -> (0 < k_idx k)%N -> sym_mx (k_P k) /\ posdef (k_P k).
Proof. by move=> H I; apply: (reached_pd H); rewrite -lt0n. Qed.
(** and each such update is defined, unless a satellite is at the predicted position *)
Theorem C72_defined k e : reached_w k -> weighted e -> (forall i, range (ep_sv e) (pred_state k e) i != 0) ->
  exists k', update k e = Some k'.
Proof.
move=> H [w Ew Hw] A; have [Ps Pd] := pred_pd e (reached_pd H).
have Su : pred_S k e \in unitmx.
  by apply: pd_unit; rewrite /pred_S /resid_cov Ew; apply: pd_sum; [apply/psd_conj/pd_psd|apply: weight_pd].
rewrite /update -/(pred_H k e) -/(pred_S k e) Su /=; have -> : [forall i, range (ep_sv e) (pred_state k e) i != 0] by apply/forallP.
by eexists.
Qed.
(** measuring never increases the variance of any combination of the state *)
Theorem C72_shrinks k e k' : reached_w k -> weighted e -> update k e = Some k' -> below (k_P k') (pred_P k e).
Proof.
move=> H [w Ew Hw] U x; have [Ps Pd] := pred_pd e (reached_pd H).
have [Su _ E _ _] := update_some U; rewrite E quadB ler_subl_addr ler_addl quad_conj.
rewrite /resid_cov Ew quadD addr_ge0 //; first by rewrite quad_conj (pd_psd Pd).
by rewrite (pd_psd (weight_pd Hw)).
Qed.

(** ** C73: without weights five or more satellites cannot be processed *)
Lemma jac_rank n (sv : 'M[R]_(n, 4)) s c : (\rank (jacobian sv s c) <= 4)%N.
Proof.
have E : jacobian sv s c = jacobian sv s c *m (pid_mx 4 : 'M_5).
  apply/matrixP => i j; rewrite [RHS]mxE (bigD1 j) //= big1 ?addr0; last first.
    by move=> k /negbTE K; rewrite [pid_mx _ _ _]mxE (inj_eq val_inj) K mulr0.
  rewrite [pid_mx _ _ _]mxE eqxx /=; case: (ltnP j 4) => J; rewrite ?mulr1 // mulr0 mxE !c5_eq //.
  have -> : (j : nat) = 4%N by apply/eqP; rewrite eqn_leq J -ltnS ltn_ord.
  by rewrite mul0r.
by rewrite E (leq_trans (mxrankM_maxr _ _)) // rank_pid_mx.
Qed.
Theorem C73_unweighted_singular (k : kalman R) (e : epoch R) : ep_w e = None -> (4 < ep_n e)%N -> update k e = None.
Proof.
move=> Ew N; rewrite /update; case: ifP => // /andP [Su _]; exfalso.
move: Su; rewrite Ew /resid_cov /= addr0 -row_free_unit /row_free => /eqP Rk.
have := leq_trans (mxrankM_maxl _ _) (leq_trans (mxrankM_maxl _ _) (jac_rank (ep_sv e) (pred_state k e) (k_coef k))).
by move/(_ _ (pred_P k e) _ (jacobian (ep_sv e) (pred_state k e) (k_coef k))^T); rewrite Rk leqNgt N.
Qed.
(** full: update always yields a state *)
Definition C73_full : Prop := forall (k : kalman R) (e : epoch R), reached k -> (0 < ep_n e)%N ->
  (forall i, range (ep_sv e) (pred_state k e) i != 0) -> update k e <> None.
End Statements.

Section More.
Variable R : rcfType.
(** five satellites around the geocentre *)
Definition five_sv : 'M[R]_(5, 4) := \matrix_(i, j) (if j == c4 0 then 1 else 0).
Definition five : epoch R := @Epoch R 5 0 five_sv 1 None.
Theorem C73_full_refuted : ~ C73_full R.
Proof.
move=> H; apply: (H (kalman_init 0 0 1) five) => //; last by rewrite C73_unweighted_singular.
- by exists 0, 0, 1, [::].
- move=> i; rewrite /range /sqdist /pred_state mulmx0 !mxE /= !subr0.
  have N (a b : 'I_4) : (val a == val b) = (a == b) by [].
  rewrite eqxx -!(inj_eq val_inj) /= !inordK //= mulr0 !addr0 mulr1 sqrtr1 oner_neq0 //.
Qed.
(** with at most four satellites and independent directions the update without weights fits the
    linearised measurements exactly *)
Theorem C73_fits (k k' : kalman R) e : reached k -> ep_w e = None -> update k e = Some k' ->
  pred_H k e *m (k_state k' - pred_state k e) = innovation k e /\ pred_H k e *m k_P k' = 0.
Proof.
move=> Hr Ew U; have [Su _ E Es _] := update_some U.
have HW : pred_H k e *m pred_W k e = 1%:M.
  by rewrite /pred_W /gain !mulmxA; rewrite -[X in X *m _](addr0 _) -[0]/(weight (None : option 'cV[R]_(ep_n e))) -Ew mulmxV.
split; first by rewrite Es addrC addKr mulmxA HW mul1mx.
by rewrite (C52_form Hr U) mulmxA mulmxBr mulmx1 mulmxA HW mul1mx subrr mul0mx.
Qed.

(** squared length of the displacement of the position *)
Definition shift2 (d : 'cV[R]_5) : R := d (c5 0) 0 ^+ 2 + d (c5 1) 0 ^+ 2 + d (c5 2) 0 ^+ 2.
(** ** C74: the Jacobian is the derivative of the predicted pseudoranges *)
Definition C74_full : Prop := forall (coef : R) n (sv : 'M[R]_(n, 4)) (s : 'cV[R]_5) (d : 'cV[R]_5) (i : 'I_n), range sv s i != 0 ->
  0 <= pseudoranges sv (s + d) i 0 - pseudoranges sv s i 0 - (jacobian sv s coef *m d) i 0 <= shift2 d / (2%:R * range sv s i).
Theorem C74_gradient_partial n (sv : 'M[R]_(n, 4)) (s : 'cV[R]_5) (d : 'cV[R]_5) (i : 'I_n) : range sv s i != 0 ->
  0 <= pseudoranges sv (s + d) i 0 - pseudoranges sv s i 0 - (jacobian sv s 1 *m d) i 0 <= shift2 d / (2%:R * range sv s i).
Proof.
move=> r0; rewrite /shift2.
set u := fun k => sv i (c4 k) - s (c5 k) 0.
have J : (jacobian sv s 1 *m d) i 0 = - (u 0%N * d (c5 0) 0 + u 1%N * d (c5 1) 0 + u 2%N * d (c5 2) 0) / range sv s i + d (c5 3) 0.
  rewrite mxE.
  have -> : \sum_j jacobian sv s 1 i j * d j 0 = \sum_(k < 5) jacobian sv s 1 i (c5 k) * d (c5 k) 0.
    by apply: eq_bigr => k _; rewrite /c5 inord_val.
  rewrite !big_ord_recr big_ord0 /= !mxE !c5_eq // !inordK //= add0r mul0r mul0r addr0 mul1r mul1r -/(u _) -/(u _) -/(u _).
  by rewrite !mulN1r !mulNr !mulrDl !opprD; rewrite ![_ / _ * d _ _]mulrAC.
rewrite J !mxE; have := @tangent R (u 0%N) (u 1%N) (u 2%N) (d (c5 0) 0) (d (c5 1) 0) (d (c5 2) 0).
rewrite -!expr2 => /(_ r0).
have -> : Num.sqrt ((u 0%N - d (c5 0) 0) ^+ 2 + (u 1%N - d (c5 1) 0) ^+ 2 + (u 2%N - d (c5 2) 0) ^+ 2) = range sv (s + d) i.
  by rewrite /range /sqdist !mxE /u !expr2 !opprD !addrA.
have -> : Num.sqrt (u 0%N ^+ 2 + u 1%N ^+ 2 + u 2%N ^+ 2) = range sv s i by rewrite /range /sqdist /u !expr2.
set a := range _ (s + d) i; set b := range sv s i; set U := u 0%N * d (c5 0) 0 + u 1%N * d (c5 1) 0 + u 2%N * d (c5 2) 0.
have -> // : a + (s (c5 3) 0 + d (c5 3) 0) - (b + s (c5 3) 0) - (- U / b + d (c5 3) 0) = a - b + U / b.
by rewrite mulNr !opprD opprK !addrA; exact: rearr2.
Qed.

(** with a coefficient other than 1 it is not: the predicted pseudorange has the receiver clock with
    factor 1, the Jacobian with factor coef *)
Definition one_clk : 'cV[R]_5 := delta_mx (c5 3) 0.
Lemma jac_clock n (sv : 'M[R]_(n, 4)) s (c : R) i : (jacobian sv s c *m one_clk) i 0 = c.
Proof.
rewrite mxE (bigD1 (c5 3)) //= big1 ?addr0; last by move=> k K; rewrite [one_clk _ _]mxE (negbTE K) mulr0.
by rewrite !mxE !c5_eq // !inordK //= ?eqxx mulr1 mul1r.
Qed.
Theorem C74_clock_column n (sv : 'M[R]_(n, 4)) s (c : R) i :
  pseudoranges sv (s + one_clk) i 0 - pseudoranges sv s i 0 = 1 /\ (jacobian sv s c *m one_clk) i 0 = c.
Proof.
split; last exact: jac_clock.
have E : range sv (s + one_clk) i = range sv s i.
  by rewrite /range /sqdist !mxE !c5_eq // !inordK //= !addr0.
by rewrite !mxE E eqxx /= addrA [X in X - _]addrC addrK.
Qed.
Theorem C74_full_refuted : ~ C74_full.
Proof.
move=> H; have := H 2%:R 5%N five_sv 0 (one_clk) 0.
have -> : range five_sv 0 0 = 1 :> R.
  rewrite /range /sqdist !mxE /= !subr0 eqxx -!(inj_eq val_inj) /= !inordK //= mulr0 !addr0 mulr1 sqrtr1 //.
move=> /(_ (oner_neq0 _)); case: (C74_clock_column five_sv 0 2%:R 0) => -> ->.
by rewrite subr_ge0 lern1 andbC; case/andP.
Qed.

(** ** C75: the order of the satellites is immaterial *)
Definition permuted (e : epoch R) (p : 'S_(ep_n e)) : epoch R :=
  @Epoch R (ep_n e) (row_perm p (ep_obs e)) (row_perm p (ep_sv e)) (ep_dt e) (omap (row_perm p) (ep_w e)).
Lemma perm_tr n (p : 'S_n) : (perm_mx p : 'M[R]_n)^T *m perm_mx p = 1%:M.
Proof. by rewrite tr_perm_mx -perm_mxM mulVg perm_mx1. Qed.
Lemma perm_rt n (p : 'S_n) : (perm_mx p : 'M[R]_n) *m (perm_mx p)^T = 1%:M.
Proof. by rewrite tr_perm_mx -perm_mxM mulgV perm_mx1. Qed.
Lemma inv_conj n (p : 'S_n) (S : 'M[R]_n) : S \in unitmx ->
  invmx (perm_mx p *m S *m (perm_mx p)^T) = perm_mx p *m invmx S *m (perm_mx p)^T.
Proof.
move=> U; set A := _ *m S *m _; set B := _ *m invmx S *m _.
have E : A *m B = 1%:M.
  rewrite /A /B !mulmxA -[_ *m (perm_mx p)^T *m perm_mx p]mulmxA perm_tr mulmx1.
  by rewrite -[_ *m S *m invmx S]mulmxA mulmxV // mulmx1 perm_rt.
have UA := (mulmx1_unit E).1.
by rewrite -[B](mulKmx UA) E mulmx1.
Qed.
Lemma weight_perm n (p : 'S_n) (w : option 'cV[R]_n) : weight (omap (row_perm p) w) = perm_mx p *m weight w *m (perm_mx p)^T.
Proof.
case: w => [w|] /=; last by rewrite mulmx0 mul0mx.
rewrite -row_permE; apply/matrixP => i j; rewrite [RHS]mxE (bigD1 (p j)) //= big1 ?addr0; last first.
  move=> k K; have E : (p j == k) = false by rewrite eq_sym; apply/negbTE.
  rewrite [(perm_mx p)^T _ _]mxE [perm_mx _ _ _]mxE ?mxE; by rewrite ?E ?mulr0.
rewrite [(perm_mx p)^T _ _]mxE [perm_mx _ _ _]mxE !mxE eqxx mulr1 (inj_eq perm_inj) //.
Qed.
Theorem C75_order (k : kalman R) (e : epoch R) (p : 'S_(ep_n e)) : update k (permuted p) = update k e.
Proof.
set s := pred_state k e; set H := jacobian (ep_sv e) s (k_coef k); set P := pred_P k e.
have Er i : range (row_perm p (ep_sv e)) s i = range (ep_sv e) s (p i) by rewrite /range /sqdist !mxE.
have EH : jacobian (row_perm p (ep_sv e)) s (k_coef k) = perm_mx p *m H.
  by rewrite -row_permE; apply/matrixP => i j; rewrite !mxE Er.
have ES : resid_cov (perm_mx p *m H) P (omap (row_perm p) (ep_w e)) = perm_mx p *m resid_cov H P (ep_w e) *m (perm_mx p)^T.
  by rewrite /resid_cov weight_perm mulmxDr mulmxDl trmx_mul !mulmxA.
have Ev : measurements (row_perm p (ep_obs e)) (row_perm p (ep_sv e)) (k_coef k) - pseudoranges (row_perm p (ep_sv e)) s
          = perm_mx p *m (measurements (ep_obs e) (ep_sv e) (k_coef k) - pseudoranges (ep_sv e) s).
  by rewrite -row_permE; apply/matrixP => i j; rewrite !mxE Er.
rewrite /update /= -/(pred_state k e) -/s -/(pred_P k e) -/P EH ES Ev -/H.
set S := resid_cov H P (ep_w e).
have -> : (perm_mx p *m S *m (perm_mx p)^T \in unitmx) = (S \in unitmx).
  by rewrite !unitmx_mul unitmx_tr unitmx_perm andbT.
have -> : [forall i, range (row_perm p (ep_sv e)) s i != 0] = [forall i, range (ep_sv e) s i != 0].
  apply/forallP/forallP => A i; first by have := A ((p^-1)%g i); rewrite Er permKV.
  by rewrite Er.
case: (boolP (S \in unitmx)) => //= U; case: ifP => // _.
have EW : gain (perm_mx p *m H) P (perm_mx p *m S *m (perm_mx p)^T) = gain H P S *m (perm_mx p)^T.
  by rewrite /gain inv_conj // trmx_mul !mulmxA -[_ *m (perm_mx p)^T *m perm_mx p]mulmxA perm_tr mulmx1.
rewrite EW; congr (Some (Kal _ _ _ _)).
  by rewrite mulmxA -[_ *m _ *m perm_mx p]mulmxA perm_tr mulmx1.
congr (_ - _); rewrite trmx_mul trmxK !mulmxA.
rewrite -[_ *m (perm_mx p)^T *m perm_mx p]mulmxA perm_tr mulmx1.
by rewrite -[_ *m (perm_mx p)^T *m perm_mx p]mulmxA perm_tr mulmx1.
Qed.

(** ** C76: the gain is the best linear one *)
Theorem C76_optimal (k k' : kalman R) (e : epoch R) K : reached_w k -> weighted e -> update k e = Some k' ->
  k_P k' = with_gain (pred_P k e) (pred_H k e) (weight (ep_w e)) (pred_W k e) /\
  below (k_P k') (with_gain (pred_P k e) (pred_H k e) (weight (ep_w e)) K).
Proof.
move=> H [w Ew Hw] U; have [Ps Pd] := pred_pd e (reached_pd H); split; first exact: joseph.
have [Su _ E _ _] := update_some U; move=> x; rewrite E (any_gain Ps (weight_sym _) Su) [X in _ <= X]quadD ler_addl quad_conj.
rewrite quadD addr_ge0 //; first by rewrite quad_conj (pd_psd Pd).
by rewrite Ew (pd_psd (weight_pd Hw)).
Qed.

(** ** C77: the motion model *)
(** satellite i of an epoch: position and clock; the distance from it to a state *)
Definition sv_xyz (e : epoch R) i (c : 'I_3) : R := ep_sv e i (c4 c).
Definition sv_clock (e : epoch R) i : R := ep_sv e i (c4 3).
Definition distance (p : 'I_3 -> R) (s : 'cV[R]_5) : R := Num.sqrt (\sum_(c < 3) (p c - s (c5 c) 0) ^+ 2).
(** variances at the start, and noise added per update (clock, clock-drift) *)
Definition start_cov : 'M[R]_5 := diag_mx (\row_i (if (i < 4)%N then 2500%:R else 30%:R)).
Definition clock_noise (i j : 'I_5) : R :=
  match val i, val j with 3, 3 => 114%:R / 100%:R ^+ 2 | 3, 4 | 4, 3 => 19%:R / 100%:R ^+ 2 | 4, 4 => 39%:R / 100%:R ^+ 2 | _, _ => 0 end.
(** 299 792 458 m/s *)
Definition light_speed : R := (299%:R * 10%:R ^+ 3 + 792%:R) * 10%:R ^+ 3 + 458%:R.
Lemma clight_speed : clight R = light_speed.
Proof. by rewrite /clight /light_speed -natrX. Qed.
Lemma range_distance (e : epoch R) (s : 'cV[R]_5) i : range (ep_sv e) s i = distance (sv_xyz i) s.
Proof. by rewrite /range /distance /sqdist !big_ord_recl big_ord0 addr0 /sv_xyz !expr2 addrA. Qed.
Lemma P_init_start : P_init R = start_cov.
Proof.
apply/matrixP => i j; rewrite /P_init /start_cov !mxE c5_eq //; case: (i == j); rewrite ?mulr1n ?mulr0n //.
case: i => [[|[|[|[|[|m]]]]] H] //=; by rewrite -natrM.
Qed.
Lemma Q_noise i j : Q_mx R i j = clock_noise i j.
Proof.
rewrite /Q_mx /clock_noise mxE !c5_eq // /dec4 expr2.
by case: i => [[|[|[|[|[|m]]]]] H] //=; case: j => [[|[|[|[|[|n]]]]] H'] //=; rewrite ?mulr0.
Qed.
Lemma mul_right (P : 'M[R]_5) (dt : R) i j : (P *m (F_mx dt)^T) i j = P i j + (if j == c5 3 then dt * P i (c5 4) else 0).
Proof.
have -> : (P *m (F_mx dt)^T) i j = (F_mx dt *m (row i P)^T) j 0.
  by rewrite !mxE; apply: eq_bigr => l _; rewrite !mxE mulrC.
by rewrite F_apply !mxE.
Qed.
Lemma mul_left (P : 'M[R]_5) (dt : R) i j : (F_mx dt *m P) i j = P i j + (if i == c5 3 then dt * P (c5 4) j else 0).
Proof.
have -> : (F_mx dt *m P) i j = (F_mx dt *m col j P) i 0 by rewrite !mxE; apply: eq_bigr => l _; rewrite !mxE.
by rewrite F_apply !mxE.
Qed.
(** position and drift are kept, the clock moves by dt times the drift *)
Theorem C77_prediction (k : kalman R) (e : epoch R) (i : 'I_5) :
  pred_state k e i 0 = k_state k i 0 + (if i == c5 3 then ep_dt e * k_state k (c5 4) 0 else 0).
Proof. exact: F_apply. Qed.
(** no surprise in the measurements: the state is the prediction; and no satellites: no change *)
Theorem C77_no_innovation (k k' : kalman R) (e : epoch R) : update k e = Some k' ->
  (forall i, ep_obs e i 0 + light_speed * sv_clock i * k_coef k = distance (sv_xyz i) (pred_state k e) + pred_state k e (c5 3) 0) ->
  k_state k' = pred_state k e.
Proof.
move=> U I; have [_ _ _ E _] := update_some U; rewrite E -/(innovation k e).
suff -> : innovation k e = 0 by rewrite mulmx0 addr0.
apply/colP => i; rewrite /innovation /measurements /pseudoranges !mxE.
have J := I i; rewrite -clight_speed (mulrC (clight R)) -range_distance in J.
by move: J; rewrite /sv_clock => ->; rewrite [pred_state k e _ _]mxE subrr.
Qed.
(** the predicted covariance: that of the moved state plus the clock noise; at the first update it starts
    from 50 m for the position and clock and sqrt 30 for the drift *)
Theorem C77_covariance (k : kalman R) (e : epoch R) (i j : 'I_5) :
  let P := if k_idx k == 0%N then start_cov else k_P k in
  pred_P k e i j = P i j + (if i == c5 3 then ep_dt e * P (c5 4) j else 0) + (if j == c5 3 then ep_dt e * P i (c5 4) else 0)
    + (if (i == c5 3) && (j == c5 3) then ep_dt e ^+ 2 * P (c5 4) (c5 4) else 0) + clock_noise i j.
Proof.
rewrite /= /pred_P -P_init_start -Q_noise; set P := (if _ then _ else _).
rewrite mxE; congr (_ + _).
rewrite mul_right !mul_left; case: (i == c5 3); case: (j == c5 3); rewrite ?addr0 //=.
by rewrite mulrDr expr2 !addrA mulrA.
Qed.
Theorem C77_no_satellites (k : kalman R) (e : epoch R) : ep_n e = 0%N ->
  update k e = Some (Kal (pred_state k e) (pred_P k e) (k_coef k) (k_idx k).+1).
Proof.
case: e => n obs sv dt w /= N; subst n; rewrite /update /=.
set S := resid_cov _ _ _; have -> : S \in unitmx by rewrite unitmxE det_mx00 unitr1.
have -> /= : [forall i, range sv (pred_state k (Epoch obs sv dt w)) i != 0] by apply/forallP => -[].
by congr (Some (Kal _ _ _ _)); rewrite ?[gain _ _ _]thinmx0 !mul0mx ?addr0 ?subr0.
Qed.
(** the number of updates is counted and the coefficient kept *)
Theorem C77_counts (k k' : kalman R) (e : epoch R) : update k e = Some k' -> k_idx k' = (k_idx k).+1 /\ k_coef k' = k_coef k.
Proof. by move=> U; have [_ _ _ _ [-> ->]] := update_some U. Qed.
End More.

(** non-vacuous: five satellites with weights *)
Section Ex.
Variable R : rcfType.
Definition five_w : epoch R := @Epoch R 5 0 (five_sv R) 1 (Some 0).
Example C72_ex : exists k, update (kalman_init 0 0 1) five_w = Some k /\ reached_w k /\ reached k /\ weighted five_w.
Proof.
have W : weighted five_w.
  by exists 0 => // i; rewrite mxE oppr_lt0 ltr0n.
case: (@C72_defined R (kalman_init 0 0 1) five_w) => //; first exact: rw_init.
  move=> i; rewrite /range /sqdist /pred_state mulmx0 !mxE /= !subr0.
  by rewrite eqxx -!(inj_eq val_inj) /= !inordK //= mulr0 !addr0 mulr1 sqrtr1 oner_neq0.
move=> k U; exists k; split=> //; split; first by apply: rw_step W U; apply: rw_init.
by split=> //; exists 0, 0, 1, [:: five_w]; rewrite /= U.
Qed.
End Ex.
Print Assumptions C52_symmetric. Print Assumptions C52_form.
Print Assumptions C72_positive. Print Assumptions C72_defined. Print Assumptions C72_shrinks.
Print Assumptions C73_unweighted_singular. Print Assumptions C73_full_refuted. Print Assumptions C73_fits.
Print Assumptions C74_gradient_partial. Print Assumptions C74_full_refuted. Print Assumptions C74_clock_column.
Print Assumptions C75_order. Print Assumptions C76_optimal. Print Assumptions C77_prediction.
Print Assumptions C77_no_innovation. Print Assumptions C77_no_satellites. Print Assumptions C77_counts. Print Assumptions C77_covariance.
