(** ProofB64: B64 meets SpecB64, and what the readers need of it *)
From Coq Require Import Qabs Qround Qpower Lqa.
From Coq Require Import ZArith QArith Lia.
From Verif Require Import B64 SpecB64.
Local Open Scope Q_scope.

Lemma pow_pos e : 0 < 2 ^ e.
Proof. apply Qpower_0_lt. reflexivity. Qed.
Lemma pow_ne : ~ (2 : Q) == 0.
Proof. discriminate. Qed.
Lemma pow_add a b : 2 ^ (a + b) == 2 ^ a * 2 ^ b.
Proof. apply Qpower_plus. exact pow_ne. Qed.
Lemma pow_inv e : 2 ^ e * 2 ^ (- e) == 1.
Proof. rewrite <- pow_add. replace (e + - e)%Z with 0%Z by lia. reflexivity. Qed.
Lemma pow_z e : (0 <= e)%Z -> 2 ^ e == inject_Z (2 ^ e).
Proof. intro H. symmetry. apply (Zpower_Qpower 2 e H). Qed.
Lemma pow_le a b : (a <= b)%Z -> 2 ^ a <= 2 ^ b.
Proof. intro H. apply Qpower_le_compat_l; [exact H|discriminate]. Qed.
Lemma pow_lt a b : (a < b)%Z -> 2 ^ a < 2 ^ b.
Proof. intro H. apply Qpower_lt_compat_l; [exact H|reflexivity]. Qed.
Lemma pow_lt_inv a b : 2 ^ a < 2 ^ b -> (a < b)%Z.
Proof. intro H. destruct (Z_lt_le_dec a b) as [L|L]; [exact L|]. apply pow_le in L. exfalso. lra. Qed.

(** ** The nearest integer *)
Lemma rne_near t : Qabs (inject_Z (rne t) - t) <= 1 # 2.
Proof.
  unfold rne. pose proof (Qfloor_le t) as L. pose proof (Qlt_floor t) as U. rewrite inject_Z_plus in U. change (inject_Z 1) with 1 in U.
  apply Qabs_Qle_condition.
  destruct (Qcompare_spec (t - inject_Z (Qfloor t)) (1 # 2)) as [E|E|E]; [destruct (Z.even (Qfloor t))| |];
    rewrite ?inject_Z_plus; change (inject_Z 1) with 1; split; lra.
Qed.
Lemma rne_best t z : Qabs (inject_Z (rne t) - t) <= Qabs (inject_Z z - t).
Proof.
  pose proof (rne_near t) as N. destruct (Z.eq_dec z (rne t)) as [->|D]; [apply Qle_refl|].
  assert (H : 1 <= Qabs (inject_Z z - inject_Z (rne t))).
  { unfold Qminus. rewrite <- inject_Z_opp, <- inject_Z_plus. unfold inject_Z, Qabs, Qle. cbn. lia. }
  pose proof (Qabs_triangle (inject_Z z - t) (t - inject_Z (rne t))) as T.
  rewrite (Qabs_wd _ (inject_Z z - inject_Z (rne t))) in T by ring. rewrite (Qabs_Qminus t) in T. lra.
Qed.
Lemma rne_tie t z : z <> rne t -> Qabs (inject_Z z - t) == Qabs (inject_Z (rne t) - t) -> Z.even (rne t) = true.
Proof.
  intros D E. pose proof (rne_near t) as N.
  assert (H : 1 <= Qabs (inject_Z z - inject_Z (rne t))).
  { unfold Qminus. rewrite <- inject_Z_opp, <- inject_Z_plus. unfold inject_Z, Qabs, Qle. cbn. lia. }
  pose proof (Qabs_triangle (inject_Z z - t) (t - inject_Z (rne t))) as T.
  rewrite (Qabs_wd _ (inject_Z z - inject_Z (rne t))) in T by ring. rewrite (Qabs_Qminus t) in T.
  assert (X : Qabs (inject_Z (rne t) - t) == 1 # 2) by lra. clear N H T E D z.
  revert X. unfold rne. pose proof (Qfloor_le t) as L. pose proof (Qlt_floor t) as U. rewrite inject_Z_plus in U. change (inject_Z 1) with 1 in U.
  destruct (Qcompare_spec (t - inject_Z (Qfloor t)) (1 # 2)) as [C|C|C]; intro X.
  - destruct (Z.even (Qfloor t)) eqn:V; [exact V|]. rewrite Z.even_add, V. reflexivity.
  - rewrite Qabs_neg in X by lra. exfalso. lra.
  - rewrite inject_Z_plus in X. change (inject_Z 1) with 1 in X. rewrite Qabs_pos in X by lra. exfalso. lra.
Qed.
Lemma rne_wd t t' : t == t' -> rne t = rne t'.
Proof.
  intro E. unfold rne. rewrite (Qfloor_comp _ _ E).
  assert (X : Qcompare (t - inject_Z (Qfloor t')) (1 # 2) = Qcompare (t' - inject_Z (Qfloor t')) (1 # 2)) by (apply Qcompare_comp; [rewrite E; reflexivity|reflexivity]).
  rewrite X. reflexivity.
Qed.
Lemma rne_int z : rne (inject_Z z) = z.
Proof.
  unfold rne. rewrite Qfloor_Z. assert (X : Qcompare (inject_Z z - inject_Z z) (1 # 2) = Lt).
  { apply -> Qlt_alt. lra. }
  rewrite X. reflexivity.
Qed.
Lemma rne_opp t : rne (- t) = (- rne t)%Z.
Proof.
  pose proof (rne_near t) as A. pose proof (rne_near (- t)) as B.
  destruct (Z.eq_dec (rne (- t)) (- rne t)) as [E|D]; [exact E|]. exfalso.
  assert (X : inject_Z (- rne t) - - t == - (inject_Z (rne t) - t)) by (rewrite inject_Z_opp; ring).
  assert (Y : Qabs (inject_Z (- rne t) - - t) == Qabs (inject_Z (rne t) - t)) by (rewrite X; apply Qabs_opp).
  pose proof (rne_best (- t) (- rne t)) as P. pose proof (rne_best t (- rne (- t))) as Q.
  assert (X' : inject_Z (- rne (- t)) - t == - (inject_Z (rne (- t)) - - t)) by (rewrite inject_Z_opp; ring).
  assert (Y' : Qabs (inject_Z (- rne (- t)) - t) == Qabs (inject_Z (rne (- t)) - - t)) by (rewrite X'; apply Qabs_opp).
  rewrite Y in P. rewrite Y' in Q. assert (E : Qabs (inject_Z (rne (- t)) - - t) == Qabs (inject_Z (rne t) - t)) by lra.
  assert (V1 : Z.even (rne (- t)) = true) by (apply (rne_tie (- t) (- rne t)); [congruence|rewrite Y, E; reflexivity]).
  assert (V2 : Z.even (rne t) = true) by (apply (rne_tie t (- rne (- t))); [lia|rewrite Y', E; reflexivity]).
  (* both even, different, at most one apart *)
  assert (H : Qabs (inject_Z (rne (- t)) - inject_Z (- rne t)) <= 1).
  { pose proof (Qabs_triangle (inject_Z (rne (- t)) - - t) (- t - inject_Z (- rne t))) as T.
    rewrite (Qabs_wd _ (inject_Z (rne (- t)) - inject_Z (- rne t))) in T by ring. rewrite (Qabs_Qminus (- t)) in T. lra. }
  unfold Qminus in H. rewrite <- inject_Z_opp, <- inject_Z_plus in H. unfold inject_Z, Qabs, Qle in H. cbn in H.
  apply Z.even_spec in V1 as [a Ha]. apply Z.even_spec in V2 as [b Hb]. lia.
Qed.

(** ** The exponent *)
Lemma qlog2_spec n d : (0 < n)%Z -> (0 < d)%Z -> 2 ^ (qlog2 n d) <= n # Z.to_pos d /\ n # Z.to_pos d < 2 ^ (qlog2 n d + 1).
Proof.
  intros Hn Hd. destruct (Z.log2_spec n Hn) as [A B]. destruct (Z.log2_spec d Hd) as [C D].
  set (ln := Z.log2 n) in *. set (ld := Z.log2 d) in *.
  assert (Pn : (0 <= ln)%Z) by apply Z.log2_nonneg. assert (Pd : (0 <= ld)%Z) by apply Z.log2_nonneg.
  assert (Q1 : n # Z.to_pos d == inject_Z n / inject_Z d).
  { destruct d as [|p|p]; try lia. rewrite (Qmake_Qdiv n p). reflexivity. }
  assert (An : 2 ^ ln <= inject_Z n) by (rewrite pow_z by lia; rewrite <- Zle_Qle; exact A).
  assert (Bn : inject_Z n < 2 ^ (ln + 1)) by (rewrite pow_z by lia; rewrite <- Zlt_Qlt; exact B).
  assert (Ad : 2 ^ ld <= inject_Z d) by (rewrite pow_z by lia; rewrite <- Zle_Qle; exact C).
  assert (Bd : inject_Z d < 2 ^ (ld + 1)) by (rewrite pow_z by lia; rewrite <- Zlt_Qlt; exact D).
  assert (P0 : 0 < inject_Z d) by (pose proof (pow_pos ld); lra).
  assert (Lo : 2 ^ (ln - ld - 1) <= n # Z.to_pos d).
  { rewrite Q1. apply Qle_shift_div_l; [exact P0|]. apply Qle_trans with (2 ^ (ln - ld - 1) * 2 ^ (ld + 1)).
    - rewrite Qmult_comm, (Qmult_comm (2 ^ (ln - ld - 1))). apply Qmult_le_compat_r; [lra|]. apply Qlt_le_weak, pow_pos.
    - rewrite <- pow_add. replace (ln - ld - 1 + (ld + 1))%Z with ln by lia. exact An. }
  assert (Hi : n # Z.to_pos d < 2 ^ (ln - ld + 1)).
  { rewrite Q1. apply Qlt_shift_div_r; [exact P0|]. apply Qlt_le_trans with (2 ^ (ln + 1)); [exact Bn|].
    replace (ln + 1)%Z with (ln - ld + 1 + ld)%Z by lia. rewrite pow_add.
    rewrite Qmult_comm, (Qmult_comm (2 ^ (ln - ld + 1))). apply Qmult_le_compat_r; [exact Ad|]. apply Qlt_le_weak, pow_pos. }
  unfold qlog2. fold ln ld. destruct (Qle_bool (2 ^ (ln - ld)) (n # Z.to_pos d)) eqn:E.
  - apply Qle_bool_iff in E. split; assumption.
  - assert (F : ~ 2 ^ (ln - ld) <= n # Z.to_pos d) by (intro F; apply Qle_bool_iff in F; congruence).
    apply Qnot_le_lt in F. split; [exact Lo|]. replace (ln - ld - 1 + 1)%Z with (ln - ld)%Z by lia. exact F.
Qed.
Section Format.
Variables p emin : Z.
Hypothesis p1 : (1 < p)%Z.
Hypothesis e0 : (emin <= 0)%Z.
Lemma abs_frac q : Z.abs (Qnum q) # Z.to_pos (QDen q) = Qabs q.
Proof. destruct q as [n d]. reflexivity. Qed.
Lemma exp_lo q : ~ q == 0 -> fexp p emin q <> emin%Z -> 2 ^ (fexp p emin q + (p - 1)) <= Qabs q.
Proof.
  intros N E. unfold fexp in *. assert (P : (0 < Z.abs (Qnum q))%Z) by (unfold Qeq in N; cbn in N; lia).
  destruct (qlog2_spec (Z.abs (Qnum q)) (QDen q) P eq_refl) as [A _]. rewrite abs_frac in A.
  replace (Z.max (qlog2 (Z.abs (Qnum q)) (QDen q) - (p - 1)) emin + (p - 1))%Z with (qlog2 (Z.abs (Qnum q)) (QDen q)) by lia. exact A.
Qed.
Lemma exp_hi q : ~ q == 0 -> Qabs q < 2 ^ (fexp p emin q + p).
Proof.
  intros N. unfold fexp. assert (P : (0 < Z.abs (Qnum q))%Z) by (unfold Qeq in N; cbn in N; lia).
  destruct (qlog2_spec (Z.abs (Qnum q)) (QDen q) P eq_refl) as [_ B]. rewrite abs_frac in B.
  eapply Qlt_le_trans; [exact B|]. apply pow_le. lia.
Qed.
Lemma exp_min q : (emin <= fexp p emin q)%Z.
Proof. unfold fexp. lia. Qed.

Lemma fr_zero q : q == 0 -> fround p emin q = 0.
Proof. intro E. unfold fround. unfold Qeq in E. cbn in E. replace (Qnum q) with 0%Z by lia. reflexivity. Qed.
Lemma fr_val q : ~ q == 0 -> fround p emin q == inject_Z (rne (q * 2 ^ (- fexp p emin q))) * 2 ^ fexp p emin q.
Proof.
  intro N. unfold fround. destruct (Qnum q =? 0)%Z eqn:E.
  - apply Z.eqb_eq in E. exfalso. apply N. unfold Qeq. rewrite E. reflexivity.
  - apply Qred_correct.
Qed.
Lemma near_scale m q e : Qabs (inject_Z m * 2 ^ e - q) == Qabs (inject_Z m - q * 2 ^ (- e)) * 2 ^ e.
Proof.
  rewrite <- (Qabs_pos (2 ^ e)) at 2 by (apply Qlt_le_weak, pow_pos). rewrite <- Qabs_Qmult. apply Qabs_wd.
  transitivity (inject_Z m * 2 ^ e - q * (2 ^ e * 2 ^ (- e))); [rewrite pow_inv; ring|ring].
Qed.
(** nearest among the multiples of 2^e *)
Lemma fr_grid q z : ~ q == 0 -> Qabs (fround p emin q - q) <= Qabs (inject_Z z * 2 ^ fexp p emin q - q).
Proof.
  intro N. rewrite (fr_val q N), !near_scale. apply Qmult_le_compat_r; [apply rne_best|]. apply Qlt_le_weak, pow_pos.
Qed.
Lemma fr_err q : ~ q == 0 -> Qabs (fround p emin q - q) <= 2 ^ (fexp p emin q - 1).
Proof.
  intro N. rewrite (fr_val q N), near_scale. replace (fexp p emin q - 1)%Z with (-1 + fexp p emin q)%Z by lia. rewrite pow_add.
  apply Qmult_le_compat_r; [apply rne_near|]. apply Qlt_le_weak, pow_pos.
Qed.
Lemma rne_bound q : ~ q == 0 -> (Z.abs (rne (q * 2 ^ (- fexp p emin q))) <= 2 ^ p)%Z.
Proof.
  intro N. set (t := q * 2 ^ (- fexp p emin q)).
  assert (T : Qabs t < inject_Z (2 ^ p)).
  { unfold t. rewrite Qabs_Qmult, (Qabs_pos (2 ^ _)) by (apply Qlt_le_weak, pow_pos).
    rewrite <- pow_z by lia. pose proof (exp_hi q N) as H.
    apply (Qmult_lt_r _ _ (2 ^ (fexp p emin q)) (pow_pos _)).
    rewrite <- Qmult_assoc, (Qmult_comm (2 ^ (- _))), pow_inv, Qmult_1_r, <- pow_add.
    replace (p + fexp p emin q)%Z with (fexp p emin q + p)%Z by lia. exact H. }
  pose proof (rne_near t) as R.
  assert (S : Qabs (inject_Z (rne t)) < inject_Z (2 ^ p + 1)).
  { rewrite inject_Z_plus. pose proof (Qabs_triangle (inject_Z (rne t) - t) t) as X.
    rewrite (Qabs_wd _ (inject_Z (rne t))) in X by ring. change (inject_Z 1) with 1. lra. }
  unfold inject_Z, Qabs, Qlt in S. cbn [Qnum Qden] in S. lia.
Qed.
Lemma rne_low q : ~ q == 0 -> fexp p emin q <> emin%Z -> (2 ^ (p - 1) <= Z.abs (rne (q * 2 ^ (- fexp p emin q))))%Z.
Proof.
  intros N E. set (t := q * 2 ^ (- fexp p emin q)).
  assert (T : inject_Z (2 ^ (p - 1)) <= Qabs t).
  { unfold t. rewrite Qabs_Qmult, (Qabs_pos (2 ^ _)) by (apply Qlt_le_weak, pow_pos).
    rewrite <- pow_z by lia. pose proof (exp_lo q N E) as H.
    apply (Qmult_le_r _ _ (2 ^ (fexp p emin q)) (pow_pos _)).
    rewrite <- Qmult_assoc, (Qmult_comm (2 ^ (- _))), pow_inv, Qmult_1_r, <- pow_add.
    replace (p - 1 + fexp p emin q)%Z with (fexp p emin q + (p - 1))%Z by lia. exact H. }
  pose proof (rne_near t) as R.
  assert (S : inject_Z (2 ^ (p - 1) - 1) < Qabs (inject_Z (rne t))).
  { replace (2 ^ (p - 1) - 1)%Z with (2 ^ (p - 1) + -1)%Z by lia. rewrite inject_Z_plus. pose proof (Qabs_triangle (t - inject_Z (rne t)) (inject_Z (rne t))) as X.
    rewrite (Qabs_wd _ t) in X by ring. rewrite (Qabs_Qminus t) in X. change (inject_Z (-1)) with (-1 # 1). lra. }
  unfold inject_Z, Qabs, Qlt in S. cbn [Qnum Qden] in S. lia.
Qed.

(** a number the format can hold: also with the significand 2^53 *)
Lemma fmt_ge m e : (Z.abs m <= 2 ^ p)%Z -> (emin <= e)%Z -> fmt p emin (inject_Z m * 2 ^ e).
Proof.
  intros Hm He. destruct (Z.eq_dec (Z.abs m) (2 ^ p)) as [E|E].
  - exists (Z.sgn m * 2 ^ (p - 1))%Z, (e + 1)%Z. split; [|split; [lia|]].
    + assert (P2 : (2 ^ p = 2 * 2 ^ (p - 1))%Z) by (rewrite <- Z.pow_succ_r by lia; f_equal; lia).
      assert (P0 : (0 < 2 ^ (p - 1))%Z) by (apply Z.pow_pos_nonneg; lia).
      rewrite Z.abs_mul, (Z.abs_eq (2 ^ (p - 1))) by lia. destruct m; cbn [Z.sgn Z.abs]; lia.
    + rewrite pow_add, inject_Z_mult. change (2 ^ 1) with 2.
      assert (X : inject_Z m == inject_Z (Z.sgn m) * inject_Z (2 ^ p)) by (rewrite <- inject_Z_mult, <- E, Z.mul_comm, Z.abs_sgn; reflexivity).
      rewrite X. replace (2 ^ p)%Z with (2 ^ (p - 1) * 2)%Z by (rewrite Z.mul_comm, <- Z.pow_succ_r by lia; f_equal; lia). rewrite inject_Z_mult. change (inject_Z 2) with 2. ring.
  - exists m, e. split; [lia|]. split; [lia|reflexivity].
Qed.
Lemma fmt_wd x y : x == y -> fmt p emin x -> fmt p emin y.
Proof. intros E (m & e & A & B & C). exists m, e. rewrite <- E. auto. Qed.
Lemma fr_double q : fmt p emin (fround p emin q).
Proof.
  destruct (Qeq_dec q 0) as [Z0|N].
  - rewrite (fr_zero q Z0). exists 0%Z, emin. split; [apply Z.pow_pos_nonneg; lia|]. split; [lia|]. change (inject_Z 0) with 0. ring.
  - apply (fmt_wd _ _ (Qeq_sym _ _ (fr_val q N))). apply fmt_ge; [apply rne_bound; exact N|apply exp_min].
Qed.
(** every other double is either a multiple of the last bit, or farther than a multiple that is one *)
Lemma fmt_cases q y : ~ q == 0 -> fmt p emin y ->
  (exists z, y == inject_Z z * 2 ^ fexp p emin q) \/ (exists z, Qabs (inject_Z z * 2 ^ fexp p emin q - q) < Qabs (y - q)).
Proof.
  intros N (m & e & Hm & He & Y). destruct (Z_le_gt_dec (fexp p emin q) e) as [L|G].
  - left. exists (m * 2 ^ (e - fexp p emin q))%Z. rewrite inject_Z_mult, <- pow_z by lia. rewrite Y, <- Qmult_assoc, <- pow_add.
    replace (e - fexp p emin q + fexp p emin q)%Z with e by lia. reflexivity.
  - assert (E : fexp p emin q <> emin%Z) by lia. pose proof (exp_lo q N E) as Lo.
    assert (B : Qabs y < 2 ^ (fexp p emin q + (p - 1))).
    { rewrite Y, Qabs_Qmult, (Qabs_pos (2 ^ e)) by (apply Qlt_le_weak, pow_pos).
      apply Qlt_le_trans with (2 ^ p * 2 ^ e).
      - apply Qmult_lt_r; [apply pow_pos|]. rewrite pow_z by lia. unfold inject_Z, Qabs, Qlt. cbn [Qnum Qden]. lia.
      - rewrite <- pow_add. apply pow_le. lia. }
    right. pose proof (pow_pos (fexp p emin q + (p - 1))) as P.
    assert (X : inject_Z (2 ^ (p - 1)) * 2 ^ fexp p emin q == 2 ^ (fexp p emin q + (p - 1))).
    { rewrite <- pow_z by lia. rewrite <- pow_add. replace (p - 1 + fexp p emin q)%Z with (fexp p emin q + (p - 1))%Z by lia. reflexivity. }
    apply Qabs_Qlt_condition in B. destruct (Qlt_le_dec 0 q) as [Q1|Q1].
    + rewrite Qabs_pos in Lo by lra. exists (2 ^ (p - 1))%Z. rewrite X, (Qabs_neg (2 ^ (fexp p emin q + (p - 1)) - q)) by lra. rewrite Qabs_neg by lra. lra.
    + rewrite Qabs_neg in Lo by lra. exists (- 2 ^ (p - 1))%Z.
      assert (X' : inject_Z (- 2 ^ (p - 1)) * 2 ^ fexp p emin q == - 2 ^ (fexp p emin q + (p - 1))) by (rewrite inject_Z_opp, <- X; ring).
      rewrite X', Qabs_pos by lra. rewrite Qabs_pos by lra. lra.
Qed.
Lemma fr_best q y : fmt p emin y -> Qabs (fround p emin q - q) <= Qabs (y - q).
Proof.
  intro D. destruct (Qeq_dec q 0) as [Z0|N].
  - rewrite (fr_zero q Z0). assert (X : 0 - q == 0) by (rewrite Z0; reflexivity). rewrite X. apply Qabs_nonneg.
  - destruct (fmt_cases q y N D) as [[z E]|[z L]].
    + rewrite E. apply fr_grid. exact N.
    + pose proof (fr_grid q z N). lra.
Qed.
Theorem fr_nearest q : nearest p emin q (fround p emin q).
Proof.
  split; [apply fr_double|]. split; [apply fr_best|]. destruct (Qeq_dec q 0) as [Z0|N].
  - rewrite (fr_zero q Z0). exists 0%Z, emin. split; [change (inject_Z 0) with 0; ring|]. split; [lia|]. split; [right; split; [reflexivity|apply Z.pow_nonneg; lia]|]. reflexivity.
  - exists (rne (q * 2 ^ (- fexp p emin q))), (fexp p emin q). split; [apply fr_val; exact N|]. split; [apply exp_min|]. split.
    + destruct (Z.eq_dec (fexp p emin q) emin) as [E|E]; [right|left]; (split; [|]); try exact E; try (apply rne_bound; exact N).
      apply rne_low; assumption.
    + intros y Y Ne T. destruct (fmt_cases q y N Y) as [[z E]|[z L]].
      * apply (rne_tie _ z).
        -- intros ->. apply Ne. rewrite E, (fr_val q N). reflexivity.
        -- rewrite E, (fr_val q N), !near_scale in T. apply Qmult_inj_r in T; [exact T|]. pose proof (pow_pos (fexp p emin q)). lra.
      * pose proof (fr_grid q z N). lra.
Qed.
(** it leaves doubles alone, and never crosses one *)
Lemma fr_fix x : fmt p emin x -> fround p emin x == x.
Proof.
  intro D. pose proof (fr_best x x D) as B. assert (Z0 : x - x == 0) by ring. rewrite Z0 in B. change (Qabs 0) with 0 in B.
  apply Qabs_Qle_condition in B. lra.
Qed.
Lemma fr_ge x q : fmt p emin x -> x <= q -> x <= fround p emin q.
Proof.
  intros D L. destruct (Qlt_le_dec (fround p emin q) x) as [G|G]; [|exact G]. pose proof (fr_best q x D) as B.
  rewrite (Qabs_neg (fround p emin q - q)), (Qabs_neg (x - q)) in B by lra. exfalso. lra.
Qed.
Lemma fr_le x q : fmt p emin x -> q <= x -> fround p emin q <= x.
Proof.
  intros D L. destruct (Qlt_le_dec x (fround p emin q)) as [G|G]; [|exact G]. pose proof (fr_best q x D) as B.
  rewrite (Qabs_pos (fround p emin q - q)), (Qabs_pos (x - q)) in B by lra. exfalso. lra.
Qed.
Lemma fmt_int z : (Z.abs z <= 2 ^ p)%Z -> fmt p emin (inject_Z z).
Proof. intro H. apply (fmt_wd (inject_Z z * 2 ^ 0)); [change (2 ^ 0) with 1; ring|]. apply fmt_ge; [exact H|lia]. Qed.
(** the relative error, when there is no underflow *)
Lemma fr_rel q : 2 ^ (emin + (p - 1)) <= Qabs q -> Qabs (fround p emin q - q) <= 2 ^ (- p) * Qabs q.
Proof.
  intro H. assert (N : ~ q == 0).
  { intro E. rewrite E in H. change (Qabs 0) with 0 in H. pose proof (pow_pos (emin + (p - 1))). lra. }
  eapply Qle_trans; [apply fr_err; exact N|]. replace (fexp p emin q - 1)%Z with (- p + (fexp p emin q + (p - 1)))%Z by lia. rewrite pow_add.
  rewrite Qmult_comm, (Qmult_comm (2 ^ (- p))). apply Qmult_le_compat_r; [|apply Qlt_le_weak, pow_pos].
  destruct (Z.eq_dec (fexp p emin q) emin) as [E|E]; [rewrite E; exact H|]. apply exp_lo; assumption.
Qed.
(** the result depends on the value of the fraction only *)
Lemma pow_unique v a b : 2 ^ a <= v -> v < 2 ^ (a + 1) -> 2 ^ b <= v -> v < 2 ^ (b + 1) -> a = b.
Proof.
  intros A A' B B'. assert (X : (a < b + 1)%Z) by (apply pow_lt_inv; lra). assert (Y : (b < a + 1)%Z) by (apply pow_lt_inv; lra). lia.
Qed.
Lemma exp_wd q q' : ~ q == 0 -> q == q' -> fexp p emin q = fexp p emin q'.
Proof.
  intros N E. assert (N' : ~ q' == 0) by (rewrite <- E; exact N).
  assert (P : (0 < Z.abs (Qnum q))%Z) by (unfold Qeq in N; cbn in N; lia).
  assert (P' : (0 < Z.abs (Qnum q'))%Z) by (unfold Qeq in N'; cbn in N'; lia).
  destruct (qlog2_spec _ (QDen q) P eq_refl) as [A B]. destruct (qlog2_spec _ (QDen q') P' eq_refl) as [A' B'].
  rewrite abs_frac in A, B, A', B'. pose proof (Qabs_wd _ _ E) as X. rewrite <- X in A', B'.
  unfold fexp. rewrite (pow_unique _ _ _ A B A' B'). reflexivity.
Qed.
Lemma fr_wd q q' : q == q' -> fround p emin q = fround p emin q'.
Proof.
  intro E. destruct (Qeq_dec q 0) as [Z0|N].
  - rewrite !fr_zero; [reflexivity|rewrite <- E; exact Z0|exact Z0].
  - unfold fround. assert (N' : ~ q' == 0) by (rewrite <- E; exact N).
    destruct (Qnum q =? 0)%Z eqn:X; [exfalso; apply N; apply Z.eqb_eq in X; unfold Qeq; rewrite X; reflexivity|].
    destruct (Qnum q' =? 0)%Z eqn:X'; [exfalso; apply N'; apply Z.eqb_eq in X'; unfold Qeq; rewrite X'; reflexivity|].
    rewrite (exp_wd q q' N E). rewrite (rne_wd (q * 2 ^ (- fexp p emin q')) (q' * 2 ^ (- fexp p emin q'))); [reflexivity|]. rewrite E. reflexivity.
Qed.
Lemma fr_red q : Qred (fround p emin q) = fround p emin q.
Proof.
  unfold fround. destruct (Qnum q =? 0)%Z; [reflexivity|]. apply Qred_complete, Qred_correct.
Qed.
Lemma fr_fixed x : fmt p emin x -> fround p emin x = Qred x.
Proof. intro D. rewrite <- fr_red. apply Qred_complete, fr_fix, D. Qed.
Lemma fr_idem q : fround p emin (fround p emin q) = fround p emin q.
Proof. rewrite (fr_fixed (fround p emin q) (fr_double q)). apply fr_red. Qed.
Lemma fr_fixed_wd q x : x == fround p emin q -> fround p emin x = fround p emin q.
Proof. intro E. rewrite (fr_wd _ _ E). apply fr_idem. Qed.
Lemma fr_opp q : fround p emin (- q) = - fround p emin q.
Proof.
  destruct (Qeq_dec q 0) as [Z0|N].
  - rewrite !fr_zero; [reflexivity|exact Z0|rewrite Z0; reflexivity].
  - unfold fround. change (Qnum (- q)) with (- Qnum q)%Z. destruct (Qnum q =? 0)%Z eqn:X.
    + apply Z.eqb_eq in X. exfalso. apply N. unfold Qeq. rewrite X. reflexivity.
    + destruct (- Qnum q =? 0)%Z eqn:X'; [lia|].
      assert (Ee : fexp p emin (- q) = fexp p emin q) by (unfold fexp; cbn [Qnum Qden Qopp]; rewrite Z.abs_opp; reflexivity).
      rewrite Ee. rewrite (rne_wd (- q * 2 ^ (- fexp p emin q)) (- (q * 2 ^ (- fexp p emin q)))) by ring. rewrite rne_opp.
      rewrite <- Qred_opp. apply Qred_complete. rewrite inject_Z_opp. ring.
Qed.
Lemma fr_nonneg q : 0 <= q -> 0 <= fround p emin q.
Proof. apply (fr_ge (inject_Z 0)). apply fmt_int. cbn. lia. Qed.
Lemma fr_int z : (Z.abs z <= 2 ^ p)%Z -> fround p emin (inject_Z z) == inject_Z z.
Proof. intro H. apply fr_fix, fmt_int, H. Qed.
(** absolute error below a power of two *)
Lemma fr_abs q k : (emin + p <= k)%Z -> Qabs q < 2 ^ k -> Qabs (fround p emin q - q) <= 2 ^ (k - (p + 1)).
Proof.
  intros K H. destruct (Qeq_dec q 0) as [Z0|N].
  - rewrite (fr_zero q Z0). assert (X : 0 - q == 0) by (rewrite Z0; reflexivity). rewrite X. apply Qlt_le_weak, pow_pos.
  - eapply Qle_trans; [apply fr_err; exact N|]. apply pow_le.
    destruct (Z.eq_dec (fexp p emin q) emin) as [E|E]; [lia|]. pose proof (exp_lo q N E) as L.
    assert (X : (fexp p emin q + (p - 1) < k)%Z) by (apply pow_lt_inv; lra). lia.
Qed.
End Format.

(** ** The two formats *)
Lemma p53 : (1 < 53)%Z. Proof. reflexivity. Qed.
Lemma p24 : (1 < 24)%Z. Proof. reflexivity. Qed.
Lemma e64 : (-1074 <= 0)%Z. Proof. discriminate. Qed.
Lemma e32 : (-149 <= 0)%Z. Proof. discriminate. Qed.
Theorem b64_nearest q : nearest_double q (b64 q).
Proof. exact (fr_nearest 53 (-1074) p53 q). Qed.
Theorem b32_nearest q : nearest_float q (b32 q).
Proof. exact (fr_nearest 24 (-149) p24 q). Qed.
Lemma b64_zero q : q == 0 -> b64 q = 0.
Proof. intros; eapply fr_zero; eauto using p53, e64, p24, e32. Qed.
Lemma b64_double q : double (b64 q).
Proof. intros; eapply fr_double; eauto using p53, e64, p24, e32. Qed.
Lemma b64_fix x : double x -> b64 x == x.
Proof. intros; eapply fr_fix; eauto using p53, e64, p24, e32. Qed.
Lemma b64_ge x q : double x -> x <= q -> x <= b64 q.
Proof. intros; eapply fr_ge; eauto using p53, e64, p24, e32. Qed.
Lemma b64_le x q : double x -> q <= x -> b64 q <= x.
Proof. intros; eapply fr_le; eauto using p53, e64, p24, e32. Qed.
Lemma double_int z : (Z.abs z <= 2 ^ 53)%Z -> double (inject_Z z).
Proof. intros; eapply fmt_int; eauto using p53, e64, p24, e32. Qed.
Lemma double_wd x y : x == y -> double x -> double y.
Proof. intros; eapply fmt_wd; eauto using p53, e64, p24, e32. Qed.
Lemma double_ge m e : (Z.abs m <= 2 ^ 53)%Z -> (-1074 <= e)%Z -> double (inject_Z m * 2 ^ e).
Proof. intros; eapply fmt_ge; eauto using p53, e64, p24, e32. Qed.
Lemma b64_rel q : 2 ^ (-1022) <= Qabs q -> Qabs (b64 q - q) <= 2 ^ (-53) * Qabs q.
Proof. intros; eapply fr_rel; eauto using p53, e64, p24, e32. Qed.
Lemma b64_abs q k : (-1021 <= k)%Z -> Qabs q < 2 ^ k -> Qabs (b64 q - q) <= 2 ^ (k - 54).
Proof. intros; eapply fr_abs; eauto using p53, e64, p24, e32. Qed.
Lemma b64_wd q q' : q == q' -> b64 q = b64 q'.
Proof. intros; eapply fr_wd; eauto using p53, e64, p24, e32. Qed.
Lemma b64_red q : Qred (b64 q) = b64 q.
Proof. intros; eapply fr_red; eauto using p53, e64, p24, e32. Qed.
Lemma b64_fixed x : double x -> b64 x = Qred x.
Proof. intros; eapply fr_fixed; eauto using p53, e64, p24, e32. Qed.
Lemma b64_idem q : b64 (b64 q) = b64 q.
Proof. intros; eapply fr_idem; eauto using p53, e64, p24, e32. Qed.
Lemma b64_fixed_wd q x : x == b64 q -> b64 x = b64 q.
Proof. intros; eapply fr_fixed_wd; eauto using p53, e64, p24, e32. Qed.
Lemma b64_opp q : b64 (- q) = - b64 q.
Proof. intros; eapply fr_opp; eauto using p53, e64, p24, e32. Qed.
Lemma b64_nonneg q : 0 <= q -> 0 <= b64 q.
Proof. intros; eapply fr_nonneg; eauto using p53, e64, p24, e32. Qed.
Lemma b64_int z : (Z.abs z <= 2 ^ 53)%Z -> b64 (inject_Z z) == inject_Z z.
Proof. intros; eapply fr_int; eauto using p53, e64, p24, e32. Qed.
Lemma b32_wd q q' : q == q' -> b32 q = b32 q'.
Proof. intros; eapply fr_wd; eauto using p53, e64, p24, e32. Qed.
Lemma b32_abs q k : (-125 <= k)%Z -> Qabs q < 2 ^ k -> Qabs (b32 q - q) <= 2 ^ (k - 25).
Proof. intros; eapply fr_abs; eauto using p53, e64, p24, e32. Qed.
Lemma b32_int z : (Z.abs z <= 2 ^ 24)%Z -> b32 (inject_Z z) == inject_Z z.
Proof. intros; eapply fr_int; eauto using p53, e64, p24, e32. Qed.
Lemma b32_ge x q : float x -> x <= q -> x <= b32 q.
Proof. intros; eapply fr_ge; eauto using p24, e32. Qed.
Lemma b32_le x q : float x -> q <= x -> b32 q <= x.
Proof. intros; eapply fr_le; eauto using p24, e32. Qed.
Lemma float_double x : float x -> double x.
Proof.
  intros (m & e & A & B & C). exists m, e. split; [|split; [lia|exact C]].
  eapply Z.lt_trans; [exact A|]. reflexivity.
Qed.
Lemma float_opp x : float x -> float (- x).
Proof.
  intros (m & e & A & B & C). exists (- m)%Z, e. rewrite Z.abs_opp. split; [exact A|split; [exact B|]]. rewrite C, inject_Z_opp. ring.
Qed.
