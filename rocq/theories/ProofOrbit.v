(** ProofOrbit: Kepler's equation, atan2, the position *)
From Coq Require Import Reals Lra Lia ZArith List.
From Verif Require Import ModelOrbit SpecOrbit.
Local Open Scope R_scope.

Lemma sin_lip x y : Rabs (sin x - sin y) <= Rabs (x - y).
Proof.
  assert (P : forall a b, a < b -> Rabs (sin b - sin a) <= Rabs (b - a)).
  { intros a b H. destruct (MVT_cor2 sin cos a b H) as (c & E & _); [intros; apply derivable_pt_lim_sin|].
    rewrite E, Rabs_mult. rewrite <- (Rmult_1_l (Rabs (b - a))) at 2. apply Rmult_le_compat_r; [apply Rabs_pos|].
    apply Rabs_le. pose proof (COS_bound c). lra. }
  destruct (Rtotal_order x y) as [H|[->|H]].
  - rewrite (Rabs_minus_sym (sin x)), (Rabs_minus_sym x). apply P, H.
  - rewrite !Rminus_diag_eq by reflexivity. lra.
  - apply P, H.
Qed.
Definition prev (e M : R) (n : nat) : R := match n with O => 0 | S m => kepler_iter e M m end.
Lemma gap_prev e M n : kepler_gap e M n = Rabs (kepler_iter e M n - prev e M n).
Proof. destruct n; [cbn; f_equal; lra|reflexivity]. Qed.
Lemma loop_spec e M : forall left i, exists j, kepler_loop left i (kepler_iter e M i) (prev e M i) e M = (j, kepler_iter e M j) /\
  (i <= j <= i + left)%nat /\ (forall k, (i <= k < j)%nat -> LIMIT < kepler_gap e M k) /\ ((j < i + left)%nat -> kepler_gap e M j <= LIMIT).
Proof.
  induction left as [|l IH]; intro i; cbn [kepler_loop].
  - exists i. split; [reflexivity|]. split; [lia|]. split; [intros; lia|lia].
  - rewrite <- gap_prev. destruct (Rlt_dec LIMIT (kepler_gap e M i)) as [H|H].
    + replace (sin (kepler_iter e M i) * e + M) with (kepler_iter e M (S i)) by (cbn; ring).
      destruct (IH (S i)) as (j & E & B & G & L). exists j. split; [exact E|]. split; [lia|]. split; [|intro; apply L; lia].
      intros k K. destruct (Nat.eq_dec k i) as [->|]; [exact H|apply G; lia].
    + exists i. split; [reflexivity|]. split; [lia|]. split; [intros; lia|]. intros _. lra.
Qed.
Lemma loop_steps e M : (fst (kepler_loop 1001 0 M 0 e M) <= 1001)%nat.
Proof. destruct (loop_spec e M 1001 0) as (j & E & B & _). change (kepler_iter e M 0) with M in E. change (prev e M 0) with 0 in E. rewrite E. cbn [fst]. lia. Qed.
Lemma solve_some e M E : kepler_solve e M = Some E <->
  exists n, (n <= 999)%nat /\ E = kepler_iter e M n /\ kepler_gap e M n <= LIMIT /\ forall k, (k < n)%nat -> LIMIT < kepler_gap e M k.
Proof.
  unfold kepler_solve. destruct (loop_spec e M 1001 0) as (j & Ej & B & G & L). change (kepler_iter e M 0) with M in Ej. change (prev e M 0) with 0 in Ej. rewrite Ej.
  destruct (Nat.leb_spec 1000 j) as [H|H]; split.
  - discriminate.
  - intros (n & N & _ & X & _). specialize (G n ltac:(lia)). lra.
  - intro X. injection X as <-. exists j. split; [lia|]. split; [reflexivity|]. split; [apply L; lia|]. intros k K. apply G. lia.
  - intros (n & N & -> & X & Y). f_equal. f_equal. destruct (Nat.lt_trichotomy j n) as [J|[J|J]]; [|exact J|].
    + specialize (Y j J). specialize (L ltac:(lia)). lra.
    + specialize (G n ltac:(lia)). lra.
Qed.
Lemma solve_none e M : kepler_solve e M = None <-> forall n, (n <= 999)%nat -> LIMIT < kepler_gap e M n.
Proof.
  split.
  - intros H n N. destruct (Rlt_dec LIMIT (kepler_gap e M n)) as [|X]; [assumption|exfalso].
    assert (Q : forall m, kepler_gap e M m <= LIMIT -> exists k, (k <= m)%nat /\ kepler_gap e M k <= LIMIT /\ forall i, (i < k)%nat -> LIMIT < kepler_gap e M i).
    { induction m as [m IH] using lt_wf_ind. intro Hm.
      assert (D : (exists i, (i < m)%nat /\ kepler_gap e M i <= LIMIT) \/ forall i, (i < m)%nat -> LIMIT < kepler_gap e M i).
      { clear. induction m as [|m [(i & A & B)|IH]]; [right; intros; lia|left; exists i; split; [lia|exact B]|].
        destruct (Rlt_dec LIMIT (kepler_gap e M m)); [right|left; exists m; split; [lia|lra]].
        intros i Hi. destruct (Nat.eq_dec i m) as [->|]; [assumption|apply IH; lia]. }
      destruct D as [(i & A & B)|D]; [|exists m; auto]. destruct (IH i A B) as (k & K & R). exists k. split; [lia|exact R]. }
    destruct (Q n ltac:(lra)) as (k & K & A & B).
    assert (S : kepler_solve e M = Some (kepler_iter e M k)) by (apply solve_some; exists k; split; [lia|auto]). congruence.
  - intro H. destruct (kepler_solve e M) as [E|] eqn:S; [|reflexivity]. apply solve_some in S. destruct S as (n & N & _ & X & _). specialize (H n N). lra.
Qed.
Lemma limit_pos : 0 < LIMIT.
Proof. unfold LIMIT. apply Rinv_0_lt_compat. lra. Qed.
Lemma residual e M E : 0 <= e -> kepler_solve e M = Some E -> Rabs (E - e * sin E - M) <= e * LIMIT.
Proof.
  intros He S. apply solve_some in S. destruct S as (n & _ & -> & G & _). rewrite gap_prev in G.
  destruct n as [|n]; cbn [prev kepler_iter] in *.
  - replace (M - e * sin M - M) with (- (e * (sin M - sin 0))) by (rewrite sin_0; ring).
    rewrite Rabs_Ropp, Rabs_mult, (Rabs_pos_eq e He). apply Rmult_le_compat_l; [exact He|]. eapply Rle_trans; [apply sin_lip|exact G].
  - set (x := kepler_iter e M n) in *. set (y := M + e * sin x) in *.
    assert (X : y - e * sin y - M = - (e * (sin y - sin x))). { transitivity (M + e * sin x - e * sin y - M); [reflexivity|ring]. } rewrite X.
    rewrite Rabs_Ropp, Rabs_mult, (Rabs_pos_eq e He). apply Rmult_le_compat_l; [exact He|]. eapply Rle_trans; [apply sin_lip|exact G].
Qed.
Lemma root_exists e M : 0 <= e < 1 -> exists E, kepler_eq e M E.
Proof.
  intro He. set (f := fun E => E - e * sin E - M).
  assert (C : continuity f).
  { unfold f. intro x. apply continuity_pt_minus; [apply continuity_pt_minus; [apply derivable_continuous_pt, derivable_pt_id|]|apply continuity_pt_const; intros a b; reflexivity].
    apply continuity_pt_mult; [apply continuity_pt_const; intros a b; reflexivity|apply continuity_sin]. }
  assert (B : forall x, -1 <= e * sin x <= 1).
  { intro x. pose proof (SIN_bound x). split; nra. }
  destruct (IVT f (M - 2) (M + 2) C ltac:(lra)) as (z & _ & Z).
  - unfold f. pose proof (B (M - 2)). lra.
  - unfold f. pose proof (B (M + 2)). lra.
  - exists z. unfold kepler_eq, f in *. lra.
Qed.
Lemma near_root e M E E' r : 0 <= e < 1 -> kepler_eq e M E' -> Rabs (E - e * sin E - M) <= r -> Rabs (E - E') * (1 - e) <= r.
Proof.
  intros He K H. unfold kepler_eq in K. pose proof (sin_lip E E') as L.
  assert (X : Rabs (E - E') <= Rabs (E - e * sin E - M) + e * Rabs (sin E - sin E')).
  { rewrite <- (Rabs_pos_eq e) at 2 by lra. rewrite <- Rabs_mult. eapply Rle_trans; [|apply Rabs_triang]. right. f_equal. lra. }
  assert (e * Rabs (sin E - sin E') <= e * Rabs (E - E')) by (apply Rmult_le_compat_l; lra). lra.
Qed.
Lemma gap_pow e M : 0 <= e -> forall n, kepler_gap e M (S n) <= e ^ S n.
Proof.
  intros He. induction n as [|n IH].
  - cbn [kepler_gap kepler_iter pow]. replace (M + e * sin M - M) with (e * sin M) by ring. rewrite Rabs_mult, (Rabs_pos_eq e He), Rmult_1_r.
    rewrite <- (Rmult_1_r e) at 2. apply Rmult_le_compat_l; [exact He|]. apply Rabs_le. pose proof (SIN_bound M). lra.
  - change (kepler_gap e M (S (S n))) with (Rabs ((M + e * sin (kepler_iter e M (S n))) - (M + e * sin (kepler_iter e M n)))).
    replace (M + e * sin (kepler_iter e M (S n)) - (M + e * sin (kepler_iter e M n))) with (e * (sin (kepler_iter e M (S n)) - sin (kepler_iter e M n))) by ring.
    rewrite Rabs_mult, (Rabs_pos_eq e He). change (e ^ S (S n)) with (e * e ^ S n). apply Rmult_le_compat_l; [exact He|].
    eapply Rle_trans; [apply sin_lip|exact IH].
Qed.
Lemma pow_IZR_le (a b : Z) (n : nat) (k : nat) : (0 < b)%Z -> (a ^ Z.of_nat n * 10 ^ Z.of_nat k <= b ^ Z.of_nat n)%Z -> (IZR a / IZR b) ^ n <= / 10 ^ k.
Proof.
  intros B H. apply IZR_lt in B. apply IZR_le in H. rewrite mult_IZR, <- !pow_IZR in H.
  unfold Rdiv. rewrite Rpow_mult_distr. rewrite <- Rinv_pow by lra.
  assert (P : 0 < IZR b ^ n) by (apply pow_lt; lra). assert (T : 0 < 10 ^ k) by (apply pow_lt; lra).
  apply Rmult_le_reg_r with (IZR b ^ n); [exact P|]. rewrite Rmult_assoc, Rinv_l, Rmult_1_r by lra.
  apply Rmult_le_reg_r with (10 ^ k); [exact T|]. replace (/ 10 ^ k * IZR b ^ n * 10 ^ k) with (IZR b ^ n) by (field; lra). exact H.
Qed.
Lemma solve_converges e M : 0 <= e <= 96 / 100 -> kepler_solve e M <> None.
Proof.
  intros He N. rewrite solve_none in N. specialize (N 999%nat ltac:(lia)). pose proof (gap_pow e M (proj1 He) 998) as G.
  assert (P : e ^ 999 <= (96 / 100) ^ 999) by (apply pow_incr; lra).
  assert (Q : (96 / 100) ^ 999 <= / 10 ^ 14) by (apply (pow_IZR_le 96 100 999 14); [lia|vm_compute; discriminate]).
  unfold LIMIT in N. lra.
Qed.

(** ** atan2 *)
Lemma atan_cs t : cos (atan t) = / sqrt (1 + t ^ 2) /\ sin (atan t) = t / sqrt (1 + t ^ 2).
Proof.
  split; [rewrite cos_atan|rewrite sin_atan]; unfold Rsqr; replace (t * t) with (t ^ 2) by ring; [|reflexivity].
  unfold Rdiv. rewrite Rmult_1_l. reflexivity.
Qed.
Lemma sqrt_scale x y : x <> 0 -> sqrt (1 + (y / x) ^ 2) = sqrt (x ^ 2 + y ^ 2) / Rabs x.
Proof.
  intro H. replace (1 + (y / x) ^ 2) with ((x ^ 2 + y ^ 2) / x ^ 2) by (field; exact H).
  rewrite sqrt_div_alt by nra. replace (x ^ 2) with (Rsqr x) at 2 by (unfold Rsqr; ring). rewrite sqrt_Rsqr_abs. reflexivity.
Qed.
Lemma atan2_cs y x : x ^ 2 + y ^ 2 <> 0 ->
  cos (atan2 y x) = x / sqrt (x ^ 2 + y ^ 2) /\ sin (atan2 y x) = y / sqrt (x ^ 2 + y ^ 2).
Proof.
  intro N. assert (P : 0 < x ^ 2 + y ^ 2) by nra. assert (Sp : 0 < sqrt (x ^ 2 + y ^ 2)) by (apply sqrt_lt_R0; exact P).
  unfold atan2. destruct (Rlt_dec 0 x) as [X|X].
  - destruct (atan_cs (y / x)) as (C & S). rewrite C, S, sqrt_scale, Rabs_pos_eq by lra. split; field; split; lra.
  - destruct (Rlt_dec x 0) as [X'|X'].
    + destruct (atan_cs (y / x)) as (C & S). rewrite sqrt_scale, (Rabs_left x) in C, S by lra.
      destruct (Rle_dec 0 y).
      * rewrite neg_cos, neg_sin, C, S. split; field; split; lra.
      * replace (atan (y / x) - PI) with (- (PI - atan (y / x))) by ring. rewrite cos_neg, sin_neg, Rtrigo_facts.cos_pi_minus, Rtrigo_facts.sin_pi_minus, C, S. split; field; split; lra.
    + assert (x = 0) by lra. subst x. assert (Y : y <> 0) by (intros ->; apply N; ring).
      replace (0 ^ 2 + y ^ 2) with (Rsqr y) by (unfold Rsqr; ring). rewrite sqrt_Rsqr_abs.
      destruct (Rlt_dec 0 y).
      * rewrite cos_PI2, sin_PI2, Rabs_pos_eq by lra. split; field; lra.
      * destruct (Rlt_dec y 0); [|lra]. rewrite cos_neg, sin_neg, cos_PI2, sin_PI2, Rabs_left by lra. split; field; lra.
Qed.
Lemma ecos_pos e E : 0 <= e < 1 -> 0 < 1 - e * cos E.
Proof. intro H. pose proof (COS_bound E). nra. Qed.
Lemma anomaly_ok e E : 0 <= e < 1 -> true_anomaly e E (atan2 (sqrt (1 - e * e) * sin E / (1 - e * cos E)) ((cos E - e) / (1 - e * cos E))).
Proof.
  intro H. pose proof (ecos_pos e E H) as D. set (a := sqrt (1 - e * e) * sin E / (1 - e * cos E)). set (p := (cos E - e) / (1 - e * cos E)).
  assert (U : p ^ 2 + a ^ 2 = 1).
  { unfold a, p. pose proof (sin2_cos2 E) as T. unfold Rsqr in T.
    assert (Q : sqrt (1 - e * e) * sqrt (1 - e * e) = 1 - e * e) by (apply sqrt_sqrt; nra).
    replace ((cos E - e) / (1 - e * cos E)) with ((cos E - e) * / (1 - e * cos E)) by reflexivity.
    apply Rmult_eq_reg_r with ((1 - e * cos E) ^ 2); [|apply pow_nonzero; lra].
    transitivity ((cos E - e) ^ 2 + (sqrt (1 - e * e) * sqrt (1 - e * e)) * (sin E * sin E)); [field; lra|].
    rewrite Q. replace (sin E * sin E) with (1 - cos E * cos E) by lra. ring. }
  destruct (atan2_cs a p ltac:(lra)) as (C & S). unfold true_anomaly. rewrite U, sqrt_1 in C, S. split; [rewrite C|rewrite S]; unfold p, a; field; lra.
Qed.
