(** ProofFloat: error bounds of double arithmetic against the real numbers, for C106-C108 *)
From Coq Require Import Qabs Qround Qpower Reals Qreals Lra Lia ZArith QArith List.
From Verif Require Import B64 SpecB64 ModelFloat SpecFloat ModelOrbit SpecOrbit ProofOrbit.
From Verif Require ProofB64 PropertiesFreq.
Import ListNotations.
Local Open Scope R_scope.

(** ** From Q to R *)
Lemma Q2R_abs q : Q2R (Qabs q) = Rabs (Q2R q).
Proof.
  destruct (Qlt_le_dec q 0) as [H|H].
  - rewrite (Qeq_eqR _ _ (Qabs_neg q (Qlt_le_weak _ _ H))), Q2R_opp. apply Qlt_Rlt in H. rewrite RMicromega.Q2R_0 in H. rewrite Rabs_left by exact H. reflexivity.
  - rewrite (Qeq_eqR _ _ (Qabs_pos q H)). apply Qle_Rle in H. rewrite RMicromega.Q2R_0 in H. rewrite Rabs_pos_eq by exact H. reflexivity.
Qed.
Lemma abs_le q b : (Qabs q <= b)%Q -> Rabs (Q2R q) <= Q2R b.
Proof. intro H. apply Qle_Rle in H. rewrite Q2R_abs in H. exact H. Qed.
Lemma Rabs_le_inv x a : Rabs x <= a -> - a <= x <= a.
Proof. intro H. pose proof (Rle_abs x). pose proof (Rle_abs (- x)). rewrite Rabs_Ropp in *. lra. Qed.
Lemma qle_b a b : Qle_bool a b = true -> Q2R a <= Q2R b.
Proof. intro H. apply Qle_Rle, Qle_bool_iff, H. Qed.
Lemma Q2R_1 : Q2R 1 = 1. Proof. unfold Q2R. cbn. lra. Qed.
Lemma Q2R_m1 : Q2R (-1) = -1. Proof. unfold Q2R. cbn. lra. Qed.
Lemma Q2R_0 : Q2R 0 = 0. Proof. unfold Q2R. cbn. lra. Qed.
Lemma Q2R_frac n d : Q2R (n # d) = IZR n / IZR (Zpos d).
Proof. reflexivity. Qed.

Lemma Q2R_inj z : Q2R (inject_Z z) = IZR z.
Proof. unfold Q2R. cbn [inject_Z Qnum Qden]. rewrite Rinv_1, Rmult_1_r. reflexivity. Qed.

Definition uQ : Q := 1 # (2 ^ 53).
Definition hQ : Q := 1 # (2 ^ 200).
Lemma u_pos : 0 <= Q2R uQ. Proof. rewrite <- Q2R_0. apply qle_b. reflexivity. Qed.
Lemma u_val : Q2R uQ = / 2 ^ 53. Proof. unfold Q2R, uQ. cbn [Qnum Qden]. rewrite Rmult_1_l. f_equal. change (IZR (Zpos (2 ^ 53))) with (IZR 9007199254740992). lra. Qed.
Lemma h_pos : 0 <= Q2R hQ. Proof. rewrite <- Q2R_0. apply qle_b. reflexivity. Qed.
Lemma b64_R q : Rabs (Q2R (b64 q) - Q2R q) <= Q2R uQ * Rabs (Q2R q) + Q2R hQ.
Proof.
  pose proof (PropertiesFreq.b64_gen q) as H.
  assert (T : (2 ^ (-1075) <= hQ)%Q) by (apply Qle_trans with (2 ^ (-200))%Q; [apply ProofB64.pow_le; discriminate|discriminate]).
  assert (H' : (Qabs (b64 q - q) <= uQ * Qabs q + hQ)%Q).
  { eapply Qle_trans; [exact H|]. apply Qplus_le_compat; [|exact T]. change (2 ^ (-53))%Q with uQ. apply Qle_refl. }
  apply abs_le in H'. rewrite Q2R_minus, Q2R_plus, Q2R_mult, Q2R_abs in H'. exact H'.
Qed.

(** ** Intervals with an error: [lo <= x <= hi], and the double is within [er] of x *)
Record itv := mkI { lo : Q; hi : Q; er : Q }.
Definition ap (i : itv) (xh : Q) (x : R) : Prop :=
  double xh /\ Q2R (lo i) <= x <= Q2R (hi i) /\ Rabs (Q2R xh - x) <= Q2R (er i).
Definition up (q : Q) : Q := Qceiling (q * (2 ^ 160 # 1)) # (2 ^ 160).
Definition dn (q : Q) : Q := Qfloor (q * (2 ^ 160 # 1)) # (2 ^ 160).
Lemma scale_back z : ((z # 2 ^ 160) == inject_Z z * (1 # 2 ^ 160))%Q.
Proof. unfold Qeq, inject_Z. cbn [Qnum Qden Qmult]. lia. Qed.
Lemma up_ge q : Q2R q <= Q2R (up q).
Proof.
  apply Qle_Rle. unfold up. rewrite scale_back. set (k := (2 ^ 160 # 1)%Q). set (j := (1 # 2 ^ 160)%Q).
  assert (K : (k * j == 1)%Q) by reflexivity. assert (J : (0 <= j)%Q) by discriminate. clearbody k j.
  pose proof (Qle_ceiling (q * k)) as C. setoid_replace q with (q * k * j)%Q at 1 by (rewrite <- Qmult_assoc, K; ring).
  apply Qmult_le_compat_r; assumption.
Qed.
Lemma dn_le q : Q2R (dn q) <= Q2R q.
Proof.
  apply Qle_Rle. unfold dn. rewrite scale_back. set (k := (2 ^ 160 # 1)%Q). set (j := (1 # 2 ^ 160)%Q).
  assert (K : (k * j == 1)%Q) by reflexivity. assert (J : (0 <= j)%Q) by discriminate. clearbody k j.
  pose proof (Qfloor_le (q * k)) as C. setoid_replace q with (q * k * j)%Q at 2 by (rewrite <- Qmult_assoc, K; ring).
  apply Qmult_le_compat_r; assumption.
Qed.
Definition qmax (a b : Q) : Q := if Qle_bool a b then b else a.
Lemma qmax_l a b : Q2R a <= Q2R (qmax a b).
Proof. unfold qmax. destruct (Qle_bool a b) eqn:E; [apply qle_b, E|lra]. Qed.
Lemma qmax_r a b : Q2R b <= Q2R (qmax a b).
Proof.
  unfold qmax. destruct (Qle_bool a b) eqn:E; [lra|]. apply Qle_Rle. destruct (Qlt_le_dec b a) as [H|H]; [apply Qlt_le_weak, H|].
  apply Qle_bool_iff in H. congruence.
Qed.
Definition mag (l h : Q) : Q := qmax (Qabs l) (Qabs h).
Lemma mag_ok l h x : Q2R l <= x <= Q2R h -> Rabs x <= Q2R (mag l h).
Proof.
  intros (A & B). unfold mag. pose proof (qmax_l (Qabs l) (Qabs h)) as P. pose proof (qmax_r (Qabs l) (Qabs h)) as P'.
  rewrite Q2R_abs in P, P'. apply Rabs_le. pose proof (Rle_abs (Q2R h)). pose proof (Rle_abs (- Q2R l)). rewrite Rabs_Ropp in H0. lra.
Qed.
Lemma mag_pos l h : 0 <= Q2R (mag l h).
Proof. pose proof (qmax_l (Qabs l) (Qabs h)) as P. rewrite Q2R_abs in P. pose proof (Rabs_pos (Q2R l)). unfold mag. lra. Qed.
(** one rounding; [e] the error before it *)
Definition rnd (l h e : Q) : itv := mkI (dn l) (up h) (up (e + uQ * (mag l h + e) + hQ)).
Lemma ap_rnd l h e q x : Q2R l <= x <= Q2R h -> Rabs (Q2R q - x) <= Q2R e -> ap (rnd l h e) (b64 q) x.
Proof.
  intros B E. split; [apply ProofB64.b64_double|]. split.
  - cbn [rnd lo hi]. pose proof (dn_le l). pose proof (up_ge h). lra.
  - cbn [rnd er]. eapply Rle_trans; [|apply up_ge]. rewrite !Q2R_plus, Q2R_mult, Q2R_plus.
    pose proof (b64_R q) as R. pose proof (mag_ok l h x B) as M. pose proof u_pos as U.
    assert (A : Rabs (Q2R q) <= Q2R (mag l h) + Q2R e).
    { replace (Q2R q) with (x + (Q2R q - x)) by ring. eapply Rle_trans; [apply Rabs_triang|]. lra. }
    apply (Rmult_le_compat_l _ _ _ U) in A.
    replace (Q2R (b64 q) - x) with ((Q2R (b64 q) - Q2R q) + (Q2R q - x)) by ring. eapply Rle_trans; [apply Rabs_triang|]. lra.
Qed.
Lemma ap_w i j xh x : ap i xh x -> Qle_bool (lo j) (lo i) && Qle_bool (hi i) (hi j) && Qle_bool (er i) (er j) = true -> ap j xh x.
Proof.
  intros (D & B & E) H. apply andb_prop in H. destruct H as (H & H3). apply andb_prop in H. destruct H as (H1 & H2).
  apply qle_b in H1, H2, H3. split; [exact D|]. lra.
Qed.
Lemma er_pos i xh x : ap i xh x -> 0 <= Q2R (er i).
Proof. intros (_ & _ & E). pose proof (Rabs_pos (Q2R xh - x)). lra. Qed.
(** exact values *)
Lemma ap_exact l h q : double q -> (l <= q <= h)%Q -> ap (mkI l h 0) q (Q2R q).
Proof.
  intros D (L & H). apply Qle_Rle in L, H. split; [exact D|split; [cbn; lra|]]. rewrite Rminus_eq_0, Rabs_R0. cbn [er]. rewrite Q2R_0. lra.
Qed.
Lemma ap_exact_abs b q : double q -> (Qabs q <= b)%Q -> ap (mkI (- b) b 0) q (Q2R q).
Proof. intros D H. apply ap_exact; [exact D|]. apply Qabs_Qle_condition in H. exact H. Qed.
(** literals *)
Lemma ap_lit q : ap (rnd q q 0) (flit q) (Q2R q).
Proof. apply ap_rnd; [lra|]. rewrite Rminus_eq_0, Rabs_R0, Q2R_0. lra. Qed.
Definition iopp (i : itv) : itv := mkI (- hi i) (- lo i) (er i).
Lemma ap_opp i xh x : ap i xh x -> ap (iopp i) (- xh)%Q (- x).
Proof.
  intros (D & B & E). split; [|split].
  - destruct D as (m & e & A & P & C). exists (- m)%Z, e. rewrite Z.abs_opp. split; [exact A|split; [exact P|]]. rewrite C, inject_Z_opp. ring.
  - cbn [iopp lo hi]. rewrite !Q2R_opp. lra.
  - cbn [iopp er]. rewrite Q2R_opp. replace (- Q2R xh - - x) with (- (Q2R xh - x)) by ring. rewrite Rabs_Ropp. exact E.
Qed.
Definition iadd (i j : itv) : itv := rnd (lo i + lo j) (hi i + hi j) (er i + er j).
Lemma ap_add i j xh yh x y : ap i xh x -> ap j yh y -> ap (iadd i j) (fadd xh yh) (x + y).
Proof.
  intros (_ & B & E) (_ & B' & E'). apply ap_rnd; [rewrite !Q2R_plus; lra|]. rewrite !Q2R_plus.
  replace (Q2R xh + Q2R yh - (x + y)) with ((Q2R xh - x) + (Q2R yh - y)) by ring. eapply Rle_trans; [apply Rabs_triang|]. lra.
Qed.
Definition isub (i j : itv) : itv := rnd (lo i - hi j) (hi i - lo j) (er i + er j).
Lemma ap_sub i j xh yh x y : ap i xh x -> ap j yh y -> ap (isub i j) (fsub xh yh) (x - y).
Proof.
  intros (_ & B & E) (_ & B' & E'). apply ap_rnd; [rewrite !Q2R_minus; lra|]. rewrite Q2R_minus, Q2R_plus.
  replace (Q2R xh - Q2R yh - (x - y)) with ((Q2R xh - x) + - (Q2R yh - y)) by ring. eapply Rle_trans; [apply Rabs_triang|]. rewrite Rabs_Ropp. lra.
Qed.
Definition mulrange (i j : itv) : Q * Q :=
  if Qle_bool 0 (lo i) && Qle_bool 0 (lo j) then (lo i * lo j, hi i * hi j)%Q
  else let m := (mag (lo i) (hi i) * mag (lo j) (hi j))%Q in ((- m)%Q, m).
Definition imul (i j : itv) : itv :=
  let m := mag (lo i) (hi i) in let m' := mag (lo j) (hi j) in
  rnd (fst (mulrange i j)) (snd (mulrange i j)) (m * er j + m' * er i + er i * er j).
Lemma ap_mul i j xh yh x y : ap i xh x -> ap j yh y -> ap (imul i j) (fmul xh yh) (x * y).
Proof.
  intros A A'. pose proof (er_pos _ _ _ A) as P. pose proof (er_pos _ _ _ A') as P'. destruct A as (_ & B & E), A' as (_ & B' & E').
  pose proof (mag_ok _ _ _ B) as M. pose proof (mag_ok _ _ _ B') as M'. pose proof (mag_pos (lo i) (hi i)) as N. pose proof (mag_pos (lo j) (hi j)) as N'.
  pose proof (Rabs_pos x). pose proof (Rabs_pos y).
  apply ap_rnd.
  - unfold mulrange. destruct (Qle_bool 0 (lo i) && Qle_bool 0 (lo j)) eqn:Z; cbn [fst snd].
    + apply andb_prop in Z. destruct Z as (Z & Z'). apply qle_b in Z, Z'. rewrite Q2R_0 in Z, Z'. rewrite !Q2R_mult. split; apply Rmult_le_compat; lra.
    + rewrite Q2R_opp, Q2R_mult. assert (T : Rabs (x * y) <= Q2R (mag (lo i) (hi i)) * Q2R (mag (lo j) (hi j))) by (rewrite Rabs_mult; apply Rmult_le_compat; assumption).
      apply Rabs_le_inv in T. lra.
  - rewrite !Q2R_plus, !Q2R_mult. replace (Q2R xh * Q2R yh - x * y) with (x * (Q2R yh - y) + (y * (Q2R xh - x) + (Q2R xh - x) * (Q2R yh - y))) by ring.
    eapply Rle_trans; [apply Rabs_triang|]. rewrite Rplus_assoc. apply Rplus_le_compat; [rewrite Rabs_mult; apply Rmult_le_compat; try apply Rabs_pos; assumption|].
    eapply Rle_trans; [apply Rabs_triang|]. rewrite !Rabs_mult. apply Rplus_le_compat; apply Rmult_le_compat; try apply Rabs_pos; assumption.
Qed.
(** positive divisors *)
Definition divrange (i j : itv) : Q * Q :=
  if Qle_bool 0 (lo i) then (lo i / hi j, hi i / lo j)%Q
  else let m := (mag (lo i) (hi i) / lo j)%Q in ((- m)%Q, m).
Definition idiv (i j : itv) : itv :=
  let m := mag (lo i) (hi i) in
  rnd (fst (divrange i j)) (snd (divrange i j)) ((er i + m / lo j * er j) / (lo j - er j)).
Lemma ap_div i j xh yh x y : ap i xh x -> ap j yh y ->
  Qle_bool (1 # 2 ^ 160) (lo j) && Qle_bool (1 # 2 ^ 160) (lo j - er j) && Qle_bool (lo j) (hi j) = true -> ap (idiv i j) (fdiv xh yh) (x / y).
Proof.
  intros A A' H. pose proof (er_pos _ _ _ A) as P. pose proof (er_pos _ _ _ A') as P'. destruct A as (_ & B & E), A' as (_ & B' & E').
  apply andb_prop in H. destruct H as (H & H3). apply andb_prop in H. destruct H as (H1 & H2). apply qle_b in H1, H2, H3.
  assert (T : 0 < Q2R (1 # 2 ^ 160)) by (rewrite Q2R_frac; apply Rdiv_lt_0_compat; apply IZR_lt; reflexivity).
  rewrite Q2R_minus in H2. pose proof (mag_ok _ _ _ B) as M. pose proof (mag_pos (lo i) (hi i)) as N.
  assert (Y : 0 < Q2R (lo j)) by lra. assert (D : 0 < Q2R (lo j) - Q2R (er j)) by lra. assert (y0 : 0 < y) by lra.
  assert (yh0 : Q2R (lo j) - Q2R (er j) <= Q2R yh) by (apply Rabs_le_inv in E'; lra).
  assert (NQ : forall a, 0 < Q2R a -> ~ (a == 0)%Q) by (intros a L Z; rewrite (Qeq_eqR _ _ Z), Q2R_0 in L; lra).
  assert (Iy : / y <= / Q2R (lo j)) by (apply Rinv_le_contravar; lra). assert (Iy0 : 0 < / y) by (apply Rinv_0_lt_compat, y0).
  apply ap_rnd.
  - unfold divrange. destruct (Qle_bool 0 (lo i)) eqn:Z; cbn [fst snd].
    + apply qle_b in Z. rewrite Q2R_0 in Z. rewrite !Q2R_div by (apply NQ; lra). unfold Rdiv. split; apply Rmult_le_compat; try lra.
      * apply Rlt_le, Rinv_0_lt_compat; lra.
      * apply Rinv_le_contravar; lra.
    + rewrite Q2R_opp, Q2R_div by (apply NQ; lra).
      assert (T' : Rabs (x / y) <= Q2R (mag (lo i) (hi i)) / Q2R (lo j)).
      { unfold Rdiv. rewrite Rabs_mult, (Rabs_pos_eq (/ y)) by lra. apply Rmult_le_compat; [apply Rabs_pos|lra|exact M|exact Iy]. }
      apply Rabs_le_inv in T'. lra.
  - assert (ND : ~ (lo j - er j == 0)%Q) by (apply NQ; rewrite Q2R_minus; exact D).
    assert (NL : ~ (lo j == 0)%Q) by (apply NQ; exact Y).
    assert (NY : ~ (yh == 0)%Q) by (apply NQ; lra).
    rewrite (Q2R_div _ _ ND), (Q2R_div _ yh NY), Q2R_plus, Q2R_mult, (Q2R_div _ (lo j) NL), Q2R_minus.
    set (X := Q2R xh) in *. set (Yh := Q2R yh) in *.
    replace (X / Yh - x / y) with (((X - x) + - (x / y * (Yh - y))) * / Yh) by (field; lra).
    rewrite Rabs_mult. unfold Rdiv at 2. rewrite (Rabs_pos_eq (/ Yh)) by (apply Rlt_le, Rinv_0_lt_compat; lra).
    apply Rmult_le_compat; [apply Rabs_pos|apply Rlt_le, Rinv_0_lt_compat; lra| |apply Rinv_le_contravar; lra].
    eapply Rle_trans; [apply Rabs_triang|]. rewrite Rabs_Ropp, Rabs_mult. apply Rplus_le_compat; [exact E|].
    apply Rmult_le_compat; [apply Rabs_pos|apply Rabs_pos| |exact E'].
    unfold Rdiv. rewrite Rabs_mult, (Rabs_pos_eq (/ y)) by lra. apply Rmult_le_compat; [apply Rabs_pos|lra|exact M|exact Iy].
Qed.
(** square roots *)
Definition sq_lo (q : Q) : Q := Z.sqrt (Qfloor (q * (2 ^ 240 # 1))) # (2 ^ 120).
Definition sq_hi (q : Q) : Q := (Z.sqrt (Qfloor (q * (2 ^ 240 # 1))) + 1)%Z # (2 ^ 120).
Lemma sq_ok q : (0 <= q)%Q -> 0 <= Q2R (sq_lo q) <= sqrt (Q2R q) /\ sqrt (Q2R q) <= Q2R (sq_hi q).
Proof.
  intro H. unfold sq_lo, sq_hi. set (n := Qfloor (q * (2 ^ 240 # 1))).
  assert (K : Q2R (2 ^ 240 # 1) = IZR (2 ^ 120) * IZR (2 ^ 120)) by (rewrite <- mult_IZR; unfold Q2R; cbn [Qnum Qden]; rewrite Rinv_1, Rmult_1_r; f_equal).
  assert (L : IZR n <= Q2R q * (IZR (2 ^ 120) * IZR (2 ^ 120)) < IZR n + 1).
  { pose proof (Qfloor_le (q * (2 ^ 240 # 1))) as L. pose proof (Qlt_floor (q * (2 ^ 240 # 1))) as U. apply Qle_Rle in L. apply Qlt_Rlt in U.
    rewrite Q2R_mult, K in L, U. fold n in L, U. rewrite Q2R_inj in L, U. rewrite plus_IZR in U. lra. }
  assert (n0 : (0 <= n)%Z).
  { unfold n. rewrite <- (Qfloor_Z 0). apply Qfloor_resp_le. change (inject_Z 0) with 0%Q. apply Qmult_le_0_compat; [exact H|discriminate]. }
  pose proof (Z.sqrt_spec n n0) as S. cbv zeta in S. set (s := Z.sqrt n) in *. pose proof (Z.sqrt_nonneg n) as s0. fold s in s0.
  destruct S as (S1 & S2). rewrite <- Z.add_1_r in S2. apply IZR_le in S1. assert (S3 : IZR n + 1 <= IZR ((s + 1) * (s + 1))) by (rewrite <- plus_IZR; apply IZR_le; lia).
  rewrite mult_IZR in S1, S3. apply Qle_Rle in H. rewrite Q2R_0 in H. rewrite !Q2R_frac. change (IZR (Zpos (2 ^ 120))) with (IZR (2 ^ 120)).
  set (k := IZR (2 ^ 120)) in *. assert (k0 : 0 < k) by (apply IZR_lt; reflexivity). clearbody k.
  apply IZR_le in s0. rewrite plus_IZR in *. set (r := IZR s) in *. clearbody r. set (x := Q2R q) in *. clearbody x.
  assert (I : 0 < / k) by (apply Rinv_0_lt_compat, k0). assert (Hk : k * / k = 1) by (apply Rinv_r; lra).
  assert (a0 : 0 <= r / k) by (unfold Rdiv; apply Rmult_le_pos; lra). assert (b0 : 0 <= (r + 1) / k) by (unfold Rdiv; apply Rmult_le_pos; lra).
  split; [split; [exact a0|]|].
  - rewrite <- (sqrt_square (r / k)) by exact a0. apply sqrt_le_1_alt. apply Rmult_le_reg_r with (k * k); [nra|]. replace (r / k * (r / k) * (k * k)) with (r * r) by (field; lra). lra.
  - rewrite <- (sqrt_square ((r + 1) / k)) by exact b0. apply sqrt_le_1_alt. apply Rmult_le_reg_r with (k * k); [nra|]. replace ((r + 1) / k * ((r + 1) / k) * (k * k)) with ((r + 1) * (r + 1)) by (field; lra). lra.
Qed.
Definition isqrt (i : itv) : itv :=
  let e := (er i / sq_lo (lo i))%Q in mkI (sq_lo (lo i)) (sq_hi (hi i)) (up (e + (1 # 2 ^ 52) * (sq_hi (hi i) + e))).
Lemma ap_sqrt m i xh x : accurate m -> ap i xh x ->
  Qle_bool (1 # 2 ^ 160) (lo i) && Qle_bool (lo i) (hi i) && Qle_bool (1 # 2 ^ 160) (lo i - er i) && Qle_bool (1 # 2 ^ 160) (sq_lo (lo i)) = true -> ap (isqrt i) (m_sqrt m xh) (sqrt x).
Proof.
  intros Hm A H. pose proof (er_pos _ _ _ A) as P. destruct A as (D & B & E).
  apply andb_prop in H. destruct H as (H & H4). apply andb_prop in H. destruct H as (H & H3). apply andb_prop in H. destruct H as (H1 & H2).
  assert (T : 0 < Q2R (1 # 2 ^ 160)) by (rewrite Q2R_frac; apply Rdiv_lt_0_compat; apply IZR_lt; reflexivity).
  assert (Z1 : (0 <= lo i)%Q) by (apply Qle_bool_iff in H1; eapply Qle_trans; [|exact H1]; discriminate).
  assert (Z2 : (0 <= hi i)%Q) by (apply Qle_bool_iff in H2; eapply Qle_trans; [exact Z1|exact H2]).
  apply qle_b in H1, H2, H3, H4. rewrite Q2R_minus in H3. destruct (sq_ok _ Z1) as ((S1 & S2) & _). destruct (sq_ok _ Z2) as (_ & S3).
  assert (L : sqrt (Q2R (lo i)) <= sqrt x) by (apply sqrt_le_1_alt; lra). assert (U : sqrt x <= sqrt (Q2R (hi i))) by (apply sqrt_le_1_alt; lra).
  assert (X : Q2R (lo i) - Q2R (er i) <= Q2R xh) by (apply Rabs_le_inv in E; lra).
  assert (N : (2 ^ (-1022) <= xh)%Q).
  { apply Qle_trans with (1 # 2 ^ 160)%Q; [apply Qle_trans with (2 ^ (-160))%Q; [apply ProofB64.pow_le; discriminate|discriminate]|]. apply Rle_Qle. lra. }
  assert (NL : ~ (sq_lo (lo i) == 0)%Q) by (intro Z; apply Qeq_eqR in Z; rewrite Q2R_0 in Z; lra).
  pose proof (sqrt_accurate m Hm xh D N) as SA.
  assert (G : Rabs (sqrt (Q2R xh) - sqrt x) <= Q2R (er i) / Q2R (sq_lo (lo i))).
  { assert (p0 : 0 <= sqrt (Q2R xh)) by apply sqrt_pos. assert (q0 : 0 < sqrt x) by lra.
    replace (sqrt (Q2R xh) - sqrt x) with ((Q2R xh - x) * / (sqrt (Q2R xh) + sqrt x)).
    - rewrite Rabs_mult. unfold Rdiv. rewrite (Rabs_pos_eq (/ _)) by (apply Rlt_le, Rinv_0_lt_compat; lra).
      apply Rmult_le_compat; [apply Rabs_pos|apply Rlt_le, Rinv_0_lt_compat; lra|exact E|apply Rinv_le_contravar; lra].
    - assert (Q1 : sqrt (Q2R xh) * sqrt (Q2R xh) = Q2R xh) by (apply sqrt_sqrt; lra). assert (Q2 : sqrt x * sqrt x = x) by (apply sqrt_sqrt; lra).
      apply Rmult_eq_reg_r with (sqrt (Q2R xh) + sqrt x); [|lra]. rewrite Rmult_assoc, Rinv_l, Rmult_1_r by lra. transitivity (sqrt (Q2R xh) * sqrt (Q2R xh) - sqrt x * sqrt x); [lra|ring]. }
  split; [apply (sqrt_double m Hm)|split; [cbn [isqrt lo hi]; lra|]].
  cbn [isqrt er]. eapply Rle_trans; [|apply up_ge]. rewrite !Q2R_plus, Q2R_mult, Q2R_plus, (Q2R_div _ _ NL).
  assert (V : Q2R (1 # 2 ^ 52) = / 2 ^ 52) by (unfold Q2R; cbn [Qnum Qden]; rewrite Rmult_1_l; f_equal; change (IZR (Zpos (2 ^ 52))) with (IZR 4503599627370496); lra).
  rewrite V. assert (W : sqrt (Q2R xh) <= Q2R (sq_hi (hi i)) + Q2R (er i) / Q2R (sq_lo (lo i))) by (apply Rabs_le_inv in G; lra).
  assert (W0 : 0 <= / 2 ^ 52) by lra. apply (Rmult_le_compat_l _ _ _ W0) in W.
  replace (Q2R (m_sqrt m xh) - sqrt x) with ((Q2R (m_sqrt m xh) - sqrt (Q2R xh)) + (sqrt (Q2R xh) - sqrt x)) by ring.
  eapply Rle_trans; [apply Rabs_triang|]. lra.
Qed.
(** sine and cosine *)
Definition itrig (i : itv) : itv := mkI (-1) 1 (er i + uQ).
Lemma cos_lip x y : Rabs (cos x - cos y) <= Rabs (x - y).
Proof. rewrite !cos_sin. eapply Rle_trans; [apply sin_lip|]. right. f_equal. ring. Qed.
Lemma ap_sin m i xh x : accurate m -> ap i xh x -> ap (itrig i) (m_sin m xh) (sin x).
Proof.
  intros Hm (D & B & E). split; [apply (sin_double m Hm)|split].
  - cbn [itrig lo hi]. rewrite Q2R_m1, Q2R_1. pose proof (SIN_bound x). lra.
  - cbn [itrig er]. rewrite Q2R_plus, u_val. pose proof (sin_accurate m Hm xh D) as A. pose proof (sin_lip (Q2R xh) x) as L.
    replace (Q2R (m_sin m xh) - sin x) with ((Q2R (m_sin m xh) - sin (Q2R xh)) + (sin (Q2R xh) - sin x)) by ring. eapply Rle_trans; [apply Rabs_triang|]. lra.
Qed.
Lemma ap_cos m i xh x : accurate m -> ap i xh x -> ap (itrig i) (m_cos m xh) (cos x).
Proof.
  intros Hm (D & B & E). split; [apply (cos_double m Hm)|split].
  - cbn [itrig lo hi]. rewrite Q2R_m1, Q2R_1. pose proof (COS_bound x). lra.
  - cbn [itrig er]. rewrite Q2R_plus, u_val. pose proof (cos_accurate m Hm xh D) as A. pose proof (cos_lip (Q2R xh) x) as L.
    replace (Q2R (m_cos m xh) - cos x) with ((Q2R (m_cos m xh) - cos (Q2R xh)) + (cos (Q2R xh) - cos x)) by ring. eapply Rle_trans; [apply Rabs_triang|]. lra.
Qed.
(** ** Kepler's equation *)
Section Kepler.
Variables (m : libm) (e M : Q) (c rho : R).
Hypothesis Hm : accurate m.
Hypothesis (De : double e) (DM : double M).
Hypothesis (He : 0 <= Q2R e <= c) (Hc : 0 < c < 1).
Definition step (E : Q) : Q := fadd (fmul (m_sin m E) e) M.
Hypothesis step_err : forall E, double E -> Rabs (Q2R (step E) - (Q2R e * sin (Q2R E) + Q2R M)) <= rho.
Fixpoint it (n : nat) : Q := match n with O => M | S k => step (it k) end.
Definition itp (n : nat) : Q := match n with O => 0%Q | S k => it k end.
Definition small (n : nat) : bool := Qle_bool (Qabs (fsub (it n) (itp n))) limit_d.
Lemma it_double n : double (it n).
Proof. destruct n; [exact DM|]. apply ProofB64.b64_double. Qed.
Lemma loop_d : forall left i, exists j, kepler_loop_d m left i (it i) (itp i) e M = (j, it j) /\ (i <= j <= i + left)%nat /\
  ((j < i + left)%nat -> small j = true) /\ forall k, (i <= k)%nat -> small k = true -> (j <= k)%nat.
Proof.
  induction left as [|l IH]; intro i; cbn [kepler_loop_d].
  - exists i. split; [reflexivity|]. split; [lia|]. split; [lia|]. intros; lia.
  - fold (small i). destruct (small i) eqn:S.
    + exists i. split; [reflexivity|]. split; [lia|]. split; [auto|]. intros; lia.
    + destruct (IH (Datatypes.S i)) as (j & E & B & C & D). cbn [it itp] in E. fold (step (it i)). exists j. split; [exact E|]. split; [lia|]. split; [intro; apply C; lia|].
      intros k K SK. apply D; [|exact SK]. destruct (Nat.eq_dec k i) as [->|]; [congruence|lia].
Qed.
Definition rgap (n : nat) : R := Rabs (Q2R (it (S n)) - Q2R (it n)).
Lemma rho_pos : 0 <= rho.
Proof. pose proof (step_err M DM). pose proof (Rabs_pos (Q2R (step M) - (Q2R e * sin (Q2R M) + Q2R M))). lra. Qed.
Lemma rgap_bound : c + rho <= 1 -> forall n, rgap n <= c ^ n + 2 * rho / (1 - c).
Proof.
  intros H0. assert (P : 0 <= 2 * rho / (1 - c)) by (pose proof rho_pos; unfold Rdiv; apply Rmult_le_pos; [lra|apply Rlt_le, Rinv_0_lt_compat; lra]).
  induction n as [|n IH].
  - unfold rgap. cbn [it pow]. pose proof (step_err M DM) as S. pose proof (SIN_bound (Q2R M)) as B.
    replace (Q2R (step M) - Q2R M) with ((Q2R (step M) - (Q2R e * sin (Q2R M) + Q2R M)) + Q2R e * sin (Q2R M)) by ring.
    eapply Rle_trans; [apply Rabs_triang|]. assert (Rabs (Q2R e * sin (Q2R M)) <= c); [|lra].
    rewrite Rabs_mult, (Rabs_pos_eq (Q2R e)) by lra. rewrite <- (Rmult_1_r c). apply Rmult_le_compat; [lra|apply Rabs_pos|lra|apply Rabs_le; lra].
  - unfold rgap in *. cbn [it pow] in *. set (a := it n) in *. assert (Da : double a) by apply it_double. clearbody a. set (b := step a) in *.
    assert (Db : double b) by apply ProofB64.b64_double.
    pose proof (step_err a Da) as S1. fold b in S1. pose proof (step_err b Db) as S2. pose proof (sin_lip (Q2R b) (Q2R a)) as L.
    replace (Q2R (step b) - Q2R b) with ((Q2R (step b) - (Q2R e * sin (Q2R b) + Q2R M)) + (- (Q2R b - (Q2R e * sin (Q2R a) + Q2R M)) + Q2R e * (sin (Q2R b) - sin (Q2R a)))) by ring.
    eapply Rle_trans; [apply Rabs_triang|]. eapply Rle_trans; [apply Rplus_le_compat_l, Rabs_triang|]. rewrite Rabs_Ropp, Rabs_mult, (Rabs_pos_eq (Q2R e)) by lra.
    assert (X : Q2R e * Rabs (sin (Q2R b) - sin (Q2R a)) <= c * (c ^ n + 2 * rho / (1 - c))) by (apply Rmult_le_compat; [lra|apply Rabs_pos|lra|lra]).
    assert (Y : c * (2 * rho / (1 - c)) + 2 * rho = 2 * rho / (1 - c)) by (field; lra). lra.
Qed.
Lemma limit_lo : 99999 / 100000 * / 10 ^ 14 <= Q2R limit_d.
Proof.
  assert (A : (99999 # 10000000000000000000 <= limit_d)%Q) by (apply Qle_bool_iff; vm_compute; reflexivity). apply Qle_Rle in A. rewrite Q2R_frac in A. lra.
Qed.
Lemma limit_hi : Q2R limit_d <= 100001 / 100000 * / 10 ^ 14.
Proof.
  assert (A : (limit_d <= 100001 # 10000000000000000000)%Q) by (apply Qle_bool_iff; vm_compute; reflexivity). apply Qle_Rle in A. rewrite Q2R_frac in A. lra.
Qed.
Lemma small_of k : Rabs (Q2R (it k) - Q2R (itp k)) <= Q2R limit_d -> small k = true.
Proof.
  intro H. unfold small. apply Qle_bool_iff. rewrite <- Q2R_minus, <- Q2R_abs in H. apply Rle_Qle in H. apply Qabs_Qle_condition in H.
  assert (DL : double limit_d) by apply ProofB64.b64_double. unfold fsub. apply Qabs_Qle_condition. destruct H as (H1 & H2). split.
  - apply ProofB64.b64_ge; [|exact H1]. destruct DL as (z & k' & A & B & C). exists (- z)%Z, k'. rewrite Z.abs_opp. split; [exact A|split; [exact B|]]. rewrite C, inject_Z_opp. ring.
  - apply ProofB64.b64_le; assumption.
Qed.
Lemma small_gap k : small k = true -> Rabs (Q2R (it k) - Q2R (itp k)) <= 10001 / 10000 * / 10 ^ 14.
Proof.
  intro H. unfold small in H. apply qle_b in H. rewrite Q2R_abs in H. unfold fsub in H.
  pose proof (b64_R (it k - itp k)) as B. rewrite Q2R_minus in B. set (d := Q2R (it k) - Q2R (itp k)) in *. rewrite u_val in B.
  assert (h0 : Q2R hQ <= / 10 ^ 20).
  { assert (A : (hQ <= 1 # 100000000000000000000)%Q) by (apply Qle_bool_iff; vm_compute; reflexivity). apply Qle_Rle in A. rewrite (Q2R_frac 1 100000000000000000000) in A. lra. }
  pose proof limit_hi as L. assert (T : Rabs d <= Rabs (Q2R (b64 (it k - itp k))) + (/ 2 ^ 53 * Rabs d + Q2R hQ)).
  { replace d with (Q2R (b64 (it k - itp k)) - (Q2R (b64 (it k - itp k)) - d)) at 1 by ring. eapply Rle_trans; [apply Rabs_triang|]. rewrite Rabs_Ropp. lra. }
  lra.
Qed.
Lemma kepler_generic N : c + rho <= 1 -> (N <= 998)%nat -> c ^ N + 2 * rho / (1 - c) <= 99999 / 100000 * / 10 ^ 14 ->
  exists E, kepler_solve_d m e M = Some E /\ double E /\ Rabs (Q2R E - Q2R e * sin (Q2R E) - Q2R M) <= rho + c * (10001 / 10000 * / 10 ^ 14).
Proof.
  intros H0 HN HG. assert (SN : small (S N) = true).
  { apply small_of. change (itp (S N)) with (it N). pose proof (rgap_bound H0 N) as G. unfold rgap in G. pose proof limit_lo. lra. }
  unfold kepler_solve_d. destruct (loop_d 1001 0) as (j & E & B & C & D). change (it 0) with M in E. change (itp 0) with 0%Q in E. rewrite E.
  specialize (D (S N) ltac:(lia) SN). assert (J : (j < 1000)%nat) by lia. apply Nat.leb_gt in J. rewrite J. apply Nat.leb_gt in J.
  exists (it j). split; [reflexivity|]. split; [apply it_double|]. specialize (C ltac:(lia)). apply small_gap in C.
  pose proof rho_pos as R0. assert (L0 : 0 <= 10001 / 10000 * / 10 ^ 14) by lra.
  assert (G : Rabs (Q2R e * (sin (Q2R (itp j)) - sin (Q2R (it j)))) <= c * (10001 / 10000 * / 10 ^ 14)).
  { rewrite Rabs_mult, (Rabs_pos_eq (Q2R e)) by lra. apply Rmult_le_compat; [lra|apply Rabs_pos|lra|]. eapply Rle_trans; [apply sin_lip|]. rewrite Rabs_minus_sym. exact C. }
  destruct j as [|k]; cbn [it itp] in *.
  - rewrite Q2R_0, sin_0 in G. replace (Q2R M - Q2R e * sin (Q2R M) - Q2R M) with (Q2R e * (0 - sin (Q2R M))) by ring. lra.
  - pose proof (step_err (it k) (it_double k)) as S. set (a := it k) in *. clearbody a. set (b := step a) in *. clearbody b.
    replace (Q2R b - Q2R e * sin (Q2R b) - Q2R M) with ((Q2R b - (Q2R e * sin (Q2R a) + Q2R M)) + Q2R e * (sin (Q2R a) - sin (Q2R b))) by ring.
    eapply Rle_trans; [apply Rabs_triang|]. lra.
Qed.
End Kepler.

(** the error of one step: the product below 2^kp, the sum below 2^ks *)
Lemma b64_below q k b : (-1021 <= k)%Z -> Rabs (Q2R q) < Q2R (2 ^ k) -> Q2R (2 ^ (k - 54)) <= b -> Rabs (Q2R (b64 q) - Q2R q) <= b.
Proof.
  intros K H B. rewrite <- Q2R_abs in H. apply Rlt_Qlt in H. pose proof (ProofB64.b64_abs q k K H) as A. apply abs_le in A. rewrite Q2R_minus in A. lra.
Qed.
Lemma step_bound m e M c b kp ks (bp bs : R) : accurate m -> 0 <= Q2R e <= c -> Rabs (Q2R M) <= b ->
  (-1021 <= kp)%Z -> (-1021 <= ks)%Z -> (1 + / 2 ^ 53) * c < Q2R (2 ^ kp) -> Q2R (2 ^ (kp - 54)) <= bp -> (1 + / 2 ^ 53) * c + bp + b < Q2R (2 ^ ks) -> Q2R (2 ^ (ks - 54)) <= bs ->
  forall E, double E -> Rabs (Q2R (step m e M E) - (Q2R e * sin (Q2R E) + Q2R M)) <= bs + bp + c * / 2 ^ 53.
Proof.
  intros Hm He HM Kp Ks H1 H2 H3 H4 E D. unfold step, fadd, fmul.
  pose proof (sin_accurate m Hm E D) as S. pose proof (SIN_bound (Q2R E)) as SB. set (s := m_sin m E) in *. clearbody s.
  assert (As : Rabs (Q2R s) <= 1 + / 2 ^ 53) by (apply Rabs_le_inv in S; apply Rabs_le; lra).
  assert (P : Rabs (Q2R (s * e)) <= (1 + / 2 ^ 53) * c) by (rewrite Q2R_mult, Rabs_mult; apply Rmult_le_compat; try apply Rabs_pos; [exact As|rewrite Rabs_pos_eq; lra]).
  assert (B1 : Rabs (Q2R (b64 (s * e)) - Q2R (s * e)) <= bp) by (apply (b64_below _ kp); [exact Kp|lra|exact H2]).
  set (p := b64 (s * e)) in *. clearbody p.
  assert (P2 : Rabs (Q2R (p + M)) < Q2R (2 ^ ks)).
  { rewrite Q2R_plus. eapply Rle_lt_trans; [apply Rabs_triang|]. apply Rabs_le_inv in B1. apply Rabs_le_inv in P. assert (Rabs (Q2R p) <= (1 + / 2 ^ 53) * c + bp) by (apply Rabs_le; lra). lra. }
  assert (B2 : Rabs (Q2R (b64 (p + M)) - Q2R (p + M)) <= bs) by (apply (b64_below _ ks); [exact Ks|exact P2|exact H4]).
  rewrite Q2R_plus in B2. rewrite Q2R_mult in B1.
  replace (Q2R (b64 (p + M)) - (Q2R e * sin (Q2R E) + Q2R M)) with
    ((Q2R (b64 (p + M)) - (Q2R p + Q2R M)) + ((Q2R p - Q2R s * Q2R e) + Q2R e * (Q2R s - sin (Q2R E)))) by ring.
  eapply Rle_trans; [apply Rabs_triang|]. eapply Rle_trans; [apply Rplus_le_compat_l, Rabs_triang|]. rewrite Rabs_mult, (Rabs_pos_eq (Q2R e)) by lra.
  assert (Q2R e * Rabs (Q2R s - sin (Q2R E)) <= c * / 2 ^ 53) by (apply Rmult_le_compat; [lra|apply Rabs_pos|lra|exact S]). lra.
Qed.
Lemma pow_n_le c d n v : 0 <= c <= d -> d ^ n <= v -> c ^ n <= v.
Proof. intros H V. eapply Rle_trans; [apply pow_incr, H|exact V]. Qed.
Lemma solve_medium m e M : accurate m -> double e -> double M -> 0 <= Q2R e <= 1 / 5 -> Rabs (Q2R M) <= 63 ->
  exists E, kepler_solve_d m e M = Some E /\ double E /\ Rabs (Q2R E - Q2R e * sin (Q2R E) - Q2R M) <= 56 / 10 ^ 16.
Proof.
  intros Hm De DM He HM.
  assert (S : forall E, double E -> Rabs (Q2R (step m e M E) - (Q2R e * sin (Q2R E) + Q2R M)) <= / 2 ^ 48 + / 2 ^ 56 + 1 / 5 * / 2 ^ 53).
  { apply (step_bound m e M (1 / 5) 63 (-2) 6); try assumption; try discriminate.
    - change (2 ^ (-2))%Q with (1 # 4)%Q. rewrite Q2R_frac. lra.
    - change (2 ^ (-2 - 54))%Q with (1 # 72057594037927936)%Q. rewrite Q2R_frac. lra.
    - change (2 ^ 6)%Q with (64 # 1)%Q. rewrite Q2R_frac. lra.
    - change (2 ^ (6 - 54))%Q with (1 # 281474976710656)%Q. rewrite Q2R_frac. lra. }
  destruct (kepler_generic m e M (1 / 5) _ DM He ltac:(lra) S 40) as (E & K & D & R); [lra|lia| |].
  - lra.
  - exists E. split; [exact K|split; [exact D|]]. lra.
Qed.
Lemma solve_half m e M : accurate m -> double e -> double M -> 0 <= Q2R e <= 1 / 2 -> Rabs (Q2R M) <= 31 ->
  exists E, kepler_solve_d m e M = Some E /\ double E /\ Rabs (Q2R E - Q2R e * sin (Q2R E) - Q2R M) <= 70 / 10 ^ 16.
Proof.
  intros Hm De DM He HM.
  assert (S : forall E, double E -> Rabs (Q2R (step m e M E) - (Q2R e * sin (Q2R E) + Q2R M)) <= / 2 ^ 49 + / 2 ^ 54 + 1 / 2 * / 2 ^ 53).
  { apply (step_bound m e M (1 / 2) 31 0 5); try assumption; try discriminate.
    - change (2 ^ 0)%Q with (1 # 1)%Q. rewrite Q2R_frac. lra.
    - change (2 ^ (0 - 54))%Q with (1 # 18014398509481984)%Q. rewrite Q2R_frac. lra.
    - change (2 ^ 5)%Q with (32 # 1)%Q. rewrite Q2R_frac. lra.
    - change (2 ^ (5 - 54))%Q with (1 # 562949953421312)%Q. rewrite Q2R_frac. lra. }
  destruct (kepler_generic m e M (1 / 2) _ DM He ltac:(lra) S 60) as (E & K & D & R); [lra|lia| |].
  - lra.
  - exists E. split; [exact K|split; [exact D|]]. lra.
Qed.
Lemma solve_turn m e M : accurate m -> double e -> double M -> 0 <= Q2R e <= 85 / 100 -> Rabs (Q2R M) <= 3149 / 1000 ->
  exists E, kepler_solve_d m e M = Some E /\ double E /\ Rabs (Q2R E - Q2R e * sin (Q2R E) - Q2R M) <= 90 / 10 ^ 16.
Proof.
  intros Hm De DM He HM.
  assert (S : forall E, double E -> Rabs (Q2R (step m e M E) - (Q2R e * sin (Q2R E) + Q2R M)) <= / 2 ^ 52 + / 2 ^ 54 + 85 / 100 * / 2 ^ 53).
  { apply (step_bound m e M (85 / 100) (3149 / 1000) 0 2); try assumption; try discriminate.
    - change (2 ^ 0)%Q with (1 # 1)%Q. rewrite Q2R_frac. lra.
    - change (2 ^ (0 - 54))%Q with (1 # 18014398509481984)%Q. rewrite Q2R_frac. lra.
    - change (2 ^ 2)%Q with (4 # 1)%Q. rewrite Q2R_frac. lra.
    - change (2 ^ (2 - 54))%Q with (1 # 4503599627370496)%Q. rewrite Q2R_frac. lra. }
  assert (P : (85 / 100) ^ 250 <= / 10 ^ 16) by (apply (pow_IZR_le 85 100 250 16); [lia|vm_compute; discriminate]).
  destruct (kepler_generic m e M (85 / 100) _ DM He ltac:(lra) S 250) as (E & K & D & R); [lra|lia| |].
  - set (w := (85 / 100) ^ 250) in *. clearbody w. lra.
  - exists E. split; [exact K|split; [exact D|]]. clear P. lra.
Qed.
(** Kepler's equation with an inexact mean anomaly *)
Definition ikep (i : itv) : itv := mkI (lo i - (1 # 5)) (hi i + (1 # 5)) ((er i + (56 # 10000000000000000)) * (5 # 4)).
Lemma ap_kepler m i e Mh M : accurate m -> double e -> 0 <= Q2R e <= 1 / 5 -> ap i Mh M -> Qle_bool (mag (lo i) (hi i) + er i) 63 = true ->
  exists Eh, kepler_solve_d m e Mh = Some Eh /\ forall E, kepler_eq (Q2R e) M E -> ap (ikep i) Eh E.
Proof.
  intros Hm De He (D & B & E) H. apply qle_b in H. rewrite Q2R_plus in H. pose proof (mag_ok _ _ _ B) as Mg.
  assert (V : Q2R 63 = 63) by (unfold Q2R; cbn [Qnum Qden]; lra). rewrite V in H.
  destruct (solve_medium m e Mh Hm De D He) as (Eh & K & DE & R).
  { replace (Q2R Mh) with (M + (Q2R Mh - M)) by ring. eapply Rle_trans; [apply Rabs_triang|]. lra. }
  exists Eh. split; [exact K|]. intros E0 K0. split; [exact DE|]. split.
  - cbn [ikep lo hi]. rewrite Q2R_minus, Q2R_plus, Q2R_frac. unfold kepler_eq in K0. pose proof (SIN_bound E0) as SB.
    assert (T : Rabs (Q2R e * sin E0) <= 1 / 5) by (rewrite Rabs_mult, (Rabs_pos_eq (Q2R e)) by lra; rewrite <- (Rmult_1_r (1 / 5)); apply Rmult_le_compat; [lra|apply Rabs_pos|lra|apply Rabs_le; lra]).
    apply Rabs_le_inv in T. lra.
  - cbn [ikep er]. rewrite Q2R_mult, Q2R_plus, !Q2R_frac.
    assert (X : Rabs (Q2R Eh - Q2R e * sin (Q2R Eh) - M) <= 56 / 10 ^ 16 + Q2R (er i)).
    { replace (Q2R Eh - Q2R e * sin (Q2R Eh) - M) with ((Q2R Eh - Q2R e * sin (Q2R Eh) - Q2R Mh) + (Q2R Mh - M)) by ring. eapply Rle_trans; [apply Rabs_triang|]. lra. }
    pose proof (near_root (Q2R e) M (Q2R Eh) E0 _ ltac:(lra) K0 X) as N. pose proof (Rabs_pos (Q2R Eh - E0)) as P.
    assert (Rabs (Q2R Eh - E0) * (4 / 5) <= Rabs (Q2R Eh - E0) * (1 - Q2R e)) by (apply Rmult_le_compat_l; lra). lra.
Qed.

(** ** The angle of an inexact unit vector *)
Lemma atan_le t : Rabs (atan t) <= Rabs t.
Proof.
  assert (P : forall x, 0 < x -> atan x <= x).
  { intros x H. destruct (MVT_cor2 atan (fun x => / (1 + x ^ 2)) 0 x H) as (c & E & _).
    - intros c _. apply derivable_pt_lim_atan.
    - rewrite atan_0, !Rminus_0_r in E. rewrite E. rewrite <- (Rmult_1_l x) at 2. apply Rmult_le_compat_r; [lra|]. rewrite <- Rinv_1. apply Rinv_le_contravar; nra. }
  destruct (Rtotal_order t 0) as [H|[->|H]].
  - pose proof (P (- t) ltac:(lra)) as Q. rewrite atan_opp in Q. pose proof (atan_increasing t 0 H) as I. rewrite atan_0 in I. rewrite !Rabs_left by lra. lra.
  - rewrite atan_0. lra.
  - pose proof (P t H). pose proof (atan_increasing 0 t H) as I. rewrite atan_0 in I. rewrite !Rabs_pos_eq by lra. lra.
Qed.
Lemma atan2_range y x : Rabs (atan2 y x) <= PI.
Proof.
  pose proof PI_RGT_0 as P. unfold atan2. pose proof (atan_bound (y / x)) as B.
  destruct (Rlt_dec 0 x); [apply Rabs_le; lra|]. destruct (Rlt_dec x 0) as [X|X].
  - assert (I : / x < 0) by (apply Rinv_lt_0_compat, X). destruct (Rle_dec 0 y) as [Y|Y].
    + assert (T : y / x <= 0) by (unfold Rdiv; nra). assert (A : atan (y / x) <= 0).
      { destruct T as [T|T]; [pose proof (atan_increasing _ _ T) as Q; rewrite atan_0 in Q; lra|rewrite T, atan_0; lra]. } apply Rabs_le; lra.
    + assert (T : 0 < y / x) by (unfold Rdiv; nra). pose proof (atan_increasing _ _ T) as A. rewrite atan_0 in A. apply Rabs_le; lra.
  - destruct (Rlt_dec 0 y); [apply Rabs_le; lra|]. destruct (Rlt_dec y 0); [apply Rabs_le; lra|]. rewrite Rabs_R0. lra.
Qed.
Definition iangle (i j : itv) : itv := mkI (-5) 5 ((1001 # 1000) * (er i + er j) + (1 # 2 ^ 51)).
Lemma ap_angle m i j yh xh v : accurate m -> ap i yh (sin v) -> ap j xh (cos v) -> Qle_bool (er i + er j) (1 # 2000) = true ->
  exists f, cos f = cos v /\ sin f = sin v /\ ap (iangle i j) (m_atan2 m yh xh) f.
Proof.
  intros Hm (Dy & _ & Ey) (Dx & _ & Ex) H. apply qle_b in H. rewrite Q2R_plus, Q2R_frac in H.
  pose proof (atan2_accurate m Hm yh xh Dy Dx) as AA.
  set (y := Q2R yh) in *. set (x := Q2R xh) in *. set (dy := y - sin v) in *. set (dx := x - cos v) in *.
  set (cc := x * cos v + y * sin v). set (ss := y * cos v - x * sin v). set (dl := Q2R (er i) + Q2R (er j)) in *.
  pose proof (sin2_cos2 v) as U. unfold Rsqr in U. pose proof (SIN_bound v) as SB. pose proof (COS_bound v) as CB.
  assert (Bs : Rabs ss <= dl).
  { assert (T : ss = dy * cos v + - (dx * sin v)) by (unfold ss, dy, dx; ring). rewrite T. eapply Rle_trans; [apply Rabs_triang|]. rewrite Rabs_Ropp, !Rabs_mult. unfold dl.
    apply Rplus_le_compat; rewrite <- Rmult_1_r; apply Rmult_le_compat; try apply Rabs_pos; try assumption; apply Rabs_le; lra. }
  assert (Bc : 1 - dl <= cc).
  { assert (T : cc = (sin v * sin v + cos v * cos v) + (dy * sin v + dx * cos v)) by (unfold cc, dy, dx; ring). rewrite T, U.
    assert (Q : Rabs (dy * sin v + dx * cos v) <= dl).
    { eapply Rle_trans; [apply Rabs_triang|]. rewrite !Rabs_mult. unfold dl.
      apply Rplus_le_compat; rewrite <- Rmult_1_r; apply Rmult_le_compat; try apply Rabs_pos; try assumption; apply Rabs_le; lra. }
    apply Rabs_le_inv in Q. lra. }
  assert (c0 : 0 < cc) by lra. pose proof (Rabs_pos ss) as s0.
  assert (NN : cc ^ 2 + ss ^ 2 = x ^ 2 + y ^ 2).
  { transitivity ((x ^ 2 + y ^ 2) * (sin v * sin v + cos v * cos v)); [unfold cc, ss; ring|rewrite U; ring]. }
  assert (N1 : x ^ 2 + y ^ 2 <> 0) by (rewrite <- NN; nra). assert (N2 : cc ^ 2 + ss ^ 2 <> 0) by (rewrite NN; exact N1).
  destruct (atan2_cs y x N1) as (C1 & S1). destruct (atan2_cs ss cc N2) as (C2 & S2). rewrite NN in C2, S2.
  assert (W : sqrt (x ^ 2 + y ^ 2) * sqrt (x ^ 2 + y ^ 2) = x ^ 2 + y ^ 2) by (apply sqrt_sqrt; nra).
  assert (w0 : sqrt (x ^ 2 + y ^ 2) <> 0) by (intro Z; rewrite Z in W; lra).
  set (th := atan2 y x) in *. set (al := atan2 ss cc) in *. set (w := sqrt (x ^ 2 + y ^ 2)) in *.
  assert (Bal : Rabs al <= 1001 / 1000 * dl).
  { unfold al, atan2. destruct (Rlt_dec 0 cc); [|lra]. eapply Rle_trans; [apply atan_le|]. unfold Rdiv. rewrite Rabs_mult, (Rabs_pos_eq (/ cc)) by (apply Rlt_le, Rinv_0_lt_compat; lra).
    apply Rmult_le_reg_r with cc; [exact c0|]. rewrite Rmult_assoc, Rinv_l, Rmult_1_r by lra. nra. }
  exists (th - al). split; [|split].
  - rewrite cos_minus, C1, S1, C2, S2. transitivity ((x * cc + y * ss) / (w * w)); [field; exact w0|]. rewrite W. unfold cc, ss. field. exact N1.
  - rewrite sin_minus, C1, S1, C2, S2. transitivity ((y * cc - x * ss) / (w * w)); [field; exact w0|]. rewrite W. unfold cc, ss. field. exact N1.
  - split; [apply (atan2_double m Hm)|split].
    + cbn [iangle lo hi]. assert (V5 : Q2R (-5) = -5) by (unfold Q2R; cbn [Qnum Qden]; lra). assert (V6 : Q2R 5 = 5) by (unfold Q2R; cbn [Qnum Qden]; lra). rewrite V5, V6.
      pose proof (atan2_range y x) as R. fold th in R. pose proof PI_4 as P4. apply Rabs_le_inv in R. apply Rabs_le_inv in Bal. lra.
    + cbn [iangle er]. rewrite Q2R_plus, Q2R_mult, Q2R_plus. rewrite (Q2R_frac 1001 1000).
      assert (V : Q2R (1 # 2 ^ 51) = / 2 ^ 51) by (unfold Q2R; cbn [Qnum Qden]; rewrite Rmult_1_l; f_equal; change (IZR (Zpos (2 ^ 51))) with (IZR 2251799813685248); lra). rewrite V.
      fold dl. replace (Q2R (m_atan2 m yh xh) - (th - al)) with ((Q2R (m_atan2 m yh xh) - th) + al) by ring. eapply Rle_trans; [apply Rabs_triang|].
      assert (NZ : ~ (yh == 0 /\ xh == 0)%Q).
      { intros (A & B). apply Qeq_eqR in A, B. rewrite Q2R_0 in A, B. fold y in A. fold x in B. apply N1. rewrite A, B. ring. }
      specialize (AA NZ). lra.
Qed.
