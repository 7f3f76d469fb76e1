(** PropertiesKalD: C110, the Kalman filter's predicted pseudoranges, residuals and Jacobian in machine doubles *)
From Coq Require Import Qabs Qround Reals Qreals Lra Lia ZArith QArith List.
From Verif Require Import B64 SpecB64 ModelFloat ModelFloat3 SpecFloat SpecKalD ProofFloat PropertiesFloat ProofGloD.
From Verif Require ProofB64.
Import ListNotations.
Local Open Scope R_scope.
Local Opaque fadd fsub fmul fdiv.

Definition i_rec : itv := mkI (- (7000000)) 7000000 0.
Definition i_sat : itv := mkI (- (43000000)) 43000000 0.
Definition i_dx : itv := csub i_sat i_rec.
Definition i_sq : itv := cmul i_dx i_dx.
Definition i_s3 : itv := let s := cadd (cadd i_sq i_sq) i_sq in mkI (15000000 * 15000000) (hi s) (er s).
Definition i_rng : itv := csqrt i_s3.
Definition i_cdt : itv := mkI (- (300000000)) 300000000 0.
Definition i_prd : itv := cadd i_rng i_cdt.
Definition i_obs : itv := mkI (- (500000000)) 500000000 0.
Definition i_sck : itv := mkI (- (1 # 100)) (1 # 100) 0.
Definition i_cl : itv := mkI 299792458 299792458 0.
Definition i_one : itv := mkI (- (1)) 1 0.
Definition i_mea : itv := cadd i_obs (cmul (cmul i_sck i_cl) i_one).
Definition i_jac : itv := cdiv (cmul (iopp i_one) i_dx) i_rng.

Lemma ap_er i xh x b : ap i xh x -> Qle_bool (er i) b = true -> Rabs (Q2R xh - x) <= Q2R b.
Proof. intros (_ & _ & E) H. apply qle_b in H. lra. Qed.
Lemma ap_dx st sv i : tracking st sv -> (i < 3)%nat -> ap i_dx (fsub (sv i) (st i)) (Q2R (sv i) - Q2R (st i)).
Proof.
  intros T H. apply ac_sub; apply ap_exact_abs; [apply (tr_sat _ _ T)|apply (tr_satellite _ _ T), H|apply (tr_state _ _ T)|apply (tr_receiver _ _ T), H].
Qed.
Lemma ap_range_d m st sv : accurate m -> tracking st sv -> ap i_rng (range_d m st sv) (distance st sv).
Proof.
  intros Hm T. pose proof (ap_dx st sv 0 T ltac:(lia)) as X. pose proof (ap_dx st sv 1 T ltac:(lia)) as Y. pose proof (ap_dx st sv 2 T ltac:(lia)) as Z.
  pose proof (tr_apart _ _ T) as A. unfold distance in A |- *.
  pose proof (ac_add _ _ _ _ _ _ (ac_add _ _ _ _ _ _ (ac_mul _ _ _ _ _ _ X X) (ac_mul _ _ _ _ _ _ Y Y)) (ac_mul _ _ _ _ _ _ Z Z)) as S. fold i_sq in S.
  set (x := Q2R (sv 0%nat) - Q2R (st 0%nat)) in *. set (y := Q2R (sv 1%nat) - Q2R (st 1%nat)) in *. set (z := Q2R (sv 2%nat) - Q2R (st 2%nat)) in *.
  replace (x ^ 2 + y ^ 2 + z ^ 2) with (x * x + y * y + z * z) in * by ring. unfold range_d. cbv zeta.
  apply ac_sqrt; [exact Hm| |vm_compute; reflexivity]. unfold i_s3. cbv zeta. apply (ap_range _ _ _ _ _ S).
  destruct S as (_ & (_ & S) & _). split; [|exact S].
  assert (P : 0 <= x * x + y * y + z * z) by nra.
  rewrite Q2R_mult, (Q2R_z 15000000).
  rewrite <- (sqrt_sqrt (x * x + y * y + z * z)) by exact P. apply Rmult_le_compat; lra.
Qed.
Lemma ap_pred m st sv : accurate m -> tracking st sv -> ap i_prd (fadd (range_d m st sv) (st 3%nat)) (distance st sv + Q2R (st 3%nat)).
Proof. intros Hm T. apply ac_add; [apply ap_range_d; assumption|]. apply ap_exact_abs; [apply (tr_state _ _ T)|apply (tr_clock _ _ T)]. Qed.
Lemma ap_scale c : scale c -> ap i_one c (Q2R c). Proof. intros (D & H). apply ap_exact_abs; assumption. Qed.
Lemma ap_meas st sv o c : tracking st sv -> observed o -> scale c ->
  ap i_mea (fadd o (fmul (fmul (sv 3%nat) 299792458) c)) (Q2R o + Q2R (sv 3%nat) * 299792458 * Q2R c).
Proof.
  intros T (D & O) C. apply ac_add; [apply ap_exact_abs; assumption|]. apply ac_mul; [|apply ap_scale, C].
  apply ac_mul; [apply ap_exact_abs; [apply (tr_sat _ _ T)|apply (tr_satclock _ _ T)]|apply (ap_int 299792458); discriminate].
Qed.
Lemma nth_map {A} (f : nat -> A) d n i : (i < n)%nat -> nth i (map f (seq 0 n)) d = f i.
Proof. intro H. rewrite (nth_indep _ d (f 0%nat)) by (rewrite map_length, seq_length; exact H). rewrite map_nth, seq_nth by exact H. reflexivity. Qed.

(** ** C110 *)
(** The predicted pseudoranges: one per satellite, each within a micrometre of distance plus clock. *)
Theorem C110_predicted : forall m n st sv, accurate m -> (forall i, (i < n)%nat -> tracking st (sv i)) ->
  length (pseudoranges_d m n st sv) = n /\
  forall i, (i < n)%nat -> Rabs (Q2R (nth i (pseudoranges_d m n st sv) 0%Q) - (distance st (sv i) + Q2R (st 3%nat))) <= / 10 ^ 6.
Proof.
  intros m n st sv Hm T. split; [unfold pseudoranges_d; rewrite map_length, seq_length; reflexivity|]. intros i H. unfold pseudoranges_d. rewrite nth_map by exact H.
  eapply Rle_trans; [apply (ap_er _ _ _ (1 # 1000000) (ap_pred m st (sv i) Hm (T i H))); vm_compute; reflexivity|]. rewrite Q2R_frac. lra.
Qed.
Print Assumptions C110_predicted.
(** The measurements: the observation corrected by the satellite's clock, or the observation itself. *)
Theorem C110_measured : forall n obs st sv c, scale c -> (forall i, (i < n)%nat -> tracking st (sv i) /\ observed (obs i)) ->
  length (measurements_d true n obs sv c) = n /\
  (forall i, (i < n)%nat -> Rabs (Q2R (nth i (measurements_d true n obs sv c) 0%Q) - (Q2R (obs i) + Q2R (sv i 3%nat) * 299792458 * Q2R c)) <= / 10 ^ 7) /\
  forall i, (i < n)%nat -> nth i (measurements_d false n obs sv c) 0%Q = obs i.
Proof.
  intros n obs st sv c C T. split; [cbn [measurements_d]; rewrite map_length, seq_length; reflexivity|split]; intros i H; cbn [measurements_d]; rewrite nth_map by exact H; [|reflexivity].
  destruct (T i H) as (T1 & O). eapply Rle_trans; [apply (ap_er _ _ _ (1 # 10000000) (ap_meas st (sv i) _ c T1 O C)); vm_compute; reflexivity|]. rewrite Q2R_frac. lra.
Qed.
Print Assumptions C110_measured.
(** The residuals: observed minus computed, within two micrometres. *)
Theorem C110_residuals : forall m n obs st sv c, accurate m -> scale c -> (forall i, (i < n)%nat -> tracking st (sv i) /\ observed (obs i)) ->
  length (residuals_d m n obs st sv c) = n /\
  forall i, (i < n)%nat -> Rabs (Q2R (nth i (residuals_d m n obs st sv c) 0%Q) -
    (Q2R (obs i) + Q2R (sv i 3%nat) * 299792458 * Q2R c - (distance st (sv i) + Q2R (st 3%nat)))) <= 2 * / 10 ^ 6.
Proof.
  intros m n obs st sv c Hm C T.
  assert (E : residuals_d m n obs st sv c = map (fun i => fsub (fadd (obs i) (fmul (fmul (sv i 3%nat) 299792458) c)) (fadd (range_d m st (sv i)) (st 3%nat))) (seq 0 n)).
  { unfold residuals_d, pseudoranges_d. cbn [measurements_d]. induction (seq 0 n) as [|k l IH]; [reflexivity|]. cbn [map combine fst snd]. rewrite IH. reflexivity. }
  rewrite E. split; [rewrite map_length, seq_length; reflexivity|]. intros i H. rewrite nth_map by exact H. destruct (T i H) as (T1 & O).
  eapply Rle_trans; [apply (ap_er _ _ _ (2 # 1000000) (ac_sub _ _ _ _ _ _ (ap_meas st (sv i) _ c T1 O C) (ap_pred m st (sv i) Hm T1))); vm_compute; reflexivity|]. rewrite Q2R_frac. lra.
Qed.
Print Assumptions C110_residuals.
(** The Jacobian: a row per satellite, the scaled unit vector from the satellite to the receiver, the scale itself for
    the clock, and 0 for its drift. *)
Theorem C110_jacobian : forall m n st sv c, accurate m -> scale c -> (forall i, (i < n)%nat -> tracking st (sv i)) ->
  length (jacobian_d m n st sv c) = n /\
  forall i, (i < n)%nat -> let row := nth i (jacobian_d m n st sv c) [] in
    length row = 5%nat /\
    (forall k, (k < 3)%nat -> Rabs (Q2R (nth k row 0%Q) - Q2R c * (Q2R (st k) - Q2R (sv i k)) / distance st (sv i)) <= / 10 ^ 13) /\
    (nth 3 row 0 == c)%Q /\ (nth 4 row 0 == 0)%Q.
Proof.
  intros m n st sv c Hm C T. split; [unfold jacobian_d; rewrite map_length, seq_length; reflexivity|]. intros i H. cbv zeta. unfold jacobian_d. rewrite nth_map by exact H. cbv zeta.
  split; [reflexivity|]. split; [|split; cbn [nth]].
  - intros k K. assert (A : ap i_jac (fdiv (fmul (- c) (fsub (sv i k) (st k))) (range_d m st (sv i))) (- Q2R c * (Q2R (sv i k) - Q2R (st k)) / distance st (sv i))).
    { apply ac_div; [|apply ap_range_d; [exact Hm|apply T, H]|vm_compute; reflexivity]. apply ac_mul; [apply ap_opp, ap_scale, C|apply ap_dx; [apply T, H|exact K]]. }
    pose proof (ap_er _ _ _ (1 # 10000000000000) A ltac:(vm_compute; reflexivity)) as B. rewrite Q2R_frac in B.
    replace (Q2R c * (Q2R (st k) - Q2R (sv i k))) with (- Q2R c * (Q2R (sv i k) - Q2R (st k))) by ring.
    eapply Rle_trans; [|eapply Rle_trans; [exact B|lra]]. destruct k as [|[|[|k]]]; [right; reflexivity..|lia].
  - destruct C as (D & _). Local Transparent fmul. unfold fmul. rewrite (ProofB64.b64_wd _ c) by ring. apply ProofB64.b64_fix, D.
  - unfold fmul. rewrite (ProofB64.b64_wd _ (inject_Z 0)) by (change (inject_Z 0) with 0%Q; ring). apply (ProofB64.b64_int 0). discriminate.
Qed.
Print Assumptions C110_jacobian.

(** ** a concrete case: a receiver on the equator, two satellites overhead *)
Definition st_ex : nat -> Q := fun i => match i with 0%nat => 6378136 | 3%nat => 1500 | _ => 0 end%Q.
Definition sv_ex : sats := fun i k => match k with 0%nat => 26000000 | 1%nat => inject_Z (Z.of_nat i) * 1000000 | 3%nat => 1 # 1024 | _ => 0 end%Q.
Lemma tracking_ex i : (i < 2)%nat -> tracking st_ex (sv_ex i).
Proof.
  intro H. assert (I : i = 0%nat \/ i = 1%nat) by lia. constructor.
  - intro k. destruct k as [|[|[|[|k]]]]; cbn [st_ex]; (apply (ProofB64.double_int 6378136) || apply (ProofB64.double_int 0) || apply (ProofB64.double_int 1500)); discriminate.
  - intro k. destruct k as [|[|[|[|k]]]]; cbn [sv_ex]; try (apply (ProofB64.double_int 0); discriminate).
    + apply (ProofB64.double_int 26000000); discriminate.
    + destruct I as [-> | ->]; [apply (ProofB64.double_int 0)|apply (ProofB64.double_int 1000000)]; discriminate.
    + exists 1%Z, (-10)%Z. split; [reflexivity|]. split; [discriminate|]. reflexivity.
  - intros k K. destruct k as [|[|[|k]]]; try lia; discriminate.
  - intros k K. destruct I as [-> | ->]; destruct k as [|[|[|k]]]; try lia; discriminate.
  - unfold distance. rewrite <- (sqrt_square 15000000) by lra. apply sqrt_le_1_alt. cbn [st_ex sv_ex]. rewrite (Q2R_z 26000000), (Q2R_z 6378136), !Q2R_0.
    match goal with |- _ <= _ + ?a ^ 2 + _ => pose proof (pow2_ge_0 a) end. nra.
  - discriminate.
  - discriminate.
Qed.
Example C110_predicted_ex : Rabs (Q2R (nth 1 (pseudoranges_d some_libm 2 st_ex sv_ex) 0%Q) - (distance st_ex (sv_ex 1%nat) + Q2R 1500%Q)) <= / 10 ^ 6.
Proof. exact (proj2 (C110_predicted some_libm 2 st_ex sv_ex some_libm_accurate tracking_ex) 1%nat ltac:(lia)). Qed.
Lemma observed_ex : observed 19621864%Q. Proof. split; [apply (ProofB64.double_int 19621864)|]; discriminate. Qed.
Lemma scale_ex : scale 1%Q. Proof. split; [apply (ProofB64.double_int 1)|]; discriminate. Qed.
Example C110_measured_ex : Rabs (Q2R (nth 1 (measurements_d true 2 (fun _ => 19621864%Q) sv_ex 1%Q) 0%Q) - (Q2R 19621864%Q + Q2R (1 # 1024) * 299792458 * Q2R 1%Q)) <= / 10 ^ 7.
Proof. exact (proj1 (proj2 (C110_measured 2 (fun _ => 19621864%Q) st_ex sv_ex 1%Q scale_ex (fun i H => conj (tracking_ex i H) observed_ex))) 1%nat ltac:(lia)). Qed.
Example C110_residuals_ex : length (residuals_d some_libm 2 (fun _ => 19621864%Q) st_ex sv_ex 1%Q) = 2%nat.
Proof. exact (proj1 (C110_residuals some_libm 2 (fun _ => 19621864%Q) st_ex sv_ex 1%Q some_libm_accurate scale_ex (fun i H => conj (tracking_ex i H) observed_ex))). Qed.
Example C110_jacobian_ex : (nth 3 (nth 1 (jacobian_d some_libm 2 st_ex sv_ex 1%Q) []) 0 == 1)%Q.
Proof. exact (proj1 (proj2 (proj2 (proj2 (C110_jacobian some_libm 2 st_ex sv_ex 1%Q some_libm_accurate scale_ex tracking_ex) 1%nat ltac:(lia))))). Qed.
