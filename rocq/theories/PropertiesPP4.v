(** PropertiesPP4: which observations the positioning program takes for missing (part of C88) *)
From Coq Require Import Reals Lra Lia ZArith List QArith Qabs Qreals.
From Verif Require Import B64 CNum ModelSatellite ModelObsRnx ModelPP SpecPP ProofFloat.
From Verif Require ProofPP.
Local Open Scope R_scope.

Definition mark : Q := b64 (-99999 # 100).
Lemma mark_near : Rabs (Q2R mark + 999.99) <= / 10 ^ 12.
Proof.
  pose proof (b64_R (-99999 # 100)) as R. rewrite u_val in R. replace (Q2R (-99999 # 100)) with (-999.99) in R by (unfold Q2R; cbn; lra).
  fold mark in R. assert (H : Q2R hQ <= / 10 ^ 13).
  { replace (/ 10 ^ 13) with (Q2R (1 # 10000000000000)) by (rewrite Q2R_frac; lra). apply qle_b. reflexivity. }
  rewrite (Rabs_left (-999.99)) in R by lra. replace (Q2R mark + 999.99) with (Q2R mark - -999.99) by lra. lra.
Qed.
(** a number printed with three decimals is missing when it is the mark or next to it *)
Theorem C88_observed_text : forall e k, nth_error (snd e) 0 = Some (DFin (b64 (k # 1000))) ->
  (observed e (DFin (b64 (k # 1000))) <-> (k < -999991 \/ -999989 < k)%Z).
Proof.
  intros e k N. unfold observed. fold mark.
  assert (D : k = (-999991)%Z \/ k = (-999990)%Z \/ k = (-999989)%Z \/ (k < -999991 \/ -999989 < k)%Z) by lia.
  destruct D as [->|[->|[->|D]]].
  1-3: split; [intros (_ & H); exfalso; apply (Qlt_not_le _ _ H); vm_compute; discriminate|lia].
  split; [intros _; exact D|]. intros _. split; [exact N|].
  assert (FAR : 2 / 1000 <= Rabs (IZR k / 1000 + 999.99)).
  { destruct D as [D|D].
    - assert (IZR k <= -999992) by (apply IZR_le; lia). rewrite Rabs_left; lra.
    - assert (-999988 <= IZR k) by (apply IZR_le; lia). rewrite Rabs_pos_eq; lra. }
  assert (H : Q2R hQ <= / 10 ^ 13).
  { replace (/ 10 ^ 13) with (Q2R (1 # 10000000000000)) by (rewrite Q2R_frac; lra). apply qle_b. reflexivity. }
  pose proof h_pos as H0. pose proof (b64_R (k # 1000)) as A. pose proof (b64_R (b64 (k # 1000) - mark)) as B. pose proof (b64_R (1 # 1000)) as C.
  rewrite u_val in *. rewrite Q2R_minus in B. rewrite !Q2R_frac in A, C. pose proof mark_near as M.
  apply Rlt_Qlt. rewrite Q2R_abs.
  set (v := Q2R (b64 (k # 1000))) in *. set (w := Q2R (b64 (b64 (k # 1000) - mark))) in *. set (t := Q2R (b64 (1 # 1000))) in *. set (c := Q2R mark) in *. set (r := IZR k / 1000) in *. set (h := Q2R hQ) in *.
  clearbody v w t c r h. rewrite (Rabs_pos_eq (1 / 1000)) in C by lra.
  set (dd := Rabs (r + 999.99)) in *.
  assert (RR : Rabs r <= dd + 1000).
  { unfold dd. replace r with ((r + 999.99) + - (999.99)) at 1 by lra. eapply Rle_trans; [apply Rabs_triang|]. rewrite Rabs_Ropp, (Rabs_pos_eq 999.99) by lra. lra. }
  assert (VC : dd <= Rabs (v - c) + Rabs (v - r) + Rabs (c + 999.99)).
  { unfold dd. replace (r + 999.99) with ((v - c) + - (v - r) + (c + 999.99)) by lra. eapply Rle_trans; [apply Rabs_triang|]. apply Rplus_le_compat_r.
    eapply Rle_trans; [apply Rabs_triang|]. rewrite Rabs_Ropp. lra. }
  assert (WV : Rabs (v - c) <= Rabs w + Rabs (w - (v - c))).
  { replace (v - c) with (w + - (w - (v - c))) at 1 by lra. eapply Rle_trans; [apply Rabs_triang|]. rewrite Rabs_Ropp. lra. }
  apply Rle_lt_trans with (1 / 1000 + / 10 ^ 6).
  { pose proof (Rle_abs (t - 1 / 1000)). lra. }
  clear C. pose proof (Rabs_pos (v - c)). pose proof (Rabs_pos (w - (v - c))). pose proof (Rabs_pos (v - r)). clearbody dd.
  generalize dependent (Rabs w). generalize dependent (Rabs (w - (v - c))). generalize dependent (Rabs (v - c)). generalize dependent (Rabs (v - r)). generalize dependent (Rabs (c + 999.99)). generalize dependent (Rabs r).
  intros. lra.
Qed.
Print Assumptions C88_observed_text.
Example C88_observed_text_ex : exists e, observed e (DFin (b64 (20000000123 # 1000))) /\ ~ observed e (DFin (b64 (-999990 # 1000))).
Proof.
  exists (ModelSatellite.new_satellite ModelSatsys.Gps 5, DFin (b64 (20000000123 # 1000)) :: nil). split.
  - apply C88_observed_text; [reflexivity|]. right. reflexivity.
  - intros (E & _). cbn in E. assert (X : b64 (20000000123 # 1000) = b64 (-999990 # 1000)) by congruence. revert X. vm_compute. discriminate.
Qed.
