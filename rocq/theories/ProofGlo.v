(** ProofGlo: rounding, the GLONASS integration loop, the accuracy index *)
From Coq Require Import Reals Lra Lia ZArith List.
From Verif Require Import ModelOrbit SpecOrbit.
Local Open Scope R_scope.

Lemma int_part r : IZR (Int_part r) <= r < IZR (Int_part r) + 1.
Proof. destruct (base_Int_part r). lra. Qed.
Lemma round_spec x : exists z, rround x = IZR z /\ Rabs (x - IZR z) <= 1 / 2.
Proof.
  unfold rround. destruct (Rle_dec 0 x).
  - eexists. split; [reflexivity|]. pose proof (int_part (x + 1 / 2)). apply Rabs_le. lra.
  - exists (- Int_part (- x + 1 / 2))%Z. rewrite opp_IZR. split; [reflexivity|]. pose proof (int_part (- x + 1 / 2)). apply Rabs_le. lra.
Qed.
Lemma round_unique x z : Rabs (x - IZR z) < 1 / 2 -> rround x = IZR z.
Proof.
  intro H. apply Rabs_def2 in H. destruct (round_spec x) as (y & -> & Y). assert (Y2 : -(1 / 2) <= x - IZR y <= 1 / 2) by (unfold Rabs in Y; destruct (Rcase_abs (x - IZR y)); lra).
  f_equal. assert (-1 < IZR y - IZR z < 1) by lra. rewrite <- minus_IZR in H0. destruct H0 as (A & B). apply lt_IZR in A, B. lia.
Qed.
Lemma round_le x y : x <= y -> rround x <= rround y.
Proof.
  intro H. unfold rround. destruct (Rle_dec 0 x), (Rle_dec 0 y); try lra.
  - apply IZR_le. destruct (Z_le_gt_dec (Int_part (x + 1 / 2)) (Int_part (y + 1 / 2))) as [|G]; [assumption|exfalso].
    pose proof (int_part (x + 1 / 2)). pose proof (int_part (y + 1 / 2)). assert (IZR (Int_part (y + 1 / 2)) + 1 <= IZR (Int_part (x + 1 / 2))) by (rewrite <- plus_IZR; apply IZR_le; lia). lra.
  - assert (0 <= IZR (Int_part (y + 1 / 2))).
    { pose proof (int_part (y + 1 / 2)). apply IZR_le. assert (-1 < Int_part (y + 1 / 2))%Z; [apply lt_IZR; lra|lia]. }
    assert (0 <= IZR (Int_part (- x + 1 / 2))).
    { pose proof (int_part (- x + 1 / 2)). apply IZR_le. assert (-1 < Int_part (- x + 1 / 2))%Z; [apply lt_IZR; lra|lia]. }
    lra.
  - apply Ropp_le_contravar, IZR_le. destruct (Z_le_gt_dec (Int_part (- y + 1 / 2)) (Int_part (- x + 1 / 2))) as [|G]; [assumption|exfalso].
    pose proof (int_part (- x + 1 / 2)). pose proof (int_part (- y + 1 / 2)). assert (IZR (Int_part (- x + 1 / 2)) + 1 <= IZR (Int_part (- y + 1 / 2))) by (rewrite <- plus_IZR; apply IZR_le; lia). lra.
Qed.

(** ** the loop *)
Fixpoint steps (n : nat) (h : R) (acc : vec3) (y : vec6) : vec6 :=
  match n with O => y | S m => steps m h acc (rk4_step h acc y) end.
(** [n] is the number of steps of length 60 that cover the span [D] *)
Definition covers_span (D : R) (n : nat) : Prop :=
  D <= 60 * INR n /\ (n = 0%nat \/ 60 * (INR n - 1) < D).
Lemma span_ex D : exists n, covers_span D n /\ (n = 0%nat \/ INR n < D / 60 + 1).
Proof.
  destruct (Rle_dec D 0) as [H|H].
  - exists 0%nat. split; [|left; reflexivity]. split; [cbn; lra|left; reflexivity].
  - assert (P : (0 < up (D / 60))%Z) by (apply lt_IZR; pose proof (archimed (D / 60)); assert (0 < D / 60) by lra; lra).
    pose proof (archimed (D / 60)) as (A & B).
    destruct (Req_dec (D / 60) (IZR (up (D / 60)) - 1)) as [Q|Q].
    + set (z := (up (D / 60) - 1)%Z). exists (Z.to_nat z).
      assert (Z0 : (0 <= z)%Z) by (unfold z; lia).
      assert (I : INR (Z.to_nat z) = D / 60) by (rewrite INR_IZR_INZ, Z2Nat.id by exact Z0; unfold z; rewrite minus_IZR; lra).
      split; [split; [rewrite I; lra|right; rewrite I; lra]|right; rewrite I; lra].
    + exists (Z.to_nat (up (D / 60))).
      assert (I : INR (Z.to_nat (up (D / 60))) = IZR (up (D / 60))) by (rewrite INR_IZR_INZ, Z2Nat.id by lia; reflexivity).
      split; [split; [rewrite I; lra|right; rewrite I; lra]|right; rewrite I; lra].
Qed.
Lemma span_unique D n m : covers_span D n -> covers_span D m -> n = m.
Proof.
  intros (A & B) (C & E). destruct (Nat.lt_trichotomy n m) as [H|[H|H]]; [exfalso|exact H|exfalso].
  - apply lt_INR in H as H'. destruct E as [->|E]; [lia|]. assert (INR n + 1 <= INR m) by (rewrite <- S_INR; apply le_INR; lia). lra.
  - destruct B as [->|B]; [lia|]. assert (INR m + 1 <= INR n) by (rewrite <- S_INR; apply le_INR; lia). lra.
Qed.
Lemma loop_up acc t_lim : forall n fuel g, covers_span (t_lim - g_ti g) n -> (n < fuel)%nat ->
  glo_loop fuel h_step t_lim acc g = Some (mkG (steps n h_step acc (g_y g)) (g_ti g + INR n * h_step) (g_it g) (g_n g + n)).
Proof.
  unfold h_step. induction n as [|n IH]; intros fuel g (A & B) F; (destruct fuel as [|fuel]; [lia|]); cbn [glo_loop]; (destruct (Rlt_dec 0 60); [|lra]).
  - destruct (Rlt_dec (g_ti g) t_lim) as [L|L]; [cbn in A; lra|]. destruct g as [y ti it k]. cbn [steps g_y g_ti g_it g_n INR]. do 2 f_equal; [ring|lia].
  - destruct B as [B|B]; [discriminate|]. rewrite S_INR in A, B. destruct (Rlt_dec (g_ti g) t_lim) as [L|L]; [|pose proof (pos_INR n); lra].
    rewrite IH; [|cbn [g_ti]; split; [lra|destruct n; [left; reflexivity|right; rewrite S_INR in *; lra]]|lia].
    cbn [g_y g_ti g_it g_n steps]. rewrite S_INR. do 2 f_equal; [ring|lia].
Qed.
Lemma loop_down acc t_lim : forall n fuel g, covers_span (g_ti g - t_lim) n -> (n < fuel)%nat -> (g_it g + n < 1500)%nat ->
  glo_loop fuel (- h_step) t_lim acc g = Some (mkG (steps n (- h_step) acc (g_y g)) (g_ti g + INR n * - h_step) (g_it g + n) (g_n g + n)).
Proof.
  unfold h_step. induction n as [|n IH]; intros fuel g (A & B) F I; (destruct fuel as [|fuel]; [lia|]); cbn [glo_loop]; (destruct (Rlt_dec 0 (- (60))); [lra|]).
  - destruct (Rlt_dec t_lim (g_ti g)) as [L|L]; [cbn in A; lra|]. destruct g as [y ti it k]. cbn [steps g_y g_ti g_it g_n INR]. do 2 f_equal; [ring|lia|lia].
  - destruct B as [B|B]; [discriminate|]. rewrite S_INR in A, B. destruct (Rlt_dec t_lim (g_ti g)) as [L|L]; [|pose proof (pos_INR n); lra].
    destruct (Nat.ltb_spec (S (g_it g)) 1500); [|lia].
    rewrite IH; [|cbn [g_ti]; split; [lra|destruct n; [left; reflexivity|right; rewrite S_INR in *; lra]]|lia|cbn [g_it]; lia].
    cbn [g_y g_ti g_it g_n steps]. rewrite S_INR. do 2 f_equal; [ring|lia|lia].
Qed.

(** the broadcast state and acceleration *)
Definition start (f : rframe) : vec6 := mk6 (r_data f 3) (r_data f 7) (r_data f 11) (r_data f 4) (r_data f 8) (r_data f 12).
Definition pull (f : rframe) : vec3 := mk3 (r_data f 5) (r_data f 9) (r_data f 13).
(** the span that is integrated: the time since ToE reduced to half a day *)
Definition span (f : rframe) (t : R) : R := (t - r_toe f) - rround ((t - r_toe f) / 86400) * 86400.
Lemma span_half f t : -43200 <= span f t <= 43200.
Proof.
  unfold span. destruct (round_spec ((t - r_toe f) / 86400)) as (z & -> & H). set (x := (t - r_toe f) / 86400) in *.
  replace (t - r_toe f) with (x * 86400) by (unfold x; field). unfold Rabs in H. destruct (Rcase_abs (x - IZR z)); lra.
Qed.
Lemma small_round x : Rabs x < 1 / 2 -> rround x = 0.
Proof. intro H. apply (round_unique x 0). rewrite Rminus_0_r. exact H. Qed.
Lemma span_small f t : Rabs (t - r_toe f) < 43200 -> span f t = t - r_toe f.
Proof.
  intro H. unfold span. rewrite small_round; [ring|]. unfold Rdiv. rewrite Rabs_mult, (Rabs_pos_eq (/ 86400)) by lra. lra.
Qed.
Definition status_of (f : rframe) (t : R) : Z := if Rlt_dec (15 * 60) (Rabs (t - r_toe f)) then (-1)%Z else 0%Z.
Lemma count_720 D n : D <= 43200 -> covers_span D n -> (n <= 720)%nat.
Proof.
  intros H (A & [->|B]); [lia|]. assert (INR n < 721) by lra. assert ((n < 721)%nat); [|lia]. apply INR_lt. replace (INR 721) with 721; [assumption|]. rewrite INR_IZR_INZ. reflexivity.
Qed.
Theorem glo_run f t : exists n h, (n <= 720)%nat /\ (h = h_step \/ h = - h_step) /\
  (forall fuel, (720 < fuel)%nat -> glo_ecef fuel f t = Some (mkGR (status_of f t) (Some (steps n h (pull f) (start f))) (r_toe f + INR n * h) n)) /\
  (r_toe f < t -> h = h_step /\ covers_span (span f t) n) /\ (t < r_toe f -> h = - h_step /\ covers_span (- span f t) n) /\ (t = r_toe f -> n = 0%nat).
Proof.
  pose proof (span_half f t) as B. destruct (Rtotal_order (r_toe f) t) as [H|[H|H]].
  - destruct (span_ex (span f t)) as (n & C & _). exists n, h_step. pose proof (count_720 _ _ (proj2 B) C) as N.
    split; [exact N|]. split; [left; reflexivity|]. split; [|split; [auto|split; intros; exfalso; lra]]. intros fuel F. unfold glo_ecef.
    destruct (Req_EM_T (r_toe f) t); [lra|]. destruct (Rlt_dec (r_toe f) t); [|lra].
    rewrite (loop_up _ _ n); [|cbn [g_ti]; replace (t - rround ((t - r_toe f) / 86400) * 86400 - r_toe f) with (span f t) by (unfold span; ring); exact C|lia].
    cbn [g_it g_y g_ti g_n]. reflexivity.
  - exists 0%nat, h_step. split; [lia|]. split; [left; reflexivity|]. split; [|split; [intros; exfalso; lra|split; [intros; exfalso; lra|auto]]].
    intros fuel F. unfold glo_ecef. destruct (Req_EM_T (r_toe f) t); [|lra]. cbn [steps INR]. rewrite Rmult_0_l, Rplus_0_r. reflexivity.
  - destruct (span_ex (- span f t)) as (n & C & _). exists n, (- h_step). pose proof (count_720 (- span f t) n ltac:(lra) C) as N.
    split; [exact N|]. split; [right; reflexivity|]. split; [|split; [intros; exfalso; lra|split; [auto|intros; exfalso; lra]]]. intros fuel F. unfold glo_ecef.
    destruct (Req_EM_T (r_toe f) t); [lra|]. destruct (Rlt_dec (r_toe f) t); [lra|].
    rewrite (loop_down _ _ n); [|cbn [g_ti]; replace (r_toe f - (t - rround ((t - r_toe f) / 86400) * 86400)) with (- span f t) by (unfold span; ring); exact C|lia|cbn [g_it]; lia].
    cbn [g_it g_y g_ti g_n]. destruct (Nat.leb_spec 1500 (0 + n)); [lia|]. reflexivity.
Qed.
