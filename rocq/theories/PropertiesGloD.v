(** PropertiesGloD: C109, the GLONASS orbit and clock in machine doubles *)
From Coq Require Import Qabs Qround Reals Qreals Lra Lia ZArith QArith List.
From Verif Require Import B64 SpecB64 ModelOrbit ModelFloat ModelFloat2 SpecFloat SpecOrbit SpecGloD ProofFloat PropertiesFloat ProofGloD ProofGlo.
From Verif Require ProofB64 PropertiesOrbit.
Import ListNotations.
Local Open Scope R_scope.

(** ** the boxes after up to fifteen steps *)
Definition good (s : box * bool) : bool := snd s && Qle_bool (bp (fst s)) (1 # 10000000) && Qle_bool (bv (fst s)) (1 # 10000000000).
(** The numeric part of the proof: the closed computation that the boxes of fifteen steps stay good. The virtual machine
    evaluates it to true in about 95 s; coqchk, which has none, does not within an hour, so it is a hypothesis of C109_orbit_partial,
    C109_both_partial and C109_date_partial. *)
Definition boxes_hold : Prop := forallb good (boxes 15 box0) = true.
Fixpoint steps_d (n : nat) (m : libm) (h : Q) (acc : vec3d) (y : vec6d) : vec6d :=
  match n with O => y | S k => steps_d k m h acc (rk4_step_d m h acc y) end.
Definition fine (b : box) : Prop := Q2R (bp b) <= / 10 ^ 7 /\ Q2R (bv b) <= / 10 ^ 10.
Lemma steps_near m p q r acc a hh h : accurate m -> started p q r -> acc_near acc a -> ap i_h hh h ->
  forall N b, forallb good (boxes N b) = true -> fine b -> forall n y v, (n <= N)%nat -> inside b p q r y v ->
  exists b', fine b' /\ inside b' p q r (steps_d n m hh acc y) (steps n h a v).
Proof.
  intros Hm St Ac H. induction N as [|N IH]; intros b G Fb n y v Le I.
  - assert (n = 0)%nat as -> by lia. exists b. split; [exact Fb|exact I].
  - destruct n as [|n]; [exists b; split; [exact Fb|exact I]|]. cbn [boxes] in G. cbv zeta in G. cbn [forallb] in G. apply andb_prop in G. destruct G as (G1 & G2).
    unfold good in G1. apply andb_prop in G1. destruct G1 as (G1 & G3). apply andb_prop in G1. destruct G1 as (Ok & G1). apply qle_b in G1, G3. rewrite Q2R_frac in G1, G3.
    cbn [steps_d steps]. apply (IH (fst (step_box b))); [exact G2|split; lra|lia|]. apply step_near; assumption.
Qed.

Lemma steps15 : boxes_hold -> forall m p q r acc a hh h, accurate m -> started p q r -> acc_near acc a -> ap i_h hh h -> forall n y v, (n <= 15)%nat -> inside box0 p q r y v ->
  exists b', fine b' /\ inside b' p q r (steps_d n m hh acc y) (steps n h a v).
Proof.
  assert (F0 : fine box0) by (split; cbn [box0 bp bv]; rewrite Q2R_0; apply Rlt_le, Rinv_0_lt_compat, pow_lt; lra).
  intro B. exact (fun m p q r acc a hh h Hm St Ac H => steps_near m p q r acc a hh h Hm St Ac H 15 box0 B F0).
Qed.
(** ** the loop *)
Lemma flt_true x y : flt x y = true <-> Q2R x < Q2R y.
Proof.
  unfold flt. destruct (Qle_bool y x) eqn:E; cbn [negb].
  - apply qle_b in E. split; [discriminate|lra].
  - split; [intros _|reflexivity]. apply Qlt_Rlt. apply Qnot_le_lt. intro L. apply Qle_bool_iff in L. rewrite L in E. discriminate.
Qed.
Lemma flt_false x y : Q2R y <= Q2R x -> flt x y = false.
Proof. intro H. destruct (flt x y) eqn:E; [|reflexivity]. apply flt_true in E. lra. Qed.
Lemma add_ti ti k z : (ti == inject_Z k)%Q -> (Z.abs (k + z) <= 2 ^ 53)%Z -> (fadd ti (inject_Z z) == inject_Z (k + z))%Q.
Proof.
  intros E H. unfold fadd. rewrite (ProofB64.b64_wd _ (inject_Z (k + z))); [apply ProofB64.b64_int, H|]. rewrite E, inject_Z_plus. reflexivity.
Qed.
Lemma loop_up_d m t_lim acc : forall n fuel g k, (gd_ti g == inject_Z k)%Q -> (Z.abs k + 60 * Z.of_nat n <= 2 ^ 53)%Z ->
  covers_span (Q2R t_lim - IZR k) n -> (n < fuel)%nat ->
  exists ti, glo_loop_d fuel m (inject_Z 60) t_lim acc g = Some (mkGd (steps_d n m (inject_Z 60) acc (gd_y g)) ti (gd_it g)).
Proof.
  induction n as [|n IH]; intros fuel g k T K (A & B) F; (destruct fuel as [|fuel]; [lia|]); cbn [glo_loop_d]; change (flt 0 (inject_Z 60)) with true; cbn iota;
    pose proof (Qeq_eqR _ _ T) as TR; rewrite Q2R_inj in TR.
  - rewrite flt_false by (cbn in A; lra). exists (gd_ti g). destruct g. reflexivity.
  - destruct B as [B|B]; [discriminate|]. rewrite S_INR in A, B. pose proof (pos_INR n).
    rewrite (proj2 (flt_true (gd_ti g) t_lim)) by lra.
    match goal with |- context [glo_loop_d fuel m _ _ _ ?g'] => destruct (IH fuel g' (k + 60)%Z) as (ti & E) end.
    + cbn [gd_ti]. apply add_ti; [exact T|lia].
    + lia.
    + rewrite plus_IZR. split; [lra|]. destruct n; [left; reflexivity|right; rewrite S_INR in *; lra].
    + lia.
    + exists ti. rewrite E. reflexivity.
Qed.
Lemma loop_down_d m t_lim acc : forall n fuel g k, (gd_ti g == inject_Z k)%Q -> (Z.abs k + 60 * Z.of_nat n <= 2 ^ 53)%Z ->
  covers_span (IZR k - Q2R t_lim) n -> (n < fuel)%nat -> (gd_it g + n < 1500)%nat ->
  exists ti, glo_loop_d fuel m (inject_Z (-60)) t_lim acc g = Some (mkGd (steps_d n m (inject_Z (-60)) acc (gd_y g)) ti (gd_it g + n)).
Proof.
  induction n as [|n IH]; intros fuel g k T K (A & B) F I; (destruct fuel as [|fuel]; [lia|]); cbn [glo_loop_d]; change (flt 0 (inject_Z (-60))) with false; cbn iota;
    pose proof (Qeq_eqR _ _ T) as TR; rewrite Q2R_inj in TR.
  - rewrite flt_false by (cbn in A; lra). exists (gd_ti g). destruct g as [y u it]. cbn [steps_d gd_y gd_ti gd_it]. do 2 f_equal. lia.
  - destruct B as [B|B]; [discriminate|]. rewrite S_INR in A, B. pose proof (pos_INR n).
    rewrite (proj2 (flt_true t_lim (gd_ti g))) by lra. destruct (Nat.ltb_spec (S (gd_it g)) 1500); [|lia].
    match goal with |- context [glo_loop_d fuel m _ _ _ ?g'] => destruct (IH fuel g' (k + (-60))%Z) as (ti & E) end.
    + cbn [gd_ti]. apply add_ti; [exact T|lia].
    + lia.
    + rewrite plus_IZR. split; [lra|]. destruct n; [left; reflexivity|right; rewrite S_INR in *; lra].
    + lia.
    + cbn [gd_it]. lia.
    + exists ti. rewrite E. cbn [gd_it gd_y steps_d]. do 2 f_equal. lia.
Qed.

(** ** the difference of times *)
Lemma b64_between l h q : double l -> double h -> (l <= q <= h)%Q -> (l <= b64 q <= h)%Q.
Proof.
  intros L H (A & B). split.
  - rewrite <- (ProofB64.b64_fix l L). apply b64_mono, A.
  - rewrite <- (ProofB64.b64_fix h H). apply b64_mono, B.
Qed.
Lemma near_day x : (Qabs x <= 42000)%Q -> round_away (fdiv x 86400) = 0%Z.
Proof.
  intro H. apply Qabs_Qle_condition in H. apply round_away_near; [lia|]. rewrite Rminus_0_r.
  pose proof (b64_R (x / 86400)) as R. unfold fdiv.
  assert (X : Rabs (Q2R (x / 86400)) <= 4862 / 10000).
  { rewrite Q2R_div by discriminate. destruct H as (H1 & H2). apply Qle_Rle in H1, H2. rewrite Q2R_opp in H1. unfold Rdiv at 1.
    replace (Q2R 86400) with 86400 by (unfold Q2R; cbn [Qnum Qden]; lra). replace (Q2R 42000) with 42000 in * by (unfold Q2R; cbn [Qnum Qden]; lra). apply Rabs_le. lra. }
  assert (U : Q2R uQ <= / 1000) by (rewrite u_val; lra). assert (HH : Q2R hQ <= / 1000).
  { apply Rle_trans with (Q2R (1 # 1000)); [apply Qle_Rle; discriminate|rewrite Q2R_frac; lra]. }
  pose proof (Rabs_pos (Q2R (x / 86400))). pose proof u_pos.
  assert (Q2R uQ * Rabs (Q2R (x / 86400)) <= / 1000 * 1) by (apply Rmult_le_compat; lra).
  replace (Q2R (b64 (x / 86400))) with ((Q2R (b64 (x / 86400)) - Q2R (x / 86400)) + Q2R (x / 86400)) by ring.
  eapply Rle_trans; [apply Rabs_triang|]. lra.
Qed.
Lemma no_wrap x : (Qabs x <= 42000)%Q -> (fmul (round_d (fdiv x 86400)) 86400 == 0)%Q.
Proof.
  intro H. unfold fmul, round_d. rewrite (near_day x H). rewrite (ProofB64.b64_wd _ (inject_Z 0)).
  - rewrite (ProofB64.b64_int 0) by discriminate. reflexivity.
  - rewrite (ProofB64.b64_int 0) by discriminate. reflexivity.
Qed.
Lemma minus_zero t w : (w == 0)%Q -> double t -> (fsub t w == t)%Q.
Proof. intros E D. unfold fsub. rewrite (ProofB64.b64_wd _ t); [apply ProofB64.b64_fix, D|]. rewrite E. ring. Qed.
Lemma diff_bound t k z : (0 <= z <= 42000)%Z -> Rabs (Q2R t - IZR k) <= IZR z -> forall s, (s == inject_Z k)%Q -> (Qabs (fsub t s) <= inject_Z z)%Q.
Proof.
  intros Z H s E. apply Qabs_Qle_condition. apply b64_between.
  - rewrite <- inject_Z_opp. apply ProofB64.double_int. lia.
  - apply ProofB64.double_int. lia.
  - apply Rabs_le_inv in H. split; apply Rle_Qle; rewrite ?Q2R_opp, Q2R_minus, (Qeq_eqR _ _ E), !Q2R_inj; lra.
Qed.

(** ** C109 *)
Lemma abs_R q b : (Qabs q <= b)%Q -> Rabs (Q2R q) <= Q2R b. Proof. exact (abs_le q b). Qed.
Lemma gb_start d : glonass_broadcast d -> started (Q2R (d 3%nat)) (Q2R (d 7%nat)) (Q2R (d 11%nat)).
Proof.
  intro G. destruct (gb_radius d G) as (A & B). apply Qle_Rle in A, B. rewrite !Q2R_plus, !Q2R_mult in A, B.
  replace (Q2R 25000000) with 25000000 in A by (unfold Q2R; cbn [Qnum Qden]; lra). replace (Q2R 26000000) with 26000000 in B by (unfold Q2R; cbn [Qnum Qden]; lra). split; assumption.
Qed.
Lemma gb_pos0 d p : double d -> p = Q2R d -> pos_near box0 p d (Q2R d).
Proof. intros D ->. split; [exact D|]. rewrite !Rminus_eq_0, Rabs_R0. cbn [box0 bD bp]. rewrite Q2R_0. lra. Qed.
Theorem C109_orbit_partial : boxes_hold -> forall m d toe t fuel, accurate m -> glonass_broadcast d -> double t ->
  let s := IZR (toe mod 86400) in Rabs (Q2R t - s) <= 900 -> (15 < fuel)%nat ->
  exists n h F v vh,
    glo_ecef_d fuel m d (sec_d toe) t = Some (0%Z, Some vh) /\
    (s <= Q2R t -> h = 60) /\ (Q2R t < s -> h = -60) /\ Rabs (Q2R t - s) <= 60 * INR n < Rabs (Q2R t - s) + 60 /\
    glo_motion (Q2R (d 5%nat)) (Q2R (d 9%nat)) (Q2R (d 13%nat)) F /\
    six v = rk4_steps F h n (map (fun i => Q2R (d i)) [3; 7; 11; 4; 8; 12]%nat) /\
    Rabs (Q2R (d0 vh) - s0 v) <= / 10 ^ 7 /\ Rabs (Q2R (d1 vh) - s1 v) <= / 10 ^ 7 /\ Rabs (Q2R (d2 vh) - s2 v) <= / 10 ^ 7 /\
    Rabs (Q2R (d3 vh) - s3 v) <= / 10 ^ 10 /\ Rabs (Q2R (d4 vh) - s4 v) <= / 10 ^ 10 /\ Rabs (Q2R (d5 vh) - s5 v) <= / 10 ^ 10.
Proof.
  intros boxes_good. pose proof (steps15 boxes_good) as S15. clear boxes_good. intros m d toe t fuel Hm Hd Ht s Hs Fu. pose proof (Z.mod_pos_bound toe 86400 ltac:(lia)) as KB. set (k := (toe mod 86400)%Z) in *.
  assert (SE : (sec_d toe == inject_Z k)%Q) by (apply ProofB64.b64_int; lia). pose proof (Qeq_eqR _ _ SE) as SR. rewrite Q2R_inj in SR. fold s in SR.
  set (f := mkR (fun i => Q2R (d i)) s 0).
  assert (St0 : started (r_data f 3) (r_data f 7) (r_data f 11)) by (apply gb_start, Hd).
  assert (Ac : acc_near (mk3d (d 5%nat) (d 9%nat) (d 13%nat)) (pull f)).
  { assert (A : forall i, In i [5; 9; 13]%nat -> ap i_acc (d i) (Q2R (d i))) by (intros i Hi; apply ap_exact_abs; [apply (gb_double d Hd)|apply (gb_accel d Hd i Hi)]).
    split; [|split]; cbn [e0 e1 e2 pull a0 a1 a2]; apply A; cbn; tauto. }
  set (y0 := mk6d (d 3%nat) (d 7%nat) (d 11%nat) (d 4%nat) (d 8%nat) (d 12%nat)).
  assert (I0 : inside box0 (r_data f 3) (r_data f 7) (r_data f 11) y0 (start f)).
  { assert (V : forall i, In i [4; 8; 12]%nat -> ap (biv box0) (d i) (Q2R (d i))) by (intros i Hi; apply ap_exact_abs; [apply (gb_double d Hd)|apply (gb_speed d Hd i Hi)]).
    pose proof (gb_double d Hd) as DD. unfold inside, y0, start. cbn [d0 d1 d2 d3 d4 d5 s0 s1 s2 s3 s4 s5].
    split; [apply gb_pos0; [apply DD|reflexivity]|]. split; [apply gb_pos0; [apply DD|reflexivity]|]. split; [apply gb_pos0; [apply DD|reflexivity]|].
    split; [apply V; cbn; tauto|]. split; apply V; cbn; tauto. }
  assert (F0 : fine box0) by (split; cbn [box0 bp bv]; rewrite Q2R_0; apply Rlt_le, Rinv_0_lt_compat, pow_lt; lra).
  assert (HX : (Qabs (fsub t (sec_d toe)) <= inject_Z 900)%Q) by (apply (diff_bound t k 900); [lia|exact Hs|exact SE]).
  assert (ST : (flt (fmul 15 60) (Qabs (fsub t (sec_d toe)))) = false).
  { apply flt_false. unfold fmul. rewrite (ProofB64.b64_wd _ (inject_Z 900)) by reflexivity. rewrite (Qeq_eqR _ _ (ProofB64.b64_int 900 ltac:(discriminate))). apply Qle_Rle, HX. }
  assert (HX2 : (Qabs (fsub t (sec_d toe)) <= 42000)%Q) by (eapply Qle_trans; [exact HX|discriminate]).
  pose proof (minus_zero t _ (no_wrap _ HX2) Ht) as TL. pose proof (Qeq_eqR _ _ TL) as TLR.
  assert (Done : forall n hz, (n <= 15)%nat -> hz = 60%Z \/ hz = (-60)%Z ->
     exists v, six v = rk4_steps (PropertiesOrbit.code_motion f) (IZR hz) n (map (fun i => Q2R (d i)) [3; 7; 11; 4; 8; 12]%nat) /\
     let vh := steps_d n m (inject_Z hz) (mk3d (d 5%nat) (d 9%nat) (d 13%nat)) y0 in
     Rabs (Q2R (d0 vh) - s0 v) <= / 10 ^ 7 /\ Rabs (Q2R (d1 vh) - s1 v) <= / 10 ^ 7 /\ Rabs (Q2R (d2 vh) - s2 v) <= / 10 ^ 7 /\
     Rabs (Q2R (d3 vh) - s3 v) <= / 10 ^ 10 /\ Rabs (Q2R (d4 vh) - s4 v) <= / 10 ^ 10 /\ Rabs (Q2R (d5 vh) - s5 v) <= / 10 ^ 10).
  { intros n hz N Hh. assert (H : ap i_h (inject_Z hz) (IZR hz)).
    { eapply ap_w; [apply ap_int; lia|]. destruct Hh as [-> | ->]; reflexivity. }
    destruct (S15 m _ _ _ _ _ _ _ Hm St0 Ac H n y0 (start f) N I0) as (b' & (P & V) & (X & Y & Z & U & W & T)).
    exists (steps n (IZR hz) (pull f) (start f)). split; [rewrite PropertiesOrbit.steps_code; reflexivity|]. cbv zeta.
    destruct X as (_ & _ & X), Y as (_ & _ & Y), Z as (_ & _ & Z), U as (_ & _ & U), W as (_ & _ & W), T as (_ & _ & T). unfold biv in U, W, T. cbn [er] in U, W, T.
    repeat (split; [eapply Rle_trans; eassumption|]). eapply Rle_trans; eassumption. }
  pose proof (PropertiesOrbit.C68_motion f) as Mo. change (r_data f 5) with (Q2R (d 5%nat)) in Mo. change (r_data f 9) with (Q2R (d 9%nat)) in Mo. change (r_data f 13) with (Q2R (d 13%nat)) in Mo.
  unfold glo_ecef_d. cbv zeta. rewrite ST. fold y0.
  destruct (Rtotal_order s (Q2R t)) as [L|[L|L]].
  - destruct (span_ex (Q2R t - s)) as (n & C & _). assert (N : (n <= 15)%nat).
    { destruct C as (_ & [->|C]); [lia|]. apply Rabs_le_inv in Hs. assert (G : INR n < 16) by lra. change 16 with (IZR 16) in G. rewrite INR_IZR_INZ in G. apply lt_IZR in G. lia. }
    destruct (Done n 60%Z N (or_introl eq_refl)) as (v & E & A). exists n, 60, (PropertiesOrbit.code_motion f), v. eexists.
    split; [|split; [reflexivity|split; [intro; lra|split; [|split; [exact Mo|split; [exact E|exact A]]]]]].
    + replace (Qeq_bool (sec_d toe) t) with false; [|symmetry; apply not_true_is_false; intro Q; apply Qeq_bool_eq, Qeq_eqR in Q; lra].
      rewrite (proj2 (flt_true (sec_d toe) t)) by lra. change 60%Q with (inject_Z 60) at 1.
      destruct (loop_up_d m (fsub t (fmul (round_d (fdiv (fsub t (sec_d toe)) 86400)) 86400)) (mk3d (d 5%nat) (d 9%nat) (d 13%nat)) n fuel (mkGd y0 (sec_d toe) 0) k) as (ti & R).
      * exact SE.
      * lia.
      * rewrite TLR. exact C.
      * lia.
      * rewrite R. cbn [gd_it gd_y Nat.leb]. reflexivity.
    + rewrite Rabs_pos_eq by lra. destruct C as (C1 & [->|C2]); [cbn in C1; lra|]. lra.
  - destruct (Done 0%nat 60%Z ltac:(lia) (or_introl eq_refl)) as (v & E & A). exists 0%nat, 60, (PropertiesOrbit.code_motion f), v. eexists.
    split; [|split; [reflexivity|split; [intro; lra|split; [|split; [exact Mo|split; [exact E|exact A]]]]]].
    + replace (Qeq_bool (sec_d toe) t) with true; [reflexivity|]. symmetry. apply Qeq_bool_iff, eqR_Qeq. lra.
    + rewrite <- L, Rminus_eq_0, Rabs_R0. cbn [INR]. lra.
  - destruct (span_ex (s - Q2R t)) as (n & C & _). assert (N : (n <= 15)%nat).
    { destruct C as (_ & [->|C]); [lia|]. apply Rabs_le_inv in Hs. assert (G : INR n < 16) by lra. change 16 with (IZR 16) in G. rewrite INR_IZR_INZ in G. apply lt_IZR in G. lia. }
    destruct (Done n (-60)%Z N (or_intror eq_refl)) as (v & E & A). exists n, (-60), (PropertiesOrbit.code_motion f), v. eexists.
    split; [|split; [intro; lra|split; [reflexivity|split; [|split; [exact Mo|split; [exact E|exact A]]]]]].
    + replace (Qeq_bool (sec_d toe) t) with false; [|symmetry; apply not_true_is_false; intro Q; apply Qeq_bool_eq, Qeq_eqR in Q; lra].
      rewrite (flt_false (sec_d toe) t) by lra. change (- (60))%Q with (inject_Z (-60)).
      destruct (loop_down_d m (fsub t (fmul (round_d (fdiv (fsub t (sec_d toe)) 86400)) 86400)) (mk3d (d 5%nat) (d 9%nat) (d 13%nat)) n fuel (mkGd y0 (sec_d toe) 0) k) as (ti & R).
      * exact SE.
      * lia.
      * rewrite TLR. exact C.
      * lia.
      * cbn [gd_it]. lia.
      * rewrite R. cbn [gd_it gd_y]. destruct (Nat.leb_spec 1500 (0 + n)); [lia|]. reflexivity.
    + rewrite Rabs_left by lra. destruct C as (C1 & [->|C2]); [cbn in C1; lra|]. lra.
Qed.
Print Assumptions C109_orbit_partial.
(** the clock *)
Theorem C109_clock : forall d toe t, glonass_clock d -> double t ->
  let s := IZR (toe mod 86400) in Rabs (Q2R t - s) <= 42000 ->
  Rabs (Q2R (glo_clock_d d (sec_d toe) t) - (Q2R (d 0%nat) + Q2R (d 1%nat) * (Q2R t - s))) <= / 10 ^ 17.
Proof.
  intros d toe t Hc Ht s Hs. pose proof (Z.mod_pos_bound toe 86400 ltac:(lia)) as KB. set (k := (toe mod 86400)%Z) in *.
  assert (SE : (sec_d toe == inject_Z k)%Q) by (apply ProofB64.b64_int; lia). pose proof (Qeq_eqR _ _ SE) as SR. rewrite Q2R_inj in SR. fold s in SR.
  assert (HX : (Qabs (fsub t (sec_d toe)) <= 42000)%Q) by (apply (diff_bound t k 42000); [lia|exact Hs|exact SE]).
  pose proof (minus_zero (fsub t (sec_d toe)) _ (no_wrap _ HX) ltac:(apply ProofB64.b64_double)) as TL.
  assert (HW : half_week t (sec_d toe)).
  { unfold half_week. apply Qabs_Qle_condition. apply Rabs_le_inv in Hs. rewrite <- SR in Hs.
    split; apply Rle_Qle; rewrite ?Q2R_opp, Q2R_minus; replace (Q2R 302400) with 302400 by (unfold Q2R; cbn [Qnum Qden]; lra); lra. }
  pose proof (ap_tk _ _ HW) as T. rewrite SR in T. unfold glo_clock_d. cbv zeta.
  replace (fmul (d 1%nat) (fsub (fsub t (sec_d toe)) (fmul (round_d (fdiv (fsub t (sec_d toe)) 86400)) 86400))) with (fmul (d 1%nat) (fsub t (sec_d toe)))
    by (unfold fmul at 1 2; apply ProofB64.b64_wd; rewrite TL; reflexivity).
  set (x := fsub t (sec_d toe)) in *. clearbody x. destruct (gc_double d Hc) as (D0 & D1).
  pose proof (ap_exact_abs _ _ D0 (gc_bias d Hc)) as A0. pose proof (ap_exact_abs _ _ D1 (gc_drift d Hc)) as A1.
  eapply er_le; [exact (ap_add _ _ _ _ _ _ A0 (ap_mul _ _ _ _ _ _ A1 T))| |].
  - instantiate (1 := (1 # 100000000000000000)%Q). vm_compute. reflexivity.
  - rewrite Q2R_frac. lra.
Qed.
Print Assumptions C109_clock.
(** glo_stateNclock gives both *)
Theorem C109_both_partial : boxes_hold -> forall m d toe t fuel, accurate m -> glonass_broadcast d -> glonass_clock d -> double t ->
  let s := IZR (toe mod 86400) in Rabs (Q2R t - s) <= 900 -> (15 < fuel)%nat ->
  exists vh c, glo_stateNclock_d fuel m d (sec_d toe) t = Some (0%Z, Some vh, Some c) /\
    glo_ecef_d fuel m d (sec_d toe) t = Some (0%Z, Some vh) /\
    Rabs (Q2R c - (Q2R (d 0%nat) + Q2R (d 1%nat) * (Q2R t - s))) <= / 10 ^ 17.
Proof.
  intros boxes_good. pose proof (C109_orbit_partial boxes_good) as O. clear boxes_good. intros m d toe t fuel Hm Hd Hc Ht s Hs Fu. destruct (O m d toe t fuel Hm Hd Ht Hs Fu) as (n & h & F & v & vh & E & _).
  exists vh, (glo_clock_d d (sec_d toe) t). unfold glo_stateNclock_d. rewrite E. split; [reflexivity|]. split; [reflexivity|].
  apply C109_clock; [exact Hc|exact Ht|fold s; lra].
Qed.
Print Assumptions C109_both_partial.
(** 334 seconds after ToE *)
Definition glo_values : list Q := [1 # 16384; 1 # 1099511627776; 0; 7000000; 1000; 1 # 1048576; 0; - (1500000); - (2000); 0; 1; 24000000; 500; - (1 # 1048576)]%Q.
Definition glo_some (i : nat) : Q := nth i glo_values 0%Q.
Lemma glo_some_double i : double (glo_some i).
Proof.
  destruct (Nat.lt_ge_cases i (length glo_values)) as [H|H]; [|unfold glo_some; rewrite nth_overflow by exact H; apply (ProofB64.double_int 0); discriminate].
  cbn in H. unfold glo_some. apply (ProofB64.double_wd (b64 (nth i glo_values 0%Q))); [|apply ProofB64.b64_double].
  do 14 (destruct i as [|i]; [vm_compute; reflexivity|]). lia.
Qed.
Lemma glo_some_broadcast : glonass_broadcast glo_some /\ glonass_clock glo_some.
Proof.
  split; constructor.
  - apply glo_some_double.
  - split; vm_compute; discriminate.
  - intros i [<-|[<-|[<-|[]]]]; vm_compute; discriminate.
  - intros i [<-|[<-|[<-|[]]]]; vm_compute; discriminate.
  - split; apply glo_some_double.
  - vm_compute; discriminate.
  - vm_compute; discriminate.
Qed.
Example C109_ex : boxes_hold -> exists vh c, glo_stateNclock_d 721 some_libm glo_some (sec_d (59128 * 86400 + 900)) 1234 = Some (0%Z, Some vh, Some c).
Proof.
  intro boxes_good. pose proof (C109_both_partial boxes_good) as O. clear boxes_good. assert (M : ((59128 * 86400 + 900) mod 86400 = 900)%Z) by reflexivity.
  assert (T : Q2R 1234 = 1234) by (unfold Q2R; cbn [Qnum Qden]; lra).
  destruct (O some_libm glo_some (59128 * 86400 + 900)%Z 1234%Q 721%nat some_libm_accurate (proj1 glo_some_broadcast) (proj2 glo_some_broadcast)) as (vh & c & E & _).
  - apply (ProofB64.double_int 1234). discriminate.
  - rewrite M, T. apply Rabs_le. lra.
  - lia.
  - exists vh, c. exact E.
Qed.
