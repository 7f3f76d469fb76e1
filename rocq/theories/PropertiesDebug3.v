(** PropertiesDebug3: C98, how far from the ephemeris a state is computed, in the debug and in the release build *)
From Verif Require Import CNum ModelSatsys ModelNav ModelOrbit ModelDebugOrbit PropertiesOrbit.
From Coq Require Import Reals Lra Lia ZArith List QArith Qreals.
Import ListNotations.
Local Open Scope R_scope.

Lemma off_spec d : off d = false <-> Rabs d <= 302400.
Proof.
  unfold off. destruct (Rlt_dec d (-302400)) as [L|L]; [split; [discriminate|intro H]|].
  - destruct (Rcase_abs d) as [N|N]; [rewrite (Rabs_left _ N) in H; lra|lra].
  - destruct (Rlt_dec 302400 d) as [G|G].
    + split; [discriminate|]. intro H. pose proof (Rle_abs d). lra.
    + split; [intros _; apply Rabs_le; lra|reflexivity].
Qed.
Lemma off_far d : 302400 < Rabs d -> off d = true.
Proof. intro H. destruct (off d) eqn:E; [reflexivity|]. apply off_spec in E. lra. Qed.
Definition week_half : R := 302400.
(** the instant day [m], [tk] ticks of 1/[fac] s, passed to stateNclock of the message [g], in the debug build and in the release build *)
Definition debug_at fuel sys (g : frame) f m tk fac := stateNclock_dbg fuel sys f (Q2R (ref2toe g m tk fac)) (Q2R (ref2toc g m tk fac)).
Definition release_at fuel sys (g : frame) f m tk fac := stateNclock fuel sys f (Q2R (ref2toe g m tk fac)) (Q2R (ref2toc g m tk fac)).

(** ** C98 *)
Definition C98_full : Prop := forall fuel sys g f m tk fac x c, reals_of g f -> near_days g m ->
  release_at fuel sys g f m tk fac = Some (Runs 0 x c) -> Rabs (instant m tk fac - IZR (f_toe g)) <= week_half.

Lemma kep_sys_dbg sys : In sys [Gps; Galileo; Beidou] -> exists s,
  (forall fuel f te tc, stateNclock fuel sys f te tc = Some (kep_result s f te tc)) /\
  (forall fuel f te tc, stateNclock_dbg fuel sys f te tc = Some (kep_result_dbg s f te tc)).
Proof. intros [<-|[<-|[<-|[]]]]; [exists KGps|exists KGal|exists KBds]; split; reflexivity. Qed.
(** within half a week of both reference times the two builds agree *)
Theorem C98_same : forall fuel sys g f m tk fac, reals_of g f -> near_days g m ->
  Rabs (instant m tk fac - IZR (f_toe g)) <= week_half -> Rabs (instant m tk fac - IZR (f_toc g)) <= week_half ->
  debug_at fuel sys g f m tk fac = release_at fuel sys g f m tk fac.
Proof.
  intros fuel sys g f m tk fac Hr (D1 & D2) A B. unfold debug_at, release_at.
  rewrite <- (toe_elapsed g f m tk fac Hr D1) in A. rewrite <- (toc_elapsed g f m tk fac Hr D2) in B.
  set (te := Q2R (ref2toe g m tk fac)) in *. set (tc := Q2R (ref2toc g m tk fac)) in *.
  apply off_spec in A. apply off_spec in B.
  assert (K : forall s, kep_result_dbg s f te tc = kep_result s f te tc).
  { intro s. unfold kep_result_dbg, kep_result, kep_stateNclock_dbg, kep_stateNclock, kepler2state_dbg, sv_clock_dbg. rewrite A, B.
    destruct (kepler2state s f te) as [k|]; cbn; [|reflexivity]. destruct (sv_clock s f tc None); reflexivity. }
  destruct sys; cbn [stateNclock stateNclock_dbg]; rewrite ?K; reflexivity.
Qed.
Print Assumptions C98_same.
(** further from the time of ephemeris the debug build refuses with status -1 and writes nothing *)
Theorem C98_far_toe : forall fuel sys g f m tk fac, In sys [Gps; Galileo; Beidou] -> reals_of g f -> near_days g m ->
  week_half < Rabs (instant m tk fac - IZR (f_toe g)) -> debug_at fuel sys g f m tk fac = Some (Runs (-1) None None).
Proof.
  intros fuel sys g f m tk fac Hs Hr (D1 & D2) A. unfold debug_at. destruct (kep_sys_dbg sys Hs) as (s & _ & ->).
  rewrite <- (toe_elapsed g f m tk fac Hr D1) in A. apply off_far in A.
  unfold kep_result_dbg, kep_stateNclock_dbg, kepler2state_dbg. rewrite A. reflexivity.
Qed.
Print Assumptions C98_far_toe.
(** near the time of ephemeris but far from the time of clock: also status -1, but the position is written, and it is that of the release build *)
Theorem C98_far_toc : forall fuel sys g f m tk fac, In sys [Gps; Galileo; Beidou] -> reals_of g f -> near_days g m ->
  0 <= r_data f 8 <= 96 / 100 -> Rabs (instant m tk fac - IZR (f_toe g)) <= week_half -> week_half < Rabs (instant m tk fac - IZR (f_toc g)) ->
  exists x c, release_at fuel sys g f m tk fac = Some (Runs 0 (Some x) (Some c)) /\ debug_at fuel sys g f m tk fac = Some (Runs (-1) (Some x) None).
Proof.
  intros fuel sys g f m tk fac Hs Hr D He A B.
  destruct (C69_kepler fuel sys g f m tk fac Hs Hr D He) as (x & y & z & c & _ & _ & _ & _ & E & _). exists [x; y; z], c. split; [exact E|].
  destruct D as (D1 & D2). unfold debug_at. destruct (kep_sys_dbg sys Hs) as (s & St & Sd). rewrite Sd. rewrite St in E.
  rewrite <- (toe_elapsed g f m tk fac Hr D1) in A. rewrite <- (toc_elapsed g f m tk fac Hr D2) in B.
  apply off_spec in A. apply off_far in B.
  unfold kep_result_dbg, kep_stateNclock_dbg, kepler2state_dbg, sv_clock_dbg. rewrite A, B.
  unfold kep_result, kep_stateNclock in E. destruct (kepler2state s f _) as [k|]; [|discriminate E]. cbn.
  destruct (sv_clock s f _ None); [|discriminate E]. injection E as E1 E2 E3 _. unfold xyz. rewrite E1, E2, E3. reflexivity.
Qed.
Print Assumptions C98_far_toc.
(** so in the debug build a state comes with status 0 only within half a week of both *)
Theorem C98_debug : forall fuel sys g f m tk fac x c, In sys [Gps; Galileo; Beidou] -> reals_of g f -> near_days g m ->
  debug_at fuel sys g f m tk fac = Some (Runs 0 x c) ->
  Rabs (instant m tk fac - IZR (f_toe g)) <= week_half /\ Rabs (instant m tk fac - IZR (f_toc g)) <= week_half /\
  release_at fuel sys g f m tk fac = Some (Runs 0 x c).
Proof.
  intros fuel sys g f m tk fac x c Hs Hr D H. pose proof H as H0.
  unfold debug_at in H. destruct (kep_sys_dbg sys Hs) as (s & _ & Sd). rewrite Sd in H.
  unfold kep_result_dbg, kep_stateNclock_dbg, kepler2state_dbg, sv_clock_dbg in H.
  destruct (off (Q2R (ref2toe g m tk fac) - r_toe f)) eqn:A; [discriminate H|].
  destruct (kepler2state s f _) as [k|]; [|discriminate H].
  destruct (off (Q2R (ref2toc g m tk fac) - r_toc f)) eqn:B; [discriminate H|].
  apply off_spec in A. apply off_spec in B. destruct D as (D1 & D2).
  rewrite (toe_elapsed g f m tk fac Hr D1) in A. rewrite (toc_elapsed g f m tk fac Hr D2) in B.
  split; [exact A|]. split; [exact B|]. rewrite <- H0. symmetry. exact (C98_same fuel sys g f m tk fac Hr (conj D1 D2) A B).
Qed.
Print Assumptions C98_debug.
(** GLONASS, both builds: within 15 minutes *)
Theorem C98_glonass : forall fuel g f m tk fac x c, reals_of g f -> near_days g m ->
  release_at fuel Glonass g f m tk fac = Some (Runs 0 x c) ->
  Rabs (instant m tk fac - IZR (f_toe g)) <= 900 /\ debug_at fuel Glonass g f m tk fac = Some (Runs 0 x c).
Proof.
  intros fuel g f m tk fac x c Hr (D1 & D2) H. split; [|exact H]. unfold release_at in H. cbn [stateNclock] in H.
  rewrite <- (toe_elapsed g f m tk fac Hr D1). set (te := Q2R (ref2toe g m tk fac)) in *.
  destruct (glo_stateNclock fuel f te) as [[[st v] b]|] eqn:G; [|discriminate H]. injection H as Hst _ _. subst st.
  unfold glo_stateNclock in G. destruct (glo_ecef fuel f te) as [q|] eqn:Q; [|discriminate G].
  assert (S0 : q_status q = 0%Z) by (destruct (Z.eqb_spec (q_status q) 0); [assumption|congruence]).
  unfold glo_ecef in Q. destruct (Rlt_dec (15 * 60) (Rabs (te - r_toe f))) as [L|L]; [|lra]. exfalso.
  destruct (Req_EM_T _ _); [injection Q as <-; discriminate S0|].
  destruct (glo_loop _ _ _ _ _) as [w|]; [|discriminate Q]. destruct (Nat.leb _ _); injection Q as <-; discriminate S0.
Qed.
Print Assumptions C98_glonass.
(** the release build has no limit for the others: at any distance, status 0 and a position *)
Theorem C98_release_unlimited : forall fuel sys g f m tk fac, In sys [Gps; Galileo; Beidou] -> reals_of g f -> near_days g m -> 0 <= r_data f 8 <= 96 / 100 ->
  exists x c, release_at fuel sys g f m tk fac = Some (Runs 0 (Some x) (Some c)).
Proof.
  intros fuel sys g f m tk fac Hs Hr D He. destruct (C69_kepler fuel sys g f m tk fac Hs Hr D He) as (x & y & z & c & _ & _ & _ & _ & E & _).
  exists [x; y; z], c. exact E.
Qed.
Print Assumptions C98_release_unlimited.
Definition far_g : frame := mkFrame Gps 5 0 0 (repeat (DFin 0) 31).
Definition far_f : rframe := mkR (fun _ => 0) 0 0.
Lemma far_reals : reals_of far_g far_f.
Proof.
  split; [|split; reflexivity]. intros i q H. cbn [far_g f_data] in H. apply nth_error_In, repeat_spec in H. injection H as ->.
  cbn. unfold Q2R. cbn. lra.
Qed.
Theorem C98_full_refuted : ~ C98_full.
Proof.
  intro F. assert (D : near_days far_g 10) by (split; cbn; lia).
  assert (He : 0 <= r_data far_f 8 <= 96 / 100) by (cbn; lra).
  destruct (C98_release_unlimited 0 Gps far_g far_f 10 0 1 ltac:(cbn; auto) far_reals D He) as (x & c & E).
  pose proof (F 0%nat Gps far_g far_f 10%Z 0%Z 1%positive _ _ far_reals D E) as Q. unfold instant, week_half in Q. cbn [f_toe far_g] in Q.
  rewrite Rabs_right in Q by lra. lra.
Qed.
Print Assumptions C98_full_refuted.
Example C98_example : near_days far_g 3 /\ reals_of far_g far_f /\ 0 <= r_data far_f 8 <= 96 / 100 /\
  Rabs (instant 3 0 1 - IZR (f_toe far_g)) <= week_half /\ week_half < Rabs (instant 4 0 1 - IZR (f_toe far_g)).
Proof.
  split; [split; cbn; lia|]. split; [exact far_reals|]. split; [cbn; lra|]. unfold instant, week_half. cbn [f_toe far_g].
  split; rewrite Rabs_right by lra; lra.
Qed.
