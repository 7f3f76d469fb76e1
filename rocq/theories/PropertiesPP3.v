(** PropertiesPP3: C94, C95 (whole runs of the point-positioning program, test/pp_rnx.cpp) *)
From Coq Require Import Reals Lra Lia ZArith List QArith Qreals Qround.
From Verif Require ProofB64.
From Verif Require Import B64 Base BaseLemmas CNum CNumLemmas Stream ModelSatsys ModelSatellite ModelObs ModelObsRnx ModelNav ModelOrbit ModelApp ModelPP
  SpecText SpecNum SpecObs SpecNav SpecApp SpecOrbit ProofText ProofNum ProofStream ProofObsRec ProofCollect ProofEpoch ProofNav ProofNavList ProofApp ProofOrbit
  PropertiesObs PropertiesNav PropertiesOrbit SpecPP SpecPPRun ProofPP ProofPPRun PropertiesPP.
Import ListNotations.
Open Scope string_scope.
Open Scope list_scope.
Local Open Scope R_scope.

(** ** C94: a run over two conforming files *)
(** the object is at the first of the epochs [eps], which the plan and the buffer can hold *)
Definition obs_conforms (plan : plan_t) (o : obsfile) (eps : list (epoch_src * list (list ascii))) : Prop :=
  ready o (file_text eps) /\ Forall (fun ep => epoch_ok plan (o_bufsz o) (fst ep) (snd ep)) eps.
Definition C94_full : Prop := forall en cal bs nav ell day pos plan o eps, nav_conforms en cal bs nav -> obs_conforms plan o eps -> Forall (epoch_fine day cal bs plan) eps ->
  exists k calls, pp_main k en ell day pos plan o nav 0 = Val ((-1)%Z, calls) /\
    selection (contributes ell day pos (saas_correction (saas_init (height_of ell pos))) cal bs plan) (few plan) eps calls.
(** an observation file without epochs: secday is read before anything was stored in it *)
Theorem C94_no_epochs : forall k en ell day pos plan o nav e, ready o [] -> pp_main (S k) en ell day pos plan o nav e = UB.
Proof.
  intros k en ell day pos plan o nav e Rd. unfold pp_main. cbn [pp_loop]. destruct (epoch_eof plan o (initialize_epoch_vector plan) Rd) as (r & -> & E1 & _ & _ & E4 & _). cbn [bind]. rewrite E4, E1. reflexivity.
Qed.
Print Assumptions C94_no_epochs.
Definition no_obs : obsfile := obj [].
Lemma no_obs_ready : ready no_obs [].
Proof. split; [split; reflexivity|split; [reflexivity|cbn; lia]]. Qed.
Theorem C94_full_refuted : ~ C94_full.
Proof.
  intro F. destruct (F en0 civil pp_bs pp_nav ell0 (fun _ => 0%Z) station plan1 no_obs [] (proj1 pp_conforms) (conj no_obs_ready (Forall_nil _)) (Forall_nil _)) as ([|k] & calls & E & _); [discriminate|].
  rewrite (C94_no_epochs k en0 ell0 (fun _ => 0%Z) station plan1 no_obs pp_nav 0 no_obs_ready) in E. discriminate.
Qed.
Print Assumptions C94_full_refuted.
(** at least one epoch: every epoch is handled once and in order, and main returns -1; or the program is ended
    by its assertion in an epoch of which no satellite is usable, or by the exception for a satellite far below
    the horizon *)
Theorem C94_run_partial : forall en cal bs nav ell day pos plan o eps k, nav_conforms en cal bs nav -> obs_conforms plan o eps -> Forall (epoch_fine day cal bs plan) eps -> eps <> [] -> (length eps < k)%nat ->
  let run := pp_main k en ell day pos plan o nav 0 in
  (exists calls, run = Val ((-1)%Z, calls) /\ selection (contributes ell day pos (saas_correction (saas_init (height_of ell pos))) cal bs plan) (few plan) eps calls) \/
  (run = Term /\ Exists (idle ell day pos cal bs plan) eps) \/ (run = Exn /\ Exists (sunken ell day pos cal bs plan) eps).
Proof.
  intros en cal bs nav ell day pos plan o eps k Nc (Rd & Ok) Ef Ne Lk. destruct (C25_initial_vector plan) as (L & W). unfold pp_main.
  apply run_total; [split; [exact Nc|split; [reflexivity|intros p []]]|exact Rd|exact Ok|exact W| |exact Ef|right; exact Ne|exact Lk].
  apply Forall_forall. intros ep He. rewrite Forall_forall in Ef. destruct (Ef ep He) as (_ & H & _). rewrite L. lia.
Qed.
Print Assumptions C94_run_partial.
(** any two files: if main returns, the calls follow the epochs that were read, in order, up to the first one
    that gave a status other than 0, which is what main returns *)
Theorem C94_any_file_partial : forall k en ell day pos plan o nav code calls, pp_main k en ell day pos plan o nav 0 = Val (code, calls) ->
  exists rs, read_n (length rs) o plan (initialize_epoch_vector plan) = Val rs /\ code <> 0%Z /\
    (exists pre z, rs = pre ++ [z] /\ er_code z = code /\ Forall (fun r => er_code r = 0%Z) pre) /\
    selection (answers en nav ell day pos (saas_correction (saas_init (height_of ell pos)))) (fun r => (er_sats r <= 4)%nat) rs calls.
Proof. intros k en ell day pos plan o nav code calls H. unfold pp_main in H. refine (run_inv en ell day pos _ plan nav k o _ None _ code calls _ H). exists []. constructor. Qed.
Print Assumptions C94_any_file_partial.

(** *** a sample: two epochs half an hour apart, each with one satellite straight above the station *)
Definition d15 := mkDate (lit "2020") (lit "10") (lit "06") (lit "0") (lit "15") (lit "0").
Definition d45 := mkDate (lit "2020") (lit "10") (lit "06") (lit "0") (lit "45") (lit "0").
Lemma d15_ok : date_ok d15. Proof. repeat split; try digs; try discriminate; vm_compute; lia. Qed.
Lemma d45_ok : date_ok d45. Proof. repeat split; try digs; try discriminate; vm_compute; lia. Qed.
Definition s15 := nv "1" "737000000000" "05".
Definition s45 := nv "1" "755000000000" "05".
Lemma s15_ok : nav_field s15. Proof. navf. Qed.
Lemma s45_ok : nav_field s45. Proof. navf. Qed.
Ltac nok ::= first [exact n0_ok|exact n1_ok|exact nm1_ok|exact s15_ok|exact s45_ok|exact nx_ok].
Definition glo_at (prn : string) (d : date_src) (sw : numlit) : nav_src := mkNavSrc "R"%char Glonass (lit prn) d [nm1; n0; sw] 0 [full nx n1 n0 n0; full n0 n1 n0 n1; full n0 nm1 n1 n0].
Definition run_bs : list nav_src := [glo_at "7" d15 s15; glo_at "8" d45 s45].
Ltac blk_at D := split; [vm_compute; tauto|split; [discriminate|split; [split; [digs|split; [discriminate|vm_compute; lia]]|split; [vm_compute; discriminate|
  split; [exact D|split; [reflexivity|split; [repeat (apply Forall_cons; [nok|]); apply Forall_nil|split; [vm_compute; lia|split; [orbs|]]]]]]]]].
Lemma run_blocks : Forall block_ok run_bs.
Proof. apply Forall_cons; [blk_at d15_ok; split; vm_compute; discriminate|]. apply Forall_cons; [blk_at d45_ok; split; vm_compute; discriminate|apply Forall_nil]. Qed.
Definition run_nav : stream := open_stream (blocks_text run_bs).
Lemma run_conforms : nav_conforms en0 civil run_bs run_nav.
Proof.
  split; [exact strp_fix_reads|]. split; [exact run_blocks|].
  split; [apply Forall_cons; [split; vm_compute; discriminate|apply Forall_cons; [split; vm_compute; discriminate|apply Forall_nil]]|].
  split; [reflexivity|]. split; [apply open_rest|cbn; lia].
Qed.
(** the observation file *)
Definition ep_at (mi : string) : epoch_src := mkSrc (lit "2020") (lit "10") (lit "06") (lit "00") (lit mi)
  (mkNum None (lit "00") true (lit "0000000") None) "0"%char (lit "5") None 0.
Definition rec_full (p : string) : string := ("R" ++ p ++ "  20000000.000 7")%string.
Definition rec_none (p : string) : string := ("R" ++ p)%string.
Definition run_eps : list (epoch_src * list (list ascii)) :=
  [(ep_at "15", map lit [rec_none "01"; rec_full "07"; rec_none "02"; rec_none "03"; rec_none "04"]);
   (ep_at "45", map lit [rec_none "01"; rec_none "02"; rec_full "08"; rec_none "03"; rec_none "04"])].
Definition run_plan : plan_t := smap_set smap_empty Glonass [[(0%nat, DFin 1)]].
Definition run_obs : obsfile := obj (file_text run_eps).
Definition mday (l : list Z) : Z := (civil (l ++ [0; 0; 0]) / 86400)%Z.
Lemma run_obs_conforms : obs_conforms run_plan run_obs run_eps.
Proof.
  split; [split; [split; reflexivity|split; [reflexivity|cbn; lia]]|].
  assert (E : forall mi, mi = "15" \/ mi = "45" -> epoch_src_ok (ep_at mi)) by (intros mi [-> | ->]; unfold epoch_src_ok, obs_num_ok, num_ok, field_ok; concrete).
  apply Forall_cons; [|apply Forall_cons; [|apply Forall_nil]];
    (split; [apply E; auto|]; split; [vm_compute; lia|]; split; [reflexivity|]; split; [repeat constructor; vm_compute; intuition discriminate|]; split; [repeat constructor; vm_compute; lia|]; repeat constructor; vm_compute; discriminate).
Qed.
Definition run_time (d : date_src) : Z := (civil (date_vals d) * 1000)%Z.
Definition one_of (prn : string) (d : date_src) (sw : numlit) : Prop := prn = "7" /\ d = d15 /\ sw = s15 \/ prn = "8" /\ d = d45 /\ sw = s45.
Lemma at_toe_val prn d sw g : one_of prn d sw -> frame_of civil (glo_at prn d sw) g -> f_toe g = civil (date_vals d).
Proof.
  intros O ((Sy & _ & Tc & _ & D) & T). apply (toe_val g); [|exact T]. cbn [glo_at b_sys b_date] in *. unfold toe2date. rewrite Sy. unfold glo_toe, ModelNav.slot.
  rewrite (D 2%nat sw eq_refl eq_refl), Tc. destruct O as [(-> & -> & ->)|(-> & -> & ->)]; vm_compute; reflexivity.
Qed.
Lemma at_usable prn d sw g : one_of prn d sw -> frame_of civil (glo_at prn d sw) g -> usable (run_time d) g.
Proof.
  intros O F. pose proof (at_toe_val prn d sw g O F) as T. destruct F as ((Sy & _ & Tc & _ & D) & _). cbn [glo_at b_sys b_date] in *. split.
  - exists (DFin (si_value Glonass 6 n0)). rewrite Sy. split; [exact (D 6%nat n0 eq_refl eq_refl)|]. eexists. split; [reflexivity|]. split; reflexivity.
  - unfold covers. rewrite Sy, T. destruct O as [(-> & -> & ->)|(-> & -> & ->)]; vm_compute; split; congruence.
Qed.
Lemma at_gives prn d sw g : one_of prn d sw -> frame_of civil (glo_at prn d sw) g -> exists more c, sv_eval g (run_time d) = Some (Runs 0 (Some (25600000 :: 0 :: 0 :: more)) (Some c)).
Proof.
  intros O F. pose proof (at_toe_val prn d sw g O F) as T. destruct F as (B & _). pose proof B as (Sy & _). unfold sv_eval. rewrite Sy. cbn [glo_at b_sys].
  replace (Q2R (ref2toe g (run_time d / 86400000) (run_time d mod 86400000) 1000)) with (r_toe (rframe_of g)).
  2:{ unfold ref2toe, ref2. cbn [rframe_of r_toe]. rewrite T. destruct O as [(-> & -> & ->)|(-> & -> & ->)].
      - change (IZR (civil (date_vals d15) mod 86400)) with (IZR 900). symmetry. transitivity (Q2R 900); [apply Qeq_eqR; vm_compute; reflexivity|unfold Q2R; cbn; lra].
      - change (IZR (civil (date_vals d45) mod 86400)) with (IZR 2700). symmetry. transitivity (Q2R 2700); [apply Qeq_eqR; vm_compute; reflexivity|unfold Q2R; cbn; lra]. }
  destruct (C70_at_toe civil g (glo_at prn d sw) (rframe_of g) 1000 (Q2R (ref2toc g (run_time d / 86400000) (run_time d mod 86400000) 1000)) nx n1 n0 n1 n0 nm1 B eq_refl (reals_rframe g) eq_refl eq_refl eq_refl eq_refl eq_refl eq_refl) as (c & E & _).
  rewrite km_x, km_zero in E. do 2 eexists. exact E.
Qed.
Definition in_view (k : Z) : satentry := (new_satellite Glonass k, [DFin (num_val (mkNum None (lit "20000000") true (lit "000") None))]).
Lemma at_block (e : satentry) g : read_from civil run_bs g -> f_sys g = sat_sys (fst e) -> f_prn g = sat_prn (fst e) -> sat_sys (fst e) = Glonass ->
  sat_prn (fst e) = 7%Z /\ frame_of civil (glo_at "7" d15 s15) g \/ sat_prn (fst e) = 8%Z /\ frame_of civil (glo_at "8" d45 s45) g.
Proof. intros (b & [<-|[<-|[]]] & F) S P _; [left|right]; (split; [|exact F]); destruct F as ((_ & Hp & _) & _); rewrite <- P, Hp; reflexivity. Qed.
Lemma up_angle a : zenith_angle ell0 station (25600000, 0, 0) a -> a = 0.
Proof.
  intro A. assert (Ne : (25600000, 0, 0) <> station) by (unfold station; intro X; apply (f_equal (fun p : R * R * R => fst (fst p))) in X; cbn in X; lra).
  pose proof (zenith_ok ell0 station _ Ne) as Z. unfold zenith_angle in *. destruct (ell0 station) as ((f, l), h). rewrite <- over_zenith.
  refine (angle_unique _ _ _ _ _ A Z).
  assert (V : norm (vertical f l) = 1).
  { unfold norm, vertical, dot. pose proof (sin2_cos2 f) as F. pose proof (sin2_cos2 l) as L. unfold Rsqr in *. replace (_ + _ + _) with 1 by nra. apply sqrt_1. }
  rewrite V, Rmult_1_l. unfold norm, vsub, station, dot. apply sqrt_lt_R0. nra.
Qed.
Lemma run_taken i : (i < 2)%nat -> map entry_of (taken run_plan (snd (nth i run_eps (ep_at "", [])))) = match i with O => [miss 1; in_view 7; miss 2; miss 3; miss 4] | _ => [miss 1; miss 2; in_view 8; miss 3; miss 4] end.
Proof. intro L. destruct i as [|[|i]]; [vm_compute; reflexivity|vm_compute; reflexivity|lia]. Qed.
Lemma run_times : epoch_time mday (ep_at "15") = run_time d15 /\ epoch_time mday (ep_at "45") = run_time d45.
Proof. split; vm_compute; reflexivity. Qed.
Lemma view_value k : nth_error (snd (in_view k)) 0 = Some (DFin (num_val (mkNum None (lit "20000000") true (lit "000") None))). Proof. reflexivity. Qed.
Lemma view_observed k : observed (in_view k) (DFin (num_val (mkNum None (lit "20000000") true (lit "000") None))).
Proof.
  split; [reflexivity|]. vm_compute. reflexivity.
Qed.
Lemma view_state prn d sw g sv : one_of prn d sw -> frame_of civil (glo_at prn d sw) g -> gives g (run_time d) sv -> first3 sv = (25600000, 0, 0).
Proof.
  intros O F G. destruct (at_gives prn d sw g O F) as (more & c & E). destruct sv as (((x, y), z), b). destruct G as (more' & G). rewrite E in G. injection G as <- <- <- _ _. reflexivity.
Qed.
Lemma view_up prn d sw k : one_of prn d sw -> k = dec_val (lit prn) -> ~ supplies_nothing gives (read_from civil run_bs) ell0 station (none_usable civil run_bs (run_time d)) (run_time d) (in_view k).
Proof.
  intros O Ek [(v & N & No)|[Nu|(g & sv & (Rf & Sg & Pg & _) & G & L)]].
  - rewrite view_value in N. injection N as <-. exact (No (view_observed k)).
  - destruct (Nu (glo_at prn d sw)) as (b' & Ib & _ & Tl).
    + destruct O as [(-> & -> & ->)|(-> & -> & ->)]; cbn; auto.
    + split; [reflexivity|]. subst k. reflexivity.
    + intros g F. exact (at_usable prn d sw g O F).
    + unfold too_late in Tl. destruct O as [(-> & -> & ->)|(-> & -> & ->)]; destruct Ib as [<-|[<-|[]]]; cbn [glo_at b_date] in Tl; revert Tl; vm_compute; discriminate.
  - destruct (at_block (in_view k) g Rf Sg Pg eq_refl) as [(K & F)|(K & F)]; cbn [in_view fst new_satellite sat_prn] in K;
      (assert (F' : frame_of civil (glo_at prn d sw) g) by (destruct O as [(-> & -> & ->)|(-> & -> & ->)]; [exact F || (exfalso; subst k; vm_compute in K; discriminate)|exact F || (exfalso; subst k; vm_compute in K; discriminate)]));
      rewrite (view_state prn d sw g sv O F' G) in L; destruct L as [L|(a & A & L)];
      [apply (f_equal (fun p : R * R * R => fst (fst p))) in L; cbn in L; lra|rewrite (up_angle a A) in L; unfold Rdiv in L; rewrite !Rmult_0_l in L; lra
      |apply (f_equal (fun p : R * R * R => fst (fst p))) in L; cbn in L; lra|rewrite (up_angle a A) in L; unfold Rdiv in L; rewrite !Rmult_0_l in L; lra].
Qed.
Lemma view_high prn d sw k : one_of prn d sw -> k = dec_val (lit prn) -> ~ far_below (read_from civil run_bs) ell0 station (run_time d) (in_view k).
Proof.
  intros O Ek (g & sv & a & (Rf & Sg & Pg & _) & G & A & L).
  destruct (at_block (in_view k) g Rf Sg Pg eq_refl) as [(K & F)|(K & F)]; cbn [in_view fst new_satellite sat_prn] in K;
    (assert (F' : frame_of civil (glo_at prn d sw) g) by (destruct O as [(-> & -> & ->)|(-> & -> & ->)]; [exact F || (exfalso; subst k; vm_compute in K; discriminate)|exact F || (exfalso; subst k; vm_compute in K; discriminate)]));
    rewrite (view_state prn d sw g sv O F' G) in A; rewrite (up_angle a A) in L; pose proof PI_RGT_0; lra.
Qed.
Lemma miss_high k t : (1 <= k <= 4)%Z -> ~ far_below (read_from civil run_bs) ell0 station t (miss k).
Proof. intros Hk (g & sv & a & (Rf & Sg & Pg & _) & _). destruct (at_block (miss k) g Rf Sg Pg eq_refl) as [(K & F)|(K & F)]; cbn [miss fst new_satellite sat_prn] in K; lia. Qed.
Lemma o15 : one_of "7" d15 s15. Proof. left. auto. Qed.
Lemma o45 : one_of "8" d45 s45. Proof. right. auto. Qed.
Lemma run_not_idle : ~ Exists (idle ell0 mday station civil run_bs run_plan) run_eps.
Proof.
  pose proof (run_taken 0 ltac:(lia)) as T0. pose proof (run_taken 1 ltac:(lia)) as T1. destruct run_times as (M0 & M1).
  intro E. apply Exists_cons in E as [(_ & F)|E]; [|apply Exists_cons in E as [(_ & F)|E]; [|inversion E]]; cbn [fst snd nth run_eps] in *.
  - rewrite T0, M0, Forall_forall in F. refine (view_up "7" d15 s15 7 o15 eq_refl (F _ _)). cbn. auto.
  - rewrite T1, M1, Forall_forall in F. refine (view_up "8" d45 s45 8 o45 eq_refl (F _ _)). cbn. auto.
Qed.
Lemma run_not_sunken : ~ Exists (sunken ell0 mday station civil run_bs run_plan) run_eps.
Proof.
  pose proof (run_taken 0 ltac:(lia)) as T0. pose proof (run_taken 1 ltac:(lia)) as T1. destruct run_times as (M0 & M1).
  assert (H : forall t e, In e [miss 1; miss 2; miss 3; miss 4] -> ~ far_below (read_from civil run_bs) ell0 station t e) by (intros t e [<-|[<-|[<-|[<-|[]]]]]; apply miss_high; lia).
  intro E. apply Exists_cons in E as [(_ & F)|E]; [|apply Exists_cons in E as [(_ & F)|E]; [|inversion E]]; cbn [fst snd nth run_eps] in *.
  - rewrite T0, M0 in F. apply Exists_exists in F as (e & [<-|[<-|He]] & F); [refine (H _ _ _ F); cbn; auto|exact (view_high "7" d15 s15 7 o15 eq_refl F)|refine (H _ _ _ F); destruct He as [<-|[<-|[<-|[]]]]; cbn; auto].
  - rewrite T1, M1 in F. apply Exists_exists in F as (e & [<-|[<-|[<-|He]]] & F); [refine (H _ _ _ F); cbn; auto|refine (H _ _ _ F); cbn; auto|exact (view_high "8" d45 s45 8 o45 eq_refl F)|refine (H _ _ _ F); destruct He as [<-|[<-|[]]]; cbn; auto].
Qed.
Lemma run_fine : Forall (epoch_fine mday civil run_bs run_plan) run_eps.
Proof.
  assert (Pl : forall b g, In b run_bs -> b_sys b = Glonass -> frame_of civil b g -> plausible g) by (intros b g _ Sb ((Sg & _) & _); left; congruence).
  assert (Sv : forall k v, serviced civil run_bs (new_satellite Glonass k, [v])) by (intros k v; split; [cbn; tauto|split; [discriminate|exact Pl]]).
  pose proof (run_taken 0 ltac:(lia)) as T0. pose proof (run_taken 1 ltac:(lia)) as T1. cbn [nth run_eps snd] in T0, T1.
  apply Forall_cons; [|apply Forall_cons; [|apply Forall_nil]]; (split; [split; vm_compute; congruence|split; [vm_compute; lia|]]); [change (Forall (serviced civil run_bs) (map entry_of (taken run_plan (map lit [rec_none "01"; rec_full "07"; rec_none "02"; rec_none "03"; rec_none "04"])))); rewrite T0
    |change (Forall (serviced civil run_bs) (map entry_of (taken run_plan (map lit [rec_none "01"; rec_none "02"; rec_full "08"; rec_none "03"; rec_none "04"])))); rewrite T1]; repeat (apply Forall_cons; [apply Sv|]); apply Forall_nil.
Qed.
Example C94_ex : nav_conforms en0 civil run_bs run_nav /\ obs_conforms run_plan run_obs run_eps /\ Forall (epoch_fine mday civil run_bs run_plan) run_eps /\
  exists u1 u2, pp_main 9 en0 ell0 mday station run_plan run_obs run_nav 0 = Val ((-1)%Z, [u1; u2]) /\
    contributes ell0 mday station (saas_correction (saas_init 0)) civil run_bs run_plan (nth 0 run_eps (ep_at "", [])) u1 /\
    contributes ell0 mday station (saas_correction (saas_init 0)) civil run_bs run_plan (nth 1 run_eps (ep_at "", [])) u2.
Proof.
  split; [exact run_conforms|]. split; [exact run_obs_conforms|]. split; [exact run_fine|].
  destruct (C94_run_partial en0 civil run_bs run_nav ell0 mday station run_plan run_obs run_eps 9 run_conforms run_obs_conforms run_fine) as [(calls & E & S)|[(_ & X)|(_ & X)]]; [discriminate|cbn; lia| |destruct (run_not_idle X)|destruct (run_not_sunken X)].
  assert (N : forall ep, In ep run_eps -> ~ few run_plan ep) by (intros ep [<-|[<-|[]]]; unfold few; vm_compute; lia).
  unfold run_eps in S. inversion S as [|? u1 ? m1 U1 S1|? ? ? K _]; subst; [|destruct (N _ (or_introl eq_refl) K)].
  inversion S1 as [|? u2 ? m2 U2 S2|? ? ? K _]; subst; [|destruct (N _ (or_intror (or_introl eq_refl)) K)]. inversion S2; subst. exists u1, u2. auto.
Qed.

(** ** C95: the time step given to the filter *)
(** the epochs with enough satellites *)
Definition used (plan : plan_t) (eps : list (epoch_src * list (list ascii))) : list (epoch_src * list (list ascii)) := filter (fun ep => (4 <? length (taken plan (snd ep)))%nat) eps.
(** filter.update is given the seconds since the epoch of the update before *)
Definition C95_full : Prop := forall en cal bs nav ell day pos plan o eps k calls, nav_conforms en cal bs nav -> obs_conforms plan o eps -> Forall (epoch_fine day cal bs plan) eps -> eps <> [] -> (length eps < k)%nat ->
  pp_main k en ell day pos plan o nav 0 = Val ((-1)%Z, calls) ->
  forall i e e' u, nth_error (used plan eps) i = Some e -> nth_error (used plan eps) (S i) = Some e' -> nth_error calls (S i) = Some u ->
  exists q, u_dt u = DFin q /\ (q * 1000 == inject_Z (epoch_time day (fst e') - epoch_time day (fst e)))%Q.
(** it is the second of the day *)
Theorem C95_second_of_day : forall en cal bs nav ell day pos plan o eps k calls, nav_conforms en cal bs nav -> obs_conforms plan o eps -> Forall (epoch_fine day cal bs plan) eps -> eps <> [] -> (length eps < k)%nat ->
  pp_main k en ell day pos plan o nav 0 = Val ((-1)%Z, calls) ->
  map u_dt calls = map (fun ep => DFin (b64 (inject_Z ((dec_val (s_hour (fst ep)) * 60 + dec_val (s_min (fst ep))) * 60) + num_val (s_sec (fst ep))))) (used plan eps).
Proof.
  intros en cal bs nav ell day pos plan o eps k calls Nc Oc Ef Ne Lk E.
  destruct (C94_run_partial en cal bs nav ell day pos plan o eps k Nc Oc Ef Ne Lk) as [(calls' & E' & S)|[(X & _)|(X & _)]]; [|congruence|congruence].
  assert (calls' = calls) as -> by congruence. clear - S. unfold used. induction S as [|ep u l m U S IH|ep l m F S IH]; [reflexivity| |]; cbn [filter map].
  - destruct U as (L4 & _ & _ & _ & _ & D & _). rewrite map_length in L4. rewrite (proj2 (Nat.ltb_lt _ _) L4). cbn [map]. rewrite IH, D. reflexivity.
  - unfold few in F. rewrite (proj2 (Nat.ltb_ge _ _) F). exact IH.
Qed.
Print Assumptions C95_second_of_day.
Theorem C95_full_refuted : ~ C95_full.
Proof.
  intro F. destruct C94_ex as (Nc & Oc & Ef & u1 & u2 & E & _ & U2). assert (Ne : run_eps <> []) by discriminate. assert (Lk : (length run_eps < 9)%nat) by (cbn; lia).
  destruct (F en0 civil run_bs run_nav ell0 mday station run_plan run_obs run_eps 9%nat [u1; u2] Nc Oc Ef Ne Lk E 0%nat (nth 0 run_eps (ep_at "", [])) (nth 1 run_eps (ep_at "", [])) u2) as (q & D & Q); [vm_compute; reflexivity|vm_compute; reflexivity|reflexivity|].
  destruct U2 as (_ & _ & _ & _ & _ & D2 & _). rewrite D in D2. assert (Inj : forall a b : QArith_base.Q, DFin a = DFin b -> a = b) by congruence. assert (Eq : q = spec_sec (ep_at "45")) by (apply Inj; exact D2). clear Inj. subst q.
  revert Q. vm_compute. discriminate.
Qed.
Print Assumptions C95_full_refuted.
(** for an epoch at a whole millisecond the step is right if and only if the epoch before it is midnight of the same day *)
Theorem C95_partial : forall en cal bs nav ell day pos plan o eps k calls, nav_conforms en cal bs nav -> obs_conforms plan o eps -> Forall (epoch_fine day cal bs plan) eps -> eps <> [] -> (length eps < k)%nat ->
  pp_main k en ell day pos plan o nav 0 = Val ((-1)%Z, calls) ->
  forall i e e' u, nth_error (used plan eps) i = Some e -> nth_error (used plan eps) (S i) = Some e' -> nth_error calls (S i) = Some u ->
  (exists n, spec_sec (fst e') * 1000 == inject_Z n)%Q ->
  ((exists q, u_dt u = DFin q /\ (q * 1000 == inject_Z (epoch_time day (fst e') - epoch_time day (fst e)))%Q) <-> epoch_time day (fst e) = (day (firstn 3 (spec_ints (fst e'))) * 86400000)%Z).
Proof.
  intros en cal bs nav ell day pos plan o eps k calls Nc Oc Ef Ne Lk E i e e' u E1 E2 E3 (n & N).
  pose proof (C95_second_of_day en cal bs nav ell day pos plan o eps k calls Nc Oc Ef Ne Lk E) as M.
  apply (map_nth_error u_dt) in E3. rewrite M in E3. rewrite (map_nth_error _ _ _ E2) in E3.
  assert (D : u_dt u = DFin (spec_sec (fst e'))) by (injection E3 as E3; symmetry; exact E3). rewrite D.
  assert (Rn : (0 <= n <= 100000000)%Z).
  { apply nth_error_In, filter_In in E2 as (I2 & _). pose proof (proj1 (Forall_forall _ _) Ef _ I2) as ((L & U) & _).
    split; rewrite Zle_Qle, <- N; [apply Qmult_le_0_compat; [exact L|discriminate]|].
    apply Qle_trans with (100000 * 1000)%Q; [apply Qmult_le_compat_r; [apply Qlt_le_weak; exact U|discriminate]|vm_compute; discriminate]. }
  assert (Fl : Qfloor (b64 (spec_sec (fst e') * 1000)) = n) by (rewrite (ProofB64.b64_wd _ _ N), ProofB64.b64_int by lia; apply Qfloor_Z). unfold epoch_time at 1. rewrite Fl. split.
  - intros (q & Eq & Q). injection Eq as <-. rewrite N in Q. apply (proj1 (inject_Z_injective _ _)) in Q. lia.
  - intro T. exists (spec_sec (fst e')). split; [reflexivity|]. rewrite N. apply inject_Z_injective. lia.
Qed.
Print Assumptions C95_partial.
Example C95_ex : exists e e', nth_error (used run_plan run_eps) 0 = Some e /\ nth_error (used run_plan run_eps) 1 = Some e' /\ (exists n, spec_sec (fst e') * 1000 == inject_Z n)%Q /\
  epoch_time mday (fst e) <> (mday (firstn 3 (spec_ints (fst e'))) * 86400000)%Z.
Proof. do 2 eexists. split; [vm_compute; reflexivity|]. split; [vm_compute; reflexivity|]. split; [exists 2700000%Z; vm_compute; reflexivity|vm_compute; discriminate]. Qed.
