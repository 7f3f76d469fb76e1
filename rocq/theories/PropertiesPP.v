(** PropertiesPP: C88-C90 (one epoch of the point-positioning program, test/pp_rnx.cpp) *)
From Coq Require Import Reals Lra Lia ZArith List QArith Qreals Qround.
From Verif Require ProofB64.
From Verif Require Import B64 Base BaseLemmas CNum CNumLemmas Stream ModelSatsys ModelSatellite ModelObsRnx ModelNav ModelOrbit ModelApp ModelPP
  SpecText SpecNum SpecNav SpecApp SpecOrbit ProofText ProofNum ProofStream ProofNav ProofNavList ProofApp ProofOrbit PropertiesNav PropertiesOrbit SpecPP ProofPP.
Import ListNotations.
Open Scope string_scope.
Open Scope list_scope.
Local Open Scope R_scope.

(** ** samples: a station on the equator; GLONASS 7 straight above it, GPS 5 with a senseless eccentricity *)
Definition nx := nv "2" "560000000000" "04".
Definition ntwo := nv "2" "000000000000" "00".
Definition nmtwo : numlit := mkNum (Some "-"%char) (lit "2") true (lit "000000000000") (Some ("D"%char, Some "+"%char, lit "00")).
Lemma nx_ok : nav_field nx. Proof. navf. Qed.
Lemma ntwo_ok : nav_field ntwo. Proof. navf. Qed.
Lemma nmtwo_ok : nav_field nmtwo. Proof. navf. Qed.
Definition glo_p : nav_src := mkNavSrc "R"%char Glonass (lit "7") date1 [nm1; n0; sown] 0 [full nx n1 n0 n0; full n0 n1 n0 n1; full n0 nm1 n1 n0].
Definition gps_w : nav_src := mkNavSrc "G"%char Gps (lit "05") date1 [nm1; n1; n0] 0
  [full n1 nm1 n0 ntwo; full nm1 nmtwo nm1 n1; full sown n1 n1 nm1; full n1 n1 n1 nm1; full n1 n1 weekn n0; full n1 n0 nm1 n1; ([Some sown; Some fitn], 3%nat)].
Ltac nok ::= first [exact n0_ok|exact n1_ok|exact nm1_ok|exact weekn_ok|exact sown_ok|exact fitn_ok|exact nx_ok|exact ntwo_ok|exact nmtwo_ok].
Lemma glo_p_ok : block_ok glo_p.
Proof. blk. split; vm_compute; discriminate. Qed.
Lemma gps_w_ok : block_ok gps_w.
Proof. blk. split; split; vm_compute; discriminate. Qed.
Definition pp_bs : list nav_src := [glo_p; gps_w].
Definition pp_nav : stream := open_stream (blocks_text pp_bs).
Definition t0 : Z := (civil [2020; 10; 6; 0; 0; 0] * 1000)%Z.
Definition en0 : navenv := mkEnv 9 strp_fix (Some 0%nat) frame0.
Definition station : R * R * R := (6378137, 0, 0).
Definition ell0 : R * R * R -> R * R * R := fun _ => (0, 0, 0).
Definition pp0 : ppst := mkPP [] pp_nav 0 None None [] [].
Lemma pp_conforms : in_order en0 civil pp_bs [] pp_nav 0.
Proof.
  split; [|split; [reflexivity|intros p []]]. split; [exact strp_fix_reads|].
  split; [apply Forall_cons; [exact glo_p_ok|apply Forall_cons; [exact gps_w_ok|apply Forall_nil]]|].
  split; [apply Forall_cons; [split; vm_compute; discriminate|apply Forall_cons; [split; split; vm_compute; discriminate|apply Forall_nil]]|].
  split; [reflexivity|]. split; [apply open_rest|cbn; lia].
Qed.

(** what the two messages give at [t0] *)
Lemma reals_rframe g : reals_of g (rframe_of g).
Proof. split; [|split; reflexivity]. intros i q H. cbn [rframe_of r_data]. rewrite H. reflexivity. Qed.
Lemma toe_val g v : toe2date g = Val v -> toe2date g = Val (f_toe g) -> f_toe g = v.
Proof. congruence. Qed.
Lemma glo_toe_val g : frame_of civil glo_p g -> f_toe g = civil (date_vals date1).
Proof.
  intros ((Sy & _ & Tc & _ & D) & T). apply (toe_val g); [|exact T]. cbn [glo_p b_sys b_date] in *. unfold toe2date. rewrite Sy. unfold glo_toe, ModelNav.slot.
  rewrite (D 2%nat sown eq_refl eq_refl), Tc. vm_compute. reflexivity.
Qed.
Lemma gps_toe_val g : frame_of civil gps_w g -> f_toe g = civil (date_vals date1).
Proof.
  intros ((Sy & _ & Tc & _ & D) & T). apply (toe_val g); [|exact T]. cbn [gps_w b_sys b_date] in *. unfold toe2date. rewrite Sy. unfold gps_toe, ModelNav.slot.
  rewrite (D 21%nat weekn eq_refl eq_refl), (D 11%nat sown eq_refl eq_refl). vm_compute. reflexivity.
Qed.
Lemma at_toe g : f_toe g = civil (date_vals date1) -> Q2R (ref2toe g (t0 / 86400000) (t0 mod 86400000) 1000) = r_toe (rframe_of g).
Proof.
  intro E. unfold ref2toe, ref2. cbn [rframe_of r_toe]. rewrite E. replace (Q2R _) with (Q2R 0); [|apply Qeq_eqR; vm_compute; reflexivity].
  replace (civil (date_vals date1) mod 86400)%Z with 0%Z by (vm_compute; reflexivity). unfold Q2R. cbn. lra.
Qed.
Lemma km_zero : Q2R (b64 (num_val n0 * 1000)) = 0.
Proof. replace (Q2R (b64 (num_val n0 * 1000))) with (Q2R 0) by (apply Qeq_eqR; vm_compute; reflexivity). unfold Q2R. cbn. lra. Qed.
Lemma km_x : Q2R (b64 (num_val nx * 1000)) = 25600000.
Proof. replace (Q2R (b64 (num_val nx * 1000))) with (Q2R 25600000) by (apply Qeq_eqR; vm_compute; reflexivity). unfold Q2R. cbn. lra. Qed.
Lemma glo_usable g : frame_of civil glo_p g -> usable t0 g.
Proof.
  intro F. pose proof (glo_toe_val g F) as T. destruct F as ((Sy & _ & Tc & _ & D) & _). cbn [glo_p b_sys b_date] in *. split.
  - exists (DFin (si_value Glonass 6 n0)). rewrite Sy. split; [exact (D 6%nat n0 eq_refl eq_refl)|]. eexists. split; [reflexivity|]. split; reflexivity.
  - unfold covers. rewrite Sy, T. vm_compute. split; congruence.
Qed.
Lemma glo_gives g : frame_of civil glo_p g -> exists more c, sv_eval g t0 = Some (Runs 0 (Some (25600000 :: 0 :: 0 :: more)) (Some c)).
Proof.
  intro F. pose proof (glo_toe_val g F) as T. destruct F as (B & _). pose proof B as (Sy & _). unfold sv_eval. rewrite Sy, (at_toe g T). cbn [glo_p b_sys].
  destruct (C70_at_toe civil g glo_p (rframe_of g) 1000 (Q2R (ref2toc g (t0 / 86400000) (t0 mod 86400000) 1000)) nx n1 n0 n1 n0 nm1 B eq_refl (reals_rframe g) eq_refl eq_refl eq_refl eq_refl eq_refl eq_refl) as (c & E & _).
  rewrite km_x, km_zero in E. do 2 eexists. exact E.
Qed.
Lemma gps_usable g : frame_of civil gps_w g -> usable t0 g.
Proof.
  intros ((Sy & _ & Tc & _ & D) & _). cbn [gps_w b_sys b_date] in *. split.
  - exists (DFin (si_value Gps 24 n0)). rewrite Sy. split; [exact (D 24%nat n0 eq_refl eq_refl)|]. eexists. split; [reflexivity|]. split; reflexivity.
  - unfold covers. rewrite Sy. exists (DFin (si_value Gps 28 fitn)), 4%Z. split; [exact (D 28%nat fitn eq_refl eq_refl)|].
    split; [eexists; split; [reflexivity|]; split; vm_compute; [discriminate|reflexivity]|]. rewrite Tc. split; [reflexivity|]. split; vm_compute; congruence.
Qed.
(** e = -2, M = 2: the iteration of Kepler's equation jumps between two intervals *)
Lemma sin_lower y : 0 <= y <= 1 / 2 -> 7 / 8 <= cos y.
Proof.
  intro H. pose proof PI2_3_2 as P. pose proof (cos_bound y 0 ltac:(lra) ltac:(lra)) as (L & _). unfold cos_approx, cos_term in L. cbn in L. nra.
Qed.
Lemma sin_high E : 3 / 2 <= E <= 2 -> 7 / 8 <= sin E <= 1.
Proof.
  intro H. split; [|apply SIN_bound]. pose proof PI2_3_2 as P. pose proof PI_4 as P4. rewrite <- cos_shift.
  destruct (Rle_dec E (PI / 2)) as [L|L]; [apply sin_lower; lra|]. rewrite <- cos_neg. apply sin_lower. lra.
Qed.
Lemma jumps : forall n, (3 / 2 <= kepler_iter (-2) 2 n <= 2 /\ 0 <= kepler_iter (-2) 2 (S n) <= 1 / 4) \/ (0 <= kepler_iter (-2) 2 n <= 1 / 4 /\ 3 / 2 <= kepler_iter (-2) 2 (S n) <= 2).
Proof.
  assert (Hi : forall E, 3 / 2 <= E <= 2 -> 0 <= 2 + -2 * sin E <= 1 / 4) by (intros E H; pose proof (sin_high E H); lra).
  assert (Lo : forall E, 0 <= E <= 1 / 4 -> 3 / 2 <= 2 + -2 * sin E <= 2).
  { intros E H. pose proof PI2_3_2. assert (0 <= sin E) by (apply sin_ge_0; lra). assert (sin E <= E); [|lra].
    destruct (Req_EM_T E 0) as [->|]; [rewrite sin_0; lra|]. left. apply sin_lt_x. lra. }
  induction n as [|n [(A & B)|(A & B)]].
  - left. cbn [kepler_iter]. split; [lra|]. apply Hi. lra.
  - right. split; [exact B|]. apply Lo. exact B.
  - left. split; [exact B|]. apply Hi. exact B.
Qed.
Lemma kepler_fails : kepler_solve (-2) 2 = None.
Proof.
  apply C46_fails_iff. intros n _. assert (L : / 10 ^ 14 < 1).
  { rewrite <- Rinv_1. apply Rinv_lt_contravar; [rewrite Rmult_1_l; apply pow_lt; lra|apply Rlt_pow_R1; [lra|lia]]. }
  destruct n as [|n]; cbn [kepler_gap]; [rewrite Rabs_pos_eq; lra|].
  destruct (jumps n) as [(A & B)|(A & B)]; [rewrite Rabs_left1; lra|rewrite Rabs_pos_eq; lra].
Qed.
Lemma q_two : Q2R (num_val ntwo) = 2.
Proof. replace (Q2R (num_val ntwo)) with (Q2R 2) by (apply Qeq_eqR; vm_compute; reflexivity). unfold Q2R. cbn. lra. Qed.
Lemma q_mtwo : Q2R (num_val nmtwo) = -2.
Proof. replace (Q2R (num_val nmtwo)) with (Q2R (-2)) by (apply Qeq_eqR; vm_compute; reflexivity). unfold Q2R. cbn. lra. Qed.
Lemma gps_gives g : frame_of civil gps_w g -> sv_eval g t0 = Some (Runs 1 None None).
Proof.
  intro F. pose proof (gps_toe_val g F) as T. destruct F as (B & _). pose proof B as (Sy & _ & _ & _ & D). cbn [gps_w b_sys] in *. unfold sv_eval. rewrite Sy, (at_toe g T). cbn [stateNclock].
  unfold kep_result, kep_stateNclock, kepler2state, mean_anomaly. cbn [rframe_of r_data r_toe]. rewrite (D 8%nat nmtwo eq_refl eq_refl), (D 6%nat ntwo eq_refl eq_refl). cbn [si_value].
  rewrite q_two, q_mtwo, Rminus_eq_0, Rmult_0_r, Rplus_0_r, kepler_fails. reflexivity.
Qed.

(** *** lookups in the sample file *)
Lemma pp_late t b : In b pp_bs -> (civil (date_vals date1) * 1000 <= t)%Z -> ~ too_late civil t b.
Proof. intros [<-|[<-|[]]] H; unfold too_late; cbn [glo_p gps_w b_date]; lia. Qed.
Lemma look cache sys prn b : in_order en0 civil pp_bs cache pp_nav 0 -> In b pp_bs -> serves sys prn b -> (forall g, frame_of civil b g -> usable t0 g) -> 
  exists r k g, get_valid_msg 9 strp_fix (Some 0%nat) frame0 pp_nav 0 sys prn t0 cache = Val r /\ g_status r = 0%Z /\ g_stream r = pp_nav /\ g_errno r = 0%Z /\
    in_order en0 civil pp_bs (g_cache r) pp_nav 0 /\ g_it r = Some k /\ nth_error (g_cache r) k = Some g /\ f_sys g = sys /\ f_prn g = prn /\ exists b', In b' pp_bs /\ serves sys prn b' /\ frame_of civil b' g.
Proof.
  intros (Nc & _ & Cf) Ib Sb Ub. assert (Hs : In sys [Gps; Glonass; Galileo; Beidou]) by (destruct Sb as (<- & _); destruct Ib as [<-|[<-|[]]]; cbn; auto).
  destruct (lookup_conforming en0 civil pp_bs pp_nav cache sys prn t0 Nc Cf Hs) as (r & Er & Gs & Ge & Gc & K). cbn [en0 v_fuel v_strp v_eoh v_new] in Er.
  assert (Z0 : g_status r = 0%Z).
  { destruct (Z.eq_dec (g_status r) 0) as [|Nz]; [assumption|]. destruct (K Nz b Ib Sb Ub) as (b' & Ib' & _ & Tl). destruct (pp_late t0 b' Ib'); [vm_compute; congruence|exact Tl]. }
  destruct (get_inv _ _ _ _ _ _ _ _ _ _ _ Er) as (_ & [(_ & k & g & It & Nk & Sg & Pg & _)|(Nz & _)]); [|contradiction].
  exists r, k, g. repeat (split; [assumption|]). split; [exact (conj Nc (conj eq_refl Gc))|]. repeat (split; [assumption|]).
  destruct (Gc g (nth_error_In _ _ Nk)) as (b' & Ib' & Fb). exists b'. split; [exact Ib'|]. split; [|exact Fb]. destruct Fb as ((S1 & S2 & _) & _). split; congruence.
Qed.
Definition miss (k : Z) : satentry := (new_satellite Glonass k, [DFin (b64 (-99999 # 100))]).
Definition over : satentry := (new_satellite Glonass 7, [DFin 20000000]).
Definition wild : satentry := (new_satellite Gps 5, [DFin 21000000]).
Lemma step_miss s k p : sat_step en0 s t0 (miss k) p = Val p.
Proof. reflexivity. Qed.
Lemma over_zenith : zenith (site_of ell0 station) (25600000, 0, 0) = 0.
Proof.
  unfold zenith, site_of, ell0, station. cbn [si_sf si_cf si_sl si_cl si_x si_y si_z]. rewrite sin_0, cos_0.
  match goal with |- acos (?u / ?r) = 0 => assert (U : u = 19221863) by ring; assert (V : r = 19221863) end.
  2:{ rewrite V, U. unfold Rdiv. rewrite Rinv_r by lra. apply acos_1. }
  match goal with |- sqrt ?a = _ => replace a with (19221863 * 19221863) by ring end. apply sqrt_square. lra.
Qed.
Lemma step_over p : in_order en0 civil pp_bs (p_cache p) (p_nav p) (p_errno p) -> p_nav p = pp_nav -> (length (p_obs p) < 30)%nat ->
  exists cache c, in_order en0 civil pp_bs cache pp_nav 0 /\
    sat_step en0 (site_of ell0 station) t0 over p = Val (mkPP cache pp_nav 0 (Some (25600000, 0, 0)) (Some c) (p_obs p ++ [DFin 20000000]) (p_sv p ++ [(25600000, 0, 0, c)])).
Proof.
  intros Io Np L. pose proof Io as (_ & Ne & _). rewrite Np, Ne in Io.
  destruct (look (p_cache p) Glonass 7 glo_p Io (or_introl eq_refl) (conj eq_refl eq_refl) glo_usable) as (r & k & g & Er & Z0 & Gs & Ge & Io' & It & Nk & Sg & Pg & b & Ib & (Sb & _) & Fb).
  destruct Ib as [<-|[<-|[]]]; [|discriminate Sb]. destruct (glo_gives g Fb) as (more & c & Ev).
  exists (g_cache r), c. split; [exact Io'|]. unfold sat_step. cbn [over fst snd nth_error new_satellite sat_sys sat_prn]. rewrite Np, Ne.
  change (present (DFin 20000000)) with true. cbn [en0 v_fuel v_strp v_eoh v_new]. cbv iota. rewrite Er. cbn [bind]. rewrite Z0. change (negb (0 =? 0)%Z) with false. cbv iota. rewrite It, Nk, Sg, Pg. 
  change (negb (satsys_eqb Glonass Glonass && (7 =? 7)%Z)) with false. cbv iota. rewrite Ev. cbn [new_state new_clock]. unfold sv_zen_angle. rewrite over_zenith.
  pose proof PI_RGT_0 as P. destruct (Rlt_dec 0 (- 0.2)); [lra|]. destruct (Rlt_dec _ 0); [lra|]. cbn [bind]. unfold MAX_ZENITH. destruct (Rlt_dec _ _) as [|X]; [|exfalso; apply X; unfold Rdiv; rewrite !Rmult_0_l; lra].
  change MAX_SATS with 30%nat. rewrite (proj2 (Nat.ltb_lt _ _) L), Gs, Ge. reflexivity.
Qed.
Lemma step_wild p x y z c : in_order en0 civil pp_bs (p_cache p) (p_nav p) (p_errno p) -> p_nav p = pp_nav -> (length (p_obs p) < 30)%nat ->
  p_state p = Some (x, y, z) -> p_clock p = Some c -> zenith (site_of ell0 station) (x, y, z) = 0 ->
  exists cache, in_order en0 civil pp_bs cache pp_nav 0 /\
    sat_step en0 (site_of ell0 station) t0 wild p = Val (mkPP cache pp_nav 0 (Some (x, y, z)) (Some c) (p_obs p ++ [DFin 21000000]) (p_sv p ++ [(x, y, z, c)])).
Proof.
  intros Io Np L Ps Pc Zn. pose proof Io as (_ & Ne & _). rewrite Np, Ne in Io.
  destruct (look (p_cache p) Gps 5 gps_w Io (or_intror (or_introl eq_refl)) (conj eq_refl eq_refl) gps_usable) as (r & k & g & Er & Z0 & Gs & Ge & Io' & It & Nk & Sg & Pg & b & Ib & (Sb & _) & Fb).
  destruct Ib as [<-|[<-|[]]]; [discriminate Sb|]. pose proof (gps_gives g Fb) as Ev.
  exists (g_cache r). split; [exact Io'|]. unfold sat_step. cbn [wild fst snd nth_error new_satellite sat_sys sat_prn]. rewrite Np, Ne.
  change (present (DFin 21000000)) with true. cbn [en0 v_fuel v_strp v_eoh v_new]. cbv iota. rewrite Er. cbn [bind]. rewrite Z0. change (negb (0 =? 0)%Z) with false. cbv iota. rewrite It, Nk, Sg, Pg. 
  change (negb (satsys_eqb Gps Gps && (5 =? 5)%Z)) with false. cbv iota. rewrite Ev. cbn [new_state new_clock]. rewrite Ps, Pc. unfold sv_zen_angle. rewrite Zn.
  pose proof PI_RGT_0 as P. destruct (Rlt_dec 0 (- 0.2)); [lra|]. destruct (Rlt_dec _ 0); [lra|]. cbn [bind]. unfold MAX_ZENITH. destruct (Rlt_dec _ _) as [|X]; [|exfalso; apply X; unfold Rdiv; rewrite !Rmult_0_l; lra].
  change MAX_SATS with 30%nat. rewrite (proj2 (Nat.ltb_lt _ _) L), Gs, Ge. reflexivity.
Qed.

(** ** C88: what is handed to the filter *)
(** whatever the messages of the file say, each measurement handed to the filter is the observation of a
    satellite of the epoch, corrected, together with the position and clock of that satellite *)
Definition C88_full : Prop := forall en cal bs ell pos tr n ents sec t p q u, in_order en cal bs (p_cache p) (p_nav p) (p_errno p) ->
  Forall (fun e => In (sat_sys (fst e)) [Gps; Glonass; Galileo; Beidou] /\ snd e <> []) (firstn n ents) ->
  epoch_step en ell pos tr n ents sec t p = Val (q, Some u) ->
  selection (supplies gives (read_from cal bs) ell pos (saas_correction tr) t) (supplies_nothing gives (read_from cal bs) ell pos (none_usable cal bs t) t) (firstn n ents) (combine (u_obs u) (u_sv u)).
(** a message for which Kepler's equation is not solved leaves state[] as it was: the observation of GPS 5
    is handed over with the position of GLONASS 7 *)
Definition ep_wild : list satentry := [miss 1; miss 2; miss 3; over; wild].
Definition tr0 : saas := saas_init 0.
Lemma loop_wild : exists cache c, in_order en0 civil pp_bs cache pp_nav 0 /\
  sat_loop en0 (site_of ell0 station) t0 ep_wild pp0 = Val (mkPP cache pp_nav 0 (Some (25600000, 0, 0)) (Some c) [DFin 20000000; DFin 21000000] [(25600000, 0, 0, c); (25600000, 0, 0, c)]).
Proof.
  destruct (step_over pp0 pp_conforms eq_refl) as (cache & c & Io & E); [cbn; lia|]. cbn [pp0 p_obs p_sv app] in E.
  destruct (step_wild (mkPP cache pp_nav 0 (Some (25600000, 0, 0)) (Some c) [DFin 20000000] [(25600000, 0, 0, c)]) 25600000 0 0 c Io eq_refl) as (cache' & Io' & E'); [cbn; lia|reflexivity|reflexivity|exact over_zenith|].
  exists cache', c. split; [exact Io'|]. cbn [sat_loop ep_wild]. repeat (rewrite step_miss; cbn [bind]). unfold pp0 in E |- *. rewrite E. cbn [bind]. rewrite E'. reflexivity.
Qed.
Lemma skip_missing {B} (u : satentry -> B -> Prop) s a l m : (forall b, ~ u a b) -> selection u s (a :: l) m -> selection u s l m.
Proof. intros N H. inversion H as [|? b ? ? U|]; subst; [destruct (N b U)|assumption]. Qed.
Lemma miss_unobserved k v : ~ observed (miss k) v.
Proof.
  intros (E & H). cbn in E. assert (Ev : DFin (b64 (-99999 # 100)) = v) by congruence. subst v.
  apply (Qlt_not_le _ _ H). vm_compute. discriminate.
Qed.
Lemma wild_step : exists q u c, epoch_step en0 ell0 station tr0 5 ep_wild (DFin 0) t0 pp0 = Val (q, Some u) /\ u_n u = 2%nat /\ length (u_obs u) = 2%nat /\ u_sv u = [(25600000, 0, 0, c); (25600000, 0, 0, c)].
Proof.
  destruct loop_wild as (cache & c & _ & E). unfold epoch_step. change (4 <? 5)%nat with true. change (length ep_wild <? 5)%nat with false. change (firstn 5 ep_wild) with ep_wild. cbv iota.
  cbn [pp0 p_cache p_nav p_errno p_state p_clock]. unfold pp0 in E. rewrite E. cbn [bind p_obs p_sv length Nat.eqb map first3].
  rewrite angles_inl by (intros p [<-|[<-|[]]]; rewrite over_zenith; pose proof PI_RGT_0; lra). cbn [app map]. do 3 eexists. split; [reflexivity|]. split; [reflexivity|]. split; reflexivity.
Qed.
Theorem C88_full_refuted : ~ C88_full.
Proof.
  intro F. destruct wild_step as (q & u & c & E & _ & L & S).
  assert (Hs : Forall (fun e : satentry => In (sat_sys (fst e)) [Gps; Glonass; Galileo; Beidou] /\ snd e <> []) (firstn 5 ep_wild)).
  { change (firstn 5 ep_wild) with ep_wild. unfold ep_wild. repeat (apply Forall_cons; [split; [cbn; tauto|discriminate]|]). apply Forall_nil. }
  specialize (F en0 civil pp_bs ell0 station tr0 5%nat ep_wild (DFin 0) t0 pp0 q u pp_conforms Hs E). change (firstn 5 ep_wild) with ep_wild in F. rewrite S in F. unfold ep_wild in F.
  assert (N : forall k b, ~ supplies gives (read_from civil pp_bs) ell0 station (saas_correction tr0) t0 (miss k) b) by (intros k b (v & g & a & O & _); exact (miss_unobserved k v O)).
  apply skip_missing in F; [|apply N]. apply skip_missing in F; [|apply N]. apply skip_missing in F; [|apply N].
  destruct (u_obs u) as [|o1 [|o2 [|]]]; try discriminate L. cbn [combine] in F.
  assert (U : supplies gives (read_from civil pp_bs) ell0 station (saas_correction tr0) t0 wild (o2, (25600000, 0, 0, c))).
  { inversion F as [|? ? ? ? _ F1|? ? ? _ F1]; subst; inversion F1 as [|? ? ? ? U1 F2|? ? ? _ F2]; subst; [exact U1|inversion F2|inversion F2|inversion F2]. }
  destruct U as (v & g & a & _ & ((b & Ib & Fb) & Sg & _) & (more & G) & _). cbn in Sg. pose proof Fb as ((Sb & _) & _).
  destruct Ib as [<-|[<-|[]]]; [cbn in Sb; congruence|]. rewrite (gps_gives g Fb) in G. discriminate.
Qed.
Print Assumptions C88_full_refuted.
(** if the messages of the file are plausible it is as it should be *)
Theorem C88_partial : forall en cal bs ell pos tr n ents sec t p q u, in_order en cal bs (p_cache p) (p_nav p) (p_errno p) ->
  Forall (serviced cal bs) (firstn n ents) -> epoch_step en ell pos tr n ents sec t p = Val (q, Some u) ->
  (0 < u_n u <= 30)%nat /\ length (u_obs u) = u_n u /\ length (u_sv u) = u_n u /\
  selection (supplies gives (read_from cal bs) ell pos (saas_correction tr) t) (supplies_nothing gives (read_from cal bs) ell pos (none_usable cal bs t) t) (firstn n ents) (combine (u_obs u) (u_sv u)).
Proof.
  intros en cal bs ell pos tr n ents sec t p q u Io Sv E. assert (Kp : forall e, In e (firstn n ents) -> keeps en (in_order en cal bs) (sat_sys (fst e))).
  { intros e He. apply in_order_keeps. rewrite Forall_forall in Sv. apply Sv, He. }
  destruct (epoch_step_inv en ell pos tr n ents sec t (in_order en cal bs) p q (Some u) Kp Io E) as [(_ & _ & X)|(_ & _ & u' & X & A1 & A2 & A3 & _ & _ & A6)]; [discriminate|].
  injection X as <-. repeat (split; [assumption|]). refine (selection_impl _ _ _ _ _ _ _ _ A6); rewrite Forall_forall in Sv; [intros e m He; apply serviced_supplies|intros e He; apply serviced_nothing]; apply Sv, He.
Qed.
Print Assumptions C88_partial.
Definition ep_over : list satentry := [miss 1; miss 2; miss 3; over; miss 4].
Lemma over_serviced : Forall (serviced civil pp_bs) ep_over.
Proof.
  assert (Pl : forall b g, In b pp_bs -> b_sys b = Glonass -> frame_of civil b g -> plausible g) by (intros b g _ Sb ((Sg & _) & _); left; congruence).
  unfold ep_over. repeat (apply Forall_cons; [split; [cbn; tauto|split; [discriminate|exact Pl]]|]). apply Forall_nil.
Qed.
Lemma over_step : exists q u c, epoch_step en0 ell0 station tr0 5 ep_over (DFin 0) t0 pp0 = Val (q, Some u) /\ u_n u = 1%nat /\ u_obs u = [Some (Q2R 20000000 - saas_correction tr0 0)] /\ u_sv u = [(25600000, 0, 0, c)].
Proof.
  destruct (step_over pp0 pp_conforms eq_refl) as (cache & c & Io & E); [cbn; lia|]. cbn [pp0 p_obs p_sv app] in E.
  unfold epoch_step. change (4 <? 5)%nat with true. change (length ep_over <? 5)%nat with false. change (firstn 5 ep_over) with ep_over. cbv iota.
  cbn [pp0 p_cache p_nav p_errno p_state p_clock]. unfold ep_over. cbn [sat_loop]. repeat (rewrite step_miss; cbn [bind]). unfold pp0 in E. rewrite E. cbn [bind]. rewrite step_miss. cbn [bind p_obs p_sv length Nat.eqb map first3].
  rewrite angles_inl by (intros p [<-|[]]; rewrite over_zenith; pose proof PI_RGT_0; lra). cbn [app map]. rewrite over_zenith. do 3 eexists. split; [reflexivity|]. split; [reflexivity|]. split; reflexivity.
Qed.
Example C88_ex : in_order en0 civil pp_bs (p_cache pp0) (p_nav pp0) (p_errno pp0) /\ Forall (serviced civil pp_bs) (firstn 5 ep_over) /\
  exists q u, epoch_step en0 ell0 station tr0 5 ep_over (DFin 0) t0 pp0 = Val (q, Some u) /\ u_n u = 1%nat.
Proof. split; [exact pp_conforms|]. split; [exact over_serviced|]. destruct over_step as (q & u & c & E & N & _). eauto. Qed.
(** any navigation file: the messages are those of the cache, and what state[] held is used if one of them
    is not plausible *)
Theorem C88_any_file_partial : forall en ell pos tr n ents sec t nav p q u, history en nav (p_cache p) (p_nav p) (p_errno p) ->
  epoch_step en ell pos tr n ents sec t p = Val (q, Some u) ->
  (0 < u_n u <= 30)%nat /\ length (u_obs u) = u_n u /\ length (u_sv u) = u_n u /\ history en nav (p_cache q) (p_nav q) (p_errno q) /\
  selection (supplies gives_if_plausible (cached en nav) ell pos (saas_correction tr) t) (supplies_nothing gives_if_plausible (cached en nav) ell pos (lookup_failed en nav t) t) (firstn n ents) (combine (u_obs u) (u_sv u)).
Proof.
  intros en ell pos tr n ents sec t nav p q u Hi E.
  assert (K : forall sys, keeps en (history en nav) sys) by (intros sys cache st e prn t' r (reqs & H) E'; exists (reqs ++ [(sys, prn, t')]); exact (one_more _ _ _ _ _ _ _ _ _ _ _ _ _ H E')).
  destruct (epoch_step_inv en ell pos tr n ents sec t (history en nav) p q (Some u) (fun e _ => K _) Hi E) as [(_ & _ & X)|(_ & Hq & u' & X & A1 & A2 & A3 & _ & _ & A6)]; [discriminate|].
  injection X as <-. split; [exact A1|]. split; [exact A2|]. split; [exact A3|]. split; [exact Hq|exact A6].
Qed.
Print Assumptions C88_any_file_partial.
Example C88_any_file_ex : history en0 pp_nav (p_cache pp0) (p_nav pp0) (p_errno pp0) /\ exists q u, epoch_step en0 ell0 station tr0 5 ep_wild (DFin 0) t0 pp0 = Val (q, Some u) /\ u_n u = 2%nat.
Proof. split; [exists []; constructor|]. destruct wild_step as (q & u & c & E & N & _). eauto. Qed.

(** ** C89: an epoch without a usable satellite *)
Definition C89_full : Prop := forall en cal bs ell pos tr n ents sec t p, in_order en cal bs (p_cache p) (p_nav p) (p_errno p) -> (n <= length ents)%nat -> (n <= 30)%nat ->
  Forall (serviced cal bs) (firstn n ents) -> Forall not_observed (firstn n ents) ->
  exists q, epoch_step en ell pos tr n ents sec t p = Val (q, None).
(** five or more satellites, none of them with the observation: the assertion ends the program *)
Theorem C89_aborts : forall en ell pos tr n ents sec t p, (4 < n <= length ents)%nat -> Forall not_observed (firstn n ents) -> epoch_step en ell pos tr n ents sec t p = Term.
Proof.
  intros en ell pos tr n ents sec t p L F. unfold epoch_step. rewrite (proj2 (Nat.ltb_lt _ _) (proj1 L)), (proj2 (Nat.ltb_ge _ _) (proj2 L)).
  set (p0 := mkPP _ _ _ _ _ _ _). assert (E : forall l, Forall not_observed l -> sat_loop en (site_of ell pos) t l p0 = Val p0).
  { induction 1 as [|e l (v & Nv & No) _ IH]; [reflexivity|]. cbn [sat_loop]. unfold sat_step at 1. rewrite Nv. destruct (present v) eqn:Pv; [|exact IH].
    destruct No. apply (present_iff e v Nv). exact Pv. }
  rewrite (E _ F). reflexivity.
Qed.
Print Assumptions C89_aborts.
Definition ep_none : list satentry := [miss 1; miss 2; miss 3; miss 4; miss 5].
Lemma none_unobserved : Forall not_observed ep_none.
Proof. unfold ep_none. repeat (apply Forall_cons; [eexists; split; [reflexivity|apply miss_unobserved]|]). apply Forall_nil. Qed.
Lemma none_serviced : Forall (serviced civil pp_bs) ep_none.
Proof.
  assert (Pl : forall b g, In b pp_bs -> b_sys b = Glonass -> frame_of civil b g -> plausible g) by (intros b g _ Sb ((Sg & _) & _); left; congruence).
  unfold ep_none. repeat (apply Forall_cons; [split; [cbn; tauto|split; [discriminate|exact Pl]]|]). apply Forall_nil.
Qed.
Theorem C89_full_refuted : ~ C89_full.
Proof.
  intro F. destruct (F en0 civil pp_bs ell0 station tr0 5%nat ep_none (DFin 0) t0 pp0 pp_conforms) as (q & E); [cbn; lia|lia|exact none_serviced|exact none_unobserved|].
  rewrite (C89_aborts en0 ell0 station tr0 5 ep_none (DFin 0) t0 pp0) in E; [discriminate|cbn; lia|exact none_unobserved].
Qed.
Print Assumptions C89_full_refuted.
(** up to four satellites: skipped, and nothing changes *)
Theorem C89_few_partial : forall en ell pos tr n ents sec t p, (n <= 4)%nat -> epoch_step en ell pos tr n ents sec t p = Val (p, None).
Proof. intros en ell pos tr n ents sec t p L. unfold epoch_step. rewrite (proj2 (Nat.ltb_ge _ _) L). reflexivity. Qed.
Print Assumptions C89_few_partial.
(** five or more: an epoch that does not end the program has a measurement for the filter; the program ends
    only if no satellite is usable or one is far below the horizon *)
Theorem C89_many_partial : forall en cal bs ell pos tr n ents sec t p, in_order en cal bs (p_cache p) (p_nav p) (p_errno p) -> (4 < n <= length ents)%nat -> (n <= 30)%nat ->
  Forall (serviced cal bs) (firstn n ents) ->
  (exists q u, epoch_step en ell pos tr n ents sec t p = Val (q, Some u) /\ in_order en cal bs (p_cache q) (p_nav q) (p_errno q) /\ (0 < u_n u)%nat) \/
  (epoch_step en ell pos tr n ents sec t p = Term /\ Forall (supplies_nothing gives (read_from cal bs) ell pos (none_usable cal bs t) t) (firstn n ents)) \/
  (epoch_step en ell pos tr n ents sec t p = Exn /\ Exists (far_below (read_from cal bs) ell pos t) (firstn n ents)).
Proof.
  intros en cal bs ell pos tr n ents sec t p Io L L30 Sv.
  destruct (epoch_total en cal bs ell pos tr n ents sec t p Io (proj2 L) L30 Sv) as [(q & call & E & Iq & [(N4 & _)|(_ & u & -> & A1 & _)])|[(E & _ & F)|(E & _ & F)]]; [lia|left|right; left; auto|right; right; auto].
  exists q, u. split; [exact E|split; [exact Iq|lia]].
Qed.
Print Assumptions C89_many_partial.

(** ** C90: any number of satellites *)
Definition C90_full : Prop := forall en cal bs ell pos tr n ents sec t p, in_order en cal bs (p_cache p) (p_nav p) (p_errno p) -> (n <= length ents)%nat ->
  Forall (serviced cal bs) (firstn n ents) -> epoch_step en ell pos tr n ents sec t p <> UB.
(** 31 satellites above the mask: the arrays Obs and States are overrun *)
Lemma over_many : forall k p, (length (p_obs p) = 30 - k)%nat -> (k <= 30)%nat -> in_order en0 civil pp_bs (p_cache p) (p_nav p) (p_errno p) -> p_nav p = pp_nav ->
  sat_loop en0 (site_of ell0 station) t0 (repeat over (S k)) p = UB.
Proof.
  induction k as [|k IH]; intros p L K Io Np.
  - cbn [repeat sat_loop]. pose proof Io as (_ & Ne & _). rewrite Np, Ne in Io.
    destruct (look (p_cache p) Glonass 7 glo_p Io (or_introl eq_refl) (conj eq_refl eq_refl) glo_usable) as (r & i & g & Er & Z0 & Gs & Ge & Io' & It & Nk & Sg & Pg & b & Ib & (Sb & _) & Fb).
    destruct Ib as [<-|[<-|[]]]; [|discriminate Sb]. destruct (glo_gives g Fb) as (more & c & Ev).
    unfold sat_step. cbn [over fst snd nth_error new_satellite sat_sys sat_prn]. rewrite Np, Ne.
    change (present (DFin 20000000)) with true. cbn [en0 v_fuel v_strp v_eoh v_new]. cbv iota. rewrite Er. cbn [bind]. rewrite Z0. change (negb (0 =? 0)%Z) with false. cbv iota. rewrite It, Nk, Sg, Pg. 
    change (negb (satsys_eqb Glonass Glonass && (7 =? 7)%Z)) with false. cbv iota. rewrite Ev. cbn [new_state new_clock]. unfold sv_zen_angle. rewrite over_zenith.
    pose proof PI_RGT_0 as P. destruct (Rlt_dec 0 (- 0.2)); [lra|]. destruct (Rlt_dec _ 0); [lra|]. cbn [bind]. unfold MAX_ZENITH. destruct (Rlt_dec _ _) as [|X]; [|exfalso; apply X; unfold Rdiv; rewrite !Rmult_0_l; lra].
    change MAX_SATS with 30%nat. rewrite L. reflexivity.
  - destruct (step_over p Io Np) as (cache & c & Io' & E); [lia|]. change (repeat over (S (S k))) with (over :: repeat over (S k)). cbn [sat_loop]. rewrite E. cbn [bind].
    apply IH; [cbn [p_obs]; rewrite app_length, L; cbn [length]; lia|lia|exact Io'|reflexivity].
Qed.
Theorem C90_full_refuted : ~ C90_full.
Proof.
  intro F. apply (F en0 civil pp_bs ell0 station tr0 31%nat (repeat over 31) (DFin 0) t0 pp0 pp_conforms); [cbn; lia| |].
  - change (firstn 31 (repeat over 31)) with (repeat over 31). apply Forall_forall. intros e He. apply repeat_spec in He. subst e. pose proof over_serviced as S. rewrite Forall_forall in S. apply S. cbn. auto.
  - unfold epoch_step. change (4 <? 31)%nat with true. change (length (repeat over 31) <? 31)%nat with false. change (firstn 31 (repeat over 31)) with (repeat over 31). cbv iota.
    rewrite (over_many 30 (mkPP _ _ _ _ _ [] []) eq_refl (le_n _) pp_conforms eq_refl). reflexivity.
Qed.
Print Assumptions C90_full_refuted.
Theorem C90_partial : forall en cal bs ell pos tr n ents sec t p, in_order en cal bs (p_cache p) (p_nav p) (p_errno p) -> (n <= length ents)%nat -> (n <= 30)%nat ->
  Forall (serviced cal bs) (firstn n ents) -> epoch_step en ell pos tr n ents sec t p <> UB /\ epoch_step en ell pos tr n ents sec t p <> Fuel.
Proof.
  intros en cal bs ell pos tr n ents sec t p Io L L30 Sv. destruct (epoch_total en cal bs ell pos tr n ents sec t p Io L L30 Sv) as [(q & call & -> & _)|[(-> & _)|(-> & _)]]; split; discriminate.
Qed.
Print Assumptions C90_partial.
Example C90_ex : in_order en0 civil pp_bs (p_cache pp0) (p_nav pp0) (p_errno pp0) /\ Forall (serviced civil pp_bs) (firstn 30 (repeat over 30)).
Proof.
  split; [exact pp_conforms|]. change (firstn 30 (repeat over 30)) with (repeat over 30). apply Forall_forall. intros e He. apply repeat_spec in He. subst e.
  pose proof over_serviced as S. rewrite Forall_forall in S. apply S. cbn. auto.
Qed.
