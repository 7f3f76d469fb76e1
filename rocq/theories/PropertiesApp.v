(** PropertiesApp: C82, C83 (the message cache of test/pp_rnx.cpp) *)
From Verif Require Import Base BaseLemmas CNum CNumLemmas Stream ModelSatsys ModelNav ModelApp SpecText SpecNum SpecNav SpecApp
  ProofText ProofNum ProofStream ProofNav ProofNavBlock ProofNavFile ProofNavFind ProofNavList ProofApp PropertiesNav.
Open Scope string_scope.
Open Scope list_scope.

(** sample file: two GPS messages of satellite 5, two hours apart, each valid for four hours *)
Definition date2 := mkDate (lit "2020") (lit "10") (lit "06") (lit "2") (lit "0") (lit "0").
Definition gps_b2 : nav_src := mkNavSrc "G"%char Gps (lit "05") date2 (b_clk (gps_b "05" fitn)) 0 (b_orb (gps_b "05" fitn)).
Lemma date2_ok : date_ok date2.
Proof. repeat split; try digs; try discriminate; vm_compute; lia. Qed.
Lemma gps_b2_ok : block_ok gps_b2.
Proof.
  destruct (gps_b_ok "05" fitn (or_introl eq_refl) (or_introl eq_refl)) as (A & B & C & D & _ & E).
  split; [exact A|]. split; [exact B|]. split; [exact C|]. split; [exact D|]. split; [exact date2_ok|exact E].
Qed.
Definition two_msgs : list nav_src := [gps_b "05" fitn; gps_b2].
Definition t3h : Z := (civil [2020; 10; 6; 3; 0; 0] * 1000)%Z.
Definition t5h : Z := (civil [2020; 10; 6; 5; 0; 0] * 1000)%Z.
Lemma two_ok : Forall block_ok two_msgs.
Proof. apply Forall_cons; [apply gps_b_ok; auto|]. apply Forall_cons; [exact gps_b2_ok|apply Forall_nil]. Qed.
Lemma two_fits t : (civil (date_vals date2) * 1000 <= t)%Z -> Forall (fun b => serves Gps 5 b -> ~ too_late civil t b /\ int_fits b) two_msgs.
Proof.
  intro H. assert (E : (civil (date_vals date1) <= civil (date_vals date2))%Z) by (vm_compute; discriminate).
  apply Forall_cons; [|apply Forall_cons; [|apply Forall_nil]]; intros _; (split; [unfold too_late; cbn [b_date gps_b gps_b2]; lia|split; split; vm_compute; discriminate]).
Qed.
Lemma b2_usable t g : (civil (date_vals date2) * 1000 <= t < civil (date_vals date2) * 1000 + 4 * 3600000)%Z -> frame_of civil gps_b2 g -> usable t g.
Proof.
  intros T ((Sy & _ & Tc & _ & D) & _). cbn [gps_b2 b_sys b_date] in *.
  pose proof (D 24 n0 eq_refl eq_refl) as D24. pose proof (D 28 fitn eq_refl eq_refl) as D28.
  split.
  - exists (DFin (si_value Gps 24 n0)). rewrite Sy. split; [exact D24|]. eexists. split; [reflexivity|]. split; reflexivity.
  - unfold covers. rewrite Sy. exists (DFin (si_value Gps 28 fitn)), 4%Z. split; [exact D28|]. split; [|rewrite Tc; split; [lia|exact T]].
    eexists. split; [reflexivity|]. split; [intro X; vm_compute in X; discriminate|reflexivity].
Qed.
Definition nav2 : stream := open_stream (blocks_text two_msgs).

(** ** C82: the message cache *)
(** an answer is a cached message of the requested satellite, healthy and covering the epoch; no answer
    leaves the cache alone *)
Theorem C82_answer : forall fuel strp eoh nmsg st e sys prn t cache r, get_valid_msg fuel strp eoh nmsg st e sys prn t cache = Val r ->
  (g_status r = 0%Z -> exists k p, g_it r = Some k /\ nth_error (g_cache r) k = Some p /\ f_sys p = sys /\ f_prn p = prn /\ healthy p /\
     (~ wild_hours p -> covers t p)) /\
  (g_status r <> 0%Z -> g_it r = None /\ g_cache r = cache).
Proof.
  intros fuel strp eoh nmsg st e sys prn t cache r H. destruct (get_inv _ _ _ _ _ _ _ _ _ _ _ H) as (_ & [(Z0 & k & p & A & B & C & D & E & F & _)|(Nz & A & B)]).
  - split; [|congruence]. intros _. exists k, p. repeat (split; [assumption|]). intro N. destruct F; [assumption|contradiction].
  - split; [congruence|auto].
Qed.
Print Assumptions C82_answer.
(** a lookup at 03:00 reads the first message; a second one at 05:00 replaces it by the second message *)
Definition toc_at (r : cacheres) : option Z := match g_it r with Some k => option_map f_toc (nth_error (g_cache r) k) | None => None end.
Example C82_answer_ex : exists r1 r2, get_valid_msg 9 strp_fix (Some 0) frame0 nav2 0 Gps 5 t3h [] = Val r1 /\ g_status r1 = 0%Z /\ toc_at r1 = Some (civil (date_vals date1)) /\
  get_valid_msg 9 strp_fix (Some 0) frame0 (g_stream r1) (g_errno r1) Gps 5 t5h (g_cache r1) = Val r2 /\ g_status r2 = 0%Z /\ toc_at r2 = Some (civil (date_vals date2)) /\ length (g_cache r2) = 1%nat.
Proof. do 2 eexists. split; [vm_compute; reflexivity|]. split; [reflexivity|]. split; [vm_compute; reflexivity|]. split; [vm_compute; reflexivity|]. split; [reflexivity|]. split; vm_compute; reflexivity. Qed.
Example C82_none_ex : exists r, get_valid_msg 9 strp_fix (Some 0) frame0 nav2 0 Gps 7 t3h [] = Val r /\ g_status r = (-1)%Z.
Proof. eexists. split; [vm_compute; reflexivity|reflexivity]. Qed.
(** the lookup does not move the navigation file *)
Theorem C82_position : forall fuel strp eoh nmsg st e sys prn t cache r, good st = true -> get_valid_msg fuel strp eoh nmsg st e sys prn t cache = Val r -> g_stream r = st.
Proof. intros fuel strp eoh nmsg st e sys prn t cache r G H. apply (get_inv _ _ _ _ _ _ _ _ _ _ _ H), G. Qed.
Print Assumptions C82_position.
(** what is cached for the other satellites stays, in order *)
Theorem C82_others : forall fuel strp eoh nmsg st e sys prn t cache r, get_valid_msg fuel strp eoh nmsg st e sys prn t cache = Val r ->
  filter (other_sv sys prn) (g_cache r) = filter (other_sv sys prn) cache.
Proof.
  intros fuel strp eoh nmsg st e sys prn t cache r H.
  assert (X : forall q, f_sys q = sys -> f_prn q = prn -> other_sv sys prn q = false).
  { intros q A B. unfold other_sv. rewrite A, B, Z.eqb_refl, (proj2 (satsys_eqb_eq sys sys) eq_refl). reflexivity. }
  destruct (get_inv _ _ _ _ _ _ _ _ _ _ _ H) as (_ & [(Z0 & k & p & A & B & C & D & E & F & K)|(Nz & A & B)]); [|rewrite B; reflexivity].
  destruct K as [-> |[(a & q & b & -> & -> & Sq & _)|(-> & _)]]; [reflexivity| |].
  - apply same_sv_iff in Sq as (S1 & S2). rewrite !filter_app. cbn [filter]. rewrite (X p C D), (X q S1 S2). reflexivity.
  - rewrite filter_app. cbn [filter]. rewrite (X p C D). apply app_nil_r.
Qed.
Print Assumptions C82_others.
(** after any sequence of lookups: the file is where it was, every cached message is healthy, belongs to a
    satellite asked for, and no satellite has two *)
Theorem C82_history : forall strp eoh nmsg st0 reqs cache st e, good st0 = true -> lookups strp eoh nmsg st0 reqs cache st e ->
  st = st0 /\ Forall healthy cache /\ NoDup (map sv_of cache) /\ (forall p, In p cache -> exists t, In (f_sys p, f_prn p, t) reqs).
Proof.
  intros strp eoh nmsg st0 reqs cache st e G H. induction H as [e|reqs cache st e sys prn t fuel r H IH E].
  { split; [reflexivity|]. split; [constructor|]. split; [constructor|]. intros p []. }
  destruct (IH) as (-> & Hh & Nd & Rq).
  destruct (get_inv _ _ _ _ _ _ _ _ _ _ _ E) as (Es & K). split; [apply Es, G|].
  assert (Rq' : forall p, In p cache -> exists t', In (f_sys p, f_prn p, t') (reqs ++ [(sys, prn, t)])).
  { intros p Hp. destruct (Rq p Hp) as (t' & Ht). exists t'. apply in_app_iff. auto. }
  destruct K as [(Z0 & k & p & A & B & C & D & Eh & F & K)|(Nz & A & B)]; [|rewrite B; auto].
  assert (Rp : exists t', In (f_sys p, f_prn p, t') (reqs ++ [(sys, prn, t)])) by (exists t; rewrite C, D; apply in_app_iff; cbn; auto).
  destruct K as [-> |[(a & q & b & -> & -> & Sq & _)|(-> & K)]]; [auto| |].
  - apply same_sv_iff in Sq as (S1 & S2). split; [|split].
    + apply Forall_app in Hh as (H1 & H2). inversion H2; subst. apply Forall_app. split; [exact H1|constructor; assumption].
    + rewrite map_app in *. cbn [map] in *. replace (sv_of p) with (sv_of q) by (unfold sv_of; congruence). exact Nd.
    + intros x Hx. apply in_app_iff in Hx as [Hx|[<-|Hx]]; [apply Rq', in_app_iff; auto|exact Rp|apply Rq', in_app_iff; cbn; auto].
  - assert (Fr : Forall (fun x => same_sv sys prn x = false) cache).
    { destruct K as [K|(q & h & Iq & _ & Hq & Nh)]; [exact K|]. exfalso. apply Nh. rewrite Forall_forall in Hh. apply (healthy_not q h (Hh q Iq) Hq). }
    split; [apply Forall_app; split; [exact Hh|constructor; [exact Eh|constructor]]|]. split.
    + rewrite map_app. cbn [map].
      assert (Nd' : NoDup (sv_of p :: map sv_of cache)).
      { constructor; [|exact Nd]. intro X. apply in_map_iff in X as (q & Eq & Iq). rewrite Forall_forall in Fr. specialize (Fr q Iq).
        unfold sv_of in Eq. injection Eq as E1 E2. assert (same_sv sys prn q = true) by (apply same_sv_iff; split; congruence). congruence. }
      clear - Nd'. induction cache as [|c cache IH]; cbn [map app] in *; [exact Nd'|].
      inversion Nd' as [|? ? N1 N2]; subst. inversion N2 as [|? ? N3 N4]; subst. constructor.
      * rewrite in_app_iff. cbn. intros [X|[X|[]]]; [contradiction|]. apply N1. left. symmetry. exact X.
      * apply IH. constructor; [|exact N4]. intro X. apply N1. right. exact X.
    + intros x Hx. apply in_app_iff in Hx as [Hx|[<-|[]]]; [apply Rq', Hx|exact Rp].
Qed.
Print Assumptions C82_history.
Example C82_history_ex : exists cache st e, lookups strp_fix (Some 0) frame0 nav2 [(Gps, 5, t3h); (Gps, 5, t5h)]%Z cache st e /\ length cache = 1%nat.
Proof.
  destruct C82_answer_ex as (r1 & r2 & E1 & _ & _ & E2 & _ & _ & L). exists (g_cache r2), (g_stream r2), (g_errno r2). split; [|exact L].
  apply (one_more _ _ _ _ [(Gps, 5, t3h)%Z] _ _ _ _ _ _ 9 r2) with (2 := E2). apply (one_more _ _ _ _ [] _ _ _ _ _ _ 9 r1) with (2 := E1). constructor.
Qed.
(** the lookup succeeds when the file has a usable message (and no message of that satellite is more than
    four hours ahead) *)
Theorem C82_complete : forall fuel strp eoh cal nmsg st sys prn t cache bs tail, reads_dates strp cal -> In sys [Gps; Glonass; Galileo; Beidou] ->
  (forall p, In p cache -> f_sys p = sys -> f_prn p = prn -> exists c, check_nav_msg p t = Val c) ->
  Forall block_ok bs -> Forall (fun b => serves sys prn b -> ~ too_late cal t b /\ int_fits b) bs ->
  length (f_data nmsg) = 31%nat -> at_rest st (blocks_text bs ++ tail) -> (length bs < fuel)%nat ->
  (exists b, In b bs /\ serves sys prn b /\ forall g, frame_of cal b g -> usable t g) ->
  exists r, get_valid_msg fuel strp eoh nmsg st 0 sys prn t cache = Val r /\ g_status r = 0%Z.
Proof.
  intros fuel strp eoh cal nmsg st sys prn t cache bs tail RD Hs HC. apply get_complete with (cal := cal); [exact RD| |].
  - cbn in Hs. destruct Hs as [<-|[<-|[<-|[<-|[]]]]]; reflexivity.
  - intros p Ip Sp. apply same_sv_iff in Sp as (A & B). apply HC; auto.
Qed.
Print Assumptions C82_complete.

Example C82_complete_ex : reads_dates strp_fix civil /\ Forall block_ok two_msgs /\ Forall (fun b => serves Gps 5 b -> ~ too_late civil t5h b /\ int_fits b) two_msgs /\
  at_rest nav2 (blocks_text two_msgs ++ []) /\ (exists b, In b two_msgs /\ serves Gps 5 b /\ forall g, frame_of civil b g -> usable t5h g).
Proof.
  split; [exact strp_fix_reads|]. split; [exact two_ok|]. split; [apply two_fits; vm_compute; discriminate|]. split; [rewrite app_nil_r; apply open_rest|].
  exists gps_b2. split; [right; left; reflexivity|]. split; [split; reflexivity|]. intro g. apply b2_usable. split; vm_compute; congruence.
Qed.

(** ** C83: the most recent message *)
(** of the usable messages in the file the latest is delivered: false, the first one is *)
Definition C83_full : Prop := forall fuel strp eoh cal nmsg st sys prn t bs r k g, reads_dates strp cal -> In sys [Gps; Glonass; Galileo; Beidou] ->
  Forall block_ok bs -> Forall (fun b => serves sys prn b -> ~ too_late cal t b /\ int_fits b) bs ->
  length (f_data nmsg) = 31%nat -> at_rest st (blocks_text bs) -> (length bs < fuel)%nat ->
  get_valid_msg fuel strp eoh nmsg st 0 sys prn t [] = Val r -> g_it r = Some k -> nth_error (g_cache r) k = Some g ->
  forall b, In b bs -> serves sys prn b -> (forall h, frame_of cal b h -> usable t h) -> (cal (date_vals (b_date b)) <= f_toc g)%Z.
Theorem C83_full_refuted : ~ C83_full.
Proof.
  intro F. destruct C82_answer_ex as (r1 & r2 & E1 & _ & T1 & _). unfold toc_at in T1. destruct (g_it r1) as [k|] eqn:Ek; [|discriminate].
  destruct (nth_error (g_cache r1) k) as [g|] eqn:Eg; [|discriminate]. cbn in T1. injection T1 as T1.
  assert (X : (civil (date_vals (b_date gps_b2)) <= f_toc g)%Z).
  { apply (F 9%nat strp_fix (Some 0%nat) civil frame0 nav2 Gps 5%Z t3h two_msgs r1 k g strp_fix_reads ltac:(cbn; tauto) two_ok).
    - apply two_fits. vm_compute. discriminate.
    - reflexivity.
    - apply open_rest.
    - cbn [length two_msgs]. lia.
    - exact E1.
    - exact Ek.
    - exact Eg.
    - right. left. reflexivity.
    - split; reflexivity.
    - intro h. apply b2_usable. split; vm_compute; congruence. }
  rewrite T1 in X. revert X. vm_compute. auto.
Qed.
Print Assumptions C83_full_refuted.
(** what is delivered, after any number of lookups, is a message of the file *)
Theorem C83_from_file_partial : forall fuel strp eoh cal nmsg st sys prn t cache bs r, reads_dates strp cal -> In sys [Gps; Glonass; Galileo; Beidou] ->
  Forall block_ok bs -> Forall (fun b => serves sys prn b -> int_fits b) bs ->
  length (f_data nmsg) = 31%nat -> at_rest st (blocks_text bs) -> (length bs < fuel)%nat ->
  (forall p, In p cache -> exists b, In b bs /\ frame_of cal b p) ->
  get_valid_msg fuel strp eoh nmsg st 0 sys prn t cache = Val r ->
  g_errno r = 0%Z /\ (g_status r = 0%Z \/ g_status r = (-1)%Z) /\
  (forall p, In p (g_cache r) -> exists b, In b bs /\ frame_of cal b p).
Proof.
  intros fuel strp eoh cal nmsg st sys prn t cache bs r RD Hs Ok W L At Hk HC E.
  destruct (get_from fuel strp eoh cal nmsg st sys prn t cache bs r RD ltac:(cbn in Hs; destruct Hs as [<-|[<-|[<-|[<-|[]]]]]; reflexivity) Ok W L At Hk HC E) as (A & B & C).
  auto.
Qed.
Print Assumptions C83_from_file_partial.
(** so it is the latest one whenever no other message of the satellite is usable then *)
Theorem C83_only_one_partial : forall fuel strp eoh cal nmsg st sys prn t cache bs r k g b, reads_dates strp cal -> In sys [Gps; Glonass; Galileo; Beidou] ->
  Forall block_ok bs -> Forall (fun b => serves sys prn b -> int_fits b) bs ->
  length (f_data nmsg) = 31%nat -> at_rest st (blocks_text bs) -> (length bs < fuel)%nat ->
  (forall p, In p cache -> exists b, In b bs /\ frame_of cal b p) ->
  (forall b' h, In b' bs -> serves sys prn b' -> frame_of cal b' h -> usable t h -> b' = b) ->
  get_valid_msg fuel strp eoh nmsg st 0 sys prn t cache = Val r -> g_it r = Some k -> nth_error (g_cache r) k = Some g ->
  serves sys prn b /\ frame_of cal b g.
Proof.
  intros fuel strp eoh cal nmsg st sys prn t cache bs r k g b RD Hs Ok W L At Hk HC U E Ek Eg.
  destruct (C83_from_file_partial fuel strp eoh cal nmsg st sys prn t cache bs r RD Hs Ok W L At Hk HC E) as (_ & _ & Fr).
  destruct (get_inv _ _ _ _ _ _ _ _ _ _ _ E) as (_ & [(Z0 & k' & p & A & B & C & D & Eh & F & _)|(_ & A & _)]); [|congruence].
  rewrite Ek in A. injection A as <-. rewrite Eg in B. injection B as <-.
  destruct (Fr g (nth_error_In _ _ Eg)) as (b' & Ib & Fb).
  assert (Sv : serves sys prn b') by (destruct Fb as ((S1 & S2 & _) & _); split; [congruence|rewrite <- D; symmetry; exact S2]).
  assert (Us : usable t g).
  { split; [exact Eh|]. destruct F as [F|(Sg & q & Dq & Lq)]; [exact F|]. exfalso.
    rewrite Forall_forall in W, Ok. pose proof (W b' Ib Sv) as Fi. destruct Fb as (Bb & _). pose proof Bb as (S1 & _). unfold int_fits in Fi. rewrite <- S1, Sg in Fi. destruct Fi as (_ & Fi).
    destruct (block_num cal g b' 28 Bb (Ok b' Ib) ltac:(rewrite <- S1, Sg; reflexivity)) as (n & Nn & Dn). rewrite Nn in Fi. rewrite <- S1, Sg in Dn. cbn [si_value] in Dn.
    rewrite Dq in Dn. injection Dn as ->. destruct Fi as (Fi & _). apply (Qlt_irrefl (inject_Z (-596523))). eapply Qle_lt_trans; [exact Fi|exact Lq]. }
  pose proof (U b' g Ib Sv Fb Us) as <-. auto.
Qed.
Print Assumptions C83_only_one_partial.
Example C83_only_one_ex : forall b' h, In b' two_msgs -> serves Gps 5 b' -> frame_of civil b' h -> usable t5h h -> b' = gps_b2.
Proof.
  intros b' h [<-|[<-|[]]] _ Fb (_ & C); [exfalso|reflexivity]. destruct Fb as ((Sy & _ & Tc & _ & D) & _). cbn [gps_b b_sys b_date] in *.
  pose proof (D 28 fitn eq_refl eq_refl) as D28. unfold covers in C. rewrite Sy in C. destruct C as (v & k & Ev & (q & -> & Hq) & Pk & T). rewrite D28 in Ev.
  assert (Inj : forall a b : Q, Some (DFin a) = Some (DFin b) -> b = a) by congruence. apply Inj in Ev. subst q. clear Inj.
  apply tr_pos in Hq; [|exact Pk]. assert (E4 : k = 4%Z) by (rewrite <- Hq; vm_compute; reflexivity). subst k. rewrite Tc in T. revert T. vm_compute. intros (_ & X). discriminate X.
Qed.
