(** PropertiesApp2: C82 again (messages that are in the cache are used) *)
From Verif Require Import Base BaseLemmas CNum CNumLemmas Stream ModelSatsys ModelNav ModelApp SpecText SpecNum SpecNav SpecApp
  ProofText ProofNum ProofStream ProofNav ProofNavBlock ProofNavFile ProofNavFind ProofNavList ProofApp PropertiesNav PropertiesApp.
Open Scope string_scope.
Open Scope list_scope.

(** a conforming message, healthy and covering the time, is accepted *)
Lemma check_usable cal b g t : In (f_sys g) [Gps; Glonass; Galileo; Beidou] -> block_ok b -> int_fits b -> frame_of cal b g -> usable t g -> check_nav_msg g t = Val 0%Z.
Proof.
  intros Hs Ok Fi (Ib & _) (Hh & Hc). assert (T : has_toe (b_sys b) = true) by (pose proof Ib as (Sb & _); rewrite <- Sb; destruct Hs as [<-|[<-|[<-|[<-|[]]]]]; reflexivity).
  destruct (verdict cal g b t Ib Ok T Fi) as (h & fit & Eh & Ef & Ih & Ic).
  unfold check_nav_msg. rewrite Eh. cbn [bind]. rewrite (proj2 Ih Hh). change (negb (0 =? 0)%Z) with false. cbv iota. rewrite Ef. cbn [bind].
  pose proof (proj2 Ic Hc) as W. unfold in_window in W.
  destruct (satsys_eqb (f_sys g) Glonass) eqn:Eg.
  - rewrite W. reflexivity.
  - apply andb_true_iff in W as (W1 & W2). rewrite W1, W2. reflexivity.
Qed.
Lemma search_hit sys prn t : forall pre p post i s, Forall (fun q => same_sv sys prn q = false) pre -> same_sv sys prn p = true -> check_nav_msg p t = Val 0%Z ->
  cache_search sys prn t (pre ++ p :: post) i s = Val ((i + length pre)%nat, 0%Z).
Proof.
  induction pre as [|q pre IH]; intros p post i s F Sp Ep; cbn [app cache_search length].
  - rewrite Sp, Ep. cbn [bind]. change (0 =? 0)%Z with true. cbv iota. rewrite Nat.add_0_r. reflexivity.
  - inversion F as [|? ? Fq F']; subst. rewrite Fq, (IH p post (S i) s F' Sp Ep). rewrite Nat.add_succ_comm. reflexivity.
Qed.
(** a message of the satellite in the cache (which holds one per satellite, C82_history) that is healthy and
    covers the time is the answer: the file is not touched, nothing is replaced *)
Theorem C82_cached : forall fuel strp eoh cal nmsg st e sys prn t cache k p b, In sys [Gps; Glonass; Galileo; Beidou] -> NoDup (map sv_of cache) ->
  nth_error cache k = Some p -> f_sys p = sys -> f_prn p = prn -> block_ok b -> int_fits b -> frame_of cal b p -> usable t p ->
  get_valid_msg fuel strp eoh nmsg st e sys prn t cache = Val (mkCache (Some k) 0 cache st e).
Proof.
  intros fuel strp eoh cal nmsg st e sys prn t cache k p b Hs Nd Nk Sp Pp Ok Fi Fr U.
  destruct (nth_error_split _ _ Nk) as (pre & post & -> & <-).
  assert (F : Forall (fun q => same_sv sys prn q = false) pre).
  { apply Forall_forall. intros q Hq. destruct (same_sv sys prn q) eqn:E; [|reflexivity]. apply same_sv_iff in E as (E1 & E2). exfalso.
    rewrite map_app in Nd. cbn [map] in Nd. apply NoDup_remove_2 in Nd. apply Nd, in_app_iff. left. apply in_map_iff. exists q. split; [|exact Hq]. unfold sv_of. congruence. }
  unfold get_valid_msg. rewrite (search_hit sys prn t pre p post 0 (-200) F).
  - cbn [bind]. change (0 =? 0)%Z with true. cbv iota. reflexivity.
  - apply same_sv_iff. auto.
  - apply (check_usable cal b); auto. rewrite Sp. exact Hs.
Qed.
Print Assumptions C82_cached.
(** so, at any point of a run, the same request again gives the same answer and changes nothing *)
Theorem C82_again : forall fuel strp eoh cal nmsg st reqs sys prn t cache bs r fuel', reads_dates strp cal -> In sys [Gps; Glonass; Galileo; Beidou] ->
  Forall block_ok bs -> Forall int_fits bs -> length (f_data nmsg) = 31%nat -> at_rest st (blocks_text bs) -> good st = true -> (length bs < fuel)%nat ->
  lookups strp eoh nmsg st reqs cache st 0 -> (forall p, In p cache -> exists b, In b bs /\ frame_of cal b p) ->
  get_valid_msg fuel strp eoh nmsg st 0 sys prn t cache = Val r -> g_status r = 0%Z ->
  get_valid_msg fuel' strp eoh nmsg (g_stream r) (g_errno r) sys prn t (g_cache r) = Val r.
Proof.
  intros fuel strp eoh cal nmsg st reqs sys prn t cache bs r fuel' RD Hs Ok Fi L At G Lk Lo Cf E Z0.
  assert (W : Forall (fun b => serves sys prn b -> int_fits b) bs) by (revert Fi; apply Forall_impl; auto).
  destruct (C83_from_file_partial fuel strp eoh cal nmsg st sys prn t cache bs r RD Hs Ok W L At Lk Cf E) as (_ & _ & Cf').
  pose proof (C82_answer fuel strp eoh nmsg st 0 sys prn t cache r E) as (A & _). destruct (A Z0) as (k & p & It & Nk & Sp & Pp & Hh & Hc).
  destruct (Cf' p (nth_error_In _ _ Nk)) as (b & Ib & Fb). rewrite Forall_forall in Ok, Fi.
  assert (Cv : covers t p).
  { apply Hc. intros (Sg & q & Nq & Lq). pose proof Fb as (B & _). pose proof B as (Sb & _). specialize (Fi b Ib). unfold int_fits in Fi. rewrite <- Sb, Sg in Fi. destruct Fi as (_ & F28).
    destruct (block_num cal p b 28 B (Ok b Ib) ltac:(rewrite <- Sb, Sg; reflexivity)) as (n & Nn & Vn). rewrite Nn in F28. rewrite <- Sb, Sg, Nq in Vn. cbn [si_value] in Vn.
    assert (q = num_val n) by congruence. subst q. destruct F28 as (F28 & _). apply (Qlt_not_le _ _ Lq), F28. }
  destruct (C82_history strp eoh nmsg st _ _ _ _ G (one_more strp eoh nmsg st reqs cache st 0 sys prn t fuel r Lo E)) as (_ & _ & Nd' & _).
  rewrite (C82_cached fuel' strp eoh cal nmsg (g_stream r) (g_errno r) sys prn t (g_cache r) k p b Hs Nd' Nk Sp Pp (Ok b Ib) (Fi b Ib) Fb (conj Hh Cv)).
  destruct r as [it stt ca ss er]. cbn in *. congruence.
Qed.
Print Assumptions C82_again.
Example C82_again_ex : exists r, get_valid_msg 9 strp_fix (Some 0) frame0 nav2 0 Gps 5 t3h [] = Val r /\ g_status r = 0%Z /\
  reads_dates strp_fix civil /\ Forall block_ok two_msgs /\ Forall int_fits two_msgs /\ at_rest nav2 (blocks_text two_msgs) /\ good nav2 = true /\
  lookups strp_fix (Some 0) frame0 nav2 [] [] nav2 0 /\
  get_valid_msg 0 strp_fix (Some 0) frame0 (g_stream r) (g_errno r) Gps 5 t3h (g_cache r) = Val r.
Proof.
  destruct C82_answer_ex as (r1 & r2 & E1 & Z1 & _). exists r1.
  assert (F : Forall int_fits two_msgs) by (apply Forall_cons; [|apply Forall_cons; [|apply Forall_nil]]; split; split; vm_compute; discriminate).
  pose proof (open_rest (blocks_text two_msgs)) as R.
  assert (G : good nav2 = true) by reflexivity.
  assert (N0 : lookups strp_fix (Some 0%nat) frame0 nav2 [] [] nav2 0) by apply no_lookup.
  split; [exact E1|]. split; [exact Z1|]. split; [exact strp_fix_reads|]. split; [exact two_ok|]. split; [exact F|]. split; [exact R|]. split; [exact G|]. split; [exact N0|].
  assert (Hs : In Gps [Gps; Glonass; Galileo; Beidou]) by (left; reflexivity).
  assert (Lb : (length two_msgs < 9)%nat) by (cbn [length two_msgs]; lia).
  assert (C0 : forall p, In p [] -> exists b, In b two_msgs /\ frame_of civil b p) by (intros p []).
  exact (C82_again 9 strp_fix (Some 0%nat) civil frame0 nav2 [] Gps 5%Z t3h [] two_msgs r1 0 strp_fix_reads Hs two_ok F eq_refl R G Lb N0 C0 E1 Z1).
Qed.
