(** ProofAntexApi: the public lookups on whole files (C31, C32, C35, C36, C78). *)
From Verif Require Import Base BaseLemmas CNum CNumLemmas Stream ModelSatsys ModelObs ModelNvarstr ModelSatellite ModelAntenna
  ModelAntex SpecText SpecNum SpecObs SpecHeader SpecAntex SpecAntexObj ProofText ProofAntenna ProofNum ProofStream ProofObsTypes ProofObsRec ProofHeader ProofAntex
  ProofAntexFind ProofAntexSkip ProofAntexPco ProofAntexSat ProofAntexHeader.

Lemma atx_skip h rs : skipn (length (atxh_text h)) (atx_file h rs) = ants_text rs.
Proof. unfold atx_file. apply skipn_app_exact. reflexivity. Qed.
Lemma atx_on h rs st : sdata st = atx_file h rs -> sfail st = false -> on (seekg st (Some (length (atxh_text h)))) (atx_file h rs) (ants_text rs).
Proof. intros D F. rewrite <- (atx_skip h rs). apply seek_on; assumption. Qed.

Lemma block_split h rs1 r rs2 : atx_file h (rs1 ++ r :: rs2) =
  (atxh_text h ++ ants_text rs1 ++ start_line r ++ NL :: type_line r ++ [NL]) ++ ant_tail r ++ ants_text rs2.
Proof.
  unfold atx_file, ants_text. rewrite flat_map_app, text_of_app. cbn [flat_map]. rewrite (text_of_app (ant_lines r)).
  rewrite (ant_lines_tail r). rewrite <- !app_assoc. cbn [app]. rewrite <- !app_assoc. reflexivity.
Qed.
Lemma block_at h rs1 r rs2 : skipn (block_pos h rs1 r rs2) (atx_file h (rs1 ++ r :: rs2)) = ant_tail r ++ ants_text rs2.
Proof.
  unfold block_pos. rewrite block_split. apply skipn_app_exact. rewrite (app_length _ (ant_tail r ++ _)). apply Nat.add_sub.
Qed.

Lemma rec_bytes r : ant_ok r -> bytes_model (rec_antenna r) = map Some (r_model r) /\ (~ all_blank (r_serial r) -> bytes_serial (rec_antenna r) = map Some (r_serial r)).
Proof.
  intros ((C1 & L1) & (C2 & L2) & _). unfold rec_antenna, antenna_mem, bytes_model, bytes_serial. rewrite antenna_name20 by exact L1. split.
  - rewrite firstn_app, map_length, L1, Nat.sub_diag, firstn_O, app_nil_r. apply firstn_all2. rewrite map_length. lia.
  - intro N. destruct (blankb (r_serial r)) eqn:B; [apply blankb_all in B; contradiction|].
    rewrite skipn_app_exact by (rewrite map_length; lia). rewrite firstn_app, map_length, L2, Nat.sub_diag, firstn_O, app_nil_r. apply firstn_all2. rewrite map_length. lia.
Qed.

Inductive closest_case (h : atxh_src) (rs : list ant_src) (a : mem) : Z -> mem -> nat -> Prop :=
| cc_exact rs1 r rs2 : rs = rs1 ++ r :: rs2 -> same_antenna r a -> Forall (fun q => ~ same_antenna q a) rs1 ->
    closest_case h rs a (-1) (rec_antenna r) (block_pos h rs1 r rs2)
| cc_type rs1 r rs2 : rs = rs1 ++ r :: rs2 -> Forall (fun q => ~ same_antenna q a) rs -> same_type r a -> Forall (fun q => ~ same_type q a) rs2 ->
    closest_case h rs a 0 (rec_antenna r) (block_pos h rs1 r rs2)
| cc_none d : Forall (fun q => ~ same_antenna q a) rs -> Forall (fun q => ~ same_type q a) rs -> ant_default = Val d -> closest_case h rs a 0 d 0.

Theorem closest_api h rs a fuel st : Forall ant_ok rs -> reach_ant a -> length rs < fuel -> rs <> [] ->
  sdata st = atx_file h rs -> sfail st = false ->
  exists code b p st', find_closest_antenna_match fuel st (Some (length (atxh_text h))) a = Val (code, Some (b, Some p), st') /\
    closest_case h rs a code b p /\ sdata st' = atx_file h rs /\ sfail st' = false.
Proof.
  intros F Ha Hf Ne D Sf. pose proof (atx_on h rs st D Sf) as H.
  destruct ant_default as [d| | | |] eqn:ED; try discriminate ED. unfold find_closest_antenna_match. rewrite ED. cbn [bind].
  destruct (closest_exact rs fuel _ _ a d (Some 0) None F Ha Hf H ltac:(congruence) (or_introl eq_refl)) as (st' & E & D' & Sf').
  assert (FX : forall l, Forall ant_ok l -> Forall (fun y => exactb a y = false) l -> Forall (fun q => ~ same_antenna q a) l).
  { intros l Fl Fx. rewrite Forall_forall in *. intros q I X. apply exactb_iff in X; auto. rewrite (Fx q I) in X. discriminate. }
  assert (FP : forall l, Forall ant_ok l -> Forall (fun y => plainb a y = false) l -> Forall (fun q => ~ same_type q a) l).
  { intros l Fl Fx. rewrite Forall_forall in *. intros q I X. apply plainb_iff in X; auto. rewrite (Fx q I) in X. discriminate. }
  destruct (first_split (exactb a) rs) as [[[rs1 r] rs2]|] eqn:EF.
  - apply first_split_some in EF as (-> & X & Fr). apply Forall_app in F as (F1 & F2). inversion F2 as [|? ? Hr F3]; subst.
    do 4 eexists. split; [exact E|]. split; [|auto]. eapply cc_exact; [reflexivity|apply exactb_iff; auto|apply FX; assumption].
  - apply first_split_none in EF. destruct (last_split (plainb a) rs) as [[rs1 r]|] eqn:EL.
    + apply last_split_some in EL as (Q & X & Fr). set (rs2 := skipn (S (length rs1)) rs) in *.
      assert (Hr : ant_ok r /\ Forall ant_ok rs2) by (rewrite Q in F; apply Forall_app in F as (_ & F2); inversion F2; auto). destruct Hr as (Hr & F2).
      do 4 eexists. split; [exact E|]. split; [|auto].
      replace (length (atx_file h rs) - length (ant_tail r ++ ants_text rs2)) with (block_pos h rs1 r rs2) by (unfold block_pos; rewrite <- Q; reflexivity).
      eapply cc_type; [exact Q|apply FX; assumption|apply plainb_iff; auto|apply FP; assumption].
    + apply last_split_none in EL. do 4 eexists. split; [exact E|]. split; [|auto]. eapply cc_none; [apply FX|apply FP|]; assumption.
Qed.

(** ** lookups of the offsets: the body of the block is a list of frequencies *)
Definition pco_fuel (k : pcob_src) (fuel : nat) : Prop := length (k_opt k) < fuel /\ Forall (fun q => grid_fuel q < fuel) (k_freqs k).
Lemma collect_block h rs1 r rs2 k fuel st l : ant_ok r -> pco_body r k -> pco_fuel k fuel ->
  sdata st = atx_file h (rs1 ++ r :: rs2) -> sfail st = false ->
  exists st', collect_pco fuel (seekg st (Some (block_pos h rs1 r rs2))) l = Val (0%Z, l ++ map freq_pco (k_freqs k), st') /\
    sdata st' = atx_file h (rs1 ++ r :: rs2) /\ sfail st' = false.
Proof.
  intros Hr (Eb & Hk) (F1 & F2) D Sf. pose proof (seek_on st _ (block_pos h rs1 r rs2) Sf D) as H. rewrite block_at in H.
  unfold ant_tail in H. rewrite Eb, text_of_app, <- app_assoc in H. rewrite text_of_one in H. change (text_of []) with (@nil ascii) in H. cbn [app] in H.
  destruct (collect_exact k fuel _ _ _ l Hk F1 F2 H) as (st' & E & D' & NF). exists st'. split; [exact E|]. split; [exact D'|].
  eapply NF; [reflexivity|apply stop_clean|rewrite stop_len]. destruct Hr as (_ & _ & _ & P & _). lia.
Qed.

(** the first line of the header is no METH line: reading offsets at position 0 fails *)
Lemma collect_header h s rs fuel st : atxh_ok h s -> sdata st = atx_file h rs -> sfail st = false ->
  exists st', collect_pco fuel (seekg st (Some 0)) [] = Val (1%Z, [], st') /\ sdata st' = atx_file h rs /\ sfail st' = false.
Proof.
  intros Hh D Sf. pose proof (seek_on st _ 0 Sf D) as H. change (skipn 0 (atx_file h rs)) with (atx_file h rs) in H.
  destruct Hh as (Hv & Lv & _ & Hl & Hm & _ & _ & _ & _ & Hp).
  destruct (head1_facts (x_version h) (x_letter h) (x_more h) (x_pad h) Hv Lv (letters_clean _ _ Hl) Hm Hp) as (C1 & L1 & _).
  assert (X : exists t, atx_file h rs = atxh_first h ++ NL :: t).
  { unfold atx_file, atxh_text, atxh_lines. rewrite text_of_one. eexists. reflexivity. }
  destruct X as (t & X). rewrite X in H at 2. change (atxh_first h) with (head1 (x_version h) (x_letter h) (x_more h) (x_pad h)) in H.
  destruct (on_line _ _ _ _ (uninit 85) 85 H C1 ltac:(lia) ltac:(rewrite len_uninit; lia)) as (st1 & E & H1).
  unfold collect_pco. change ATX_HEADER_CHARS with 85. rewrite E. cbn [bind]. rewrite (on_nofail _ _ _ H1).
  rewrite label_other by (first [reflexivity|nonul_lit|lia]).
  assert (L0 : labelled "METH / BY / # / DATE" (head1 (x_version h) (x_letter h) (x_more h) (x_pad h)) = false).
  { unfold head1. rewrite labelled_hl; [reflexivity|]. destruct Hm as (_ & Lm). rewrite !app_length, length_rjust, length_blanks, Lm by lia. cbn. lia. }
  rewrite L0. cbn [bind negb noexcept]. exists st1. split; [reflexivity|]. split; [apply H1|exact (on_nofail _ _ _ H1)].
Qed.

(** get_antenna_pco(ReceiverAntenna, list, must_match_serial) *)
Theorem pco_rcv_api h s rs a must fuel st : atxh_ok h s -> Forall ant_ok rs -> reach_ant a -> length rs < fuel -> rs <> [] ->
  sdata st = atx_file h rs -> sfail st = false ->
  (forall r, In r rs -> same_antenna r a \/ same_type r a -> exists k, pco_body r k /\ pco_fuel k fuel) ->
  exists code l st', get_antenna_pco_rcv fuel st (Some (length (atxh_text h))) a must = Val (code, l, st') /\
    sdata st' = atx_file h rs /\ sfail st' = false /\
    ((code = 0%Z /\ exists rs1 r rs2 k, rs = rs1 ++ r :: rs2 /\ pco_body r k /\ l = map freq_pco (k_freqs k) /\
        ((same_antenna r a /\ Forall (fun q => ~ same_antenna q a) rs1) \/
         (must = false /\ Forall (fun q => ~ same_antenna q a) rs /\ same_type r a /\ Forall (fun q => ~ same_type q a) rs2))) \/
     (code = 10%Z /\ l = [] /\ must = true /\ Forall (fun q => ~ same_antenna q a) rs) \/
     (code = 1%Z /\ l = [] /\ must = false /\ Forall (fun q => ~ same_antenna q a /\ ~ same_type q a) rs)).
Proof.
  intros Hh F Ha Hf Ne D Sf HK. destruct (closest_api h rs a fuel st F Ha Hf Ne D Sf) as (code & b & p & st1 & E & CC & D1 & Sf1).
  unfold get_antenna_pco_rcv. rewrite E. cbn [bind]. destruct CC as [rs1 r rs2 Q X N|rs1 r rs2 Q N X NT|d N NT ED].
  - destruct (HK r ltac:(rewrite Q; apply in_or_app; right; left; reflexivity) (or_introl X)) as (k & Kb & Kf). rewrite Q in D1.
    assert (Hr : ant_ok r) by (rewrite Q in F; apply Forall_app in F as (_ & F2); inversion F2; auto).
    destruct (collect_block h rs1 r rs2 k fuel st1 [] Hr Kb Kf D1 Sf1) as (st' & EC & D2 & S2). cbn [Z.gtb Z.compare Z.eqb andb]. rewrite EC.
    exists 0%Z, (map freq_pco (k_freqs k)), st'. split; [reflexivity|]. split; [rewrite Q; exact D2|]. split; [exact S2|]. left. split; [reflexivity|].
    exists rs1, r, rs2, k. auto 10.
  - destruct must; cbn [Z.gtb Z.compare Z.eqb andb].
    + exists 10%Z, [], st1. split; [reflexivity|]. split; [exact D1|]. split; [exact Sf1|]. auto 10.
    + destruct (HK r ltac:(rewrite Q; apply in_or_app; right; left; reflexivity) (or_intror X)) as (k & Kb & Kf). rewrite Q in D1.
      assert (Hr : ant_ok r) by (rewrite Q in F; apply Forall_app in F as (_ & F2); inversion F2; auto).
      destruct (collect_block h rs1 r rs2 k fuel st1 [] Hr Kb Kf D1 Sf1) as (st' & EC & D2 & S2). rewrite EC.
      exists 0%Z, (map freq_pco (k_freqs k)), st'. split; [reflexivity|]. split; [rewrite Q; exact D2|]. split; [exact S2|]. left. split; [reflexivity|].
      exists rs1, r, rs2, k. auto 10.
  - destruct must; cbn [Z.gtb Z.compare Z.eqb andb].
    + exists 10%Z, [], st1. split; [reflexivity|]. split; [exact D1|]. split; [exact Sf1|]. auto 10.
    + destruct (collect_header h s rs fuel st1 Hh D1 Sf1) as (st' & EC & D2 & S2). rewrite EC.
      exists 1%Z, [], st'. split; [reflexivity|]. split; [exact D2|]. split; [exact S2|]. right. right. split; [reflexivity|]. split; [reflexivity|]. split; [reflexivity|].
      apply Forall_and; assumption.
Qed.

Lemma asat_default_wf x : asat_default = Val x -> sat_wf x.
Proof. intro H. assert (E : exists y, asat_default = Val y /\ sat_wf y) by (eexists; split; [reflexivity|split; reflexivity]). destruct E as (y & E & W). rewrite E in H. apply Val_inj in H. subst. exact W. Qed.

Lemma cstr0_uninit (l : list ascii) (r : mem) : ~ In NUL l -> cstr0 r = UB -> cstr0 (map Some l ++ r) = UB.
Proof.
  intros N H. induction l as [|c l IH]; [exact H|]. cbn [map app cstr0].
  destruct (ceqb c NUL) eqn:X; [apply ceqb_eq in X; exfalso; apply N; left; exact X|].
  rewrite IH by (intro; apply N; right; assumption). reflexivity.
Qed.

Section Sat.
  Variable strp : list ascii -> option Z.
  Theorem satellite_api h rs prn ss at_ pos0 fuel tfuel line0 st : Forall ant_ok rs ->
    Forall (fun r => wants prn ss r -> interval_ok strp r) rs -> Forall (fun r => length (r_body r) <= tfuel) rs ->
    length rs < fuel -> rs <> [] -> line_ok line0 -> sdata st = atx_file h rs -> sfail st = false ->
    exists st', sdata st' = atx_file h rs /\ sfail st' = false /\
    ((exists rs1 r rs2 id x, rs = rs1 ++ r :: rs2 /\ Forall (fun q => ~ (wants prn ss q /\ rec_valid strp q at_)) rs1 /\
        sat_ident r = Some id /\ i_prn id = prn /\ i_sys id = ss /\ rec_valid strp r at_ /\ sat_of r id x /\
        find_satellite_antenna strp fuel tfuel line0 st (Some (length (atxh_text h))) prn ss at_ pos0 = Val (0%Z, Some (block_pos h rs1 r rs2), Some x, st')) \/
     (Forall (fun q => ~ (wants prn ss q /\ rec_valid strp q at_)) rs /\
      exists p, find_satellite_antenna strp fuel tfuel line0 st (Some (length (atxh_text h))) prn ss at_ pos0 = Val (10%Z, p, None, st'))).
  Proof.
    intros F FI FB Hf Ne Hl D Sf. pose proof (atx_on h rs st D Sf) as H. unfold find_satellite_antenna.
    destruct asat_default as [x0| | | |] eqn:EX; try discriminate EX. cbn [bind]. apply asat_default_wf in EX.
    destruct (satellite_exact strp rs fuel tfuel _ _ line0 prn ss at_ pos0 x0 None F FI FB Hf Hl EX H ltac:(congruence))
      as (st' & D' & S' & [(rs1 & r & rs2 & id & x & Q & N & A1 & A2 & A3 & A4 & A5 & _ & A6)|(N & p & A6)]); exists st'; (split; [exact D'|]); (split; [exact S'|]).
    - left. exists rs1, r, rs2, id, x. do 7 (split; [assumption|]). unfold block_pos. rewrite <- Q. exact A6.
    - right. split; [exact N|]. exists p. exact A6.
  Qed.

  Theorem pco_sat_api h rs prn ss at_ fuel tfuel line0 st : Forall ant_ok rs ->
    Forall (fun r => wants prn ss r -> interval_ok strp r /\ exists k, pco_body r k /\ pco_fuel k fuel) rs -> Forall (fun r => length (r_body r) <= tfuel) rs ->
    length rs < fuel -> rs <> [] -> line_ok line0 -> sdata st = atx_file h rs -> sfail st = false ->
    exists st', sdata st' = atx_file h rs /\ sfail st' = false /\
    ((exists rs1 r rs2 id x k, rs = rs1 ++ r :: rs2 /\ Forall (fun q => ~ (wants prn ss q /\ rec_valid strp q at_)) rs1 /\
        sat_ident r = Some id /\ i_prn id = prn /\ i_sys id = ss /\ rec_valid strp r at_ /\ sat_of r id x /\ pco_body r k /\
        get_antenna_pco_sat strp fuel tfuel line0 st (Some (length (atxh_text h))) prn ss at_ = Val (0%Z, map freq_pco (k_freqs k), Some x, st')) \/
     (Forall (fun q => ~ (wants prn ss q /\ rec_valid strp q at_)) rs /\
      get_antenna_pco_sat strp fuel tfuel line0 st (Some (length (atxh_text h))) prn ss at_ = Val (10%Z, [], None, st'))).
  Proof.
    intros F FI FB Hf Ne Hl D Sf. unfold get_antenna_pco_sat.
    assert (FI' : Forall (fun r => wants prn ss r -> interval_ok strp r) rs) by (eapply Forall_impl; [|exact FI]; intros r Hr W; apply (Hr W)).
    destruct (satellite_api h rs prn ss at_ (Some 0) fuel tfuel line0 st F FI' FB Hf Ne Hl D Sf)
      as (st1 & D1 & S1 & [(rs1 & r & rs2 & id & x & Q & N & A1 & A2 & A3 & A4 & A5 & E)|(N & p & E)]); rewrite E; cbn [bind Z.gtb Z.compare].
    - assert (Hr : ant_ok r /\ exists k, pco_body r k /\ pco_fuel k fuel).
      { rewrite Q in F, FI. apply Forall_app in F as (_ & F2). apply Forall_app in FI as (_ & FI2). inversion F2; inversion FI2; subst. split; [assumption|].
        match goal with K : wants _ _ r -> _ |- _ => apply K end. exists id. auto. }
      destruct Hr as (Hr & k & Kb & Kf). rewrite Q in D1.
      destruct (collect_block h rs1 r rs2 k fuel st1 [] Hr Kb Kf D1 S1) as (st' & EC & D2 & S2). rewrite EC. cbn [bind].
      exists st'. split; [rewrite Q; exact D2|]. split; [exact S2|]. left. exists rs1, r, rs2, id, x, k. do 8 (split; [assumption|]). reflexivity.
    - exists st1. split; [exact D1|]. split; [exact S1|]. right. split; [exact N|reflexivity].
  Qed.

  (** with the local buffer uninitialised, as in the source, every search of a file with records reads past what was written *)
  Theorem satellite_uninit h r rs prn ss at_ pos0 fuel tfuel st : ant_ok r -> 0 < fuel -> sdata st = atx_file h (r :: rs) -> sfail st = false ->
    find_satellite_antenna strp fuel tfuel (uninit 85) st (Some (length (atxh_text h))) prn ss at_ pos0 = UB.
  Proof.
    intros Hr Hf D Sf. pose proof (atx_on h (r :: rs) st D Sf) as H. unfold find_satellite_antenna.
    destruct asat_default as [x0| | | |] eqn:EX; try discriminate EX. cbn [bind]. destruct fuel as [|fuel]; [lia|].
    rewrite <- (app_nil_r (ants_text (r :: rs))), ants_cons, app_nil_r in H.
    destruct (read_type r _ _ _ (Some (uninit 85)) Hr H ltac:(intros m E; injection E as <-; rewrite len_uninit; lia)) as (st1 & E & H1).
    cbn [satellite_loop]. rewrite E. cbn [bind]. rewrite (on_tellg _ _ _ H1). unfold resolve_satellite_antenna_line, strlen.
    destruct (cols60 r Hr) as (_ & C60).
    assert (U : cstr (map Some (r_model r ++ r_serial r ++ r_more r) ++ skipn 60 (uninit 85)) 0 = UB).
    { unfold cstr. change (skipn 0 ?m) with m. apply cstr0_uninit; [exact (clean_nul _ C60)|reflexivity]. }
    rewrite U. reflexivity.
  Qed.
End Sat.
