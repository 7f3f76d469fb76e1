(** PropertiesMain: C103, the point-positioning program as a whole, from its arguments to its exit code. *)
From Coq Require Import Reals ZArith List.
From Verif Require Import B64 Base CNum Stream ModelSatsys ModelObs ModelObsRnx ModelNav ModelPP ModelAntex ModelAntexObj ModelMain
  BaseLemmas SpecText SpecNum SpecObs SpecHeader SpecNav PropertiesObs ProofHeader ProofNavList PropertiesObs2 PropertiesNav.
Local Open Scope list_scope.

(** a file that lists pseudorange [c] for [s] *)
Definition lists (o : obsfile) (s : satsys) (c : obscode) : Prop := exists l, h_tbl (o_hdr o) s = Some l /\ In c l.
(** The full property: with an observation file listing what the program asks for and a navigation file, both
    opened, the program gets to the epochs *)
Definition C103_full : Prop := forall x prog a b o n, open_obs x a = Val o -> open_nav x b = Val n ->
  lists o Glonass (mkCode Pseudorange 1 "C"%char) -> lists o Gps (mkCode Pseudorange 2 "W"%char) ->
  pp_program x [prog; a; b] <> Val (100%Z, []).

(** the request is always turned down: its parts are of two systems *)
Lemma request_refused t : exists g r, pp_observable = Val g /\ set_read_map t (smap_set smap_empty pp_sys [g]) false = Val r /\ plan_is_empty (fst r) = true.
Proof.
  assert (E : pp_observable = Val [mkPart (mkRaw Glonass (mkCode Pseudorange 1 "C"%char)) (DFin (b64 (25457277801631593 # 10000000000000000)));
                                   mkPart (mkRaw Gps (mkCode Pseudorange 2 "W"%char)) (DFin (b64 (-15457277801631593 # 10000000000000000)))]) by reflexivity.
  set (c1 := DFin (b64 (25457277801631593 # 10000000000000000))) in *. set (c2 := DFin (b64 (-15457277801631593 # 10000000000000000))) in *. clearbody c1 c2.
  eexists. eexists. split; [exact E|]. unfold set_read_map, pp_sys. cbn [plan_keys all_satsys smap_set smap_empty satsys_eqb plan_requests obs_getter rsys ptype].
  destruct (t Glonass) as [codes|]; cbn [getter_loop rsys ptype satsys_eqb negb bind].
  - destruct (find_code codes _); cbn; split; reflexivity.
  - cbn. split; reflexivity.
Qed.

(** Whatever the files hold: when they are opened (and the list of satellites, if an ANTEX file is given, is made),
    the program ends with 100 and the filter is never called *)
Theorem C103_always_100 : forall x prog a b rest o n, open_obs x a = Val o -> open_nav x b = Val n ->
  (forall c r, rest = c :: r -> exists found, sat_info x o c = Val found) ->
  pp_program x (prog :: a :: b :: rest) = Val (100%Z, []).
Proof.
  intros x prog a b rest o n Ho Hn Hi. unfold pp_program. rewrite Ho, Hn. cbn [bind].
  destruct (request_refused (h_tbl (o_hdr o))) as (g & r & -> & E & P). cbn [bind].
  destruct rest as [|c rr]; [|destruct (Hi c rr eq_refl) as (f & ->)]; cbn [bind]; rewrite E; cbn [bind]; rewrite P; reflexivity.
Qed.
Print Assumptions C103_always_100.

(** every run that returns: 1 with fewer than two file names, 100 otherwise, and no call of the filter *)
Theorem C103_exit_codes_partial : forall x args code calls, pp_program x args = Val (code, calls) ->
  calls = [] /\ (code = 1%Z <-> (length args < 3)%nat) /\ (code = 100%Z <-> (3 <= length args)%nat).
Proof.
  intros x args code calls H. destruct args as [|p [|a [|b rest]]];
    try (cbn in H; apply Val_inj in H; inversion H; subst; cbn; repeat split; intros; try lia; try discriminate; reflexivity).
  unfold pp_program in H. apply bind_inv in H. destruct H as (o & Ho & H). apply bind_inv in H. destruct H as (n & Hn & H).
  destruct (request_refused (h_tbl (o_hdr o))) as (g & r & E1 & E & P). rewrite E1 in H. cbn [bind] in H.
  apply bind_inv in H. destruct H as (f & _ & H). rewrite E in H. cbn [bind] in H. rewrite P in H.
  apply Val_inj in H. inversion H; subst. cbn. repeat split; intros; try lia; try discriminate; reflexivity.
Qed.
Print Assumptions C103_exit_codes_partial.

(** a name that cannot be opened, or a file whose header is refused, ends the program with an exception *)
Theorem C103_files_partial : forall x prog a b rest,
  (open_obs x a = Exn -> pp_program x (prog :: a :: b :: rest) = Exn) /\
  (forall o, open_obs x a = Val o -> open_nav x b = Exn -> pp_program x (prog :: a :: b :: rest) = Exn) /\
  (x_fs x a = None -> pp_program x (prog :: a :: b :: rest) = Exn) /\
  (forall o, open_obs x a = Val o -> x_fs x b = None -> pp_program x (prog :: a :: b :: rest) = Exn).
Proof.
  intros x prog a b rest. split; [|split; [|split]].
  - intro H. unfold pp_program. rewrite H. reflexivity.
  - intros o H K. unfold pp_program. rewrite H, K. reflexivity.
  - intro H. unfold pp_program, open_obs. rewrite H. reflexivity.
  - intros o H K. unfold pp_program. rewrite H. unfold open_nav. rewrite K. reflexivity.
Qed.
Print Assumptions C103_files_partial.

(** conforming files: 100 *)
Theorem C103_conforming : forall x prog a b v mid letter sys post second items j tail h0 h v' mid' letter' sys' post' lines j' tail',
  x_fs x a = Some (header_text v mid letter post second items j ++ tail) -> x_fs x b = Some (nav_header_text v' mid' letter' post' lines j' ++ tail') ->
  first_line_ok v mid letter sys post -> clean second -> (60 <= length second <= 84)%nat ->
  labelled "END OF HEADER" second = false -> (j <= 5)%nat -> (length items <= 998)%nat ->
  initial_header h0 (num_flt v) sys -> items_mean (x_ostrp x) items h0 h ->
  nav_header_ok v' mid' letter' sys' post' lines j' ->
  pp_program x [prog; a; b] = Val (100%Z, []).
Proof.
  intros x prog a b v mid letter sys post second items j tail h0 h v' mid' letter' sys' post' lines j' tail' Fa Fb H1 H2 H3 H4 H5 H6 H7 H8 H9.
  destruct (C54_header_partial (x_ostrp x) v mid letter sys post second items j tail h0 h H1 H2 H3 H4 H5 H6 H7 H8) as (o & Eo & _).
  destruct (C65_header v' mid' letter' sys' post' lines j' tail' H9) as (n & En & _).
  apply (C103_always_100 x prog a b [] o n); [unfold open_obs; rewrite Fa; exact Eo|unfold open_nav; rewrite Fb; exact En|intros c r K; discriminate].
Qed.
Print Assumptions C103_conforming.

(** *** a concrete pair of files *)
Definition hboth : list string := [hfirst; hpgm; "G    1 C2W                                                  SYS / # / OBS TYPES"; "R    1 C1C                                                  SYS / # / OBS TYPES"; hend]%string.
Definition obs_bytes : list ascii := text (hboth ++ ["> 2020 01 01 00 30 30.0000000  0  1"; "R05  23629347.915 7"]%string).
Definition nav_bytes : list ascii := nav_header_text ver (blanks 19) "M"%char (blanks 20) hlines 4 ++ block_text glo_b.
Definition two_files (name : list ascii) : option (list ascii) :=
  match name with [c] => if Ascii.eqb c "o" then Some obs_bytes else if Ascii.eqb c "n" then Some nav_bytes else None | _ => None end.
Definition out0 : outside := mkOut two_files no_time (fun _ => 0%Z) no_time 0 [] 10 10 strp_fix frame0 0 (fun p => p) (fun _ => 0%Z).
Lemma files_open : exists o n, open_obs out0 (lit "o") = Val o /\ open_nav out0 (lit "n") = Val n /\
  lists o Glonass (mkCode Pseudorange 1 "C"%char) /\ lists o Gps (mkCode Pseudorange 2 "W"%char).
Proof.
  destruct (C65_header ver (blanks 19) "M"%char Mixed (blanks 20) hlines 4 (block_text glo_b) hdr_ok) as (n & En & _).
  destruct (open_obs out0 (lit "o")) as [o| | | |] eqn:E; try (vm_compute in E; discriminate E).
  exists o, n. split; [reflexivity|]. split; [exact En|].
  assert (T : h_tbl (o_hdr o) Glonass = Some [mkCode Pseudorange 1 "C"%char] /\ h_tbl (o_hdr o) Gps = Some [mkCode Pseudorange 2 "W"%char]).
  { assert (K : match open_obs out0 (lit "o") with Val o => (h_tbl (o_hdr o) Glonass, h_tbl (o_hdr o) Gps) | _ => (None, None) end = (Some [mkCode Pseudorange 1 "C"%char], Some [mkCode Pseudorange 2 "W"%char])) by (vm_compute; reflexivity).
    rewrite E in K. inversion K. auto. }
  destruct T as (T1 & T2). split; eexists; (split; [eassumption|left; reflexivity]).
Qed.
Theorem C103_full_refuted : ~ C103_full.
Proof.
  intro F. destruct files_open as (o & n & Eo & En & L1 & L2). apply (F out0 (lit "pp") (lit "o") (lit "n") o n Eo En L1 L2).
  apply (C103_always_100 out0 (lit "pp") (lit "o") (lit "n") [] o n Eo En). intros c r K. discriminate.
Qed.
Print Assumptions C103_full_refuted.
Example C103_ex : pp_program out0 [lit "pp"; lit "o"; lit "n"] = Val (100%Z, []) /\ pp_program out0 [lit "pp"; lit "o"] = Val (1%Z, []) /\ pp_program out0 [lit "pp"; lit "x"; lit "n"] = Exn.
Proof.
  destruct files_open as (o & n & Eo & En & _). split; [apply (C103_always_100 _ _ _ _ [] o n Eo En); intros c r K; discriminate|]. split; [reflexivity|apply C103_files_partial; reflexivity].
Qed.

(** ** C104: the satellites listed from the ANTEX file *)
From Coq Require Import Sorted.
From Verif Require Import SpecAntex SpecAntexObj ProofAntex ProofAntexSat ProofAntexApi PropertiesAntex PropertiesAntex4.
(** the satellites 1..32 of GLONASS with an antenna valid at [t], in increasing order *)
Definition listing (strp : list ascii -> option Z) (rs : list ant_src) (t : Z) (found : list Z) : Prop :=
  StronglySorted Z.lt found /\
  forall i, In i found <-> (1 <= i <= 32)%Z /\ exists r, In r rs /\ wants i Glonass r /\ rec_valid strp r t.
(** a well-formed ANTEX file, and loop bounds that do not matter *)
Definition atx_given (x : outside) (name : list ascii) h s rs : Prop :=
  x_fs x name = Some (atx_file h rs) /\ atxh_ok h s /\ Forall ant_ok rs /\ rs <> [] /\ (length rs < x_afuel x)%nat /\
  Forall (fun r => sat_ident r <> None -> interval_ok (x_astrp x) r) rs /\ Forall (fun r => (length (r_body r) <= x_afuel x)%nat) rs.
Definition C104_full : Prop := forall x o name h s rs, atx_given x name h s rs -> x_aline x = uninit 85 ->
  exists found, sat_info x o name = Val found /\ listing (x_astrp x) rs (x_start x (h_start (o_hdr o))) found.

Lemma info_exact x t h rs : Forall ant_ok rs -> rs <> [] -> (length rs < x_afuel x)%nat ->
  Forall (fun r => sat_ident r <> None -> interval_ok (x_astrp x) r) rs -> Forall (fun r => (length (r_body r) <= x_afuel x)%nat) rs -> line_ok (x_aline x) ->
  forall n i st found, sdata st = atx_file h rs -> sfail st = false -> StronglySorted Z.lt found -> Forall (fun j => (j < i)%Z) found ->
  exists fin, info_loop x t n i st (Some (length (atxh_text h))) found = Val fin /\ StronglySorted Z.lt fin /\
    forall j, In j fin <-> In j found \/ ((i <= j < i + Z.of_nat n)%Z /\ exists r, In r rs /\ wants j Glonass r /\ rec_valid (x_astrp x) r t).
Proof.
  intros F Ne Hf FI FB Hl. induction n as [|n IH]; intros i st found D Sf Ss Lt.
  - exists found. cbn [info_loop]. split; [reflexivity|]. split; [exact Ss|]. intro j. split; [tauto|]. intros [H|(H & _)]; [exact H|lia].
  - cbn [info_loop]. unfold get_satellite_info.
    assert (FW : Forall (fun r => wants i pp_sys r -> interval_ok (x_astrp x) r) rs).
    { eapply Forall_impl; [|exact FI]. intros r X (id & W & _). apply X. congruence. }
    destruct (satellite_api (x_astrp x) h rs i pp_sys t (Some 0%nat) (x_afuel x) (x_afuel x) (x_aline x) st F FW FB Hf Ne Hl D Sf) as (st1 & D1 & S1 & [(rs1 & r & rs2 & id & y & Q & N & A1 & A2 & A3 & A4 & A5 & E)|(N & p & E)]); rewrite E; cbn [bind].
    + change (0 =? 0)%Z with true. cbv iota.
      destruct (IH (i + 1)%Z st1 (found ++ [i]) D1 S1) as (fin & Ef & Sf' & Sp).
      * clear - Ss Lt. induction Ss as [|a l Hs Ih Ha]; cbn; [repeat constructor|]. inversion Lt; subst. constructor; [apply Ih; assumption|].
        apply Forall_app. split; [assumption|repeat constructor; assumption].
      * apply Forall_app. split; [eapply Forall_impl; [|exact Lt]; cbn; lia|repeat constructor; lia].
      * exists fin. split; [exact Ef|]. split; [exact Sf'|]. intro j. rewrite Sp, in_app_iff. cbn [In]. split.
        -- intros [[H|[<-|[]]]|(H & X)]; [tauto| |right; split; [lia|exact X]].
           right. split; [lia|]. exists r. split; [rewrite Q; apply in_or_app; right; left; reflexivity|]. split; [exists id; auto|exact A4].
        -- intros [H|(H & X)]; [tauto|]. destruct (Z.eq_dec j i) as [->|]; [left; right; left; reflexivity|right; split; [lia|exact X]].
    + change (10 =? 0)%Z with false. cbv iota.
      destruct (IH (i + 1)%Z st1 found D1 S1 Ss) as (fin & Ef & Sf' & Sp); [eapply Forall_impl; [|exact Lt]; cbn; lia|].
      exists fin. split; [exact Ef|]. split; [exact Sf'|]. intro j. rewrite Sp. split.
      * intros [H|(H & X)]; [tauto|right; split; [lia|exact X]].
      * intros [H|(H & r & Ir & W & V)]; [tauto|]. destruct (Z.eq_dec j i) as [->|]; [|right; split; [lia|exists r; auto]].
        exfalso. rewrite Forall_forall in N. apply (N r Ir). split; assumption.
Qed.
(** when the line buffer of the search happens to hold a text, the listing is exact *)
Theorem C104_listing_partial : forall x o name h s rs, atx_given x name h s rs -> line_ok (x_aline x) ->
  exists found, sat_info x o name = Val found /\ listing (x_astrp x) rs (x_start x (h_start (o_hdr o))) found.
Proof.
  intros x o name h s rs (Hf & Hh & F & Ne & Hn & FI & FB) Hl.
  destruct (C84_open (x_fs x) name h s (ants_text rs) Hh Hf) as (a & st & Ea & _ & _ & _ & Ee & Es & (G & _) & D).
  assert (S0 : sfail st = false) by (unfold good in G; destruct (seof st), (sfail st); cbn in G; congruence).
  destruct (info_exact x (x_start x (h_start (o_hdr o))) h rs F Ne Hn FI FB Hl 32 1 st [] D S0) as (fin & E & Ss & Sp); [constructor|constructor|].
  exists fin. unfold sat_info. rewrite Ea. cbn [bind]. rewrite Es, Ee. split; [exact E|]. split; [exact Ss|].
  intro i. rewrite Sp. cbn [In]. split; [intros [[]|(H & X)]; split; [lia|exact X]|intros (H & X); right; split; [lia|exact X]].
Qed.
Print Assumptions C104_listing_partial.
(** as compiled, the buffer is uninitialised and the first search reads it *)
Lemma info_first x t n i st e f : get_satellite_info (x_astrp x) (x_afuel x) (x_afuel x) (x_aline x) st e i pp_sys t = UB -> info_loop x t (S n) i st e f = UB.
Proof. intro H. cbn [info_loop]. rewrite H. reflexivity. Qed.
Theorem C104_uninitialised : forall x o name h s rs, atx_given x name h s rs -> x_aline x = uninit 85 -> sat_info x o name = UB.
Proof.
  intros x o name h s rs (Hf & Hh & F & Ne & Hn & FI & FB) Hl.
  destruct (C84_open (x_fs x) name h s (ants_text rs) Hh Hf) as (a & st & Ea & _ & _ & _ & Ee & Es & (G & _) & D).
  assert (S0 : sfail st = false) by (unfold good in G; destruct (seof st), (sfail st); cbn in G; congruence).
  unfold sat_info. rewrite Ea. cbn [bind]. rewrite Es, Ee. apply (info_first x _ 31). unfold get_satellite_info. rewrite Hl.
  destruct rs as [|r rs]; [congruence|].
  rewrite (satellite_uninit (x_astrp x) h r rs 1 pp_sys _ (Some 0%nat) (x_afuel x) (x_afuel x) st (Forall_inv F) ltac:(lia) D S0). reflexivity.
Qed.
Print Assumptions C104_uninitialised.
(** *** a file with two GLONASS antennas, of which one is valid in 2010 *)
Definition g1 := antenna_block "GLONASS-M" "R07" "R712      2004-053B" kt.
Definition g2 := antenna_block "GLONASS-M" "R08" "R701      2003-056A" ks.
Definition atx_rs : list ant_src := [PropertiesAntex.r1; g2; g1].
Definition with_atx (name : list ascii) : option (list ascii) :=
  match name with [c] => if Ascii.eqb c "a" then Some (atx_file PropertiesAntex.h0 atx_rs) else two_files name | _ => None end.
Definition out_atx (line : mem) : outside := mkOut with_atx no_time (fun _ => 2010%Z) year 100 line 10 10 strp_fix frame0 0 (fun p => p) (fun _ => 0%Z).
Lemma atx_rs_given line : atx_given (out_atx line) (lit "a") PropertiesAntex.h0 Mixed atx_rs.
Proof.
  split; [reflexivity|]. split; [exact h0_ok|]. split; [|split; [discriminate|split; [vm_compute; lia|split]]].
  - repeat (constructor; [apply block_ok; try cl; try (vm_compute; lia); auto|]). constructor.
  - assert (Ks : forall m s o, interval_ok year (antenna_block m s o ks)).
    { intros. exists [k_dazi ks; k_zen ks; nth 3 (pcob_lines ks) []; from_2004; until_2008]. split.
      + exists (k_meth ks), (freq_start q1), (skipn 7 (pcob_lines ks)). split; [vm_compute; reflexivity|]. split; [reflexivity|]. split; [reflexivity|]. repeat constructor.
      + split; [vm_compute; lia|]. split; [vm_compute; lia|]. split; repeat (constructor; [vm_compute; discriminate|]); constructor. }
    assert (Kt : forall m s o, interval_ok year (antenna_block m s o kt)).
    { intros. exists [k_dazi kt; k_zen kt; nth 3 (pcob_lines kt) []; from_2004]. split.
      + exists (k_meth kt), (freq_start q2), (skipn 6 (pcob_lines kt)). split; [vm_compute; reflexivity|]. split; [reflexivity|]. split; [reflexivity|]. repeat constructor.
      + split; [vm_compute; lia|]. split; [vm_compute; lia|]. split; repeat (constructor; [vm_compute; discriminate|]); constructor. }
    constructor; [intros _; exact (Ks _ _ _)|]. constructor; [intros _; exact (Ks _ _ _)|]. constructor; [intros _; exact (Kt _ _ _)|constructor].
  - repeat (constructor; [vm_compute; lia|]). constructor.
Qed.
Theorem C104_full_refuted : ~ C104_full.
Proof.
  intro F. destruct files_open as (o & _). destruct (F (out_atx (uninit 85)) o (lit "a") PropertiesAntex.h0 Mixed atx_rs (atx_rs_given _) eq_refl) as (f & E & _).
  rewrite (C104_uninitialised (out_atx (uninit 85)) o (lit "a") PropertiesAntex.h0 Mixed atx_rs (atx_rs_given _) eq_refl) in E. discriminate.
Qed.
Print Assumptions C104_full_refuted.
Example C104_ex : line_ok zeros /\ wants 7 Glonass g1 /\ (exists o, sat_info (out_atx zeros) o (lit "a") = Val [7%Z]).
Proof.
  split; [split; [reflexivity|exists []; reflexivity]|]. split; [eexists; split; [vm_compute; reflexivity|split; reflexivity]|].
  destruct files_open as (o & _). exists o. vm_compute. reflexivity.
Qed.
