(** ProofErrno: with errno clear the errno-aware reader is the plain one *)
From Verif Require Import Base BaseLemmas CNum CNumLemmas Stream ModelSatsys ModelObs ModelNvarstr ModelSatellite ModelAntenna ModelObsRnx ModelErrno SpecText SpecNum SpecObs ProofText ProofNum ProofStream ProofAntenna ProofObsTypes ProofObsRec ProofCollect ProofEpoch ProofHeader ModelNav ProofNavList SpecHeader SpecErrno.
Local Open Scope list_scope.

Definition keep {A} (o : outcome A) (e : bool) : outcome (A * bool) := do a <- o; Val (a, e).

Lemma raw_clear r str : raw_resolve_e r str false = keep (raw_resolve r str) false.
Proof.
  unfold raw_resolve_e, raw_resolve, keep. destruct (string_is_empty str 0 (Some 14)) as [[]| | | |]; cbn [bind]; try reflexivity.
  destruct (cstr str 0) as [s| | | |]; cbn [bind]; try reflexivity. destruct (strtod s) as ((v, n), er). cbn [orb].
  destruct er; cbn [orb bind]; [reflexivity|]. destruct (n =? 0)%nat; [reflexivity|].
  destruct (rd str 14); cbn [bind]; try reflexivity. destruct (rd str 15); reflexivity.
Qed.
Lemma obstypes_clear t st c : resolve_obstypes_e t st c false = keep (resolve_obstypes t st c) false.
Proof.
  unfold resolve_obstypes_e, resolve_obstypes, keep. destruct (memcpy _ _ _ _ _) as [line| | | |]; cbn [bind noexcept]; try reflexivity.
  destruct (rd line 0) as [c0| | | |]; cbn [bind noexcept]; try reflexivity. destruct (char_to_satsys c0) as [sys| | | |]; cbn [bind noexcept]; try reflexivity.
  destruct (t sys); [reflexivity|]. destruct (cstr line 3) as [s| | | |]; cbn [bind noexcept]; try reflexivity. destruct (strtol s) as ((v, n), er). cbn [orb].
  destruct er; cbn [orb]; [reflexivity|]. destruct (n =? 0)%nat; [reflexivity|].
  destruct (obstypes_loop _ _ _ _ _) as [[st' [code|vec]]| | | |]; cbn [bind noexcept]; try reflexivity.
  destruct (_ =? _)%Z; reflexivity.
Qed.
Lemma char2double_ok M : forall N m off e ok vs e1, char2double m off N M e = Val (ok, vs, e1) -> (ok = true -> e1 = false) /\ (e = true -> e1 = true).
Proof.
  induction N as [|N IH]; intros m off e ok vs e1 H; cbn [char2double] in H.
  - injection H as <- <- <-. split; [destruct e; [discriminate|reflexivity]|auto].
  - apply bind_inv in H as (s & _ & H). destruct (strtod s) as ((v, n), er). destruct (n =? 0)%nat.
    + injection H as <- <- <-. split; [discriminate|]. intros ->. reflexivity.
    + apply bind_inv in H as (((ok1, vs1), e2) & Er & H). destruct (IH _ _ _ _ _ _ Er) as (A & B). injection H as <- <- <-. split; [exact A|]. intros ->. apply B. reflexivity.
Qed.
(** the header lines: errno is set afterwards only with the codes 51 and 52 *)
Definition hdr_agrees (x : outcome (Z * obshdr * stream)) (y : outcome (Z * obshdr * stream * bool)) : Prop :=
  match x with
  | Val (code, h', st') => exists e, y = Val (code, h', st', e) /\ (e = true -> code = 51%Z \/ code = 52%Z)
  | Exn => y = Exn
  | Term => y = Term
  | UB => y = UB
  | Fuel => y = Fuel
  end.
Lemma agrees_keep x : hdr_agrees x (do r <- x; Val (r, false)).
Proof. destruct x as [((code, h'), st')| | | |]; cbn [bind hdr_agrees]; try reflexivity. exists false. split; [reflexivity|discriminate]. Qed.
Lemma hdr_line_clear strp h st line : hdr_agrees (hdr_line strp h st line) (hdr_line_e strp h st line false).
Proof.
  pose proof (agrees_keep (hdr_line strp h st line)) as P0. revert P0. unfold hdr_line_e.
  set (plain := do r <- hdr_line strp h st line; Val (r, false)). clearbody plain. unfold hdr_line. intro P0.
  destruct (strncmp_lit line 60 "MARKER NAME" 11) as [[]| | | |]; cbn [bind] in *; try reflexivity; [exact P0|].
  destruct (strncmp_lit line 60 "MARKER NUMBER" 13) as [[]| | | |]; cbn [bind] in *; try reflexivity; [exact P0|].
  destruct (strncmp_lit line 60 "REC # / TYPE / VERS" 19) as [[]| | | |]; cbn [bind] in *; try reflexivity; [exact P0|].
  destruct (strncmp_lit line 60 "ANT # / TYPE" 12) as [[]| | | |]; cbn [bind] in *; try reflexivity; [exact P0|].
  destruct (strncmp_lit line 60 "APPROX POSITION XYZ" 19) as [[]| | | |]; cbn [bind] in *; try reflexivity.
  { clear P0. destruct (char2double line 0 3 14 false) as [[[ok vs] e1]| | | |] eqn:E; cbn [bind]; try reflexivity. destruct (char2double_ok _ _ _ _ _ _ _ _ E) as (A & _).
    destruct ok; cbn [negb hdr_agrees]; exists e1; (split; [reflexivity|]); [rewrite A by reflexivity; discriminate|auto]. }
  destruct (strncmp_lit line 60 "ANTENNA: DELTA H/E/N" 20) as [[]| | | |]; cbn [bind] in *; try reflexivity.
  { clear P0. destruct (char2double line 0 3 14 false) as [[[ok vs] e1]| | | |] eqn:E; cbn [bind]; try reflexivity. destruct (char2double_ok _ _ _ _ _ _ _ _ E) as (A & _).
    destruct ok; cbn [negb hdr_agrees]; exists e1; (split; [reflexivity|]); [rewrite A by reflexivity; discriminate|auto]. }
  destruct (strncmp_lit line 60 "SYS / # / OBS TYPES" 19) as [[]| | | |]; cbn [bind] in *; try reflexivity.
  { clear P0. rewrite obstypes_clear. unfold keep. destruct (resolve_obstypes (h_tbl h) st line) as [((code, t), st')| | | |]; cbn [bind hdr_agrees]; try reflexivity.
    exists false. split; [reflexivity|discriminate]. }
  destruct (strncmp_lit line 60 "RCV CLOCK OFFS APPL" 19) as [[]| | | |]; cbn [bind] in *; try reflexivity; [|exact P0].
  clear P0. destruct (cstr line 0) as [s| | | |]; cbn [bind]; try reflexivity. destruct (strtol s) as ((v, n), er). destruct er; cbn [orb hdr_agrees].
  - exists false. split; [reflexivity|discriminate].
  - destruct ((n =? 3) || _)%nat; cbn [hdr_agrees]; exists false; (split; [reflexivity|discriminate]).
Qed.
Lemma hdr_loop_clear strp : forall k h st line, hdr_agrees (hdr_loop strp k h st line) (hdr_loop_e strp k h st line false).
Proof.
  induction k as [|k IH]; intros h st line; cbn [hdr_loop hdr_loop_e].
  - exists false. split; [reflexivity|discriminate].
  - destruct (strncmp_lit line 60 "END OF HEADER" 13) as [[]| | | |]; cbn [bind]; try reflexivity; [exists false; split; [reflexivity|discriminate]|].
    destruct (getline st line MAX_HEADER_CHARS) as [(st1, line1)| | | |]; cbn [bind]; try reflexivity.
    pose proof (hdr_line_clear strp h st1 line1) as A. destruct (hdr_line strp h st1 line1) as [((code, h'), st2)| | | |]; cbn [hdr_agrees] in A; [|rewrite A; reflexivity..].
    destruct A as (e & -> & A). cbn [bind]. destruct (Z.eqb_spec code 0) as [->|N]; cbn [negb].
    + destruct e; [destruct (A eq_refl); discriminate|apply IH].
    + exists e. auto.
Qed.
(** two-character texts *)
Lemma strtol_two_range p : length p <= 2 -> snd (strtol p) = false.
Proof. intro H. pose proof (strtol_two p H) as X. destruct (strtol p) as ((v, n), er). apply X. Qed.
Lemma cstr0_firstn_nul : forall (m : mem) k s, nth_error m k = Some (Some NUL) -> cstr0 m = Val s -> length s <= k.
Proof.
  induction m as [|[c|] m IH]; intros k s N E; cbn [cstr0] in E; try discriminate.
  destruct (ceqb c NUL) eqn:Ec; [injection E as <-; cbn; lia|]. apply bind_inv in E as (s' & E & H). injection H as <-.
  destruct k as [|k]; cbn [nth_error] in N.
  - injection N as ->. change (ceqb NUL NUL) with true in Ec. discriminate.
  - cbn [length]. specialize (IH _ _ N E). lia.
Qed.
Lemma epoch_ints_clear m : forall k start, epoch_ints_e k m start false = keep (epoch_ints k m start) false.
Proof.
  induction k as [|k IH]; intro start; cbn [epoch_ints epoch_ints_e]; [reflexivity|]. unfold keep in *.
  destruct (cstr m start) as [s| | | |]; cbn [bind]; try reflexivity. destruct (strtol s) as ((v, n), er). destruct er; cbn [orb bind]; [reflexivity|].
  destruct (n =? 0)%nat; cbn [bind]; [reflexivity|]. rewrite IH. destruct (epoch_ints k m (start + n + 1)) as [[(l, x)|]| | | |]; reflexivity.
Qed.
Lemma resolve_epoch_clear m : resolve_epoch_e m false = keep (resolve_epoch m) false.
Proof.
  unfold resolve_epoch_e, resolve_epoch, keep. destruct (cstr m 0) as [line| | | |]; cbn [bind]; try reflexivity.
  destruct (rd m 0) as [c0| | | |]; cbn [bind]; try reflexivity. destruct (negb _ || _); cbn [bind]; [reflexivity|].
  rewrite epoch_ints_clear. unfold keep. destruct (epoch_ints 5 m 2) as [[(ints, start)|]| | | |]; cbn [bind]; try reflexivity.
  destruct (cstr m start) as [s| | | |]; cbn [bind]; try reflexivity. destruct (strtod s) as ((rsec, n), er). destruct er; cbn [orb bind]; [reflexivity|].
  destruct (n =? 0)%nat; cbn [bind]; [reflexivity|]. destruct (rd m 31) as [c31| | | |]; cbn [bind]; try reflexivity.
  destruct (cstr m 32) as [s2| | | |]; cbn [bind]; try reflexivity. destruct (strtol s2) as ((v2, n2), er2). destruct er2; cbn [orb bind]; [reflexivity|].
  destruct (start =? 32 + n2)%nat eqn:E; cbn [bind]; [reflexivity|]. destruct (41 <? length line)%nat; cbn [bind]; [|reflexivity].
  destruct (string_is_empty m 41 None) as [[]| | | |]; cbn [bind]; try reflexivity.
  destruct (cstr m 41) as [s3| | | |]; cbn [bind]; try reflexivity. destruct (strtod s3) as ((v3, n3), er3). destruct er3; cbn [orb bind]; [reflexivity|].
  destruct (start =? 41 + n3)%nat; reflexivity.
Qed.
Lemma pairs_clear buf len : forall prs raw tbuf status v, collect_pairs_e buf len prs raw tbuf status v false = keep (collect_pairs buf len prs raw tbuf status v) false.
Proof.
  induction prs as [|(col, coef) prs IH]; intros raw tbuf status v; cbn [collect_pairs collect_pairs_e]; [reflexivity|].
  destruct (_ <=? len)%nat; [|apply IH]. destruct (memcpy _ _ _ _ _) as [tb| | | |]; cbn [bind keep]; try reflexivity.
  rewrite raw_clear. unfold keep. destruct (raw_resolve raw tb) as [(c, raw')| | | |]; cbn [bind]; try reflexivity.
  destruct (negb (c =? 0)%Z); [reflexivity|]. destruct (negb (deq _ _)); apply IH.
Qed.
Lemma obs_clear buf len : forall sysobs raw tbuf status k vals, collect_obs_e buf len sysobs raw tbuf status k vals false = keep (collect_obs buf len sysobs raw tbuf status k vals) false.
Proof.
  induction sysobs as [|prs r IH]; intros raw tbuf status k vals; cbn [collect_obs collect_obs_e]; [reflexivity|]. rewrite pairs_clear. unfold keep in *.
  destruct (collect_pairs buf len prs raw tbuf status (DFin 0)) as [[(((raw', tb), st'), v)|]| | | |]; cbn [bind]; try reflexivity.
  destruct (vset vals k v); cbn [bind]; try reflexivity. apply IH.
Qed.
Lemma sat_clear buf sysobs vals : sat_epoch_collect_e buf sysobs vals false = keep (sat_epoch_collect buf sysobs vals) false.
Proof.
  unfold sat_epoch_collect_e, sat_epoch_collect, keep. destruct (memset (uninit 17) 0 NUL 17) as [tb0| | | |] eqn:E0; cbn [bind]; try reflexivity.
  destruct (memcpy tb0 0 buf 1 2) as [tb| | | |] eqn:E1; cbn [bind]; try reflexivity. destruct (cstr tb 0) as [s| | | |] eqn:Es; cbn [bind]; try reflexivity.
  assert (L : length s <= 2).
  { apply (cstr0_firstn_nul tb 2); [|exact Es]. cbv in E0. injection E0 as <-. unfold memcpy in E1. destruct (1 + 2 <=? length buf)%nat eqn:Eb; [|discriminate].
    apply Nat.leb_le in Eb. destruct buf as [|b0 [|b1 [|b2 buf]]]; cbn in Eb; try lia. cbv in E1. injection E1 as <-. reflexivity. }
  pose proof (strtol_two_range s L) as R. destruct (strtol s) as ((v, n), er). cbn [snd] in R. subst er. cbn [orb].
  destruct ((n =? 0)%nat || _); cbn [bind]; [reflexivity|]. destruct (strlen buf 0) as [len| | | |]; cbn [bind]; try reflexivity.
  rewrite obs_clear. unfold keep. destruct (collect_obs buf len sysobs raw_new tb 0 0 vals) as [(c, vs)| | | |]; reflexivity.
Qed.
Lemma loop_clear mmap bufsz : forall k st buf out pos, collect_loop_e k mmap st buf bufsz out pos false = keep (collect_loop k mmap st buf bufsz out pos) false.
Proof.
  induction k as [|k IH]; intros st buf out pos; cbn [collect_loop collect_loop_e]; [reflexivity|]. destruct (getline st buf bufsz) as [(st1, buf1)| | | |]; cbn [bind keep]; try reflexivity.
  unfold keep in *. destruct (rd buf1 0) as [c0| | | |]; cbn [bind]; try reflexivity. destruct (char_to_satsys c0) as [s| | | |]; cbn [bind]; try reflexivity.
  destruct (mmap s) as [sysobs|]; [|apply IH]. destruct (nth_error out pos) as [(sat, vals)|]; [|reflexivity].
  rewrite sat_clear. unfold keep. destruct (sat_epoch_collect buf1 sysobs vals) as [((code, prn), vs)| | | |]; cbn [bind]; try reflexivity.
  destruct (code >? 0)%Z; [reflexivity|apply IH].
Qed.
Lemma epoch_clear o mmap out : read_next_epoch_e o mmap out false = keep (read_next_epoch o mmap out) false.
Proof.
  unfold read_next_epoch_e, read_next_epoch, keep. destruct (peek (o_stream o)) as (st0, [ch|]).
  2:{ destruct (seof st0); reflexivity. }
  destruct (getline st0 (o_buf o) (o_bufsz o)) as [(st1, buf1)| | | |]; cbn [bind]; try reflexivity.
  rewrite resolve_epoch_clear. unfold keep. destruct (resolve_epoch buf1) as [(j, [h|])| | | |]; cbn [bind]; try reflexivity.
  unfold collect_epoch. rewrite loop_clear. unfold keep. destruct (collect_loop _ _ _ _ _ _ _) as [((((j2, n), out'), st2), buf2)| | | |]; cbn [bind]; try reflexivity.
  destruct (negb (j2 =? 0)%Z); [reflexivity|]. destruct (seof st2); reflexivity.
Qed.
(** opening *)
Lemma first_read d st line s : getline (open_stream d) (uninit 85) 85 = Val (st, line) -> cstr line 0 = Val s -> s = first_text d.
Proof.
  unfold getline. change (good (open_stream d)) with true. cbv iota. change (rest (open_stream d)) with d. change (85 - 1)%nat with 84%nat.
  intros H C. unfold first_text. destruct (take_line 84 d) as (t, e). cbn [fst]. apply bind_inv in H as (b & Eb & H).
  assert (b = line) by congruence. subst b. clear H. unfold wr_bytes in Eb. destruct (_ <=? _)%nat; [|discriminate]. apply Val_inj in Eb. subst line.
  unfold cstr in C. cbn [skipn firstn app] in C. rewrite <- app_assoc in C. cbn [app] in C. set (X := skipn _ (uninit 85)) in C. clearbody X. clear - C. revert s C. induction t as [|c t IH]; intros s C; cbn [map app cut_nul] in *.
  - cbn in C. congruence.
  - cbn [cstr0] in C. unfold ceqb in C. destruct (Ascii.eqb c NUL); [congruence|]. apply bind_inv in C as (s' & C & H). injection H as <-. f_equal. apply IH, C.
Qed.
Lemma open_clear strp d : version_fits d ->
  match obs_open strp d with
  | Val o => obs_open_e strp d false = Val (Some o, false)
  | Exn => exists e, obs_open_e strp d false = Val (None, e)
  | Term => obs_open_e strp d false = Term
  | UB => obs_open_e strp d false = UB
  | Fuel => obs_open_e strp d false = Fuel
  end.
Proof.
  intro V. unfold obs_open, obs_open_e. destruct hdr_init as [h0| | | |] eqn:E0; [|discriminate E0..]. cbn [bind]. clear E0.
  unfold read_header, read_header_e. change (seekg (open_stream d) (Some 0)) with (open_stream d). change MAX_HEADER_CHARS with 85%nat.
  destruct (getline (open_stream d) (uninit 85) 85) as [(st2, line)| | | |] eqn:E; cbn [bind noexcept]; try reflexivity; try (eexists; reflexivity).
  destruct (cstr line 0) as [s| | | |] eqn:Es; cbn [bind noexcept]; try reflexivity.
  rewrite (first_read _ _ _ _ E Es) in *. unfold version_fits, strtof_range in V.
  destruct (strtof (first_text d)) as ((v, n), er). cbn [snd] in V. subst er. cbn [orb]. destruct (n =? 0)%nat; cbn [bind noexcept]; [eexists; reflexivity|].
  destruct (rd line 20) as [c20| | | |]; cbn [bind noexcept]; try reflexivity. destruct (negb _); cbn [bind noexcept]; [eexists; reflexivity|].
  destruct (rd line 40) as [c40| | | |]; cbn [bind noexcept]; try reflexivity. destruct (char_to_satsys c40) as [sys| | | |]; cbn [bind noexcept]; try reflexivity; [|eexists; reflexivity].
  destruct (getline st2 line 85) as [(st3, line2)| | | |]; cbn [bind noexcept]; try reflexivity.
  match goal with |- context [hdr_loop strp ?k ?h ?s ?l] => pose proof (hdr_loop_clear strp k h s l) as A; destruct (hdr_loop strp k h s l) as [((code, h2), st4)| | | |] end; cbn [hdr_agrees] in A;
    [|rewrite A; cbn [bind noexcept]; reflexivity..].
  destruct A as (e & -> & A). cbn [bind noexcept]. destruct (Z.eqb_spec code 0) as [->|N]; cbn [negb bind noexcept].
  - destruct e; [destruct (A eq_refl); discriminate|]. destruct (tellg st4) as (st5, p). reflexivity.
  - apply Z.eqb_neq in N. rewrite N. cbn [negb]. eexists. reflexivity.
Qed.
(** errno set *)
Lemma char2double_set M : forall N m off ok vs e1, char2double m off N M false = Val (ok, vs, e1) -> exists vs', char2double m off N M true = Val (false, vs', true).
Proof.
  assert (G : forall N m off e r, char2double m off N M e = Val r -> exists vs', char2double m off N M true = Val (false, vs', true)).
  { induction N as [|N IH]; intros m off e r H; cbn [char2double] in *; [eexists; reflexivity|].
    apply bind_inv in H as (s & Es & H). rewrite Es. cbn [bind]. destruct (strtod s) as ((v, n), er). cbn [orb].
    destruct (n =? 0)%nat; [eexists; reflexivity|]. apply bind_inv in H as (((ok1, vs1), e2) & Er & H). destruct (IH _ _ _ _ Er) as (vs' & E).
    rewrite E. cbn [bind]. eexists. reflexivity. }
  intros N m off ok vs e1 H. eapply G. exact H.
Qed.
Lemma obstypes_set t st c t' st' : resolve_obstypes t st c = Val (0%Z, t', st') -> resolve_obstypes_e t st c true = Val (2%Z, t, st, false).
Proof.
  unfold resolve_obstypes, resolve_obstypes_e. intro H. destruct (memcpy _ _ _ _ _) as [line| | | |]; cbn [bind noexcept] in *; try discriminate.
  destruct (rd line 0) as [c0| | | |]; cbn [bind noexcept] in *; try discriminate. destruct (char_to_satsys c0) as [sys| | | |]; cbn [bind noexcept] in *; try discriminate.
  destruct (t sys); [discriminate|]. destruct (cstr line 3) as [s| | | |]; cbn [bind noexcept] in *; try discriminate. destruct (strtol s) as ((v, n), er). reflexivity.
Qed.
(** a line that is accepted when errno is clear: without numbers it is read in the same way, otherwise it is an error *)
Lemma hdr_line_set strp h st line h' st' : hdr_line strp h st line = Val (0%Z, h', st') ->
  (hdr_line_e strp h st line true = Val (0%Z, h', st', true) /\ h_tbl h' = h_tbl h) \/
  (exists code h2 st2 e2, hdr_line_e strp h st line true = Val (code, h2, st2, e2) /\ code <> 0%Z).
Proof.
  intro H. assert (P : (do r <- hdr_line strp h st line; Val (r, true)) = Val (0%Z, h', st', true)) by (rewrite H; reflexivity). revert P. unfold hdr_line_e.
  set (plain := do r <- hdr_line strp h st line; Val (r, true)). clearbody plain. intros ->. unfold hdr_line in H.
  destruct (strncmp_lit line 60 "MARKER NAME" 11) as [[]| | | |]; cbn [bind] in *; try discriminate.
  { left. split; [reflexivity|]. apply bind_inv in H as (r & _ & H). injection H as <- _. reflexivity. }
  destruct (strncmp_lit line 60 "MARKER NUMBER" 13) as [[]| | | |]; cbn [bind] in *; try discriminate.
  { left. split; [reflexivity|]. apply bind_inv in H as (r & _ & H). injection H as <- _. reflexivity. }
  destruct (strncmp_lit line 60 "REC # / TYPE / VERS" 19) as [[]| | | |]; cbn [bind] in *; try discriminate.
  { left. split; [reflexivity|]. apply bind_inv in H as (r & _ & H). apply bind_inv in H as (q & _ & H). injection H as <- _. reflexivity. }
  destruct (strncmp_lit line 60 "ANT # / TYPE" 12) as [[]| | | |]; cbn [bind] in *; try discriminate.
  { left. split; [reflexivity|]. apply bind_inv in H as (q & _ & H). apply bind_inv in H as (ant & _ & H). apply bind_inv in H as (e & _ & H). apply bind_inv in H as (ant' & _ & H).
    injection H as <- _. reflexivity. }
  destruct (strncmp_lit line 60 "APPROX POSITION XYZ" 19) as [[]| | | |]; cbn [bind] in *; try discriminate.
  { right. apply bind_inv in H as (((ok, vs), e1) & E & H). destruct (char2double_set _ _ _ _ _ _ _ E) as (vs' & E'). rewrite E'. cbn [bind negb].
    do 4 eexists. split; [reflexivity|discriminate]. }
  destruct (strncmp_lit line 60 "ANTENNA: DELTA H/E/N" 20) as [[]| | | |]; cbn [bind] in *; try discriminate.
  { right. apply bind_inv in H as (((ok, vs), e1) & E & H). destruct (char2double_set _ _ _ _ _ _ _ E) as (vs' & E'). rewrite E'. cbn [bind negb].
    do 4 eexists. split; [reflexivity|discriminate]. }
  destruct (strncmp_lit line 60 "SYS / # / OBS TYPES" 19) as [[]| | | |]; cbn [bind] in *; try discriminate.
  { right. apply bind_inv in H as (((code, t), st1) & E & H). assert (code = 0%Z) by congruence. subst code. rewrite (obstypes_set _ _ _ _ _ E). cbn [bind].
    do 4 eexists. split; [reflexivity|discriminate]. }
  destruct (strncmp_lit line 60 "RCV CLOCK OFFS APPL" 19) as [[]| | | |]; cbn [bind] in *; try discriminate.
  { right. apply bind_inv in H as (s & E & H). rewrite E. cbn [bind]. destruct (strtol s) as ((v, n), er). cbn [orb].
    do 4 eexists. split; [reflexivity|discriminate]. }
  left. split; [reflexivity|]. destruct (strncmp_lit line 60 "TIME OF FIRST OBS" 17) as [[]| | | |]; cbn [bind] in *; try discriminate.
  - apply bind_inv in H as (s & _ & H). destruct (strp s); [|discriminate]. injection H as <- _. reflexivity.
  - injection H as <- _. reflexivity.
Qed.
Lemma hdr_loop_set strp : forall k h st line h' st', hdr_loop strp k h st line = Val (0%Z, h', st') ->
  (hdr_loop_e strp k h st line true = Val (0%Z, h', st', true) /\ h_tbl h' = h_tbl h) \/
  (exists code h2 st2 e2, hdr_loop_e strp k h st line true = Val (code, h2, st2, e2) /\ code <> 0%Z).
Proof.
  induction k as [|k IH]; intros h st line h' st' H; cbn [hdr_loop hdr_loop_e] in *; [discriminate|].
  destruct (strncmp_lit line 60 "END OF HEADER" 13) as [[]| | | |]; cbn [bind] in *; try discriminate.
  { left. injection H as <- <-. split; reflexivity. }
  destruct (getline st line MAX_HEADER_CHARS) as [(st1, line1)| | | |]; cbn [bind] in *; try discriminate.
  apply bind_inv in H as (((code, h1), st2) & E & H). destruct (Z.eqb_spec code 0) as [->|N]; cbn [negb] in H; [|congruence].
  destruct (hdr_line_set _ _ _ _ _ _ E) as [(Q & T)|(c2 & h2 & s2 & e2 & Q & N2)].
  - rewrite Q. cbn [bind negb Z.eqb]. destruct (IH _ _ _ _ _ H) as [(Q' & T')|X]; [left; split; [exact Q'|congruence]|right; exact X].
  - right. rewrite Q. cbn [bind]. apply Z.eqb_neq in N2 as N3. rewrite N3. cbn [negb]. eauto 8.
Qed.
Lemma open_set strp d o s : obs_open strp d = Val o -> h_tbl (o_hdr o) s <> None -> exists e, obs_open_e strp d true = Val (None, e).
Proof.
  unfold obs_open, obs_open_e. destruct hdr_init_val as (a & Ea & ->). cbn [bind]. set (h0 := mkHdr _ _ _ _ _ _ _ _ _ _ _ _). intros H T.
  apply bind_inv in H as ((((code, h), p), st) & E & H). destruct (Z.eqb_spec code 0) as [->|N]; cbn [negb] in H; [|discriminate].
  apply Val_inj in H. subst o. cbn [o_hdr] in T. unfold read_header in E. unfold read_header_e.
  destruct (getline (seekg (open_stream d) (Some 0)) _ _) as [(st2, line)| | | |]; cbn [bind noexcept] in *; try discriminate.
  destruct (cstr line 0) as [t| | | |]; cbn [bind noexcept] in *; try discriminate. destruct (strtof t) as ((v, n), er). cbn [orb].
  destruct (n =? 0)%nat; [discriminate|]. destruct (rd line 20) as [c20| | | |]; cbn [bind noexcept] in *; try discriminate. destruct (negb _); [discriminate|].
  destruct (rd line 40) as [c40| | | |]; cbn [bind noexcept] in *; try discriminate. destruct (char_to_satsys c40) as [sys| | | |]; cbn [bind noexcept] in *; try discriminate.
  destruct (getline st2 line MAX_HEADER_CHARS) as [(st3, line2)| | | |]; cbn [bind noexcept] in *; try discriminate.
  match type of E with context [hdr_loop strp ?k ?h ?s ?l] => destruct (hdr_loop strp k h s l) as [((code, h2), st4)| | | |] eqn:L end; cbn [bind noexcept] in E; try discriminate.
  destruct (Z.eqb_spec code 0) as [->|N]; cbn [negb] in E; [|cbn [noexcept] in E; congruence].
  destruct (hdr_loop_set _ _ _ _ _ _ _ L) as [(Q & T')|(c & h3 & s3 & e3 & Q & N)].
  - exfalso. apply T. destruct (tellg st4) as (st5, p'). cbn [noexcept] in E. assert (h = h2) by congruence. subst h. rewrite T'. unfold h0. reflexivity.
  - rewrite Q. cbn [bind noexcept]. apply Z.eqb_neq in N as N'. rewrite N'. cbn [negb noexcept bind]. rewrite N'. cbn [negb]. eexists. reflexivity.
Qed.
(** a conforming header whose first numbers are coordinates, errno set: refused, and errno stays set *)
Lemma hdr_line_free strp h st line : strncmp_lit line 60 "APPROX POSITION XYZ" 19 = Val false ->
  strncmp_lit line 60 "ANTENNA: DELTA H/E/N" 20 = Val false -> strncmp_lit line 60 "SYS / # / OBS TYPES" 19 = Val false ->
  strncmp_lit line 60 "RCV CLOCK OFFS APPL" 19 = Val false ->
  forall r, hdr_line strp h st line = Val r -> forall e, hdr_line_e strp h st line e = Val (r, e).
Proof.
  intros A B C D r H e. unfold hdr_line_e. rewrite A, B, C, D. cbn [bind]. assert (P : (do r0 <- hdr_line strp h st line; Val (r0, e)) = Val (r, e)) by (rewrite H; reflexivity).
  rewrite P. clear P. unfold hdr_line in H. 
  destruct (strncmp_lit line 60 "MARKER NAME" 11) as [[]| | | |]; cbn [bind] in *; try discriminate; [reflexivity|].
  destruct (strncmp_lit line 60 "MARKER NUMBER" 13) as [[]| | | |]; cbn [bind] in *; try discriminate; [reflexivity|].
  destruct (strncmp_lit line 60 "REC # / TYPE / VERS" 19) as [[]| | | |]; cbn [bind] in *; try discriminate; [reflexivity|].
  destruct (strncmp_lit line 60 "ANT # / TYPE" 12) as [[]| | | |]; cbn [bind] in *; try discriminate; reflexivity.
Qed.
Lemma free_labels strp i h h' lab : item_means strp i h h' -> number_free i -> In lab ["APPROX POSITION XYZ"; "ANTENNA: DELTA H/E/N"; "SYS / # / OBS TYPES"; "RCV CLOCK OFFS APPL"]%string ->
  labelled lab (item_line i) = false.
Proof.
  intros M F L. destruct M; cbn [number_free item_line] in *; try contradiction.
  10:{ apply H1. cbn in L |- *. tauto. }
  all: try (match goal with H : content_ok _ _ |- _ => destruct H as (_ & Hl & _); rewrite labelled_hl by exact Hl end).
  all: try (cbn in L; destruct L as [<-|[<-|[<-|[<-|[]]]]]; reflexivity).
  all: exfalso; cbn in F; intuition discriminate.
Qed.
Lemma coords_set strp c j h st buf lab : clean c -> length c <= 60 -> j <= 4 -> lab = "APPROX POSITION XYZ"%string \/ lab = "ANTENNA: DELTA H/E/N"%string ->
  (exists h', hdr_line strp h st (overlay (header_line c (lit lab) j) buf) = Val (0%Z, h', st)) ->
  exists code, hdr_line_e strp h st (overlay (header_line c (lit lab) j) buf) true = Val (code, h, st, true) /\ (code <> 0)%Z.
Proof.
  intros Hc Hl Hj [->| ->] (h' & E).
  - assert (C : clean (header_line c (lit "APPROX POSITION XYZ") j)) by (apply hl_clean; [exact Hc|apply lit_clean; reflexivity]).
    assert (L : 60 <= length (header_line c (lit "APPROX POSITION XYZ") j)) by (rewrite hl_length by exact Hl; lia).
    revert E. unfold hdr_line, hdr_line_e. labs C L Hl. intro E. apply bind_inv in E as (((ok, vs), e1) & E & _). destruct (char2double_set _ _ _ _ _ _ _ E) as (vs' & E').
    rewrite E'. cbn [bind negb]. eexists. split; [reflexivity|discriminate].
  - assert (C : clean (header_line c (lit "ANTENNA: DELTA H/E/N") j)) by (apply hl_clean; [exact Hc|apply lit_clean; reflexivity]).
    assert (L : 60 <= length (header_line c (lit "ANTENNA: DELTA H/E/N") j)) by (rewrite hl_length by exact Hl; lia).
    revert E. unfold hdr_line, hdr_line_e. labs C L Hl. intro E. apply bind_inv in E as (((ok, vs), e1) & E & _). destruct (char2double_set _ _ _ _ _ _ _ E) as (vs' & E').
    rewrite E'. cbn [bind negb]. eexists. split; [reflexivity|discriminate].
Qed.
Lemma three_clean x y z : coord_ok x -> coord_ok y -> coord_ok z -> clean (three x y z) /\ length (three x y z) <= 60.
Proof.
  intros (A & A') (B & B') (C & C'). unfold three. split.
  - apply clean_app. split; [apply rjust_clean, num_text_clean; exact A|]. apply clean_app. split; apply rjust_clean, num_text_clean; assumption.
  - rewrite !app_length, !length_rjust by lia. lia.
Qed.
Lemma loop_set strp x y z j lab post : coord_ok x -> coord_ok y -> coord_ok z -> j <= 4 -> lab = "APPROX POSITION XYZ"%string \/ lab = "ANTENNA: DELTA H/E/N"%string ->
  forall pre k h h1 h2 st line tail, items_mean strp pre h h1 -> item_means strp (ILine (three x y z) lab j) h1 h2 -> Forall number_free pre ->
  at_rest st (items_text (pre ++ ILine (three x y z) lab j :: post) ++ tail) -> length pre + 1 <= k ->
  (exists l buf, line = overlay l buf /\ length buf = 85 /\ clean l /\ 60 <= length l < 85 /\ labelled "END OF HEADER" l = false) ->
  exists code h' st', hdr_loop_e strp k h st line true = Val (code, h', st', true) /\ code <> 0%Z.
Proof.
  intros Hx Hy Hz Hj Hlab. destruct (three_clean x y z Hx Hy Hz) as (Ct & Lt).
  induction pre as [|i pre IH]; intros k h h1 h2 st line tail Hm Hi Hf Hst Hk (l & buf & -> & Lb & Cl & Ll & NE); (destruct k as [|k]; [cbn in Hk; lia|]); cbn [hdr_loop_e];
    rewrite labelled_overlay by (first [reflexivity | exact (clean_nul _ Cl) | lia | (apply clean_nul; apply lit_clean; reflexivity)]); rewrite NE; cbn [bind];
    assert (OL : length (overlay l buf) = 85) by (rewrite overlay_length; lia).
  - inversion Hm; subst. set (it := ILine (three x y z) lab j) in *. cbn [app items_text flat_map] in Hst.
    assert (R0 : at_rest st (item_line it ++ NL :: item_more it ++ items_text post ++ tail)).
    { destruct Hst as [G R]. split; [exact G|]. rewrite R. unfold items_text. rewrite <- !app_assoc. reflexivity. }
    assert (F : clean (item_line it) /\ length (item_line it) < 85).
    { assert (Q : at_rest (open_stream (item_more it)) (item_more it ++ [])) by (split; [reflexivity|rewrite app_nil_r; reflexivity]).
      destruct (item_step strp it h1 h2 _ (overlay l buf) [] Hi OL Q) as (A & B & _). auto. }
    destruct F as (Ci & Li).
    destruct (getline_line st (overlay l buf) 85 (item_line it) _ R0 (clean_nl _ Ci) Li ltac:(lia)) as (st1 & G & R1 & _).
    change MAX_HEADER_CHARS with 85%nat. rewrite G. cbn [bind].
    destruct (item_step strp it h1 h2 st1 (overlay l buf) _ Hi OL R1) as (_ & _ & _ & _ & st2 & E & R2).
    unfold it in E. cbn [item_line] in E. 
    assert (Est : st2 = st1).
    { destruct Hlab as [->| ->]; cbn [it item_line] in *; revert E; unfold hdr_line.
      - assert (L : 60 <= length (header_line (three x y z) (lit "APPROX POSITION XYZ") j)) by (rewrite hl_length by exact Lt; lia).
        labs Ci L Lt. intro E. apply bind_inv in E as (((ok, vs), e1) & E & H). destruct (negb ok); congruence.
      - assert (L : 60 <= length (header_line (three x y z) (lit "ANTENNA: DELTA H/E/N") j)) by (rewrite hl_length by exact Lt; lia).
        labs Ci L Lt. intro E. apply bind_inv in E as (((ok, vs), e1) & E & H). destruct (negb ok); congruence. }
    subst st2. destruct (coords_set strp (three x y z) j h1 st1 (overlay l buf) lab Ct Lt Hj Hlab (ex_intro _ h2 E)) as (code & Q & N).
    unfold it. cbn [item_line]. rewrite Q. cbn [bind]. apply Z.eqb_neq in N as N'. rewrite N'. cbn [negb]. eauto.
  - inversion Hm as [|? ? ? h3 ? Hi1 Hr]; subst. inversion Hf as [|? ? F1 F2]; subst.
    assert (R0 : at_rest st (item_line i ++ NL :: item_more i ++ items_text (pre ++ ILine (three x y z) lab j :: post) ++ tail)).
    { destruct Hst as [G R]. split; [exact G|]. rewrite R. unfold items_text. cbn [flat_map app]. rewrite <- !app_assoc. reflexivity. }
    assert (F : clean (item_line i) /\ length (item_line i) < 85 /\ labelled "END OF HEADER" (item_line i) = false /\ 60 <= length (item_line i)).
    { assert (Q : at_rest (open_stream (item_more i)) (item_more i ++ [])) by (split; [reflexivity|rewrite app_nil_r; reflexivity]).
      destruct (item_step strp i h h3 _ (overlay l buf) [] Hi1 OL Q) as (A & B & C & D & _). auto. }
    destruct F as (Ci & Li & NEi & Li2).
    destruct (getline_line st (overlay l buf) 85 (item_line i) _ R0 (clean_nl _ Ci) Li ltac:(lia)) as (st1 & G & R1 & _).
    change MAX_HEADER_CHARS with 85%nat. rewrite G. cbn [bind].
    destruct (item_step strp i h h3 st1 (overlay l buf) _ Hi1 OL R1) as (_ & _ & _ & _ & st2 & E & R2).
    assert (LB : forall s n, n = String.length s -> ~ In NUL (lit s) -> In s ["APPROX POSITION XYZ"; "ANTENNA: DELTA H/E/N"; "SYS / # / OBS TYPES"; "RCV CLOCK OFFS APPL"]%string ->
              strncmp_lit (overlay (item_line i) (overlay l buf)) 60 s n = Val false).
    { intros s n En NN I. rewrite labelled_overlay; [rewrite (free_labels strp i h h3 s Hi1 F1 I); reflexivity|exact En|exact NN|exact (clean_nul _ Ci)|exact Li2]. }
    assert (Q : hdr_line_e strp h st1 (overlay (item_line i) (overlay l buf)) true = Val (0%Z, h3, st2, true)).
    { apply (hdr_line_free strp h st1 _) with (r := (0%Z, h3, st2)); [| | | |exact E]; (apply LB; [reflexivity|apply clean_nul; apply lit_clean; reflexivity|cbn; tauto]). }
    rewrite Q. cbn [bind negb Z.eqb].
    apply (IH k h3 h1 h2 st2 _ tail Hr Hi F2 R2); [cbn in Hk; lia|].
    exists (item_line i), (overlay l buf). repeat split; auto.
Qed.
Lemma header_set strp v mid letter sys post second pre x y z lab j items je tail h0 h1 h2 :
  first_line_ok v mid letter sys post -> clean second -> 60 <= length second <= 84 -> labelled "END OF HEADER" second = false ->
  length pre <= 990 -> initial_header h0 (num_flt v) sys -> items_mean strp pre h0 h1 -> item_means strp (ILine (three x y z) lab j) h1 h2 ->
  coord_ok x -> coord_ok y -> coord_ok z -> j <= 4 -> lab = "APPROX POSITION XYZ"%string \/ lab = "ANTENNA: DELTA H/E/N"%string -> Forall number_free pre ->
  obs_open_e strp (header_text v mid letter post second (pre ++ ILine (three x y z) lab j :: items) je ++ tail) true = Val (None, true).
Proof.
  intros Hfl Csec Lsec NEsec Lp Hinit Hm Hi Hx Hy Hz Hj Hlab Hfree. pose proof Hfl as (Hv & Hne & Hv9 & Hmid & Lmid & Hlet & Hpost & Lpost).
  unfold obs_open_e. destruct hdr_init_val as (a & Ea & ->). cbn [bind]. set (line1 := first_line v mid letter post).
  assert (Elen : length line1 = 41 + length post).
  { unfold line1, first_line. rewrite !app_length, length_rjust by exact Hv9. unfold blanks. rewrite repeat_length.
    cbn [length]. rewrite app_length. cbn [length]. lia. }
  assert (C1 : clean line1).
  { unfold line1, first_line. apply clean_app. split; [apply rjust_clean, num_text_clean; exact Hv|].
    apply clean_app. split; [apply clean_blanks|]. constructor; [split; discriminate|].
    apply clean_app. split; [exact Hmid|]. constructor; [eapply letters_clean; eauto|exact Hpost]. }
  set (is := pre ++ ILine (three x y z) lab j :: items). set (d := header_text v mid letter post second is je ++ tail).
  assert (ED : d = line1 ++ NL :: second ++ NL :: items_text is ++ end_line je ++ NL :: tail).
  { unfold d, header_text. fold line1. rewrite <- !app_assoc. cbn [app]. rewrite <- !app_assoc. cbn [app].
    rewrite <- !app_assoc. reflexivity. }
  assert (A0 : at_rest (seekg (open_stream d) (Some 0)) (line1 ++ NL :: second ++ NL :: items_text is ++ end_line je ++ NL :: tail)).
  { split; [reflexivity|]. rewrite <- ED. reflexivity. }
  unfold read_header_e. change MAX_HEADER_CHARS with 85%nat.
  destruct (getline_line _ (uninit 85) 85 line1 _ A0 (clean_nl _ C1) ltac:(lia) (le_n _)) as (st1 & G1 & R1 & _).
  rewrite G1. cbn [bind]. rewrite cstr_overlay by exact (clean_nul _ C1). cbn [bind orb].
  assert (SV : strtof line1 = (DFin (num_flt v), 9, false)).
  { unfold line1, first_line, rjust. rewrite <- app_assoc. rewrite strtof_text; [|exact Hv|assumption|exact Hv9|apply num_stop_blank].
    f_equal. f_equal. lia. }
  rewrite SV. change (9 =? 0)%nat with false. cbv iota.
  assert (P20 : nth_error line1 20 = Some "O"%char).
  { unfold line1, first_line. rewrite app_assoc. rewrite nth_error_app2; rewrite app_length, length_rjust by exact Hv9;
      [reflexivity|cbn; lia]. }
  rewrite (rd_overlay _ _ _ _ P20). cbn [bind]. change (negb (ceqb "O"%char "O"%char)) with false. cbv iota.
  assert (P40 : nth_error line1 40 = Some letter).
  { unfold line1, first_line.
    replace (rjust 9 (num_text v) ++ blanks 11 ++ "O"%char :: mid ++ letter :: post)
      with ((rjust 9 (num_text v) ++ blanks 11 ++ "O"%char :: mid) ++ letter :: post)
      by (rewrite <- !app_assoc; reflexivity).
    assert (L40 : length (rjust 9 (num_text v) ++ blanks 11 ++ "O"%char :: mid) = 40).
    { rewrite !app_length, length_rjust by exact Hv9. cbn. lia. }
    rewrite nth_error_app2 by lia. rewrite L40. reflexivity. }
  rewrite (rd_overlay _ _ _ _ P40). cbn [bind].
  apply char_to_satsys_spec in Hlet. rewrite Hlet.
  assert (OL : length (overlay line1 (uninit 85)) = 85) by (rewrite overlay_length; [reflexivity|change (length (uninit 85)) with 85; lia]).
  destruct (getline_line st1 (overlay line1 (uninit 85)) 85 second _ R1 (clean_nl _ Csec) ltac:(lia) ltac:(lia))
    as (st2 & G2 & R2 & _).
  rewrite G2. cbn [bind].
  match goal with |- context [hdr_loop_e strp MAX_HEADER_LINES ?H st2 _] => set (hx := H) end.
  assert (EH : hx = h0).
  { destruct Hinit as (I1 & I2 & I3 & I4 & I5 & I6 & I7 & I8 & I9 & I10 & I11 & I12).
    rewrite Ea in I7. apply Val_inj in I7.
    unfold hx. destruct h0. cbn in *. subst. reflexivity. }
  rewrite EH. clear hx EH.
  assert (K : length pre + 1 <= MAX_HEADER_LINES) by (change MAX_HEADER_LINES with 1000%nat; lia).
  destruct (loop_set strp x y z j lab items Hx Hy Hz Hj Hlab pre MAX_HEADER_LINES h0 h1 h2 st2 (overlay second (overlay line1 (uninit 85))) _ Hm Hi Hfree R2 K) as (code & h' & st' & Q & N).
  { exists second, (overlay line1 (uninit 85)). repeat split; auto; lia. }
  rewrite Q. cbn [bind]. apply Z.eqb_neq in N as N'. rewrite N'. cbn [negb noexcept bind]. rewrite N'. reflexivity.
Qed.

(** the version number of a conforming first line is a float *)
Lemma dec_val_bound : forall s, digits s -> (0 <= dec_val s < 10 ^ Z.of_nat (length s))%Z.
Proof.
  assert (G : forall s a, digits s -> (0 <= a -> a * 10 ^ Z.of_nat (length s) <= fold_left (fun a c => a * 10 + (Z.of_nat (nat_of_ascii c) - 48)) s a < (a + 1) * 10 ^ Z.of_nat (length s))%Z).
  { induction s as [|c s IH]; intros a D A; cbn [fold_left length].
    - rewrite Z.pow_0_r. lia.
    - inversion D as [|? ? Dc Ds]; subst. unfold digit in Dc. specialize (IH (a * 10 + (Z.of_nat (nat_of_ascii c) - 48))%Z Ds ltac:(lia)).
      rewrite Nat2Z.inj_succ, Z.pow_succ_r by lia. set (P := (10 ^ Z.of_nat (length s))%Z) in *. assert (0 < P)%Z by (apply Z.pow_pos_nonneg; lia). nia. }
  intros s D. specialize (G s 0%Z D ltac:(lia)). unfold dec_val. lia.
Qed.
Lemma first_line_fits v mid letter sys post r : first_line_ok v mid letter sys post -> version_fits (first_line v mid letter post ++ NL :: r).
Proof.
  intros (Hv & Ne & Hv9 & Hmid & Lmid & Hlet & Hpost & Lpost). set (line1 := first_line v mid letter post).
  assert (Elen : length line1 = 41 + length post).
  { unfold line1, first_line. rewrite !app_length, length_rjust by exact Hv9. unfold blanks. rewrite repeat_length.
    cbn [length]. rewrite app_length. cbn [length]. lia. }
  assert (C1 : clean line1).
  { unfold line1, first_line. apply clean_app. split; [apply rjust_clean, num_text_clean; exact Hv|].
    apply clean_app. split; [apply clean_blanks|]. constructor; [split; discriminate|].
    apply clean_app. split; [exact Hmid|]. constructor; [eapply letters_clean; eauto|exact Hpost]. }
  assert (SV : strtof line1 = (DFin (num_flt v), 9, false)).
  { unfold line1, first_line, rjust. rewrite <- app_assoc. rewrite strtof_text; [|exact Hv|assumption|exact Hv9|apply num_stop_blank].
    f_equal. f_equal. lia. }
  unfold version_fits, first_text. rewrite take_line_nl by (first [exact (clean_nl _ C1)|lia]). cbn [fst]. rewrite cut_nul_id by exact (clean_nul _ C1).
  unfold strtof_range. rewrite SV. reflexivity.
Qed.
