(** PropertiesBern: C37, C80, C81 (Bernese SATELLIT files) *)
From Verif Require Import Base BaseLemmas CNum CNumLemmas Stream ModelSatsys ModelNvarstr ModelSatellite ModelAntex ModelSp3 ModelBern
  SpecText SpecNum SpecObs SpecHeader SpecAntex SpecBern ProofText ProofAntenna ProofNum ProofStream ProofObsTypes ProofObsRec ProofHeader ProofAntex
  ProofAntexFind ProofAntexSkip ProofAntexHeader ProofBern ProofBernFile ProofNavFind ProofAntexTerm PropertiesAntex.
Open Scope string_scope.
Open Scope list_scope.

(** ** Sample file *)
Definition satl0 : satellit := mkSatl (lit (TITLE ++ "             05-JAN-18")%string) [lit "PART 1: PHYSICAL"; []] (lit PART2) (lit "------------------------")
  (lit COLS1) (lit COLS2) [].
Definition sens (prn svn start stop : string) (neg : bool) (ch : string) : sensor :=
  mkSensor (lit prn) (ljust 21 (lit "    GLONASS")) (lit svn) (ljust 10 (lit "  1")) (ljust 21 (lit start)) (ljust 20 (lit stop)) (blanks 111) neg (lit ch) (lit "  L1C L2C").
Definition s1 := sens "101" "701" "2003 12 10 00 00 00" "2009 09 12 23 59 59" false "1".
Definition s2 := sens "106" "701" "2009 09 13 00 00 00" "" true "6".
Definition slr : list ascii := lit "101  SLR   some laser retro-reflector".
Definition items0 : list item := [inl s1; inr slr; inl s2].
Definition yr (l : list ascii) : option Z := int_field (firstn 4 l).
Lemma satl0_ok : satl_ok satl0.
Proof.
  assert (SL : forall l, cleanb l = true -> (length l <=? 255)%nat = true -> sat_line l) by (intros l A B; split; [apply cleanb_ok; exact A|apply Nat.leb_le; exact B]).
  split; [apply SL; vm_compute; reflexivity|]. split; [vm_compute; reflexivity|].
  split; [repeat (constructor; [split; [apply SL; vm_compute; reflexivity|intro X; apply beginsb_iff in X; vm_compute in X; discriminate]|]); constructor|].
  split; [vm_compute; lia|]. split; [apply SL; vm_compute; reflexivity|]. split; [vm_compute; reflexivity|]. split; [apply SL; vm_compute; reflexivity|].
  split; [apply SL; vm_compute; reflexivity|]. split; [vm_compute; reflexivity|]. split; [apply SL; vm_compute; reflexivity|]. split; [vm_compute; reflexivity|apply SL; vm_compute; reflexivity].
Qed.
Lemma sens_ok prn svn start stop neg ch : field_ok 3 (lit prn) -> field_ok 3 (lit svn) -> cols 21 (ljust 21 (lit start)) -> cols 20 (ljust 20 (lit stop)) -> digits (lit ch) -> lit ch <> [] ->
  (length (chan_text (sens prn svn start stop neg ch)) <= 4)%nat -> sensor_ok (sens prn svn start stop neg ch).
Proof.
  intros H1 H2 H3 H4 H5 H6 H7. split; [exact H1|]. split; [split; [cl|reflexivity]|]. split; [exact H2|]. split; [split; [cl|reflexivity]|]. split; [cbn; unfold digit; vm_compute; lia|].
  split; [exact H3|]. split; [exact H4|]. split; [split; [cl|reflexivity]|]. split; [exact H5|]. split; [exact H6|]. split; [exact H7|]. split; [cl|]. split; [cbn; lia|cbn; unfold digit; vm_compute; lia].
Qed.
Ltac sensok := apply sens_ok; [split; [digs|split; [discriminate|cbn; lia]]|split; [digs|split; [discriminate|cbn; lia]]|split; [cl|reflexivity]|split; [cl|reflexivity]|digs|discriminate|cbn; lia].
Lemma s1_ok : sensor_ok s1. Proof. sensok. Qed.
Lemma s2_ok : sensor_ok s2. Proof. sensok. Qed.
Lemma slr_ok : other_ok slr.
Proof. split; [cl|]. split; [cbn; lia|]. split; [intros (X & _); discriminate X|intro X; discriminate X]. Qed.
Lemma items0_ok : Forall item_ok items0.
Proof. constructor; [exact s1_ok|]. constructor; [exact slr_ok|]. constructor; [exact s2_ok|constructor]. Qed.
Lemma items0_dates svn : Forall (dates_for yr svn) items0.
Proof.
  assert (E1 : yr (start_text s1) = Some 2003%Z) by (vm_compute; reflexivity). assert (E2 : yr (start_text s2) = Some 2009%Z) by (vm_compute; reflexivity). assert (E3 : yr (stop_text s1) = Some 2009%Z) by (vm_compute; reflexivity).
  constructor; [intros _; split; [congruence|right; congruence]|]. constructor; [exact I|]. constructor; [|constructor]. intros _. split; [congruence|left]. apply blankb_all. reflexivity.
Qed.
Definition tail0 : list ascii := [NL] ++ lit "PART 3: ...".
Lemma tail0_end : exists l t, tail0 = l ++ NL :: t /\ end_line l.
Proof. exists [], (lit "PART 3: ..."). split; [reflexivity|]. split; [constructor|]. cbn. split; [lia|left; lia]. Qed.

(** ** C37 *)
(** the file as a whole: header, records, end of part 2 *)
Definition part2_end (e : list ascii) : Prop := (exists l t, e = l ++ NL :: t /\ end_line l) \/ e = [].
Definition file_of (h : satellit) (items : list item) (e : list ascii) : list ascii := satl_text h ++ text_of (map item_line items) ++ e.
Lemma file_split h items e : file_of h items e = satl_text h ++ text_of (map item_line items) ++ e. Proof. reflexivity. Qed.

Definition C37_full : Prop := forall strp h items e svn t errno code pos st,
  satl_ok h -> Forall item_ok items -> Forall (dates_for strp svn) items -> part2_end e ->
  bern_initialize (open_stream (file_of h items e)) = Val (code, pos, st) ->
  exists r, get_frequency_channel strp st pos svn t errno = Val r /\ reply strp svn t items (b_code r) (b_out r).

Theorem C37_lookup_partial strp h items e svn t code pos st :
  satl_ok h -> items <> [] -> Forall item_ok items -> Forall (dates_for strp svn) items -> part2_end e ->
  bern_initialize (open_stream (file_of h items e)) = Val (code, pos, st) ->
  exists r, get_frequency_channel strp st pos svn t false = Val r /\ reply strp svn t items (b_code r) (b_out r).
Proof.
  intros Hh Ne Fo Fd He E. destruct (init_ok h (text_of (map item_line items) ++ e) Hh) as (st' & E' & H). unfold file_of in E. rewrite E' in E. apply Val_inj in E. injection E as <- <- <-.
  destruct (lookup_answer strp svn t (satl_text h) items e st' Ne Fo Fd He (on_nofail _ _ _ H) (proj1 (proj2 H))) as (r & Er & A & _). exists r. auto.
Qed.
Print Assumptions C37_lookup_partial.

(** the reply is unique, so the statement above determines the result *)
Theorem C37_answer_unique strp svn t items c1 o1 c2 o2 : reply strp svn t items c1 o1 -> reply strp svn t items c2 o2 -> c1 = c2 /\ o1 = o2.
Proof.
  assert (N : forall n, first_hit strp svn t items n -> ~ Forall (fun i => ~ hit strp svn t i) (firstn 1000 items)).
  { intros n (a & b & -> & La & _ & Hn) F. rewrite firstn_app in F. apply Forall_app in F as (_ & F). destruct (1000 - length a)%nat eqn:X; [lia|]. cbn [firstn] in F. inversion F; subst. contradiction. }
  intros [(n1 & H1 & -> & ->)|(H1 & -> & ->)] [(n2 & H2 & -> & ->)|(H2 & -> & ->)]; auto; try (exfalso; eapply N; eassumption).
  split; [reflexivity|]. assert (n1 = n2); [|congruence]. destruct H1 as (a1 & b1 & E1 & _ & F1 & Hn1). destruct H2 as (a2 & b2 & E2 & _ & F2 & Hn2). rewrite E1 in E2. clear E1 N.
  revert a2 E2 F2. induction a1 as [|x a1 IH]; intros [|y a2] E F2; cbn [app] in E.
  - injection E as -> _. reflexivity.
  - injection E as <- _. inversion F2; subst. contradiction.
  - injection E as -> _. inversion F1; subst. contradiction.
  - injection E as -> E. inversion F1; inversion F2; subst. apply (IH ltac:(assumption) a2); assumption.
Qed.
Print Assumptions C37_answer_unique.

Example C37_lookup_partial_example : exists st, bern_initialize (open_stream (file_of satl0 items0 tail0)) = Val (0%Z, Some (length (satl_text satl0)), st) /\
  (exists r, get_frequency_channel yr st (Some (length (satl_text satl0))) 701 2020 false = Val r /\ b_code r = 0%Z /\ b_out r = Some (-6, 106)%Z) /\
  (exists r, get_frequency_channel yr st (Some (length (satl_text satl0))) 701 2005 false = Val r /\ b_code r = 0%Z /\ b_out r = Some (1, 101)%Z) /\
  (exists r, get_frequency_channel yr st (Some (length (satl_text satl0))) 702 2005 false = Val r /\ b_code r = (-1)%Z /\ b_out r = None).
Proof.
  destruct (init_ok satl0 (text_of (map item_line items0) ++ tail0) satl0_ok) as (st & E & H). exists st. split; [exact E|].
  assert (L : forall svn t, exists r, get_frequency_channel yr st (Some (length (satl_text satl0))) svn t false = Val r /\ reply yr svn t items0 (b_code r) (b_out r)).
  { intros svn t. exact (C37_lookup_partial yr satl0 items0 tail0 svn t _ _ _ satl0_ok ltac:(discriminate) items0_ok (items0_dates svn) (or_introl tail0_end) E). }
  assert (E1 : yr (start_text s1) = Some 2003%Z) by (vm_compute; reflexivity). assert (E2 : yr (start_text s2) = Some 2009%Z) by (vm_compute; reflexivity). assert (E3 : yr (stop_text s1) = Some 2009%Z) by (vm_compute; reflexivity).
  assert (V : dec_val (n_svn s1) = 701%Z /\ dec_val (n_svn s2) = 701%Z) by (split; vm_compute; reflexivity). destruct V as (V1 & V2).
  assert (NB : ~ all_blank (n_stop s1)) by (intro X; apply blankb_all in X; vm_compute in X; discriminate).
  split; [|split].
  - destruct (L 701%Z 2020%Z) as (r & Er & A). exists r. split; [exact Er|].
    destruct (C37_answer_unique yr 701 2020 items0 _ _ 0 (Some (-6, 106)%Z) A) as (-> & ->); [|auto]. left. exists s2. split; [|split; vm_compute; reflexivity].
    exists [inl s1; inr slr], []. split; [reflexivity|]. split; [cbn; lia|]. split.
    + constructor; [|constructor; [intros []|constructor]]. intros (_ & _ & [X|(b & X & Y)]); [contradiction|]. rewrite E3 in X. injection X as <-. lia.
    + split; [exact V2|]. split; [exists 2009%Z; split; [exact E2|lia]|left; apply blankb_all; reflexivity].
  - destruct (L 701%Z 2005%Z) as (r & Er & A). exists r. split; [exact Er|].
    destruct (C37_answer_unique yr 701 2005 items0 _ _ 0 (Some (1, 101)%Z) A) as (-> & ->); [|auto]. left. exists s1. split; [|split; vm_compute; reflexivity].
    exists [], [inr slr; inl s2]. split; [reflexivity|]. split; [cbn; lia|]. split; [constructor|]. split; [exact V1|]. split; [exists 2003%Z; split; [exact E1|lia]|right; exists 2009%Z; split; [exact E3|lia]].
  - destruct (L 702%Z 2005%Z) as (r & Er & A). exists r. split; [exact Er|].
    destruct (C37_answer_unique yr 702 2005 items0 _ _ (-1) None A) as (-> & ->); [|auto]. right. split; [|split; reflexivity].
    change (firstn 1000 items0) with items0. constructor; [intros (X & _); rewrite V1 in X; discriminate|]. constructor; [intros []|]. constructor; [intros (X & _); rewrite V2 in X; discriminate|constructor].
Qed.

(** errno left at ERANGE by whatever ran before: the first MW record is reported as unreadable, whatever it says *)
Theorem C37_stale_errno strp h a n b e svn t code pos st :
  satl_ok h -> Forall other_ok a -> sensor_ok n -> (length a < 1000)%nat ->
  bern_initialize (open_stream (file_of h (map inr a ++ inl n :: b) e)) = Val (code, pos, st) ->
  exists st', get_frequency_channel strp st pos svn t true = Val (mkBern 2 None false st').
Proof.
  intros Hh Fa Hn La E. unfold file_of in E. destruct (init_ok h (text_of (map item_line (map inr a ++ inl n :: b)) ++ e) Hh) as (st' & E' & H). rewrite E' in E. apply Val_inj in E. injection E as <- <- <-.
  apply (stale_lookup strp svn t (satl_text h) a n (map item_line b) e st' Fa Hn La (on_nofail _ _ _ H)).
  rewrite (proj1 (proj2 H)), map_app. cbn [map item_line]. rewrite map_map. rewrite (map_ext _ (fun x => x) (fun x => eq_refl)), map_id. reflexivity.
Qed.
Print Assumptions C37_stale_errno.
Example C37_stale_errno_example : exists st st', bern_initialize (open_stream (file_of satl0 items0 tail0)) = Val (0%Z, Some (length (satl_text satl0)), st) /\
  get_frequency_channel yr st (Some (length (satl_text satl0))) 701 2005 true = Val (mkBern 2 None false st').
Proof.
  destruct (init_ok satl0 (text_of (map item_line items0) ++ tail0) satl0_ok) as (st & E & H). exists st.
  destruct (C37_stale_errno yr satl0 [] s1 [inr slr; inl s2] tail0 701 2005 _ _ _ satl0_ok ltac:(constructor) s1_ok ltac:(cbn; lia) E) as (st' & X). exists st'. split; [exact E|exact X].
Qed.

(** a part 2 without records (or whose first record line has less than five characters): the function reads
    elements of its buffer nothing was ever written to *)
Theorem C37_empty_part strp h l t svn eph errno code pos st :
  satl_ok h -> clean l -> (length l < 5)%nat -> bern_initialize (open_stream (satl_text h ++ l ++ NL :: t)) = Val (code, pos, st) ->
  get_frequency_channel strp st pos svn eph errno = UB.
Proof.
  intros Hh C L E. destruct (init_ok h (l ++ NL :: t) Hh) as (st' & E' & H). rewrite E' in E. apply Val_inj in E. injection E as <- <- <-.
  exact (short_lookup strp svn eph (satl_text h) l t st' errno C L (on_nofail _ _ _ H) (proj1 (proj2 H))).
Qed.
Print Assumptions C37_empty_part.
Example C37_empty_part_example : exists st, bern_initialize (open_stream (satl_text satl0 ++ [] ++ NL :: lit "PART 3")) = Val (0%Z, Some (length (satl_text satl0)), st) /\
  get_frequency_channel yr st (Some (length (satl_text satl0))) 701 2005 false = UB.
Proof.
  destruct (init_ok satl0 ([] ++ NL :: lit "PART 3") satl0_ok) as (st & E & H). exists st. split; [exact E|].
  exact (C37_empty_part yr satl0 [] (lit "PART 3") 701 2005 false _ _ _ satl0_ok ltac:(constructor) ltac:(cbn; lia) E).
Qed.

Theorem C37_full_refuted : ~ C37_full.
Proof.
  intro F. destruct C37_stale_errno_example as (st & st' & E & G).
  destruct (F yr satl0 items0 tail0 701%Z 2005%Z true _ _ _ satl0_ok items0_ok (items0_dates 701%Z) (or_introl tail0_end) E) as (r & Er & A).
  rewrite G in Er. apply Val_inj in Er. subst r. destruct A as [(n & _ & X & _)|(_ & X & _)]; discriminate X.
Qed.
Print Assumptions C37_full_refuted.

(** whatever the file holds, the search ends *)
Theorem C37_ends strp st part2 svn eph errno : get_frequency_channel strp st part2 svn eph errno <> Fuel.
Proof.
  assert (NR : forall m k, nf (rd m k)) by (intros m k; unfold rd, nf; destruct (nth_error m k) as [[?|]|]; discriminate).
  assert (NC : forall m k, nf (cstr m k)).
  { intros m k. apply nf_cstr. }
  assert (NS : forall m s, nf (starts_with m s)) by (intros m s; unfold starts_with, strncmp_lit, strncmp_eq; apply nf_strncmp0).
  assert (NB : forall n m k, nf (some_nonblank m k n)).
  { induction n as [|n IH]; intros m k; cbn [some_nonblank]; [apply nf_val|]. apply nf_bind; [apply NR|]. intros c _. destruct (negb _); [apply nf_val|apply IH]. }
  assert (NT : forall m k, nf (strtol_at m k)) by (intros m k; apply nf_bind; [apply NC|intros s _; apply nf_val]).
  assert (NP : forall m k, nf (strp_at strp m k)) by (intros m k; apply nf_bind; [apply NC|intros s _; destruct (strp s); discriminate]).
  assert (NL0 : forall n st m e, nf (channel_loop strp n st m svn eph e)).
  { induction n as [|n IH]; intros st0 m e; cbn [channel_loop]; [apply nf_val|].
    assert (NX : forall e', nf (do r <- getline st0 m MAX_SATELLIT_CHARS; let '(st1, l1) := r in do len <- strlen l1 0;
      do p3 <- (if (len <? 10)%nat then Val true else starts_with l1 "PART 3"); if p3 then Val (mkBern (-1) None e' st1) else channel_loop strp n st1 l1 svn eph e')).
    { intro e'. apply nf_bind; [apply nf_getline|]. intros [s l] _. apply nf_bind; [apply nf_bind; [apply NC|intros; apply nf_val]|]. intros len _.
      apply nf_bind; [destruct (len <? 10)%nat; [apply nf_val|apply NS]|]. intros p _. destruct p; [apply nf_val|apply IH]. }
    apply nf_bind; [apply NR|]. intros c5 _. apply nf_bind; [destruct (ceqb c5 "M"); [apply nf_bind; [apply NR|intros; apply nf_val]|apply nf_val]|]. intros mw _. destruct (negb mw); [apply NX|].
    apply nf_bind; [apply NT|]. intros [[v u] er] _. destruct (_ || _); [apply nf_val|]. destruct (negb _); [apply NX|].
    apply nf_bind; [apply NP|]. intros a _. apply nf_bind; [apply NB|]. intros hs _. apply nf_bind; [destruct hs; [apply nf_bind; [apply NP|intros; apply nf_val]|apply nf_val]|]. intros sp _.
    destruct (_ && _)%bool; [|apply NX]. apply nf_bind; [apply NT|]. intros [[p ?] er1] _. apply nf_bind; [apply NT|]. intros [[g ?] er2] _. destruct (_ || _); apply nf_val. }
  apply nf_bind; [apply nf_getline|]. intros [s l] _. apply NL0.
Qed.
Print Assumptions C37_ends.

(** ** C80 *)
(** a sequence of calls on one object; [call st errno svn t] is one call *)
Fixpoint calls (call : stream -> bool -> Z -> Z -> outcome bernres) (st : stream) (errno : bool) (qs : list (Z * Z)) : outcome (list (Z * option (Z * Z))) :=
  match qs with
  | [] => Val []
  | (svn, t) :: qs' =>
      do r <- call st errno svn t;
      do rs <- calls call (b_stream r) (b_errno r) qs';
      Val ((b_code r, b_out r) :: rs)
  end.
Definition lookups (strp : list ascii -> option Z) (st : stream) (pos : option nat) (errno : bool) (qs : list (Z * Z)) : outcome (list (Z * option (Z * Z))) :=
  calls (fun st errno svn t => get_frequency_channel strp st pos svn t errno) st errno qs.
Definition C80_full : Prop := forall strp h items e qs code pos st,
  satl_ok h -> items <> [] -> Forall item_ok items -> Forall (fun q => Forall (dates_for strp (fst q)) items) qs -> part2_end e ->
  bern_initialize (open_stream (file_of h items e)) = Val (code, pos, st) ->
  exists rs, lookups strp st pos false qs = Val rs /\ Forall2 (fun q r => reply strp (fst q) (snd q) items (fst r) (snd r)) qs rs.

Theorem C80_history_partial strp h items e qs code pos st :
  satl_ok h -> items <> [] -> Forall item_ok items -> Forall (fun q => Forall (dates_for strp (fst q)) items) qs ->
  (exists l t, e = l ++ NL :: t /\ end_line l) ->
  bern_initialize (open_stream (file_of h items e)) = Val (code, pos, st) ->
  exists rs, lookups strp st pos false qs = Val rs /\ Forall2 (fun q r => reply strp (fst q) (snd q) items (fst r) (snd r)) qs rs.
Proof.
  intros Hh Ne Fo Fd He E. destruct (init_ok h (text_of (map item_line items) ++ e) Hh) as (st' & E' & H). unfold file_of in E. rewrite E' in E. apply Val_inj in E. injection E as <- <- <-.
  assert (En : e <> []) by (destruct He as (l & t & -> & _); destruct l; discriminate).
  pose proof (on_nofail _ _ _ H) as Sf. pose proof (proj1 (proj2 H)) as Sd. clear E' H. revert st' Sf Sd.
  induction qs as [|[svn t] qs IH]; intros st' Sf Sd; [exists []; split; [reflexivity|constructor]|]. inversion Fd as [|? ? Fd1 Fd2]; subst. cbn [fst] in Fd1.
  destruct (lookup_answer strp svn t (satl_text h) items e st' Ne Fo Fd1 (or_introl He) Sf Sd) as (r & Er & A & Ee & D & G). unfold lookups. cbn [calls]. rewrite Er. cbn [bind]. rewrite Ee.
  destruct (IH Fd2 (b_stream r) (G En) ltac:(congruence)) as (rs & Ers & F2). unfold lookups in Ers. rewrite Ers. cbn [bind]. eexists. split; [reflexivity|]. constructor; assumption.
Qed.
Print Assumptions C80_history_partial.
Example C80_history_partial_example : exists st, bern_initialize (open_stream (file_of satl0 items0 tail0)) = Val (0%Z, Some (length (satl_text satl0)), st) /\
  exists rs, lookups yr st (Some (length (satl_text satl0))) false [(702, 2005); (701, 2005)]%Z = Val rs /\
  Forall2 (fun q r => reply yr (fst q) (snd q) items0 (fst r) (snd r)) [(702, 2005); (701, 2005)]%Z rs.
Proof.
  destruct (init_ok satl0 (text_of (map item_line items0) ++ tail0) satl0_ok) as (st & E & H). exists st. split; [exact E|].
  apply (C80_history_partial yr satl0 items0 tail0 _ _ _ _ satl0_ok ltac:(discriminate) items0_ok) with (3 := E); [|exact tail0_end].
  constructor; [apply items0_dates|]. constructor; [apply items0_dates|constructor].
Qed.

(** a file which ends with its last record: a search without result reaches the end of the file, the
    error state of the stream is never cleared, and every later lookup reads uninitialised memory *)
Theorem C80_after_eof strp h items svn t code pos st :
  satl_ok h -> items <> [] -> (length items <= 1000)%nat -> Forall item_ok items -> Forall (dates_for strp svn) items -> Forall (fun i => ~ hit strp svn t i) items ->
  bern_initialize (open_stream (file_of h items [])) = Val (code, pos, st) ->
  exists r, get_frequency_channel strp st pos svn t false = Val r /\ b_code r = (-1)%Z /\
  forall svn' t' errno, get_frequency_channel strp (b_stream r) pos svn' t' errno = UB.
Proof.
  intros Hh Ne Li Fo Fd Fn E. destruct (init_ok h (text_of (map item_line items) ++ []) Hh) as (st' & E' & H). unfold file_of in E. rewrite E' in E. apply Val_inj in E. injection E as <- <- <-.
  set (f := satl_text h ++ text_of (map item_line items) ++ []) in *.
  pose proof (seek_on st' f (length (satl_text h)) (on_nofail _ _ _ H) (proj1 (proj2 H))) as Hs. unfold f in Hs at 2. rewrite skipn_app_exact in Hs by reflexivity.
  assert (Eg : get_frequency_channel strp st' (Some (length (satl_text h))) svn t false = after strp svn t 1000 (uninit 256) (seekg st' (Some (length (satl_text h))))).
  { destruct items as [|i items']; [congruence|]. inversion Fo; subst. cbn [map] in Hs. rewrite text_of_one in Hs. eapply lookup_first; [|exact Hs]. assumption. }
  destruct (search_none strp svn t items 1000 _ f (uninit 256) [] Fo Fd Fn Li (len_uninit 256) Hs (or_intror eq_refl)) as (st2 & E2 & _ & _ & G).
  eexists. rewrite Eg. split; [exact E2|]. split; [reflexivity|]. intros. apply failed_lookup. apply G. reflexivity.
Qed.
Print Assumptions C80_after_eof.
Lemma no702 : Forall (fun i => ~ hit yr 702 2005 i) items0.
Proof.
  assert (V : dec_val (n_svn s1) = 701%Z /\ dec_val (n_svn s2) = 701%Z) by (split; vm_compute; reflexivity). destruct V as (V1 & V2).
  constructor; [intros (X & _); rewrite V1 in X; discriminate|]. constructor; [intros []|]. constructor; [intros (X & _); rewrite V2 in X; discriminate|constructor].
Qed.
Example C80_after_eof_example : exists st r, bern_initialize (open_stream (file_of satl0 items0 [])) = Val (0%Z, Some (length (satl_text satl0)), st) /\
  get_frequency_channel yr st (Some (length (satl_text satl0))) 702 2005 false = Val r /\ get_frequency_channel yr (b_stream r) (Some (length (satl_text satl0))) 701 2005 false = UB.
Proof.
  destruct (init_ok satl0 (text_of (map item_line items0) ++ []) satl0_ok) as (st & E & H). exists st.
  destruct (C80_after_eof yr satl0 items0 702 2005 _ _ _ satl0_ok ltac:(discriminate) ltac:(cbn; lia) items0_ok (items0_dates _) no702 E) as (r & Er & _ & X). exists r. split; [exact E|]. split; [exact Er|apply X].
Qed.
Theorem C80_full_refuted : ~ C80_full.
Proof.
  intro F. destruct C80_after_eof_example as (st & r & E & E1 & E2).
  destruct (F yr satl0 items0 [] [(702, 2005); (701, 2005)]%Z _ _ _ satl0_ok ltac:(discriminate) items0_ok ltac:(constructor; [apply items0_dates|constructor; [apply items0_dates|constructor]]) (or_intror eq_refl) E) as (rs & X & _).
  unfold lookups in X. cbn [calls] in X. rewrite E1 in X. cbn [bind] in X.
  assert (Er : b_errno r = false).
  { destruct (lookup_answer yr 702 2005 (satl_text satl0) items0 [] st ltac:(discriminate) items0_ok (items0_dates _) (or_intror eq_refl)) as (r' & Er & _ & Ee & _).
    - destruct (init_ok satl0 (text_of (map item_line items0) ++ []) satl0_ok) as (st' & E' & H). unfold file_of in E. rewrite E' in E. apply Val_inj in E. injection E as <-. exact (on_nofail _ _ _ H).
    - destruct (init_ok satl0 (text_of (map item_line items0) ++ []) satl0_ok) as (st' & E' & H). unfold file_of in E. rewrite E' in E. apply Val_inj in E. injection E as <-. exact (proj1 (proj2 H)).
    - rewrite E1 in Er. apply Val_inj in Er. subst r'. exact Ee. }
  rewrite Er, E2 in X. discriminate X.
Qed.
Print Assumptions C80_full_refuted.

(** ** C81 *)
Definition C81_full : Prop := forall d, exists code pos st, bern_initialize (open_stream d) = Val (code, pos, st) /\
  (code = 0%Z <-> exists h r, d = satl_text h ++ r /\ satl_ok h) /\ (code = 0%Z -> pos <> None).

Theorem C81_accepts h r : satl_ok h -> exists st, bern_initialize (open_stream (satl_text h ++ r)) = Val (0%Z, Some (length (satl_text h)), st) /\ good st = true /\ sdata st = satl_text h ++ r.
Proof. intro Hh. destruct (init_ok h r Hh) as (st & E & G & D & _). exists st. auto. Qed.
Print Assumptions C81_accepts.
Example C81_accepts_example : satl_ok satl0 /\ exists st, bern_initialize (open_stream (file_of satl0 items0 tail0)) = Val (0%Z, Some (length (satl_text satl0)), st).
Proof. split; [exact satl0_ok|]. destruct (C81_accepts satl0 (text_of (map item_line items0) ++ tail0) satl0_ok) as (st & E & _). exists st. exact E. Qed.

(** every content: opening returns (the object never reads undefined memory while it is opened) *)
Theorem C81_total d : exists code pos st, bern_initialize (open_stream d) = Val (code, pos, st).
Proof. destruct (init_total (open_stream d) eq_refl) as ([[code pos] st] & E). eauto. Qed.
Print Assumptions C81_total.

(** accepted with a position: the lines are there, the position is that of the first record *)
Theorem C81_sound d p st : bern_initialize (open_stream d) = Val (0%Z, Some p, st) ->
  exists title part1 part2 dashes cols1 cols2 blank r, d = text_of ([title] ++ part1 ++ [part2; dashes; cols1; cols2; blank]) ++ r /\
    Forall (fun l => ~ In NL l) ([title] ++ part1 ++ [part2; dashes; cols1; cols2; blank]) /\
    begins TITLE title /\ Forall (fun l => ~ begins PART2 l) part1 /\ (length part1 <= 998)%nat /\ begins PART2 part2 /\ begins COLS1 cols1 /\ begins COLS2 cols2 /\
    p = length (text_of ([title] ++ part1 ++ [part2; dashes; cols1; cols2; blank])).
Proof.
  intro E. destruct (init_sound d p st E) as (a & b & c & e & f & g & h & r & H1 & H2 & H3 & H4 & H5 & H6 & H7 & H8 & H9 & _).
  exists a, b, c, e, f, g, h, r. repeat (split; [assumption|]). assumption.
Qed.
Print Assumptions C81_sound.
Example C81_sound_example : exists st, bern_initialize (open_stream (file_of satl0 items0 tail0)) = Val (0%Z, Some (length (satl_text satl0)), st).
Proof. apply C81_accepts_example. Qed.

Theorem C81_rejects_title d : ~ begins TITLE d -> exists st, bern_initialize (open_stream d) = Val (10%Z, Some 0%nat, st).
Proof. apply init_title. Qed.
Print Assumptions C81_rejects_title.
Example C81_rejects_title_example : ~ begins TITLE (lit "hello") /\ exists st, bern_initialize (open_stream (lit "hello")) = Val (10%Z, Some 0%nat, st).
Proof. assert (N : ~ begins TITLE (lit "hello")) by (intro X; discriminate X). split; [exact N|exact (C81_rejects_title _ N)]. Qed.

Theorem C81_rejects_no_part2 title ls : sat_line title -> begins TITLE title -> Forall (fun l => sat_line l /\ ~ begins PART2 l) ls ->
  exists st, bern_initialize (open_stream (text_of (title :: ls))) = Val (11%Z, Some 0%nat, st).
Proof. apply init_no_part2. Qed.
Print Assumptions C81_rejects_no_part2.
Example C81_rejects_no_part2_example : exists st, bern_initialize (open_stream (text_of (l_title satl0 :: l_part1 satl0))) = Val (11%Z, Some 0%nat, st).
Proof. pose proof satl0_ok as (S1 & B1 & F & _). exact (C81_rejects_no_part2 _ _ S1 B1 F). Qed.

Theorem C81_rejects_columns title part1 part2 dashes cols1 cols2 r :
  sat_line title -> begins TITLE title -> Forall (fun l => sat_line l /\ ~ begins PART2 l) part1 -> (length part1 <= 998)%nat ->
  sat_line part2 -> begins PART2 part2 -> sat_line dashes -> sat_line cols1 -> sat_line cols2 ->
  (~ begins COLS1 cols1 -> exists st, bern_initialize (open_stream (text_of ([title] ++ part1 ++ [part2; dashes; cols1; cols2]) ++ r)) = Val (12%Z, Some 0%nat, st)) /\
  (begins COLS1 cols1 -> ~ begins COLS2 cols2 -> exists st, bern_initialize (open_stream (text_of ([title] ++ part1 ++ [part2; dashes; cols1; cols2]) ++ r)) = Val (13%Z, Some 0%nat, st)).
Proof. intros. destruct (init_cols title part1 part2 dashes cols1 cols2 r) as (A & B & _); auto. Qed.
Print Assumptions C81_rejects_columns.
Example C81_rejects_columns_example :
  (exists st, bern_initialize (open_stream (text_of ([l_title satl0] ++ l_part1 satl0 ++ [l_part2 satl0; l_dashes satl0; lit "x"; lit COLS2]) ++ [])) = Val (12%Z, Some 0%nat, st)) /\
  (exists st, bern_initialize (open_stream (text_of ([l_title satl0] ++ l_part1 satl0 ++ [l_part2 satl0; l_dashes satl0; lit COLS1; lit "x"]) ++ [])) = Val (13%Z, Some 0%nat, st)).
Proof.
  pose proof satl0_ok as (S1 & B1 & F & L & S2 & B2 & S3 & S4 & B4 & S5 & B5 & S6). assert (SX : sat_line (lit "x")) by (split; [cl|cbn; lia]).
  split; [apply (C81_rejects_columns _ _ _ _ (lit "x") (lit COLS2) [] S1 B1 F L S2 B2 S3 SX S5); intro X; discriminate X|].
  apply (C81_rejects_columns _ _ _ _ (lit COLS1) (lit "x") [] S1 B1 F L S2 B2 S3 S4 SX); [exact B4|intro X; discriminate X].
Qed.

(** a file cut after the column titles: accepted, with position -1; every lookup reads uninitialised memory *)
Theorem C81_truncated strp title part1 part2 dashes cols1 cols2 svn t errno :
  sat_line title -> begins TITLE title -> Forall (fun l => sat_line l /\ ~ begins PART2 l) part1 -> (length part1 <= 998)%nat ->
  sat_line part2 -> begins PART2 part2 -> sat_line dashes -> sat_line cols1 -> sat_line cols2 -> begins COLS1 cols1 -> begins COLS2 cols2 ->
  exists st, bern_initialize (open_stream (text_of ([title] ++ part1 ++ [part2; dashes; cols1; cols2]))) = Val (0%Z, None, st) /\
    get_frequency_channel strp st None svn t errno = UB.
Proof.
  intros. destruct (init_cols title part1 part2 dashes cols1 cols2 []) as (_ & _ & B); auto. rewrite app_nil_r in B. destruct B as (st & E & G); auto. exists st. split; [exact E|]. apply failed_lookup. exact G.
Qed.
Print Assumptions C81_truncated.
Example C81_truncated_example : exists st, bern_initialize (open_stream (text_of ([l_title satl0] ++ l_part1 satl0 ++ [l_part2 satl0; l_dashes satl0; lit COLS1; lit COLS2]))) = Val (0%Z, None, st).
Proof.
  pose proof satl0_ok as (S1 & B1 & F & L & S2 & B2 & S3 & S4 & B4 & S5 & B5 & S6).
  destruct (C81_truncated yr _ _ _ _ _ _ 701 2005 false S1 B1 F L S2 B2 S3 S4 S5 B4 B5) as (st & E & _). exists st. exact E.
Qed.
Theorem C81_full_refuted : ~ C81_full.
Proof.
  intro F. destruct C81_truncated_example as (st & E).
  destruct (F (text_of ([l_title satl0] ++ l_part1 satl0 ++ [l_part2 satl0; l_dashes satl0; lit COLS1; lit COLS2]))) as (code & pos & st' & E' & _ & X).
  rewrite E in E'. apply Val_inj in E'. injection E' as <- <- <-. exact (X eq_refl eq_refl).
Qed.
Print Assumptions C81_full_refuted.
