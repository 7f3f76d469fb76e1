(** PropertiesDebug2: C97, observation files in the debug build *)
From Verif Require Import Base BaseLemmas CNum CNumLemmas Stream ModelSatsys ModelObs ModelNvarstr
  ModelSatellite ModelAntenna ModelObsRnx ModelDebugObs SpecText SpecNum SpecObs SpecHeader ProofText
  ProofNum ProofStream ProofObsTypes ProofObsRec ProofCollect ProofEpoch ProofPlan ProofHeader ProofDebugObs PropertiesObs.
Open Scope string_scope.
Open Scope list_scope.

(** the calendar accepts the date of an epoch line *)
Definition valid_day (v : valid_t) (e : epoch_src) : bool := v (dec_val (s_year e)) (dec_val (s_month e)) (dec_val (s_day e)).
(** what an int can count *)
Definition int_size (out : list satentry) : Prop := (Z.of_nat (length out) <= 2147483647)%Z.

(** ** C97 *)
Definition C97_full : Prop := forall v o plan out r, wide plan out -> int_size out -> read_next_epoch o plan out = Val r ->
  read_next_epoch_dbg v o plan out = Val r.
(** any object, plan and output vector: the same, or the program stops *)
Theorem C97_same_or_stops : forall v o plan out,
  read_next_epoch_dbg v o plan out = read_next_epoch o plan out \/ read_next_epoch_dbg v o plan out = Term.
Proof.
  intros v o plan out. unfold read_next_epoch_dbg, read_next_epoch. destruct (peek (o_stream o)) as [st0 [c|]]; [|left; reflexivity].
  destruct (getline st0 (o_buf o) (o_bufsz o)) as [[st1 buf1]| | | |]; cbn [bind]; auto.
  destruct (resolve_dbg v buf1) as [E|[E _]]; rewrite E; [|right; reflexivity].
  destruct (resolve_epoch buf1) as [[j [h|]]| | | |]; cbn [bind]; auto.
  unfold collect_epoch_dbg, collect_epoch. destruct (_ <? _)%Z; [right; reflexivity|].
  destruct (loop_dbg_any plan (o_bufsz o) (Z.to_nat (e_nsats h)) st1 buf1 out 0) as [Q|Q]; rewrite Q; [left; reflexivity|right; reflexivity].
Qed.
Print Assumptions C97_same_or_stops.
(** when it stops: a date the calendar rejects, a negative count, or a count beyond the vector *)
Theorem C97_when_partial : forall v o plan out r, wide plan out -> int_size out -> read_next_epoch o plan out = Val r ->
  match er_hdr r with
  | Some h =>
      (date_ok v h = true /\ (0 <= e_nsats h <= Z.of_nat (length out))%Z /\ read_next_epoch_dbg v o plan out = Val r) \/
      ((date_ok v h = false \/ (e_nsats h < 0)%Z \/ (Z.of_nat (length out) < e_nsats h)%Z) /\ read_next_epoch_dbg v o plan out = Term)
  | None => read_next_epoch_dbg v o plan out = Val r \/
      (read_next_epoch_dbg v o plan out = Term /\ (23 <= er_code r <= 25)%Z /\ exists y m d, v y m d = false)
  end.
Proof.
  intros v o plan out r W I H. unfold read_next_epoch_dbg, read_next_epoch in *. destruct (peek (o_stream o)) as [st0 [c|]].
  2:{ destruct (seof st0); apply Val_inj in H; subst r; cbn [er_hdr]; left; reflexivity. }
  destruct (getline st0 (o_buf o) (o_bufsz o)) as [[st1 buf1]| | | |]; cbn [bind] in *; try discriminate H.
  destruct (resolve_epoch buf1) as [[j [h|]]| | | |] eqn:E; cbn [bind] in H; try discriminate H.
  - rewrite (resolve_dbg_hdr v buf1 j h E). pose proof (resolve_count _ _ _ E) as B.
    assert (Eh : er_hdr r = Some h).
    { destruct (collect_epoch (e_nsats h) plan st1 buf1 (o_bufsz o) out) as [[[[[j2 n] out'] st2] buf2]| | | |]; cbn [bind] in H; try discriminate H.
      destruct (negb (j2 =? 0)%Z); [apply Val_inj in H; subst r; reflexivity|]. destruct (seof st2); apply Val_inj in H; subst r; reflexivity. }
    rewrite Eh. destruct (date_ok v h) eqn:D; cbn [bind]; [|right; split; [auto|reflexivity]].
    unfold collect_epoch_dbg. rewrite (count_ok _ _ B I).
    destruct (Z.leb_spec 0 (e_nsats h)), (Z.leb_spec (e_nsats h) (Z.of_nat (length out))); cbn [andb negb].
    2,3,4: right; split; [lia|reflexivity].
    left. split; [reflexivity|]. split; [lia|]. rewrite loop_dbg_wide by exact W. exact H.
  - apply Val_inj in H. subst r. cbn [er_hdr er_code]. destruct (resolve_dbg v buf1) as [Q|[Q X]]; rewrite Q.
    + rewrite E. left. reflexivity.
    + right. split; [reflexivity|]. split; [|exact X].
      unfold resolve_epoch_dbg in Q. unfold resolve_epoch in E.
      destruct (cstr buf1 0) as [line| | | |]; cbn [bind] in *; try discriminate Q; try discriminate E.
      destruct (rd buf1 0) as [c0| | | |]; cbn [bind] in *; try discriminate Q; try discriminate E. destruct (_ || _); [discriminate Q|].
      destruct (epoch_ints 5 buf1 2) as [[[ints start]|]| | | |]; cbn [bind] in *; try discriminate Q; try discriminate E.
      clear Q X. apply bind_val in E as (s & _ & E). destruct (strtod s) as [[rs n] er].
      destruct (er || _); [apply Val_inj in E; injection E as <-; lia|]. cbv zeta in E.
      apply bind_val in E as (c31 & _ & E). apply bind_val in E as (s2 & _ & E).
      destruct (strtol s2) as [[v2 n2] er2]. destruct (er2 || _); [apply Val_inj in E; injection E as <-; lia|].
      destruct (41 <? length line)%nat.
      * apply bind_val in E as (e & _ & E). destruct e.
        -- destruct (_ =? _)%nat; [apply Val_inj in E; injection E as <-; lia|discriminate E].
        -- apply bind_val in E as (s3 & _ & E). destruct (strtod s3) as [[v3 n3] er3].
           destruct (er3 || _); [apply Val_inj in E; injection E as <-; lia|discriminate E].
      * discriminate E.
Qed.
Print Assumptions C97_when_partial.

(** a conforming epoch line, whatever follows it *)
Lemma at_epoch v o e tail plan out : ready o (epoch_line e ++ NL :: tail) -> epoch_src_ok e -> length (epoch_line e) < o_bufsz o -> int_size out ->
  (valid_day v e = false \/ (Z.of_nat (length out) < dec_val (s_nsat e))%Z -> read_next_epoch_dbg v o plan out = Term) /\
  (valid_day v e = true -> (dec_val (s_nsat e) <= Z.of_nat (length out))%Z ->
     (wide plan out -> read_next_epoch_dbg v o plan out = read_next_epoch o plan out) /\
     (read_next_epoch_dbg v o plan out = Term \/ exists r, read_next_epoch_dbg v o plan out = Val r)).
Proof.
  intros ((G & R) & Lb & H4) Hok Hle I. unfold read_next_epoch_dbg, read_next_epoch, peek. rewrite G.
  destruct (epoch_line_head e) as [x Ex]. rewrite R, Ex. cbn [app].
  destruct (getline_line (o_stream o) (o_buf o) (o_bufsz o) (epoch_line e) _ (conj G R)
    (clean_nl _ (epoch_line_clean e Hok)) Hle ltac:(lia)) as (st1 & Gl & R1 & Hd1 & _).
  rewrite Gl. cbn [bind]. destruct (epoch_line_exact e (o_buf o) Hok) as (coff & Er & _).
  rewrite (resolve_dbg_hdr v _ _ _ Er). rewrite Er. cbn [bind]. unfold date_ok. cbn [e_ints e_nsats].
  change (v (nth 0 (spec_ints e) 0%Z) (nth 1 (spec_ints e) 0%Z) (nth 2 (spec_ints e) 0%Z)) with (valid_day v e).
  pose proof (resolve_count _ _ _ Er) as B. cbn [e_nsats] in B.
  assert (N : (0 <= dec_val (s_nsat e))%Z) by (apply dec_val_nonneg; unfold epoch_src_ok, field_ok in Hok; tauto).
  destruct (valid_day v e); cbn [bind].
  2:{ split; [reflexivity|discriminate]. }
  unfold collect_epoch_dbg. cbn [e_nsats]. rewrite (count_ok _ _ B I).
  destruct (Z.leb_spec 0 (dec_val (s_nsat e))); [|lia]. destruct (Z.leb_spec (dec_val (s_nsat e)) (Z.of_nat (length out))); cbn [andb negb].
  2:{ split; [reflexivity|lia]. }
  split; [intros [F|F]; [discriminate F|lia]|]. intros _ _. split.
  - intro W. rewrite loop_dbg_wide by exact W. reflexivity.
  - assert (L3 : length (overlay (epoch_line e) (o_buf o)) = o_bufsz o) by (rewrite overlay_length; lia).
    destruct (loop_dbg_safe plan (o_bufsz o) H4 (Z.to_nat (dec_val (s_nsat e))) st1 _ out 0 L3 ltac:(lia)) as [Q|(j & n & o' & s' & b' & Q)]; rewrite Q; cbn [bind].
    + left. reflexivity.
    + right. destruct (negb (j =? 0)%Z); [eauto|]. destruct (seof s'); eauto.
Qed.
(** a date the calendar rejects, or more satellites than the vector has entries, stops the program before any record is read *)
Theorem C97_stops : forall v o e tail plan out, ready o (epoch_line e ++ NL :: tail) -> epoch_src_ok e -> length (epoch_line e) < o_bufsz o -> int_size out ->
  valid_day v e = false \/ (Z.of_nat (length out) < dec_val (s_nsat e))%Z -> read_next_epoch_dbg v o plan out = Term.
Proof. intros v o e tail plan out A B C D. exact (proj1 (at_epoch v o e tail plan out A B C D)). Qed.
Print Assumptions C97_stops.
(** otherwise it reads what the release build reads; and it never writes outside the vectors, even those too narrow for the plan *)
Theorem C97_reads : forall v o e tail plan out, ready o (epoch_line e ++ NL :: tail) -> epoch_src_ok e -> length (epoch_line e) < o_bufsz o -> int_size out ->
  valid_day v e = true -> (dec_val (s_nsat e) <= Z.of_nat (length out))%Z -> wide plan out ->
  read_next_epoch_dbg v o plan out = read_next_epoch o plan out.
Proof. intros v o e tail plan out A B C D E F G. exact (proj1 (proj2 (at_epoch v o e tail plan out A B C D) E F) G). Qed.
Print Assumptions C97_reads.
Theorem C97_inside : forall v o e tail plan out, ready o (epoch_line e ++ NL :: tail) -> epoch_src_ok e -> length (epoch_line e) < o_bufsz o -> int_size out ->
  read_next_epoch_dbg v o plan out <> UB.
Proof.
  intros v o e tail plan out A B C D. destruct (at_epoch v o e tail plan out A B C D) as [P Q].
  destruct (valid_day v e); [|rewrite P by (left; reflexivity); discriminate].
  destruct (Z.le_gt_cases (dec_val (s_nsat e)) (Z.of_nat (length out))) as [L|L].
  - destruct (proj2 (Q eq_refl L)) as [E|[r E]]; rewrite E; discriminate.
  - rewrite P by (right; lia). discriminate.
Qed.
Print Assumptions C97_inside.

(** ** whole files *)
Fixpoint read_n_dbg (n : nat) (v : valid_t) (o : obsfile) (plan : plan_t) (out : list satentry) : outcome (list epochres) :=
  match n with
  | O => Val []
  | S k => do r <- read_next_epoch_dbg v o plan out; do rs <- read_n_dbg k v (er_obj r) plan (er_out r); Val (r :: rs)
  end.
Theorem C97_file : forall v plan eps o tail out,
  ready o (file_text eps ++ tail) -> Forall (fun ep => epoch_ok plan (o_bufsz o) (fst ep) (snd ep)) eps ->
  wide plan out -> int_size out -> Forall (fun ep => length (snd ep) <= length out) eps ->
  Forall (fun ep => valid_day v (fst ep) = true) eps ->
  read_n_dbg (length eps) v o plan out = read_n (length eps) o plan out.
Proof.
  intros v plan. induction eps as [|[e recs] eps IH]; intros o tail out Ho Hok W I Ht Hv; [reflexivity|].
  inversion Hok as [|? ? Ok1 Hok']; subst. inversion Ht as [|? ? T1 Ht']; subst. inversion Hv as [|? ? V1 Hv']; subst. cbn [fst snd] in *.
  assert (H1 : ready o (epoch_text e recs ++ file_text eps ++ tail)).
  { destruct Ho as ((G & R) & Q). split; [|exact Q]. split; [exact G|]. rewrite R. unfold file_text. cbn [flat_map fst snd].
    rewrite <- app_assoc. reflexivity. }
  assert (T2 : length (taken plan recs) <= length out).
  { assert (Q : forall l, length (taken plan l) <= length l).
    { induction l as [|x l IHl]; [auto|]. rewrite taken_cons. destruct (record_of plan x); cbn [Datatypes.length]; lia. }
    specialize (Q recs). lia. }
  destruct (epoch_read plan o e recs _ out H1 Ok1 W T2) as (r & h & E & E0 & Eh & Hh & Es & Eo & Rd & Bs & _).
  assert (D : read_next_epoch_dbg v o plan out = Val r).
  { rewrite <- E. destruct Ok1 as (O1 & O2 & O3 & _). eapply (C97_reads v o e (text_of recs ++ file_text eps ++ tail)); auto.
    - destruct H1 as ((G & R) & Q). split; [|exact Q]. split; [exact G|]. rewrite R. unfold epoch_text, text_of. cbn [flat_map]. rewrite <- !app_assoc. reflexivity.
    - rewrite O3. lia. }
  cbn [Datatypes.length read_n read_n_dbg]. rewrite E, D. cbn [bind].
  rewrite (IH (er_obj r) tail (er_out r) Rd); [reflexivity|rewrite Bs; exact Hok'| |unfold int_size; rewrite Eo, fill_length; exact I|rewrite Eo, fill_length; exact Ht'|exact Hv'].
  rewrite Eo. apply fill_wide. exact W.
Qed.
Print Assumptions C97_file.

(** ** the release build reads on *)
(** an epoch with more satellites than entries of which few are asked for: read in the release build, the end of the program in the debug build *)
Theorem C97_crowded : forall v plan o e recs tail out, ready o (epoch_text e recs ++ tail) -> epoch_ok plan (o_bufsz o) e recs -> wide plan out -> int_size out ->
  length (taken plan recs) <= length out -> length out < length recs ->
  (exists r, read_next_epoch o plan out = Val r /\ er_code r = 0%Z /\ er_sats r = length (taken plan recs)) /\ read_next_epoch_dbg v o plan out = Term.
Proof.
  intros v plan o e recs tail out A B W I T L. split.
  - destruct (epoch_read plan o e recs tail out A B W T) as (r & h & E & E0 & _ & _ & Es & _). eauto.
  - destruct B as (B1 & B2 & B3 & _). apply (C97_stops v o e (text_of recs ++ tail) plan out); auto.
    + destruct A as ((G & R) & Q). split; [|exact Q]. split; [exact G|]. rewrite R. unfold epoch_text, text_of. cbn [flat_map]. rewrite <- !app_assoc. reflexivity.
    + right. rewrite B3. lia.
Qed.
Print Assumptions C97_crowded.
Definition neg_line : string := "> 2020 01 01 00 30 30.0000000  0 -1".
Theorem C97_negative_refuted : forall v, v 2020%Z 1%Z 1%Z = true ->
  exists r, read_next_epoch (obj (text [neg_line])) plan1 (initialize_epoch_vector plan1) = Val r /\ er_code r = 0%Z /\ er_sats r = 0 /\
  read_next_epoch_dbg v (obj (text [neg_line])) plan1 (initialize_epoch_vector plan1) = Term.
Proof.
  intros v V. eexists. split; [vm_compute; reflexivity|]. split; [reflexivity|]. split; [reflexivity|].
  set (o := obj _). set (out := initialize_epoch_vector plan1).
  destruct (read_next_epoch o plan1 out) as [r| | | |] eqn:E; try (vm_compute in E; discriminate E).
  assert (W : wide plan1 out) by apply C25_initial_vector.
  assert (I : int_size out) by (vm_compute; discriminate).
  pose proof (C97_when_partial v o plan1 out r W I E) as Q.
  assert (H : exists h, er_hdr r = Some h /\ e_nsats h = (-1)%Z) by (vm_compute in E; injection E as <-; eexists; split; reflexivity).
  destruct H as (h & Hh & Hn). rewrite Hh in Q. destruct Q as [(_ & Q & _)|[_ Q]]; [lia|exact Q].
Qed.
Theorem C97_full_refuted : ~ C97_full.
Proof.
  intro F. destruct (C97_negative_refuted (fun _ _ _ => true) eq_refl) as (r & E & _ & _ & D).
  assert (I : int_size (initialize_epoch_vector plan1)) by (vm_compute; discriminate).
  rewrite (F (fun _ _ _ => true) _ _ _ r (proj2 (C25_initial_vector plan1)) I E) in D. discriminate D.
Qed.
Print Assumptions C97_full_refuted.

(** the hypotheses can be met *)
Example C97_example : ready (obj (text [e1; r1; r2; e1; r1; r2])) (file_text [(ep1, map lit [r1; r2]); (ep1, map lit [r1; r2])] ++ []) /\
  valid_day (fun _ _ d => (d <=? 31)%Z) ep1 = true /\ valid_day (fun _ _ d => (1 <? d)%Z) ep1 = false /\
  int_size (initialize_epoch_vector plan1) /\ length (initialize_epoch_vector plan1) = 80%nat.
Proof.
  split; [split; [split; [reflexivity|vm_compute; reflexivity]|split; [reflexivity|cbn; lia]]|].
  split; [reflexivity|]. split; [reflexivity|]. split; [vm_compute; discriminate|reflexivity].
Qed.
Example C97_crowded_example : let recs := repeat (lit "R12 no plan") 81 in let e := mkSrc (lit "2020") (lit "01") (lit "01") (lit "00") (lit "30")
  (mkNum None (lit "30") true (lit "0000000") None) "0"%char (lit "81") None 0 in
  epoch_ok plan1 68 e recs /\ taken plan1 recs = [] /\ length (initialize_epoch_vector plan1) < length recs.
Proof.
  cbv zeta. split; [|split; [vm_compute; reflexivity|vm_compute; lia]].
  split; [unfold epoch_src_ok, obs_num_ok, num_ok, field_ok; concrete|]. split; [vm_compute; lia|]. split; [reflexivity|].
  split; [|split]; apply Forall_forall; intros x Hx; apply repeat_spec in Hx; subst x.
  - repeat constructor; vm_compute; intuition discriminate.
  - vm_compute. lia.
  - vm_compute. discriminate.
Qed.
