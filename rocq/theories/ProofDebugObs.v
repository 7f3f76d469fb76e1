(** ProofDebugObs: the debug build of the observation reader (C97) *)
From Verif Require Import Base BaseLemmas CNum CNumLemmas Stream ModelSatsys ModelObs ModelNvarstr
  ModelSatellite ModelAntenna ModelObsRnx ModelDebugObs SpecText SpecNum SpecObs SpecHeader ProofText
  ProofNum ProofStream ProofObsTypes ProofObsRec ProofCollect ProofEpoch ProofPlan ProofHeader.

Definition date_ok (v : valid_t) (h : epochhdr) : bool := v (nth 0 (e_ints h) 0%Z) (nth 1 (e_ints h) 0%Z) (nth 2 (e_ints h) 0%Z).

Lemma resolve_dbg v m :
  resolve_epoch_dbg v m = resolve_epoch m \/ (resolve_epoch_dbg v m = Term /\ exists y mo d, v y mo d = false).
Proof.
  unfold resolve_epoch_dbg, resolve_epoch. destruct (cstr m 0) as [line| | | |]; cbn [bind]; auto.
  destruct (rd m 0) as [c| | | |]; cbn [bind]; auto. destruct (_ || _); auto.
  destruct (epoch_ints 5 m 2) as [[[ints start]|]| | | |]; cbn [bind]; auto.
  destruct (v (nth 0 ints 0%Z) (nth 1 ints 0%Z) (nth 2 ints 0%Z)) eqn:E; cbn [negb]; [left; reflexivity|right]. eauto.
Qed.

Lemma resolve_dbg_hdr v m j h : resolve_epoch m = Val (j, Some h) ->
  resolve_epoch_dbg v m = if date_ok v h then Val (j, Some h) else Term.
Proof.
  unfold resolve_epoch_dbg, resolve_epoch. intro H.
  apply bind_val in H as (line & E1 & H). rewrite E1. cbn [bind]. apply bind_val in H as (c & E2 & H). rewrite E2. cbn [bind].
  destruct (_ || _); [discriminate H|].
  apply bind_val in H as (r & E3 & H). rewrite E3. cbn [bind]. destruct r as [[ints start]|]; [|discriminate H].
  assert (I : e_ints h = ints).
  { apply bind_val in H as (s & E4 & H). destruct (strtod s) as [[rs n] er].
    destruct (er || _); [discriminate H|]. cbv zeta in H.
    apply bind_val in H as (c31 & _ & H). apply bind_val in H as (s2 & _ & H).
    destruct (strtol s2) as [[v2 n2] er2]. destruct (er2 || _); [discriminate H|].
    destruct (41 <? length line).
    - apply bind_val in H as (e & _ & H). destruct e.
      + destruct (_ =? _); [discriminate H|]. injection H as _ <-. reflexivity.
      + apply bind_val in H as (s3 & _ & H). destruct (strtod s3) as [[v3 n3] er3].
        destruct (er3 || _); [discriminate H|]. injection H as _ <-. reflexivity.
    - injection H as _ <-. reflexivity. }
  unfold date_ok. rewrite I.
  destruct (v (nth 0 ints 0%Z) (nth 1 ints 0%Z) (nth 2 ints 0%Z)); cbn [negb]; [exact H|reflexivity].
Qed.

Lemma vset_length l k x l' : vset l k x = Val l' -> length l' = length l.
Proof.
  unfold vset. destruct (Nat.ltb_spec k (length l)); [|discriminate]. intro H0. apply Val_inj in H0. subst l'.
  rewrite app_length, firstn_length. change (Datatypes.length (x :: skipn (S k) l)) with (S (Datatypes.length (skipn (S k) l))). rewrite skipn_length. lia.
Qed.
Lemma collect_obs_length buf len sysobs : forall raw tbuf status k vals c vals',
  collect_obs buf len sysobs raw tbuf status k vals = Val (c, vals') -> length vals' = length vals.
Proof.
  induction sysobs as [|p r IH]; intros raw tbuf status k vals c vals' H; cbn [collect_obs] in H.
  - injection H as _ <-. reflexivity.
  - apply bind_val in H as (x & _ & H). destruct x as [[[[raw' tb'] st'] w]|].
    + apply bind_val in H as (vs & E & H). apply IH in H. rewrite H. exact (vset_length _ _ _ _ E).
    + injection H as _ <-. reflexivity.
Qed.
Lemma sat_collect_length buf sysobs vals c p vals' :
  sat_epoch_collect buf sysobs vals = Val (c, p, vals') -> length vals' = length vals.
Proof.
  unfold sat_epoch_collect. intro H. apply bind_val in H as (tb0 & _ & H). apply bind_val in H as (tb & _ & H).
  apply bind_val in H as (s & _ & H). destruct (strtol s) as [[w n] er].
  destruct (_ || _); [injection H as _ _ <-; reflexivity|].
  apply bind_val in H as (len & _ & H). apply bind_val in H as ([code vs] & E & H).
  injection H as _ _ <-. exact (collect_obs_length _ _ _ _ _ _ _ _ _ _ E).
Qed.

Lemma entry_set_length l k x : k < length l -> length (entry_set l k x) = length l.
Proof. intro H. unfold entry_set. rewrite app_length, firstn_length. change (Datatypes.length (x :: skipn (S k) l)) with (S (Datatypes.length (skipn (S k) l))). rewrite skipn_length. lia. Qed.
Lemma entry_set_in l k x e : In e (entry_set l k x) -> e = x \/ In e l.
Proof.
  unfold entry_set. intro H. apply in_app_or in H as [H|[H|H]]; [right|left; auto|right].
  - rewrite <- (firstn_skipn k l). apply in_or_app. left. exact H.
  - rewrite <- (firstn_skipn (S k) l). apply in_or_app. right. exact H.
Qed.
Lemma wide_set plan out k e x : wide plan out -> nth_error out k = Some e -> length (snd x) = length (snd e) ->
  wide plan (entry_set out k x).
Proof.
  intros W E L y s reqs H P. apply entry_set_in in H as [->|H].
  - rewrite L. apply nth_error_In in E. exact (W e s reqs E P).
  - exact (W y s reqs H P).
Qed.

Lemma loop_dbg_wide plan bufsz : forall k st buf out pos, wide plan out ->
  collect_loop_dbg k plan st buf bufsz out pos = collect_loop k plan st buf bufsz out pos.
Proof.
  induction k as [|k IH]; intros st buf out pos W; [reflexivity|]. cbn [collect_loop_dbg collect_loop].
  destruct (getline st buf bufsz) as [[st1 buf1]| | | |]; cbn [bind]; auto.
  destruct (rd buf1 0) as [c| | | |]; cbn [bind]; auto.
  destruct (char_to_satsys c) as [s| | | |]; auto. destruct (plan s) as [so|] eqn:P; [|auto].
  destruct (nth_error out pos) as [[sat vals]|] eqn:N; [|reflexivity].
  assert (L : length so <= length vals) by exact (W _ s so (nth_error_In _ _ N) P).
  unfold sat_epoch_collect_dbg. destruct (Nat.ltb_spec (length vals) (length so)); [lia|].
  destruct (sat_epoch_collect buf1 so vals) as [[[code prn] vals']| | | |] eqn:E; cbn [bind]; auto.
  destruct (code >? 0)%Z; [reflexivity|]. apply IH. eapply wide_set; [exact W|exact N|]. cbn. exact (sat_collect_length _ _ _ _ _ _ E).
Qed.
Lemma loop_dbg_any plan bufsz : forall k st buf out pos,
  collect_loop_dbg k plan st buf bufsz out pos = collect_loop k plan st buf bufsz out pos \/
  collect_loop_dbg k plan st buf bufsz out pos = Term.
Proof.
  induction k as [|k IH]; intros st buf out pos; [left; reflexivity|]. cbn [collect_loop_dbg collect_loop].
  destruct (getline st buf bufsz) as [[st1 buf1]| | | |]; cbn [bind]; auto.
  destruct (rd buf1 0) as [c| | | |]; cbn [bind]; auto.
  destruct (char_to_satsys c) as [s| | | |]; auto. destruct (plan s) as [so|] eqn:P; [|auto].
  destruct (nth_error out pos) as [[sat vals]|] eqn:N; [|left; reflexivity].
  unfold sat_epoch_collect_dbg. destruct (Nat.ltb_spec (length vals) (length so)); [right; reflexivity|].
  destruct (sat_epoch_collect buf1 so vals) as [[[code prn] vals']| | | |] eqn:E; cbn [bind]; auto.
  destruct (code >? 0)%Z; [left; reflexivity|]. apply IH.
Qed.
(** never outside a vector, whatever the stream *)
Lemma loop_dbg_safe plan bufsz : 4 <= bufsz -> forall k st buf out pos, length buf = bufsz -> pos + k <= length out ->
  collect_loop_dbg k plan st buf bufsz out pos = Term \/
  exists j n out' st' buf', collect_loop_dbg k plan st buf bufsz out pos = Val (j, n, out', st', buf').
Proof.
  intro B. induction k as [|k IH]; intros st buf out pos Lb Lo; [right; cbn; eauto 10|].
  cbn [collect_loop_dbg]. destruct (getline_shape st buf bufsz) as (st1 & l & G & Ll & _); [lia|lia|].
  rewrite G. cbn [bind]. rewrite rd0_overlay. cbn [bind].
  assert (Lo1 : length (overlay l buf) = bufsz) by (rewrite overlay_length; lia).
  rewrite cut_head. pose proof (holds_cut l buf) as Hh. remember (cut_nul l) as line eqn:El.
  destruct line as [|c line]; [right; cbn; eauto 10|].
  pose proof (system_of_spec c) as HS. destruct (system_of c) as [s|]; rewrite HS; [|right; eauto 10].
  destruct (plan s) as [so|] eqn:P; [|apply IH; [exact Lo1|lia]].
  destruct (nth_error out pos) as [[sat vals]|] eqn:N.
  2:{ apply nth_error_None in N. lia. }
  unfold sat_epoch_collect_dbg. destruct (Nat.ltb_spec (length vals) (length so)); [left; reflexivity|].
  pose proof (sat_collect_spec (overlay l buf) (c :: line) so vals Hh ltac:(discriminate) ltac:(lia) H) as HC.
  assert (V : exists code prn vals', sat_epoch_collect (overlay l buf) so vals = Val (code, prn, vals')).
  { destruct (prn_of (c :: line)) as [p|]; [|destruct HC as (n & ->); eauto].
    destruct (existsb (bad_request (c :: line)) so); [destruct HC as (v' & _ & ->); eauto|rewrite HC; eauto]. }
  destruct V as (code & prn & vals' & E). rewrite E. cbn [bind]. destruct (code >? 0)%Z; [right; eauto 10|].
  apply IH; [exact Lo1|]. rewrite entry_set_length by lia. lia.
Qed.

Lemma count_ok n (out : list satentry) : (-2147483648 <= n <= 2147483647)%Z -> (Z.of_nat (length out) <= 2147483647)%Z ->
  (Z.of_nat (length out) <? n mod 2 ^ 64)%Z = negb ((0 <=? n)%Z && (n <=? Z.of_nat (length out))%Z).
Proof.
  intros B L. change (2 ^ 64)%Z with 18446744073709551616%Z. destruct (Z.leb_spec 0 n).
  - rewrite Z.mod_small by lia. cbn [andb]. destruct (Z.leb_spec n (Z.of_nat (length out))), (Z.ltb_spec (Z.of_nat (length out)) n); try lia; reflexivity.
  - cbn [andb negb]. replace (n mod 18446744073709551616)%Z with (n + 18446744073709551616)%Z.
    2:{ symmetry. rewrite <- (Z_mod_plus_full n 1 18446744073709551616). rewrite Z.mul_1_l. apply Z.mod_small. lia. }
    apply Z.ltb_lt. lia.
Qed.
Lemma resolve_count m j h : resolve_epoch m = Val (j, Some h) -> (-2147483648 <= e_nsats h <= 2147483647)%Z.
Proof.
  unfold resolve_epoch. intro H.
  apply bind_val in H as (line & E1 & H). apply bind_val in H as (c & E2 & H).
  destruct (_ || _); [discriminate H|].
  apply bind_val in H as (r & E3 & H). destruct r as [[ints start]|]; [|discriminate H].
  apply bind_val in H as (s & E4 & H). destruct (strtod s) as [[rs n] er].
  destruct (er || _); [discriminate H|]. cbv zeta in H.
  apply bind_val in H as (c31 & _ & H). apply bind_val in H as (s2 & _ & H).
  destruct (strtol s2) as [[v2 n2] er2]. destruct (er2 || _); [discriminate H|].
  assert (T : (-2147483648 <= to_i32 v2 <= 2147483647)%Z).
  { unfold to_i32. pose proof (Z.mod_pos_bound (v2 + 2147483648) 4294967296 ltac:(lia)). lia. }
  destruct (41 <? length line).
  - apply bind_val in H as (e & _ & H). destruct e.
    + destruct (_ =? _); [discriminate H|]. injection H as _ <-. exact T.
    + apply bind_val in H as (s3 & _ & H). destruct (strtod s3) as [[v3 n3] er3].
      destruct (er3 || _); [discriminate H|]. injection H as _ <-. exact T.
  - injection H as _ <-. exact T.
Qed.
