(** ProofCollect: satellite records and epochs (C22-C26). *)
From Verif Require Import Base BaseLemmas CNum CNumLemmas Stream ModelSatsys ModelObs ModelNvarstr
  ModelSatellite ModelObsRnx SpecText SpecNum SpecObs ProofText ProofNum ProofStream ProofObsTypes ProofObsRec.

(** a buffer holding the line *)
Definition holds (buf : mem) (line : list ascii) : Prop :=
  exists r, buf = map Some line ++ Some NUL :: r /\ ~ In NUL line.

Lemma holds_overlay line buf : ~ In NUL line -> holds (overlay line buf) line.
Proof. intro H. unfold holds, overlay. eauto. Qed.

Lemma holds_cstr buf line : holds buf line -> cstr buf 0 = Val line.
Proof. intros (r & -> & H). unfold cstr. simpl skipn. apply cstr0_app. exact H. Qed.

Lemma missing_eq : MISSING = DFin the_missing_value.
Proof. reflexivity. Qed.

Lemma wr17 tbuf x : length tbuf = 17 -> length x = 16 -> skipn 16 tbuf = [Some NUL] ->
  wr_bytes tbuf 0 x = Val (x ++ [Some NUL]).
Proof.
  intros H1 H2 H3. unfold wr_bytes. rewrite H1, H2. cbn [Nat.add Nat.leb]. f_equal.
  change (firstn 0 tbuf) with (@nil (option ascii)). cbn [app]. rewrite H3. reflexivity.
Qed.

Lemma memcpy_field tbuf buf line idx :
  holds buf line -> length tbuf = 17 -> skipn 16 tbuf = [Some NUL] -> idx + 16 <= length line ->
  memcpy tbuf 0 buf idx 16 = Val (cbuf (firstn 16 (skipn idx line))).
Proof.
  intros (r & -> & Hn) H1 H2 Hi. unfold memcpy. rewrite app_length, map_length.
  destruct (Nat.leb_spec (idx + 16) (length line + length (Some NUL :: r))) as [_|Hx]; [|simpl in Hx; lia].
  assert (E : firstn 16 (skipn idx (map Some line ++ Some NUL :: r)) = map Some (firstn 16 (skipn idx line))).
  { rewrite skipn_app, map_length. replace (idx - length line) with 0 by lia. rewrite skipn_O.
    rewrite skipn_map. rewrite firstn_app. rewrite map_length, skipn_length.
    replace (16 - (length line - idx)) with 0 by lia. simpl (firstn 0 _). rewrite app_nil_r. rewrite firstn_map. reflexivity. }
  rewrite E. rewrite wr17; auto. rewrite map_length, firstn_length, skipn_length. lia.
Qed.

Lemma in_sub (f : list ascii) n k c : In c (firstn n (skipn k f)) -> In c f.
Proof.
  intro H. assert (In c (skipn k f)).
  { rewrite <- (firstn_skipn n (skipn k f)). apply in_or_app. auto. }
  rewrite <- (firstn_skipn k f). apply in_or_app. auto.
Qed.

Lemma resolve_cases raw f :
  length f = 16 -> ~ In NUL f ->
  exists raw', raw_resolve raw (cbuf f) =
    Val ((if forallb (fun c => ceqb c " "%char) (firstn 14 f) then 0
          else match strtod f with (_, S _, false) => 0 | _ => 1 end)%Z, raw') /\
    (forallb (fun c => ceqb c " "%char) (firstn 14 f) = true -> rv raw' = Some MISSING) /\
    (forall v k, forallb (fun c => ceqb c " "%char) (firstn 14 f) = false -> strtod f = (v, S k, false) ->
       rv raw' = Some v).
Proof.
  intros Hl Hn. unfold raw_resolve, string_is_empty.
  rewrite cstr_cbuf by exact Hn. cbn [bind]. rewrite Hl. cbn [cut_len Nat.ltb Nat.leb].
  destruct (forallb _ (firstn 14 f)) eqn:E.
  - eexists. split; [reflexivity|]. split; [reflexivity|congruence].
  - destruct (strtod f) as [[v n] er] eqn:Es. destruct er; cbn [orb].
    + eexists. split; [destruct n; reflexivity|]. split; [congruence|]. intros v' k _ H. inv H.
    + destruct n as [|n]; cbn [Nat.eqb].
      * eexists. split; [reflexivity|]. split; [congruence|]. intros v' k _ H. inv H.
      * change (cbuf f) with (overlay f []).
        destruct (nth_error f 14) as [a|] eqn:E14; [|apply nth_error_None in E14; lia].
        destruct (nth_error f 15) as [b|] eqn:E15; [|apply nth_error_None in E15; lia].
        rewrite rd_overlay with (c := a) by exact E14. rewrite rd_overlay with (c := b) by exact E15. cbn [bind].
        eexists. split; [reflexivity|]. split; [congruence|]. intros v' k _ H. inv H. reflexivity.
Qed.

(** the number of blank fields lowers the status *)
Fixpoint blank_count (line : list ascii) (req : list (nat * cdbl)) : Z :=
  match req with
  | [] => 0%Z
  | p :: r => ((match cell_of line (fst p) with CBlank => 1 | _ => 0 end) + blank_count line r)%Z
  end.

Lemma collect_pairs_spec buf line : holds buf line ->
  forall req raw tbuf status acc,
  length tbuf = 17 -> skipn 16 tbuf = [Some NUL] ->
  (existsb (fun p => cell_bad (cell_of line (fst p))) req = true ->
     collect_pairs buf (length line) req raw tbuf status acc = Val None) /\
  (existsb (fun p => cell_bad (cell_of line (fst p))) req = false ->
     exists raw' tbuf', length tbuf' = 17 /\ skipn 16 tbuf' = [Some NUL] /\
       collect_pairs buf (length line) req raw tbuf status acc =
       Val (Some (raw', tbuf', (status - blank_count line req)%Z, actual_value line req acc))).
Proof.
  intros Hh. induction req as [|[col coef] req IH]; intros raw tbuf status acc H17 H16.
  - split; [discriminate|]. intros _. exists raw, tbuf. split; auto. split; auto. simpl.
    rewrite Z.sub_0_r. reflexivity.
  - cbn [existsb fst collect_pairs blank_count actual_value snd].
    replace (3 + 16 * col + 16) with (col * 16 + 3 + 16) by lia.
    unfold cell_of. replace (3 + 16 * col) with (col * 16 + 3) by lia.
    set (f := firstn 16 (skipn (col * 16 + 3) line)).
    destruct (Nat.leb_spec (col * 16 + 3 + 16) (length line)) as [Hle|Hgt].
    + destruct (Nat.ltb_spec (length line) (col * 16 + 3 + 16)) as [?|_]; [lia|].
      rewrite (memcpy_field tbuf buf line (col * 16 + 3) Hh H17 H16) by lia. fold f. cbn [bind].
      assert (Lf : length f = 16) by (unfold f; rewrite firstn_length, skipn_length; lia).
      assert (Nf : ~ In NUL f).
      { intro Hin. apply in_sub in Hin. destruct Hh as (_ & _ & Hn). contradiction. }
      assert (T17 : length (cbuf f) = 17) by (unfold cbuf; rewrite app_length, map_length, Lf; reflexivity).
      assert (T16 : skipn 16 (cbuf f) = [Some NUL]).
      { unfold cbuf. apply skipn_app_exact. rewrite map_length. auto. }
      destruct (resolve_cases raw f Lf Nf) as (raw' & ER & RB & RV). rewrite ER. cbn [bind]. clear ER.
      change (forallb (fun c => Ascii.eqb c " "%char) (firstn 14 f))
        with (forallb (fun c => ceqb c " "%char) (firstn 14 f)).
      destruct (forallb (fun c => ceqb c " "%char) (firstn 14 f)) eqn:EB.
      * rewrite (RB eq_refl). cbn [negb Z.eqb]. change (deq MISSING MISSING) with true. cbn [negb].
        specialize (IH raw' (cbuf f) (status - 1)%Z MISSING T17 T16). cbn [cell_bad orb].
        destruct IH as [I1 I2]. split; [exact I1|]. intro Hb. destruct (I2 Hb) as (r1 & t1 & ? & ? & E1).
        exists r1, t1. split; auto. split; auto. rewrite E1. rewrite missing_eq. rewrite Z.sub_add_distr. reflexivity.
      * destruct (strtod f) as [[v n] er] eqn:Es. destruct er.
        { cbn [cell_bad orb]. destruct n; cbn [negb Z.eqb];
          (split; [intros _; reflexivity|discriminate]). }
        destruct n as [|n].
        { cbn [cell_bad orb negb Z.eqb]. split; [intros _; reflexivity|discriminate]. }
        rewrite (RV v n eq_refl eq_refl). cbn [negb Z.eqb].
        assert (EV : deq v MISSING = match v with DFin q => Qeq_bool q the_missing_value | _ => false end).
        { destruct v; reflexivity. }
        rewrite EV.
        destruct v as [q|b|].
        -- destruct (Qeq_bool q the_missing_value).
           ++ cbn [negb cell_bad orb].
              specialize (IH raw' (cbuf f) (status - 1)%Z MISSING T17 T16).
              destruct IH as [I1 I2]. split; [exact I1|]. intro Hb. destruct (I2 Hb) as (r1 & t1 & ? & ? & E1).
              exists r1, t1. split; auto. split; auto. rewrite E1. rewrite missing_eq, Z.sub_add_distr. reflexivity.
           ++ cbn [negb cell_bad orb].
              specialize (IH raw' (cbuf f) status (dadd acc (dmul (DFin q) coef)) T17 T16).
              destruct IH as [I1 I2]. split; [exact I1|]. intro Hb. destruct (I2 Hb) as (r1 & t1 & ? & ? & E1).
              exists r1, t1. split; auto.
        -- cbn [negb cell_bad orb].
           specialize (IH raw' (cbuf f) status (dadd acc (dmul (DInf b) coef)) T17 T16).
           destruct IH as [I1 I2]. split; [exact I1|]. intro Hb. destruct (I2 Hb) as (r1 & t1 & ? & ? & E1).
           exists r1, t1. split; auto.
        -- cbn [negb cell_bad orb].
           specialize (IH raw' (cbuf f) status (dadd acc (dmul DNan coef)) T17 T16).
           destruct IH as [I1 I2]. split; [exact I1|]. intro Hb. destruct (I2 Hb) as (r1 & t1 & ? & ? & E1).
           exists r1, t1. split; auto.
    + destruct (Nat.ltb_spec (length line) (col * 16 + 3 + 16)) as [_|?]; [|lia].
      cbn [cell_bad orb].
      specialize (IH (mkRawRnx (Some MISSING) (rlli raw) (rssi raw)) tbuf status MISSING H17 H16).
      destruct IH as [I1 I2]. split; [exact I1|]. intro Hb. destruct (I2 Hb) as (r1 & t1 & ? & ? & E1).
      exists r1, t1. split; auto.
Qed.

Definition bad_request (line : list ascii) (req : list (nat * cdbl)) : bool :=
  existsb (fun p => cell_bad (cell_of line (fst p))) req.

Fixpoint blank_total (line : list ascii) (reqs : list (list (nat * cdbl))) : Z :=
  match reqs with [] => 0%Z | r :: rs => (blank_count line r + blank_total line rs)%Z end.

Lemma vset_ok l k x : k < length l -> vset l k x = Val (firstn k l ++ x :: skipn (S k) l).
Proof. intro H. unfold vset. destruct (Nat.ltb_spec k (length l)); [reflexivity|lia]. Qed.

Lemma vset_len (l : list cdbl) k x : k < length l -> length (firstn k l ++ x :: skipn (S k) l) = length l.
Proof. intro H. rewrite app_length, firstn_length. cbn [length]. rewrite skipn_length. lia. Qed.

Lemma collect_obs_spec buf line : holds buf line ->
  forall reqs raw tbuf status k vals,
  length tbuf = 17 -> skipn 16 tbuf = [Some NUL] -> k + length reqs <= length vals ->
  (existsb (bad_request line) reqs = true ->
     exists vals', length vals' = length vals /\
       collect_obs buf (length line) reqs raw tbuf status k vals = Val (2%Z, vals')) /\
  (existsb (bad_request line) reqs = false ->
     collect_obs buf (length line) reqs raw tbuf status k vals =
     Val ((status - blank_total line reqs)%Z,
          firstn k vals ++ map (fun r => actual_value line r (DFin 0)) reqs ++ skipn (k + length reqs) vals)).
Proof.
  intros Hh. induction reqs as [|r reqs IH]; intros raw tbuf status k vals H17 H16 Hk.
  - split; [discriminate|]. intros _. simpl. rewrite Nat.add_0_r, firstn_skipn, Z.sub_0_r. reflexivity.
  - cbn [existsb collect_obs]. unfold bad_request at 1 3.
    destruct (collect_pairs_spec buf line Hh r raw tbuf status (DFin 0) H17 H16) as [P1 P2].
    destruct (existsb (fun p => cell_bad (cell_of line (fst p))) r) eqn:EB.
    + cbn [orb]. split; [|discriminate]. intros _. rewrite (P1 eq_refl). cbn [bind]. eauto.
    + cbn [orb]. destruct (P2 eq_refl) as (raw' & tbuf' & T17 & T16 & E). rewrite E. cbn [bind].
      cbn [length] in Hk. rewrite vset_ok by lia. cbn [bind].
      set (vals1 := firstn k vals ++ actual_value line r (DFin 0) :: skipn (S k) vals).
      assert (L1 : length vals1 = length vals) by (apply vset_len; lia).
      destruct (IH raw' tbuf' (status - blank_count line r)%Z (S k) vals1 T17 T16 ltac:(lia)) as [Q1 Q2].
      split.
      * intro Hb. destruct (Q1 Hb) as (v' & Lv & Ev). exists v'. split; [lia|exact Ev].
      * intro Hb. rewrite (Q2 Hb). cbn [blank_total map length].
        apply f_equal. apply f_equal2; [lia|].
        assert (F : firstn (S k) vals1 = firstn k vals ++ [actual_value line r (DFin 0)]).
        { unfold vals1. rewrite firstn_app, firstn_length.
          replace (S k - Nat.min k (length vals)) with 1 by lia.
          rewrite firstn_all2 by (rewrite firstn_length; lia). reflexivity. }
        assert (SK : skipn (S k + length reqs) vals1 = skipn (k + S (length reqs)) vals).
        { unfold vals1. rewrite skipn_app, firstn_length.
          rewrite skipn_all2 by (rewrite firstn_length; lia). cbn [app].
          replace (S k + length reqs - Nat.min k (length vals)) with (S (length reqs)) by lia.
          change (skipn (S (length reqs)) (actual_value line r (DFin 0) :: skipn (S k) vals)) with (skipn (length reqs) (skipn (S k) vals)).
          rewrite skipn_skipn. f_equal. lia. }
        rewrite F, SK. rewrite <- app_assoc. reflexivity.
Qed.

(** ** PRN *)
Lemma ch_digit_eq c : ch_digit c = is_digit c.
Proof. reflexivity. Qed.
Lemma ch_val_eq c : ch_val c = digit_val c.
Proof. reflexivity. Qed.

Definition prn_text (line : list ascii) : list ascii := firstn 2 (skipn 1 line).

Lemma strtol_two p : length p <= 2 ->
  let '(v, n, er) := strtol p in
  er = false /\ (-99 <= v <= 99)%Z /\
  (if (n =? 0) || ((v <? 1)%Z || (v >? 99)%Z) then None else Some v) =
  (let n := match p with
           | [a; b] => if ch_digit a then (if ch_digit b then ch_val a * 10 + ch_val b else ch_val a)
                       else if ch_lead a && ch_digit b then ch_val b else 0
           | [a] => if ch_digit a then ch_val a else 0
           | _ => 0
           end%Z in
   if (1 <=? n)%Z then Some n else None).
Proof.
  assert (DV : forall c, is_digit c = true -> (0 <= digit_val c <= 9)%Z).
  { intros c H. apply is_digit_iff in H. unfold digit, digit_val in *. lia. }
  assert (LM : LONG_MAX = 9223372036854775807%Z) by reflexivity.
  assert (Lm : LONG_MIN = (-9223372036854775808)%Z) by reflexivity.
  assert (FIN : forall v k, (0 <= v <= 99)%Z ->
     (if (S k =? 0) || ((v <? 1)%Z || (v >? 99)%Z) then None else Some v)
      = (if (1 <=? v)%Z then Some v else None)).
  { intros v k Hv. cbn [Nat.eqb orb]. destruct (Z.leb_spec 1 v), (Z.ltb_spec v 1); try lia; cbn [orb].
    - rewrite Z.gtb_ltb. destruct (Z.ltb_spec 99 v); [lia|reflexivity].
    - reflexivity. }
  assert (NEG : forall v k, (0 <= v <= 99)%Z ->
     (if (S k =? 0) || ((- v <? 1)%Z || (- v >? 99)%Z) then None else Some (- v)%Z) = None).
  { intros v k Hv. cbn [Nat.eqb orb]. destruct (Z.ltb_spec (-v) 1); [reflexivity|lia]. }
  assert (RNG : forall z n, (-99 <= z <= 99)%Z ->
    (if (z >? LONG_MAX)%Z then (LONG_MAX, n, true)
      else if (z <? LONG_MIN)%Z then (LONG_MIN, n, true) else (z, n, false)) = (z, n : nat, false)).
  { intros z n Hz. rewrite LM, Lm, Z.gtb_ltb.
    destruct (Z.ltb_spec 9223372036854775807 z); [lia|].
    destruct (Z.ltb_spec z (-9223372036854775808)); [lia|reflexivity]. }
  intro Hl. destruct p as [|a [|b [|c p]]]; [| | |simpl in Hl; lia].
  - cbn. repeat split; lia.
  - change ch_digit with is_digit; change ch_val with digit_val. unfold strtol. cbn [skip_ws].
    destruct (is_digit a) eqn:Da.
    + destruct (is_digit_cases a Da) as (Sa & Ma & Pa). rewrite Sa. cbn [scan_sign]. rewrite Ma, Pa.
      cbn [scan_digits]. rewrite Da. pose proof (DV a Da).
      cbn [Nat.add]. rewrite RNG by lia. split; [reflexivity|]. split; [lia|].
      replace (0 * 10 + digit_val a)%Z with (digit_val a) by lia. apply FIN. lia.
    + destruct (is_space a) eqn:Sa; cbn [scan_sign].
      * cbn. repeat split; lia.
      * destruct (ceqb a "-"%char); [cbn; repeat split; lia|].
        destruct (ceqb a "+"%char); [cbn; repeat split; lia|].
        cbn [scan_digits]. rewrite Da. cbn. repeat split; lia.
  - change ch_digit with is_digit; change ch_val with digit_val. unfold strtol. cbn [skip_ws].
    assert (LEAD : ch_lead a = ceqb a "+"%char || is_space a).
    { unfold ch_lead, is_space, ceqb. rewrite orb_assoc. reflexivity. }
    rewrite LEAD.
    destruct (is_digit a) eqn:Da.
    + destruct (is_digit_cases a Da) as (Sa & Ma & Pa). rewrite Sa. cbn [scan_sign]. rewrite Ma, Pa.
      cbn [scan_digits]. rewrite Da. pose proof (DV a Da).
      destruct (is_digit b) eqn:Db.
      * pose proof (DV b Db). cbn [Nat.add]. rewrite RNG by lia. split; [reflexivity|]. split; [lia|].
        replace ((0 * 10 + digit_val a) * 10 + digit_val b)%Z with (digit_val a * 10 + digit_val b)%Z by lia.
        apply FIN. lia.
      * cbn [Nat.add]. rewrite RNG by lia. split; [reflexivity|]. split; [lia|].
        replace (0 * 10 + digit_val a)%Z with (digit_val a) by lia. apply FIN. lia.
    + destruct (is_space a) eqn:Sa.
      * rewrite orb_true_r. cbn [andb].
        destruct (is_digit b) eqn:Db.
        -- destruct (is_digit_cases b Db) as (Sb & Mb & Pb). rewrite Sb. cbn [scan_sign]. rewrite Mb, Pb.
           cbn [scan_digits]. rewrite Db. pose proof (DV b Db).
           cbn [Nat.add]. rewrite RNG by lia. split; [reflexivity|]. split; [lia|].
           replace (0 * 10 + digit_val b)%Z with (digit_val b) by lia. apply FIN. lia.
        -- destruct (is_space b) eqn:Sb; cbn [scan_sign].
           ++ cbn. repeat split; lia.
           ++ destruct (ceqb b "-"%char); [cbn; repeat split; lia|].
              destruct (ceqb b "+"%char); [cbn; repeat split; lia|].
              cbn [scan_digits]. rewrite Db. cbn. repeat split; lia.
      * rewrite orb_false_r. cbn [scan_sign].
        destruct (ceqb a "-"%char) eqn:Ma.
        -- apply ceqb_eq in Ma. subst a. change (ceqb "-"%char "+"%char) with false. cbn [andb].
           cbn [scan_digits]. destruct (is_digit b) eqn:Db.
           ++ pose proof (DV b Db). cbn [Nat.add]. rewrite RNG by lia. split; [reflexivity|]. split; [lia|].
              replace (0 * 10 + digit_val b)%Z with (digit_val b) by lia. rewrite NEG by lia. reflexivity.
           ++ cbn. repeat split; lia.
        -- destruct (ceqb a "+"%char) eqn:Pa; cbn [andb].
           ++ cbn [scan_digits]. destruct (is_digit b) eqn:Db.
              ** pose proof (DV b Db). cbn [Nat.add]. rewrite RNG by lia. split; [reflexivity|]. split; [lia|].
                 replace (0 * 10 + digit_val b)%Z with (digit_val b) by lia. apply FIN. lia.
              ** cbn. repeat split; lia.
           ++ cbn [scan_digits]. rewrite Da. cbn. repeat split; lia.
Qed.

Lemma prn_tbuf buf line : holds buf line -> line <> [] -> 3 <= length buf ->
  exists tb0 tbuf, memset (uninit 17) 0 NUL 17 = Val tb0 /\ memcpy tb0 0 buf 1 2 = Val tbuf /\
    cstr tbuf 0 = Val (prn_text line) /\ length tbuf = 17 /\ skipn 16 tbuf = [Some NUL].
Proof.
  intros (r & -> & Hn) Hne Hl. eexists. 
  unfold memcpy. destruct (Nat.leb_spec (1 + 2) (length (map Some line ++ Some NUL :: r))) as [_|?]; [|lia].
  unfold prn_text. destruct line as [|a [|b [|c line]]]; [congruence| | |].
  - destruct r as [|x r]; [rewrite app_length in Hl; simpl in Hl; lia|].
    eexists. split; [reflexivity|]. split; [reflexivity|]. split; [reflexivity|]. split; reflexivity.
  - eexists. split; [reflexivity|]. split; [reflexivity|].
    split; [|split; reflexivity].
    assert (b <> NUL) by (intros ->; apply Hn; right; left; auto).
    apply ceqb_neq in H. cbn [map app skipn firstn wr_bytes uninit repeat length]. cbn. change NUL with zero in H. rewrite H. reflexivity.
  - eexists. split; [reflexivity|]. split; [reflexivity|].
    split; [|split; reflexivity].
    assert (b <> NUL) by (intros ->; apply Hn; right; left; auto).
    assert (c <> NUL) by (intros ->; apply Hn; right; right; left; auto).
    apply ceqb_neq in H, H0. 
    cbn [map app skipn firstn wr_bytes uninit repeat length]. unfold cstr. cbn [skipn cstr0].
    cbn. change NUL with zero in H, H0. rewrite H. cbn. rewrite H0. reflexivity.
Qed.

(** the whole function *)
Theorem sat_collect_spec buf line reqs vals :
  holds buf line -> line <> [] -> 3 <= length buf -> length reqs <= length vals ->
  match prn_of line with
  | None => exists n, sat_epoch_collect buf reqs vals = Val (1%Z, n, vals)
  | Some prn =>
      if existsb (bad_request line) reqs
      then exists vals', length vals' = length vals /\ sat_epoch_collect buf reqs vals = Val (2%Z, prn, vals')
      else sat_epoch_collect buf reqs vals =
           Val ((- blank_total line reqs)%Z, prn,
                map (fun r => actual_value line r (DFin 0)) reqs ++ skipn (length reqs) vals)
  end.
Proof.
  intros Hh Hne H3 Hv. unfold sat_epoch_collect.
  destruct (prn_tbuf buf line Hh Hne H3) as (tb0 & tbuf & E0 & E1 & E2 & T17 & T16).
  rewrite E0. cbn [bind]. rewrite E1. cbn [bind]. rewrite E2. cbn [bind].
  assert (L2 : length (prn_text line) <= 2) by (unfold prn_text; rewrite firstn_length; lia).
  pose proof (strtol_two (prn_text line) L2) as HS.
  destruct (strtol (prn_text line)) as [[v n] er]. destruct HS as (-> & Hr & HP).
  cbv zeta. rewrite to_i32_small by lia. cbn [orb].
  assert (PE : prn_of line = if (n =? 0) || ((v <? 1)%Z || (v >? 99)%Z) then None else Some v).
  { rewrite HP. reflexivity. }
  rewrite PE. clear HP PE.
  destruct ((n =? 0) || ((v <? 1)%Z || (v >? 99)%Z)); [eauto|].
  unfold strlen. rewrite (holds_cstr _ _ Hh). cbn [bind].
  destruct (collect_obs_spec buf line Hh reqs raw_new tbuf 0 0 vals T17 T16 ltac:(lia)) as [Q1 Q2].
  destruct (existsb (bad_request line) reqs).
  - destruct (Q1 eq_refl) as (v' & Lv & Ev). exists v'. split; auto. rewrite Ev. reflexivity.
  - rewrite (Q2 eq_refl). cbn [bind firstn app Nat.add]. repeat f_equal.
Qed.

Lemma blank_count_nonneg line req : (0 <= blank_count line req)%Z.
Proof. induction req as [|p r IH]; simpl; [lia|]. destruct (cell_of line (fst p)); lia. Qed.
Lemma blank_total_nonneg line reqs : (0 <= blank_total line reqs)%Z.
Proof. induction reqs as [|p r IH]; simpl; [lia|]. pose proof (blank_count_nonneg line p). lia. Qed.

(** intended = actual when nothing present follows something missing *)
Lemma actual_missing line req acc :
  (forall q, In q req -> cell_missing (cell_of line (fst q)) = true) -> req <> [] ->
  actual_value line req acc = DFin the_missing_value.
Proof.
  revert acc. induction req as [|p r IH]; intros acc H Hne; [congruence|].
  cbn [actual_value]. pose proof (H p (or_introl eq_refl)) as Hp.
  destruct r as [|q r].
  - simpl. destruct (cell_of line (fst p)); try discriminate; reflexivity.
  - apply IH; [|discriminate]. intros x Hx. apply H. right. exact Hx.
Qed.

Lemma actual_intended line req :
  missing_last line req -> bad_request line req = false ->
  actual_value line req (DFin 0) = intended_value line req.
Proof.
  unfold intended_value.
  assert (G : forall acc, missing_last line req -> bad_request line req = false ->
    actual_value line req acc =
    if existsb (fun p => cell_missing (cell_of line (fst p))) req then DFin the_missing_value
    else fold_left (fun acc p => match cell_of line (fst p) with
                               | CValue v => dadd acc (dmul v (snd p))
                               | _ => acc
                               end) req acc).
  2:{ apply G. }
  induction req as [|p r IH]; intros acc Hml Hb; [reflexivity|]. destruct Hml as [Hp Hm].
  cbn [actual_value existsb fold_left]. unfold bad_request in *. cbn [existsb] in Hb.
  apply orb_false_iff in Hb as [Hb1 Hb2].
  destruct (cell_missing (cell_of line (fst p))) eqn:E.
  - cbn [orb]. destruct r as [|q r].
    + simpl. destruct (cell_of line (fst p)); try discriminate; reflexivity.
    + apply actual_missing; [|discriminate]. apply Hp. reflexivity.
  - cbn [orb]. rewrite IH by auto. destruct (cell_of line (fst p)); try discriminate. reflexivity.
Qed.
