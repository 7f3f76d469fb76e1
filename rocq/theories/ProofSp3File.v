(** ProofSp3File: complete epochs, whole files, termination and bounds. *)
From Coq Require Import Qround.
From Verif Require Import Base BaseLemmas CNum CNumLemmas Stream ModelSatsys ModelSp3 SpecText SpecNum SpecObs SpecSp3
  ProofText ProofNum ProofStream ProofSp3 ProofSp3Epoch.
From Verif Require ProofEpoch ProofObsMisc.

Lemma loop_more : forall k j st line t vec it f,
  sp3_loop k st line t vec it f <> Fuel -> sp3_loop (k + j) st line t vec it f = sp3_loop k st line t vec it f.
Proof.
  induction k as [|k IH]; intros j st line t vec it f H; [exfalso; apply H; reflexivity|].
  cbn [Nat.add sp3_loop] in *. destruct (peek st) as [st1 c]. destruct (match c with Some x => ceqb x "*" | None => false end); [reflexivity|].
  destruct (getline st1 line MAX_RECORD_CHARS) as [[st2 line2]| | | |]; cbn [bind] in *; try reflexivity.
  destruct (rd line2 0) as [c0| | | |]; cbn [bind] in *; try reflexivity.
  destruct (ceqb c0 "P"%char).
  - destruct (sp3_position line2 f) as [[j'|r]| | | |]; cbn [bind] in *; try reflexivity.
    destruct (put_rec vec it r) as [vec'| | | |]; cbn [bind] in *; try reflexivity. apply IH. exact H.
  - destruct (strncmp_lit line2 0 "EOF" 3) as [[]| | | |]; cbn [bind] in *; try reflexivity. apply IH. exact H.
Qed.

Import ProofObsMisc.
Lemma calm_numbers n : forall line i k, calm (sp3_numbers n line i k).
Proof.
  induction n as [|n IH]; intros; cbn [sp3_numbers]; [exact I|]. unfold strtod_at. apply calm_bind; [calmly|]. intros [[v u] er].
  destruct (er || (u =? 0)); [exact I|]. apply calm_bind; [apply IH|]. intros [c|vs]; exact I.
Qed.
Lemma satsys_calm c : char_to_satsys c = Exn \/ exists s, char_to_satsys c = Val s.
Proof. unfold char_to_satsys. repeat match goal with |- context [if ?b then _ else _] => destruct b end; eauto. Qed.
Lemma calm_position line f : calm (sp3_position line f).
Proof.
  unfold sp3_position. cbv zeta. apply calm_bind; [apply calm_rd|]. intro c0. destruct (negb _); [exact I|].
  apply calm_bind; [apply calm_rd|]. intro c1. destruct (satsys_calm c1) as [->|(s & ->)]; [exact I|].
  unfold strtol_at. apply calm_bind; [calmly|]. intros [[prn u] er]. destruct (er || (u =? 0)); [exact I|].
  apply calm_bind; [apply calm_numbers|]. intros [c|[|x [|y [|z [|k [|]]]]]]; try exact I.
  calmly.
Qed.

(** one iteration *)
Lemma loop_step st line t vec it f : length line = 128 -> it <= length vec ->
  (exists r, r <> Fuel /\ r <> Exn /\ r <> Term /\ (forall k, sp3_loop (S k) st line t vec it f = r) /\
     forall q, r = Val q -> q_vec q = vec /\ q_time q = Some t /\
       (q_sats q = Some it /\ (q_code q = 0 \/ q_code q = -1)%Z \/
        q_sats q = None /\ exists j f' l, sp3_position l f' = Val (inl j) /\ q_code q = (j + 20)%Z)) \/
  (exists st2 line2 vec2 it2 f2, length line2 = 128 /\ (good st2 = false \/ (good st = true /\ length (rest st2) < length (rest st))) /\
     length vec2 = length vec /\ it <= it2 <= length vec /\
     forall k, sp3_loop (S k) st line t vec it f = sp3_loop k st2 line2 t vec2 it2 f2).
Proof.
  intros Hl Hit. cbn [sp3_loop]. destruct (peek st) as [st1 c] eqn:Pk.
  destruct (match c with Some x => ceqb x "*" | None => false end) eqn:Es.
  { left. eexists. split; [|split; [|split; [|split; [intro; reflexivity|]]]]; try discriminate.
    intros q E. apply Val_inj in E. subst q. auto 10. }
  assert (P1 : (good st = false /\ good st1 = false) \/ (good st = true /\ good st1 = false) \/
               (good st = true /\ st1 = st /\ rest st <> [])).
  { unfold peek in Pk. destruct (good st) eqn:G.
    - destruct (rest st) eqn:R; injection Pk as <- <-; [right; left|right; right]; split; auto.
      split; [reflexivity|discriminate].
    - injection Pk as <- <-. left. split; [reflexivity|]. unfold good. cbn. apply andb_false_r. }
  change MAX_RECORD_CHARS with 128.
  destruct (ProofEpoch.getline_shape st1 line 128 ltac:(lia) ltac:(lia)) as (st2 & l & G & Ll & _ & Q). rewrite G. cbn [bind].
  assert (Lo : length (overlay l line) = 128) by (rewrite overlay_length; lia).
  assert (Dec : good st2 = false \/ (good st = true /\ length (rest st2) < length (rest st))).
  { destruct Q as [(G1 & G2 & E)|[(G2 & _)|(_ & G2 & _)]]; [|left; exact G2|left; exact G2].
    destruct P1 as [(_ & P)|[(_ & P)|(P & -> & _)]]; try (rewrite P in G1; discriminate).
    right. split; [exact P|]. rewrite E, app_length. cbn [length]. lia. }
  pose proof (calm_rd (overlay l line) 0) as C0.
  destruct (rd (overlay l line) 0) as [c0| | | |]; try contradiction; cbn [bind].
  2:{ left. exists UB. repeat split; try discriminate. }
  destruct (ceqb c0 "P"%char).
  - pose proof (calm_position (overlay l line) f) as C1.
    destruct (sp3_position (overlay l line) f) as [[j|r]| | | |] eqn:Ep; try contradiction; cbn [bind].
    + left. eexists. split; [|split; [|split; [|split; [intro; reflexivity|]]]]; try discriminate.
      intros q E. apply Val_inj in E. subst q. split; [reflexivity|]. split; [reflexivity|]. right. split; [reflexivity|]. eauto 10.
    + unfold put_rec. destruct (Nat.ltb_spec it (length vec)); cbn [bind].
      * right. exists st2, (overlay l line), (firstn it vec ++ r :: skipn (S it) vec), (S it), (p_flag r).
        split; [exact Lo|]. split; [exact Dec|]. split; [|split; [lia|reflexivity]].
        rewrite app_length, firstn_length. cbn [length]. rewrite skipn_length. lia.
      * left. exists UB. repeat split; try discriminate.
    + left. exists UB. repeat split; try discriminate.
  - pose proof (calm_strncmp_lit (overlay l line) 0 "EOF" 3) as C2.
    destruct (strncmp_lit (overlay l line) 0 "EOF" 3) as [[]| | | |]; try contradiction; cbn [bind].
    + left. eexists. split; [|split; [|split; [|split; [intro; reflexivity|]]]]; try discriminate.
      intros q E. apply Val_inj in E. subst q. auto 10.
    + right. exists st2, (overlay l line), vec, it, f. split; [exact Lo|]. split; [exact Dec|]. split; [reflexivity|]. split; [lia|reflexivity].
    + left. exists UB. repeat split; try discriminate.
Qed.

(** bytes left to read bound the iterations: either the loop ends within that many, or never *)
Lemma loop_bytes : forall n st line t vec it f, length (rest st) <= n -> length line = 128 -> it <= length vec ->
  sp3_loop (S (S n)) st line t vec it f <> Fuel \/ forall k, sp3_loop k st line t vec it f = Fuel.
Proof.
  induction n as [|n IH]; intros st line t vec it f Hn Hl Hit;
    (destruct (loop_step st line t vec it f Hl Hit) as [(r & Nr & _ & _ & Er & _)|(st2 & l2 & v2 & i2 & f2 & L2 & Dec & Lv & Li & E)];
     [left; rewrite Er; exact Nr|]);
    (destruct Dec as [G|(G & D)]; [right; intros [|k]; [reflexivity|]; rewrite E; apply loop_dead; assumption|]).
  - lia.
  - rewrite E. destruct (IH st2 l2 t v2 i2 f2 ltac:(lia) L2 ltac:(lia)) as [H|H]; [left; exact H|].
    right. intros [|k]; [reflexivity|]. rewrite E. apply H.
Qed.

(** what any result means *)
Lemma loop_result : forall k st line t vec it f, length line = 128 -> it <= length vec ->
  match sp3_loop k st line t vec it f with
  | Exn | Term => False
  | UB | Fuel => True
  | Val q => length (q_vec q) = length vec /\ q_time q = Some t /\
      ((exists n, q_sats q = Some n /\ n <= length vec /\ (q_code q = 0 \/ q_code q = -1)%Z) \/
       q_sats q = None /\ exists j f' l, sp3_position l f' = Val (inl j) /\ q_code q = (j + 20)%Z)
  end.
Proof.
  induction k as [|k IH]; intros st line t vec it f Hl Hit; [exact I|].
  destruct (loop_step st line t vec it f Hl Hit) as [(r & Nr & N1 & N2 & Er & Q)|(st2 & l2 & v2 & i2 & f2 & L2 & _ & Lv & Li & E)].
  - rewrite Er. destruct r as [q| | | |]; try exact I; try congruence. destruct (Q q eq_refl) as (-> & -> & [(-> & C)|(-> & R)]).
    + split; [reflexivity|]. split; [reflexivity|]. left. exists it. auto.
    + split; [reflexivity|]. split; [reflexivity|]. right. auto.
  - rewrite E. specialize (IH st2 l2 t v2 i2 f2 L2 ltac:(lia)). rewrite Lv in IH. exact IH.
Qed.

Lemma numbers_code n : forall line i k c, sp3_numbers n line i k = Val (inl c) -> (5 + i <= c < 5 + i + Z.of_nat n)%Z.
Proof.
  induction n as [|n IH]; intros line i k c H; cbn [sp3_numbers] in H; [discriminate|].
  apply bind_val in H as ([[v u] er] & _ & H). destruct (er || (u =? 0)).
  - apply Val_inj in H. assert (Hc : (5 + i)%Z = c) by (injection H; auto). clear H. rewrite Nat2Z.inj_succ. lia.
  - apply bind_val in H as ([d|vs] & E & H); apply Val_inj in H; [|discriminate]. assert (Hd : d = c) by (injection H; auto). subst d.
    apply IH in E. rewrite Nat2Z.inj_succ. lia.
Qed.
Lemma position_code line f j : rd line 0 = Val "P"%char -> sp3_position line f = Val (inl j) -> (3 <= j <= 8)%Z.
Proof.
  intros R H. unfold sp3_position in H. cbv zeta in H. rewrite R in H. cbn [bind] in H. rewrite ceqb_refl in H. cbn [negb] in H.
  apply bind_val in H as (c1 & _ & H).
  destruct (satsys_calm c1) as [Q|(s & Q)]; rewrite Q in H; [injection H as <-; lia|].
  apply bind_val in H as ([[prn u] er] & _ & H). destruct (er || (u =? 0)); [injection H as <-; lia|].
  apply bind_val in H as ([c|vs] & E & H).
  - injection H as <-. apply numbers_code in E. lia.
  - destruct vs as [|x [|y [|z [|k [|]]]]]; try discriminate.
    repeat (apply bind_val in H as (? & _ & H)). discriminate.
Qed.

(** ** complete epochs *)
Definition sp3_epoch_ok (e : sp3_src) (is : list sp3_item) : Prop := sp3_src_ok e /\ Forall sp3_item_ok is.
(** the first entries hold the records, the others are unchanged *)
Definition sp3_delivers (new : list pos_src) (old vec : list sp3rec) : Prop :=
  length vec = length old /\
  (forall i p, nth_error new i = Some p -> exists r, nth_error vec i = Some r /\ is_record "E"%char r p) /\
  (forall i, length new <= i -> nth_error vec i = nth_error old i).
Lemma fill_sp3_delivers is vec : length (records is) <= length vec ->
  sp3_delivers (positions is) vec (fill_from 0 (records is) vec).
Proof.
  intro H. unfold records in *. rewrite map_length in H. split; [apply fill_from_length; rewrite map_length; exact H|].
  unfold fill_from. cbn [firstn app]. rewrite map_length. split.
  - intros i p E. assert (i < length (positions is)) by (apply nth_error_Some; congruence).
    exists (rec_of p). split; [|apply rec_of_is]. rewrite nth_error_app1 by (rewrite map_length; lia).
    rewrite nth_error_map, E. reflexivity.
  - intros i Hi. rewrite nth_error_app2 by (rewrite map_length; lia). rewrite map_length.
    cbn [Nat.add]. rewrite <- (firstn_skipn (length (positions is)) vec) at 2.
    rewrite nth_error_app2 by (rewrite firstn_length; lia). rewrite firstn_length. f_equal. lia.
Qed.

Lemma head_shape e is tail st : at_rest st (sp3_epoch_text e is ++ tail) -> sp3_src_ok e ->
  exists st1 line, good st = true /\ getline st (uninit 128) 128 = Val (st1, line) /\ length line = 128 /\
    at_rest st1 (sp3_items_text is ++ tail) /\ sdata st1 = sdata st /\
    sp3_epoch_header line = Val (inr (time_of e)).
Proof.
  intros Hr He.
  assert (Hr' : at_rest st (sp3_epoch_line e ++ NL :: (sp3_items_text is ++ tail))).
  { destruct Hr as [G R]. split; [exact G|]. rewrite R. unfold sp3_epoch_text. rewrite <- app_assoc. reflexivity. }
  pose proof (sp3_epoch_length e He) as L. pose proof (sp3_epoch_clean e He) as C.
  assert (Pd : t_pad e <= 90) by (destruct He; tauto).
  destruct (getline_line st (uninit 128) 128 _ _ Hr' (clean_nonl _ C) ltac:(lia) ltac:(unfold uninit; rewrite repeat_length; lia))
    as (st1 & G & R & D & _).
  exists st1, (overlay (sp3_epoch_line e) (uninit 128)). split; [destruct Hr; assumption|]. split; [exact G|].
  split; [rewrite overlay_length; [reflexivity|unfold uninit; rewrite repeat_length; lia]|]. split; [exact R|].
  split; [exact D|]. apply epoch_header_exact. exact He.
Qed.

Lemma records_len is : length (records is) = length (positions is).
Proof. apply map_length. Qed.

(** followed by another epoch *)
Theorem sp3_epoch_next e is tail st vec : sp3_epoch_ok e is -> at_rest st (sp3_epoch_text e is ++ "*"%char :: tail) ->
  length (positions is) <= length vec ->
  exists q, (forall k, length is < k -> sp3_next_epoch k st vec = Val q) /\
    q_code q = 0%Z /\ (exists t, q_time q = Some t /\ is_time t e) /\ q_sats q = Some (length (positions is)) /\
    sp3_delivers (positions is) vec (q_vec q) /\ at_rest (q_stream q) ("*"%char :: tail) /\ sdata (q_stream q) = sdata st.
Proof.
  intros [He Hi] Hr Hv. destruct (head_shape e is _ st Hr He) as (st1 & line & G & GL & L & R & D & EH).
  rewrite <- records_len in Hv.
  destruct (ProofSp3Epoch.loop_items is 1 st1 line (time_of e) vec 0 0%Z ("*"%char :: tail) Hi R L ltac:(lia))
    as (st2 & line2 & f2 & R2 & D2 & _ & L2 & E2).
  assert (E1 : sp3_loop (length is + 1) st1 line (time_of e) vec 0 0%Z =
     Val (mkSp3Res 0 (Some (time_of e)) (fill_from 0 (records is) vec) (Some (length (records is))) st2)).
  { rewrite E2. cbn [sp3_loop]. rewrite (peek_other st2 _ "*"%char tail R2 eq_refl). rewrite ceqb_refl. reflexivity. }
  eexists. split.
  { intros k Hk. unfold sp3_next_epoch. rewrite G. cbn [negb]. change MAX_RECORD_CHARS with 128. rewrite GL. cbn [bind]. rewrite EH. cbn [bind].
    replace k with ((length is + 1) + (k - length is - 1)) by lia. rewrite loop_more; [exact E1|]. rewrite E1. discriminate. }
  cbn. split; [reflexivity|]. split; [exists (time_of e); split; [reflexivity|apply time_of_is]|].
  split; [f_equal; apply records_len|]. split; [apply fill_sp3_delivers; exact Hv|]. split; [exact R2|congruence].
Qed.

(** followed by the EOF line *)
Theorem sp3_epoch_last e is l tail st vec : sp3_epoch_ok e is -> clean l -> length l <= 124 ->
  at_rest st (sp3_epoch_text e is ++ lit "EOF" ++ l ++ tail) -> (tail = [] \/ exists t, tail = NL :: t) ->
  length (positions is) <= length vec ->
  exists q, (forall k, length is < k -> sp3_next_epoch k st vec = Val q) /\
    q_code q = (-1)%Z /\ (exists t, q_time q = Some t /\ is_time t e) /\ q_sats q = Some (length (positions is)) /\
    sp3_delivers (positions is) vec (q_vec q).
Proof.
  intros [He Hi] Cl Ll Hr Ht Hv. destruct (head_shape e is _ st Hr He) as (st1 & line & G & GL & L & R & D & EH).
  rewrite <- records_len in Hv.
  destruct (ProofSp3Epoch.loop_items is 1 st1 line (time_of e) vec 0 0%Z _ Hi R L ltac:(lia))
    as (st2 & line2 & f2 & R2 & D2 & _ & L2 & E2).
  assert (Ce : clean (lit "EOF" ++ l)) by (apply clean_app'; [repeat constructor; discriminate|exact Cl]).
  assert (Gl : exists st3, getline st2 line2 128 = Val (st3, overlay (lit "EOF" ++ l) line2)).
  { rewrite app_assoc in R2. destruct Ht as [->|(t & ->)].
    - rewrite app_nil_r in R2. destruct (getline_last st2 line2 128 (lit "EOF" ++ l) R2 (clean_nonl _ Ce)) as (s & Q & _);
        [discriminate|rewrite app_length; cbn; lia|lia|eauto].
    - destruct (getline_line st2 line2 128 (lit "EOF" ++ l) t R2 (clean_nonl _ Ce)) as (s & Q & _);
        [rewrite app_length; cbn; lia|lia|eauto]. }
  destruct Gl as (st3 & Gl).
  assert (E1 : sp3_loop (length is + 1) st1 line (time_of e) vec 0 0%Z =
     Val (mkSp3Res (-1) (Some (time_of e)) (fill_from 0 (records is) vec) (Some (length (records is))) st3)).
  { rewrite E2. cbn [sp3_loop]. rewrite (peek_other st2 _ "E"%char (lit "OF" ++ l ++ tail) R2 eq_refl).
    replace (ceqb "E" "*") with false by reflexivity. change MAX_RECORD_CHARS with 128. rewrite Gl. cbn [bind].
    rewrite (rd_overlay (lit "EOF" ++ l) line2 0 "E"%char) by reflexivity. cbn [bind].
    replace (ceqb "E" "P") with false by reflexivity. rewrite strncmp_eof_yes. reflexivity. }
  eexists. split.
  { intros k Hk. unfold sp3_next_epoch. rewrite G. cbn [negb]. change MAX_RECORD_CHARS with 128. rewrite GL. cbn [bind]. rewrite EH. cbn [bind].
    replace k with ((length is + 1) + (k - length is - 1)) by lia. rewrite loop_more; [exact E1|]. rewrite E1. discriminate. }
  cbn. split; [reflexivity|]. split; [exists (time_of e); split; [reflexivity|apply time_of_is]|].
  split; [f_equal; apply records_len|]. apply fill_sp3_delivers. exact Hv.
Qed.

(** followed by nothing *)
Theorem sp3_epoch_hangs e is st vec : sp3_epoch_ok e is -> at_rest st (sp3_epoch_text e is) ->
  length (positions is) <= length vec -> forall k, sp3_next_epoch k st vec = Fuel.
Proof.
  intros [He Hi] Hr Hv k. rewrite <- (app_nil_r (sp3_epoch_text e is)) in Hr.
  destruct (head_shape e is _ st Hr He) as (st1 & line & G & GL & L & R & D & EH). rewrite app_nil_r in R.
  unfold sp3_next_epoch. rewrite G. cbn [negb]. change MAX_RECORD_CHARS with 128. rewrite GL. cbn [bind]. rewrite EH. cbn [bind].
  apply loop_no_end with (is := is); auto. rewrite records_len. cbn. exact Hv.
Qed.

(** more records than entries *)
Theorem sp3_epoch_overflow e is tail st vec : sp3_epoch_ok e is -> at_rest st (sp3_epoch_text e is ++ tail) ->
  length vec < length (positions is) -> forall k, length is <= k -> sp3_next_epoch k st vec = UB.
Proof.
  intros [He Hi] Hr Hv k Hk. destruct (head_shape e is _ st Hr He) as (st1 & line & G & GL & L & R & D & EH).
  unfold sp3_next_epoch. rewrite G. cbn [negb]. change MAX_RECORD_CHARS with 128. rewrite GL. cbn [bind]. rewrite EH. cbn [bind].
  eapply loop_overflow; eauto; [lia|]. rewrite records_len. cbn. exact Hv.
Qed.

(** ** any content *)
Lemma calm_usec v : calm (to_usec v).
Proof. unfold to_usec. destruct v; try exact I. cbv zeta. destruct (_ && _); exact I. Qed.
Lemma calm_date n : forall line i k, calm (sp3_date n line i k).
Proof.
  induction n as [|n IH]; intros; cbn [sp3_date]; [exact I|]. unfold strtol_at. apply calm_bind; [calmly|]. intros [[v u] er].
  destruct (er || (u =? 0)); [exact I|]. apply calm_bind; [apply IH|]. intros [c|vs]; exact I.
Qed.
Lemma calm_header line : calm (sp3_epoch_header line).
Proof.
  unfold sp3_epoch_header. apply calm_bind; [apply calm_rd|]. intro c0. destruct (negb _); [exact I|].
  apply calm_bind; [apply calm_rd|]. intro c1. destruct (negb _); [exact I|].
  unfold strtol_at. apply calm_bind; [calmly|]. intros [[y u] er]. destruct (_ || er); [exact I|].
  apply calm_bind; [apply calm_date|]. intros [c|ds]; [exact I|].
  unfold strtod_at. apply calm_bind; [calmly|]. intros [[v u'] er']. destruct (_ || _); [exact I|].
  apply calm_bind; [apply calm_usec|]. intro; exact I.
Qed.
Lemma getline_len st buf n st' b : getline st buf n = Val (st', b) -> length b = length buf.
Proof.
  unfold getline, wr_bytes. destruct (good st).
  - destruct (take_line (n - 1) (rest st)) as [t e]. destruct (Nat.leb_spec (0 + length (map Some t ++ [Some NUL])) (length buf)); [|discriminate].
    cbn [bind]. intro Q. apply Val_inj in Q. injection Q as _ <-. cbn [firstn app]. rewrite app_length, skipn_length. lia.
  - destruct (Nat.leb_spec (0 + length [Some NUL]) (length buf)) as [Q|]; [|discriminate].
    cbn [bind]. intro E. apply Val_inj in E. injection E as _ <-. destruct buf; cbn in *; lia.
Qed.
Lemma rest_shorter st buf n st' b : getline st buf n = Val (st', b) -> length (rest st') <= length (rest st).
Proof.
  intro H. assert (E : exists k, rest st' = skipn k (rest st)).
  { unfold getline in H. destruct (good st).
    - destruct (take_line (n - 1) (rest st)) as [t e]. apply bind_val in H as (b' & _ & H). apply Val_inj in H. injection H as <- _.
      exists (length t + match e with LDelim => 1 | _ => 0 end).
      unfold rest. rewrite skipn_skipn. rewrite (Nat.add_comm _ (spos st)). destruct t, e; reflexivity.
    - apply bind_val in H as (b' & _ & H). apply Val_inj in H. injection H as <- _. exists 0. reflexivity. }
  destruct E as (k & ->). rewrite skipn_length. lia.
Qed.
Theorem sp3_fuel_adequate st vec :
  sp3_next_epoch (S (S (length (rest st)))) st vec <> Fuel \/ forall k, sp3_next_epoch k st vec = Fuel.
Proof.
  unfold sp3_next_epoch. destruct (negb (good st)); [left; discriminate|]. change MAX_RECORD_CHARS with 128.
  pose proof (calm_getline st (uninit 128) 128) as C.
  destruct (getline st (uninit 128) 128) as [[st1 line]| | | |] eqn:G; cbn [bind]; try contradiction; [|left; discriminate].
  pose proof (getline_len _ _ _ _ _ G) as L. unfold uninit in L. rewrite repeat_length in L.
  pose proof (rest_shorter _ _ _ _ _ G) as S1.
  destruct (sp3_epoch_header line) as [[j|t]| | | |] eqn:E; cbn [bind].
  - left. discriminate.
  - destruct (loop_bytes (length (rest st)) st1 line t vec 0 0%Z S1 L (Nat.le_0_l _)) as [H|H]; auto.
  - left; discriminate.
  - left; discriminate.
  - left; discriminate.
  - exfalso. pose proof (calm_header line) as Q. rewrite E in Q. exact Q.
Qed.

(** ** return value 0, any content *)
Definition starts (c : ascii) (l : list ascii) : bool := match l with x :: _ => ceqb x c | [] => false end.
Definition count_p (ls : list (list ascii)) : nat := length (filter (starts "P"%char) ls).
Definition file_line (l : list ascii) : Prop := ~ In NL l /\ length l <= 127 /\ starts "*"%char l = false.

Lemma sp3_getline_data st buf n st' b : getline st buf n = Val (st', b) -> sdata st' = sdata st.
Proof.
  unfold getline. destruct (good st).
  - destruct (take_line (n - 1) (rest st)) as [t e]. intro H. apply bind_val in H as (b' & _ & H). apply Val_inj in H. injection H as <- _.
    destruct t, e; reflexivity.
  - intro H. apply bind_val in H as (b' & _ & H). apply Val_inj in H. injection H as <- _. reflexivity.
Qed.
Lemma rd0_overlay l buf : rd (overlay l buf) 0 = Val (match l with x :: _ => x | [] => NUL end).
Proof. destruct l; reflexivity. Qed.

Lemma loop_zero : forall k st line t vec it f q, length line = 128 -> it <= length vec ->
  sp3_loop k st line t vec it f = Val q -> q_code q = 0%Z ->
  exists ls tail, at_rest st (text_of ls ++ "*"%char :: tail) /\ Forall file_line ls /\
    at_rest (q_stream q) ("*"%char :: tail) /\ sdata (q_stream q) = sdata st /\ q_sats q = Some (it + count_p ls).
Proof.
  induction k as [|k IH]; intros st line t vec it f q Hl Hit H Hq; [discriminate|].
  cbn [sp3_loop] in H. destruct (peek st) as [st1 c] eqn:Pk.
  destruct (match c with Some x => ceqb x "*" | None => false end) eqn:Es.
  { apply Val_inj in H. subst q. cbn. unfold peek in Pk. destruct (good st) eqn:G; [|injection Pk as <- <-; discriminate].
    destruct (rest st) as [|x r] eqn:R; injection Pk as <- <-; [discriminate|]. apply ceqb_eq in Es. subst x.
    exists [], r. cbn. rewrite Nat.add_0_r. repeat split; auto. }
  assert (P1 : good st1 = false \/ (st1 = st /\ good st = true)).
  { unfold peek in Pk. destruct (good st) eqn:G.
    - destruct (rest st) eqn:R; injection Pk as <- <-; [left|right]; auto.
    - injection Pk as <- <-. left. unfold good. cbn. apply andb_false_r. }
  change MAX_RECORD_CHARS with 128 in H.
  destruct (ProofEpoch.getline_shape_nl st1 line 128 ltac:(lia) ltac:(lia)) as (st2 & l & G & Ll & NNl & SD2 & Q). rewrite G in H. cbn [bind] in H.
  assert (Lo : length (overlay l line) = 128) by (rewrite overlay_length; lia).
  rewrite rd0_overlay in H. cbn [bind] in H.
  assert (Fin : good st2 = true -> forall vec' it' f', it' <= length vec' ->
     it' = it + (if starts "P"%char l then 1 else 0) ->
     sp3_loop k st2 (overlay l line) t vec' it' f' = Val q ->
     exists ls tail, at_rest st (text_of ls ++ "*"%char :: tail) /\ Forall file_line ls /\
       at_rest (q_stream q) ("*"%char :: tail) /\ sdata (q_stream q) = sdata st /\ q_sats q = Some (it + count_p ls)).
  { intros Gd vec' it' f' Hv Hi HL.
    destruct Q as [(G1 & G2 & E)|[(G2 & _)|(_ & G2 & _)]]; [|congruence|congruence].
    destruct P1 as [P|(-> & P)]; [congruence|].
    destruct (IH _ _ _ _ _ _ _ Lo Hv HL Hq) as (ls & tail & (_ & R) & F & RQ & SD & C).
    exists (l :: ls), tail. split; [split; [exact P|]|].
    - cbn [text_of flat_map]. rewrite E. fold (text_of ls). rewrite R, <- !app_assoc. reflexivity.
    - split; [constructor; [|exact F]|].
      + split; [exact NNl|]. split; [lia|]. destruct l as [|x l]; [reflexivity|]. cbn [starts].
        unfold peek in Pk. rewrite P, E in Pk. cbn [app] in Pk. injection Pk as <-. exact Es.
      + split; [exact RQ|]. split; [rewrite SD; exact (sp3_getline_data _ _ _ _ _ G)|]. rewrite C, Hi. f_equal. unfold count_p. cbn [filter].
        destruct (starts "P"%char l); cbn [length]; lia. }
  assert (Dead : good st2 = false -> forall vec' it' f', sp3_loop k st2 (overlay l line) t vec' it' f' = Val q -> False).
  { intros B vec' it' f' HL. rewrite loop_dead in HL by assumption. discriminate. }
  destruct (ceqb (match l with x :: _ => x | [] => NUL end) "P"%char) eqn:EP.
  - assert (SP : starts "P"%char l = true) by (destruct l; [discriminate|exact EP]).
    apply ceqb_eq in EP.
    destruct (sp3_position (overlay l line) f) as [[j|r]| | | |] eqn:Ep; cbn [bind] in H; try discriminate.
    + apply Val_inj in H. subst q. cbn in Hq. apply position_code in Ep; [lia|]. rewrite rd0_overlay, EP. reflexivity.
    + apply bind_val in H as (vec' & Pv & H). unfold put_rec in Pv. destruct (Nat.ltb_spec it (length vec)) as [Lt|]; [|discriminate].
      apply Val_inj in Pv. subst vec'.
      destruct (good st2) eqn:G2; [|exfalso; eapply Dead; eauto].
      eapply Fin; [reflexivity| | |exact H]; [|rewrite SP; lia].
      rewrite app_length, firstn_length. cbn [length]. rewrite skipn_length. lia.
  - assert (SP : starts "P"%char l = false) by (destruct l; [reflexivity|exact EP]).
    apply bind_val in H as (e & _ & H). destruct e; [apply Val_inj in H; subst q; discriminate|].
    destruct (good st2) eqn:G2; [|exfalso; eapply Dead; eauto].
    eapply Fin; [reflexivity|exact Hit| |exact H]. rewrite SP. lia.
Qed.

Theorem sp3_zero_any k st vec q : sp3_next_epoch k st vec = Val q -> q_code q = 0%Z ->
  exists hl ls tail, at_rest st (text_of (hl :: ls) ++ "*"%char :: tail) /\ Forall file_line ls /\
    at_rest (q_stream q) ("*"%char :: tail) /\ sdata (q_stream q) = sdata st /\ q_sats q = Some (count_p ls).
Proof.
  intros H Hq. unfold sp3_next_epoch in H. destruct (good st) eqn:G; cbn [negb] in H; [|apply Val_inj in H; subst q; discriminate].
  change MAX_RECORD_CHARS with 128 in H.
  assert (U : 128 <= length (uninit 128)) by (unfold uninit; rewrite repeat_length; lia).
  destruct (ProofEpoch.getline_shape_nl st (uninit 128) 128 ltac:(lia) U) as (st2 & l & GL & Ll & NNl & SD2 & Q). rewrite GL in H. cbn [bind] in H.
  assert (Lo : length (overlay l (uninit 128)) = 128) by (rewrite overlay_length; unfold uninit; rewrite repeat_length; lia).
  apply bind_val in H as ([j|t] & EH & H).
  - apply Val_inj in H. subst q. cbn in Hq. subst j. exfalso. revert EH. clear. intro EH.
    unfold sp3_epoch_header in EH. apply bind_val in EH as (c0 & _ & EH). destruct (negb _); [discriminate|].
    apply bind_val in EH as (c1 & _ & EH). destruct (negb _); [discriminate|].
    apply bind_val in EH as ([[y u] er] & _ & EH). destruct (_ || _); [discriminate|].
    apply bind_val in EH as ([c|ds] & ED & EH).
    + injection EH as ->. revert ED. cut (forall n line i k, (0 < 5 + i)%Z -> sp3_date n line i k <> Val (inl 0%Z)).
      { intros C E. exact (C 4 _ 1%Z 8 ltac:(lia) E). }
      induction n as [|n IH]; intros line i k Hi E; cbn [sp3_date] in E; [discriminate|].
      apply bind_val in E as ([[v u'] er'] & _ & E). destruct (er' || _); [assert (X : (5 + i)%Z = 0%Z) by congruence; lia|].
      apply bind_val in E as ([c|vs] & E' & E); [|discriminate]. injection E as ->. (eapply IH; [|exact E']; lia).
    + apply bind_val in EH as ([[v u'] er'] & _ & EH). destruct (_ || _); [discriminate|].
      apply bind_val in EH as (? & _ & EH). discriminate.
  - destruct (good st2) eqn:G2; [|rewrite loop_dead in H by assumption; discriminate].
    destruct (loop_zero _ _ _ _ _ _ _ _ Lo (Nat.le_0_l _) H Hq) as (ls & tail & (_ & R) & F & RQ & SD & C).
    exists l, ls, tail. destruct Q as [(G1 & _ & E)|[(B & _)|(_ & B & _)]]; [|congruence|congruence].
    split; [split; [exact G|]|].
    + cbn [text_of flat_map]. rewrite E. fold (text_of ls). rewrite R, <- !app_assoc. reflexivity.
    + split; [exact F|]. split; [exact RQ|]. split; [rewrite SD; exact (sp3_getline_data _ _ _ _ _ GL)|exact C].
Qed.
