(** ProofStream: facts about getline, peek, seekg. *)
From Verif Require Import Base BaseLemmas Stream.

Lemma take_line_cons k c r :
  take_line k (c :: r) =
  if ceqb c NL then ([], LDelim)
  else match k with
       | O => ([], LFull)
       | S k' => let (t, e) := take_line k' r in (c :: t, e)
       end.
Proof. destruct k; reflexivity. Qed.

Lemma take_line_nl k l t : ~ In NL l -> length l <= k -> take_line k (l ++ NL :: t) = (l, LDelim).
Proof.
  revert k; induction l as [|c l IH]; intros k Hn Hk; cbn [app].
  - destruct k; reflexivity.
  - rewrite take_line_cons. assert (c <> NL) by (intro; subst; apply Hn; left; auto).
    apply ceqb_neq in H. rewrite H. destruct k; [simpl in Hk; lia|].
    rewrite IH; [reflexivity| |simpl in Hk; lia]. intro. apply Hn. right. auto.
Qed.

Lemma take_line_eof k l : ~ In NL l -> length l <= k -> take_line k l = (l, LEof).
Proof.
  revert k; induction l as [|c l IH]; intros k Hn Hk.
  - destruct k; reflexivity.
  - rewrite take_line_cons. assert (c <> NL) by (intro; subst; apply Hn; left; auto).
    apply ceqb_neq in H. rewrite H. destruct k; [simpl in Hk; lia|].
    rewrite IH; [reflexivity| |simpl in Hk; lia]. intro. apply Hn. right. auto.
Qed.

Lemma take_line_full k l t c :
  ~ In NL (l ++ [c]) -> length l = k -> take_line k (l ++ c :: t) = (l, LFull).
Proof.
  revert k; induction l as [|a l IH]; intros k Hn Hk; cbn [app].
  - simpl in Hk. subst. rewrite take_line_cons. assert (c <> NL) by (intro; subst; apply Hn; left; auto).
    apply ceqb_neq in H. rewrite H. reflexivity.
  - rewrite take_line_cons. assert (a <> NL) by (intro; subst; apply Hn; left; auto).
    apply ceqb_neq in H. rewrite H. destruct k; [simpl in Hk; lia|].
    rewrite IH; [reflexivity| |simpl in Hk; lia]. intro. apply Hn. right. auto.
Qed.

(** every case of take_line *)
Lemma take_line_inv k l t e :
  take_line k l = (t, e) ->
  ~ In NL t /\ length t <= k /\
  match e with
  | LDelim => exists r, l = t ++ NL :: r
  | LEof => l = t
  | LFull => length t = k /\ exists c r, c <> NL /\ l = t ++ c :: r
  end.
Proof.
  revert k t e; induction l as [|c l IH]; intros k t e H.
  - destruct k; inv H; simpl; repeat split; auto; lia.
  - rewrite take_line_cons in H. destruct (ceqb c NL) eqn:E.
    + apply ceqb_eq in E. subst. inv H. simpl. repeat split; auto; try lia. eauto.
    + apply ceqb_neq in E. destruct k as [|k].
      * inv H. simpl. repeat split; auto. eauto.
      * destruct (take_line k l) as [t' e'] eqn:T. inv H.
        destruct (IH _ _ _ T) as (Hn & Hl & He). split; [|split].
        -- intros [Hc|Hc]; auto.
        -- simpl. lia.
        -- destruct e; simpl.
           ++ destruct He as [r ->]. eauto.
           ++ congruence.
           ++ destruct He as (Hk & c' & r & Hc & ->). split; [lia|eauto].
Qed.

Definition at_rest (s : stream) (d : list ascii) : Prop := good s = true /\ rest s = d.

Lemma at_rest_advance s a b :
  at_rest s (a ++ b) -> at_rest (advance s (length a)) b.
Proof.
  intros [G R]. split; [exact G|]. unfold rest, advance in *. simpl.
  rewrite Nat.add_comm, <- skipn_skipn. rewrite R. rewrite skipn_app, skipn_all, Nat.sub_diag. reflexivity.
Qed.

(** what getline leaves in the buffer *)
Definition overlay (l : list ascii) (buf : mem) : mem := map Some l ++ Some NUL :: skipn (S (length l)) buf.

Lemma wr_bytes_overlay l buf :
  length l < length buf -> wr_bytes buf 0 (map Some l ++ [Some NUL]) = Val (overlay l buf).
Proof.
  intro H. unfold wr_bytes. rewrite app_length, map_length. simpl length.
  destruct (Nat.leb_spec (0 + (length l + 1)) (length buf)); [|lia].
  f_equal. unfold overlay. simpl firstn. rewrite <- app_assoc. cbn [app].
  replace (0 + (length l + 1)) with (S (length l)) by lia. reflexivity.
Qed.

Lemma overlay_length l buf : length l < length buf -> length (overlay l buf) = length buf.
Proof. intro H. unfold overlay. rewrite app_length, map_length. cbn [length]. rewrite skipn_length. lia. Qed.

Lemma cstr_overlay l buf : ~ In NUL l -> cstr (overlay l buf) 0 = Val l.
Proof. intro H. unfold cstr, overlay. simpl skipn. apply cstr0_app. exact H. Qed.

Lemma cstr_overlay_off l buf k :
  ~ In NUL l -> k <= length l -> cstr (overlay l buf) k = Val (skipn k l).
Proof.
  intros H Hk. unfold cstr, overlay. rewrite skipn_app, map_length.
  replace (k - length l) with 0 by lia. rewrite skipn_O.
  rewrite skipn_map. apply cstr0_app. intro Hin. apply H.
  rewrite <- (firstn_skipn k l). apply in_or_app. auto.
Qed.

Lemma rd_overlay l buf k c : nth_error l k = Some c -> rd (overlay l buf) k = Val c.
Proof.
  intro H. unfold rd, overlay.
  assert (k < length l) by (apply nth_error_Some; congruence).
  rewrite nth_error_app1 by (rewrite map_length; auto).
  rewrite nth_error_map, H. reflexivity.
Qed.

Lemma rd_overlay_nul l buf : rd (overlay l buf) (length l) = Val NUL.
Proof.
  unfold rd, overlay. rewrite nth_error_app2 by (rewrite map_length; auto).
  rewrite map_length, Nat.sub_diag. reflexivity.
Qed.

(** a complete line that fits *)
Lemma getline_line s buf n l t :
  at_rest s (l ++ NL :: t) -> ~ In NL l -> length l < n -> n <= length buf ->
  exists s', getline s buf n = Val (s', overlay l buf) /\ at_rest s' t /\
    sdata s' = sdata s /\ spos s' = spos s + length l + 1 /\ seof s' = false /\ sfail s' = false.
Proof.
  intros [G R] Hn Hl Hb. unfold getline. rewrite G, R.
  rewrite take_line_nl by (auto; lia).
  rewrite wr_bytes_overlay by lia. cbn [bind].
  exists (advance s (length l + 1)). split; [|split].
  - destruct l; reflexivity.
  - replace (l ++ NL :: t) with ((l ++ [NL]) ++ t) in R by (rewrite <- app_assoc; reflexivity).
    replace (length l + 1) with (length (l ++ [NL])) by (rewrite app_length; reflexivity).
    apply at_rest_advance. split; auto.
  - unfold advance. simpl. unfold good in G. destruct (seof s), (sfail s); try discriminate.
    repeat split. lia.
Qed.

(** the last line, not terminated by a newline *)
Lemma getline_last s buf n l :
  at_rest s l -> ~ In NL l -> l <> [] -> length l < n -> n <= length buf ->
  exists s', getline s buf n = Val (s', overlay l buf) /\ seof s' = true /\ sfail s' = false /\ rest s' = [].
Proof.
  intros [G R] Hn Hne Hl Hb. unfold getline. rewrite G, R.
  rewrite take_line_eof by (auto; lia).
  rewrite wr_bytes_overlay by lia. cbn [bind].
  exists (set_eof (advance s (length l + 0))).
  split; [|split; [|split]].
  - destruct l; [congruence|]. reflexivity.
  - reflexivity.
  - simpl. unfold good in G. destruct (seof s), (sfail s); try discriminate; reflexivity.
  - unfold rest, set_eof, advance. simpl. rewrite Nat.add_0_r.
    unfold rest in R. rewrite <- R, skipn_length. 
    apply skipn_all2. destruct (Nat.le_gt_cases (spos s) (length (sdata s))); lia.
Qed.

(** getline never leaves the object when n bytes are available *)
Lemma getline_total s buf n :
  1 <= n -> n <= length buf ->
  exists s' l, getline s buf n = Val (s', overlay l buf) /\ length l < n /\ ~ In NL l /\ sdata s' = sdata s.
Proof.
  intros Hn Hb. unfold getline. destruct (good s).
  - destruct (take_line (n - 1) (rest s)) as [t e] eqn:T.
    destruct (take_line_inv _ _ _ _ T) as (Ht & Hl & _).
    rewrite wr_bytes_overlay by lia. cbn [bind].
    eexists. exists t. split; [reflexivity|]. split; [lia|]. split; [auto|].
    destruct t, e; reflexivity.
  - change [Some NUL] with (map Some [] ++ [Some NUL]). rewrite wr_bytes_overlay by (simpl; lia).
    cbn [bind]. eexists. exists []. split; [reflexivity|]. simpl. repeat split; auto; lia.
Qed.
