(** ProofAntenna: lemmas for C09-C13. *)
From Verif Require Import Base BaseLemmas ModelAntenna.

Definition nonul (s : list ascii) : Prop := ~ In NUL s.

(** The two shapes of a receiver antenna object: no serial set, serial set. *)
Inductive ant_shape : mem -> list ascii -> option (list ascii) -> Prop :=
| shape_none f r : length f = 20 -> nonul f -> length r = 20 ->
    ant_shape (map Some f ++ Some NUL :: r) f None
| shape_serial f s : length f = 20 -> nonul f -> length s = 20 -> nonul s ->
    ant_shape (map Some f ++ map Some s ++ [Some NUL]) f (Some s).

(** Objects obtainable through the public interface (copying an object copies its bytes). *)
Inductive reach_ant : mem -> Prop :=
| ra_default a : ant_default = Val a -> reach_ant a
| ra_cstr c off s a : cstr c off = Val s -> ant_of_cstr c off = Val a -> reach_ant a
| ra_serial a c off s a' : reach_ant a -> cstr c off = Val s ->
    set_serial_nr a c off = Val a' -> reach_ant a'.

(** pad with blanks on the right / cut to n *)
Definition pad (n : nat) (s : list ascii) : list ascii := firstn n s ++ repeat " "%char (n - length s).

Lemma pad_length n s : length (pad n s) = n.
Proof. unfold pad. rewrite app_length, firstn_length, repeat_length. lia. Qed.

Lemma nonul_app a b : nonul (a ++ b) <-> nonul a /\ nonul b.
Proof. unfold nonul. split; [intro H; split; intro K; apply H, in_or_app; auto|].
  intros [H K] F. apply in_app_or in F. tauto. Qed.

Lemma nonul_firstn n s : nonul s -> nonul (firstn n s).
Proof. intros H K. apply H. rewrite <- (firstn_skipn n s). apply in_or_app. auto. Qed.

Lemma nonul_repeat n : nonul (repeat " "%char n).
Proof. intro H. apply repeat_spec in H. discriminate. Qed.

Lemma pad_nonul n s : nonul s -> nonul (pad n s).
Proof. intro H. apply nonul_app. split; [apply nonul_firstn; auto|apply nonul_repeat]. Qed.

Lemma cstr_skipn c off s : cstr c off = Val s ->
  nonul s /\ exists r, skipn off c = map Some s ++ Some NUL :: r.
Proof. intro H. apply cstr0_val in H as (r & E & N). eauto. Qed.

Lemma cstr_bound c off s : cstr c off = Val s -> off + length s < length c.
Proof.
  intro H. apply cstr_skipn in H as (_ & r & E). apply (f_equal (@length _)) in E.
  rewrite skipn_length, app_length, map_length in E. simpl in E. lia.
Qed.

Lemma firstn_cstr c off s n : cstr c off = Val s -> n <= length s ->
  firstn n (skipn off c) = map Some (firstn n s).
Proof.
  intros H Hn. apply cstr_skipn in H as (_ & r & E). rewrite E, firstn_app, map_length.
  replace (n - length s) with 0 by lia. simpl. rewrite app_nil_r. apply firstn_map.
Qed.

Lemma memcpy_cstr dst c off s n : cstr c off = Val s -> n <= length s -> n <= length dst ->
  memcpy dst 0 c off n = Val (map Some (firstn n s) ++ skipn n dst).
Proof.
  intros H Hn Hd. unfold memcpy. pose proof (cstr_bound _ _ _ H).
  destruct (Nat.leb_spec (off + n) (length c)); [|lia].
  rewrite (firstn_cstr _ _ _ _ H Hn). unfold wr_bytes.
  rewrite map_length, firstn_length, Nat.min_l by lia.
  destruct (Nat.leb_spec (0 + n) (length dst)); [|lia]. reflexivity.
Qed.

Lemma repeat_map_Some (x : ascii) n : repeat (Some x) n = map Some (repeat x n).
Proof. induction n; simpl; congruence. Qed.

(** the model field written by a constructor *)
Definition built_field (s : list ascii) : list ascii :=
  if length s <? 20 then firstn 16 (pad 20 s) ++ lit "NONE" else firstn 20 s.

Lemma built_field_ok s : nonul s -> length (built_field s) = 20 /\ nonul (built_field s).
Proof.
  intro H. unfold built_field. destruct (Nat.ltb_spec (length s) 20).
  - split.
    + rewrite app_length, firstn_length, pad_length. reflexivity.
    + apply nonul_app. split; [apply nonul_firstn, pad_nonul; auto|]. intro F. simpl in F. intuition discriminate.
  - split; [rewrite firstn_length; lia|apply nonul_firstn; auto].
Qed.

Lemma ant_of_cstr_spec c off s : cstr c off = Val s ->
  ant_of_cstr c off = Val (map Some (built_field s) ++ Some NUL :: uninit 20).
Proof.
  intro H. unfold ant_of_cstr, copy_from_cstr, strlen. rewrite H. cbn [bind].
  change mpr_sz with 20. change ant_full_max with 41.
  rewrite (memcpy_cstr _ _ _ s) by (auto; unfold uninit; rewrite ?repeat_length; lia). cbn [bind].
  pose proof (cstr_skipn _ _ _ H) as (Hn & _).
  unfold built_field. destruct (Nat.ltb_spec (length s) 20) as [L|L].
  - rewrite Nat.min_l by lia. rewrite firstn_all.
    unfold memset, wr_bytes. rewrite repeat_length, app_length, map_length, skipn_length.
    unfold uninit. rewrite repeat_length.
    destruct (Nat.leb_spec (length s + (20 - length s)) (length s + (41 - length s))); [|lia].
    cbn [bind].
    assert (E1 : firstn (length s) (map Some s ++ skipn (length s) (repeat None 41)) = map Some s).
    { rewrite firstn_app, map_length, Nat.sub_diag. simpl firstn at 2. rewrite app_nil_r.
      rewrite <- (map_length Some s) at 1. apply firstn_all. }
    assert (E2 : skipn (length s + (20 - length s)) (map Some s ++ skipn (length s) (repeat None 41))
                 = repeat (@None ascii) 21).
    { replace (length s + (20 - length s)) with 20 by lia.
      rewrite skipn_app, map_length. rewrite skipn_all2 by (rewrite map_length; lia).
      rewrite skipn_skipn. replace (20 - length s + length s) with 20 by lia. reflexivity. }
    rewrite E1, E2. rewrite repeat_map_Some, app_assoc, <- map_app.
    unfold set_none_radome, memcpy. change ant_model_max with 15. change ant_radome_max with 4.
    change (0 + 4 <=? length (cbuf (lit "NONE"))) with true. cbn iota.
    change (firstn 4 (skipn 0 (cbuf (lit "NONE")))) with (map Some (lit "NONE")).
    unfold wr_bytes. set (p := s ++ repeat " "%char (20 - length s)).
    assert (Lp : length p = 20) by (unfold p; rewrite app_length, repeat_length; lia).
    rewrite app_length, map_length, repeat_length, map_length, Lp.
    change (length (lit "NONE")) with 4. change (15 + 1 + 4 <=? 20 + 21) with true. cbn iota. cbn [bind].
    change (15 + 1) with 16. change (16 + 4) with 20.
    assert (Pp : pad 20 s = p) by (unfold pad, p; rewrite firstn_all2 by lia; reflexivity).
    rewrite Pp.
    rewrite firstn_app, map_length, Lp. change (16 - 20) with 0. simpl firstn at 2. rewrite app_nil_r.
    rewrite skipn_app, map_length, Lp, (skipn_all2 (map Some p)) by (rewrite map_length; lia).
    simpl skipn. rewrite firstn_map.
    unfold wr. rewrite !app_length, !map_length, firstn_length, Lp.
    change (20 <? _) with true. cbn iota. f_equal.
    rewrite map_app, <- app_assoc.
    assert (L16 : length (firstn 16 p) = 16) by (rewrite firstn_length; lia).
    rewrite firstn_app, skipn_app, map_length, L16. change (20 - 16) with 4. change (21 - 16) with 5.
    rewrite firstn_all2 by (rewrite map_length; lia).
    rewrite skipn_all2 by (rewrite map_length; lia). rewrite <- app_assoc. reflexivity.
  - rewrite Nat.min_r by lia. cbn [bind].
    unfold wr. rewrite app_length, map_length, firstn_length, skipn_length, Nat.min_l by lia.
    unfold uninit. rewrite repeat_length. change (20 <? 20 + (41 - 20)) with true. cbn iota.
    assert (L20 : length (firstn 20 s) = 20) by (rewrite firstn_length; lia).
    rewrite firstn_app, skipn_app, map_length, L20.
    rewrite firstn_all2 by (rewrite map_length; lia).
    rewrite (skipn_all2 (map Some (firstn 20 s))) by (rewrite map_length; lia). simpl. rewrite app_nil_r. reflexivity.
Qed.

Lemma ant_default_spec : ant_default = Val (map Some (repeat " "%char 20) ++ Some NUL :: uninit 20).
Proof. reflexivity. Qed.

Lemma set_serial_spec a f o c off s : ant_shape a f o -> cstr c off = Val s ->
  set_serial_nr a c off = Val (map Some f ++ map Some (pad 20 s) ++ [Some NUL]).
Proof.
  intros Ha H.
  assert (Hlen : length f = 20 /\ exists t, a = map Some f ++ t /\ length t = 21).
  { inversion Ha; subst; split; auto; eexists; split; try reflexivity; simpl;
      rewrite ?app_length, ?map_length; simpl; lia. }
  destruct Hlen as (Lf & t & -> & Lt). clear Ha.
  unfold set_serial_nr, strlen. change mpr_sz with 20. change ant_serial_max with 20.
  unfold memset, wr_bytes. rewrite repeat_length, app_length, map_length, Lf, Lt.
  change (20 + (20 + 1) <=? 20 + 21) with true. cbn iota. cbn [bind]. rewrite H. cbn [bind].
  rewrite firstn_app, map_length, Lf, firstn_all2 by (rewrite map_length; lia).
  change (20 - 20) with 0. simpl firstn. rewrite app_nil_r.
  rewrite skipn_all2 by (rewrite app_length, map_length; lia). rewrite app_nil_r.
  unfold memcpy. pose proof (cstr_bound _ _ _ H) as Hb.
  destruct (Nat.leb_spec (off + Nat.min (length s) 20) (length c)); [|lia].
  rewrite (firstn_cstr _ _ _ _ H) by lia.
  unfold wr_bytes. rewrite app_length, repeat_length, !map_length, firstn_length, Lf.
  replace (Nat.min (Nat.min (length s) 20) (length s)) with (Nat.min (length s) 20) by lia.
  destruct (Nat.leb_spec (20 + Nat.min (length s) 20) (20 + (20 + 1))); [|lia]. cbn [bind].
  rewrite firstn_app, map_length, Lf, firstn_all2 by (rewrite map_length; lia).
  change (20 - 20) with 0. rewrite firstn_O, app_nil_r.
  rewrite skipn_app, map_length, Lf, skipn_all2 by (rewrite map_length; lia).
  replace (20 + Nat.min (length s) 20 - 20) with (Nat.min (length s) 20) by lia.
  assert (Er : skipn (Nat.min (length s) 20) (repeat (Some " "%char) (20 + 1))
               = map Some (repeat " "%char (20 - length s)) ++ [Some " "%char]).
  { replace (20 + 1) with (Nat.min (length s) 20 + ((20 - length s) + 1)) by lia.
    rewrite repeat_app, skipn_app, skipn_all2 by (rewrite repeat_length; lia).
    rewrite repeat_length, Nat.sub_diag. simpl. rewrite repeat_app, repeat_map_Some. reflexivity. }
  cbn [app]. rewrite Er.
  assert (Ep : map Some (firstn (Nat.min (length s) 20) s) ++ map Some (repeat " "%char (20 - length s))
               = map Some (pad 20 s)).
  { rewrite <- map_app. unfold pad. f_equal. f_equal.
    destruct (Nat.le_ge_cases (length s) 20).
    - rewrite Nat.min_l by lia. rewrite !firstn_all2 by lia. reflexivity.
    - rewrite Nat.min_r by lia. reflexivity. }
  rewrite (app_assoc (map Some (firstn _ s))), Ep.
  assert (Lp : length (map Some (pad 20 s)) = 20) by (rewrite map_length; apply pad_length).
  unfold wr. rewrite !app_length, Lp, map_length, Lf. simpl length.
  change (20 + 20 <? 20 + (20 + 1)) with true. cbn iota. f_equal.
  rewrite firstn_app, map_length, Lf, firstn_all2 by (rewrite map_length; lia).
  change (20 + 20 - 20) with 20. rewrite firstn_app, Lp, firstn_all2 by (rewrite Lp; lia).
  change (20 - 20) with 0. rewrite firstn_O, app_nil_r, <- app_assoc. f_equal. f_equal.
  rewrite skipn_all2; [reflexivity|]. rewrite !app_length, Lp, map_length. simpl. lia.
Qed.

Lemma reach_shape a : reach_ant a -> exists f o, ant_shape a f o.
Proof.
  induction 1 as [a H|c off s a Hs H|a c off s a' Ha IH Hs H].
  - rewrite ant_default_spec in H. apply Val_inj in H; subst. exists (repeat " "%char 20), None.
    apply (shape_none (repeat " "%char 20) (uninit 20)); [reflexivity|apply (nonul_repeat 20)|reflexivity].
  - rewrite (ant_of_cstr_spec _ _ _ Hs) in H. inv H.
    pose proof (cstr_skipn _ _ _ Hs) as (Hn & _). destruct (built_field_ok s Hn).
    do 2 eexists. constructor; auto.
  - destruct IH as (f & o & Sh). rewrite (set_serial_spec _ _ _ _ _ _ Sh Hs) in H. inv H.
    pose proof (cstr_skipn _ _ _ Hs) as (Hn & _).
    exists f, (Some (pad 20 s)). constructor; try (inversion Sh; auto; fail).
    + apply pad_length.
    + apply pad_nonul; auto.
Qed.

Lemma strncmp0_prefix f : forall g ra rb, length f = length g -> nonul f ->
  strncmp0 (map Some f ++ ra) (map Some g ++ rb) (length f) = Val (list_eqb f g).
Proof.
  induction f as [|x f IH]; intros [|y g] ra rb L N; try discriminate; [reflexivity|].
  simpl. destruct (ceqb x y) eqn:E; [|reflexivity].
  assert (F : ceqb x NUL = false) by (apply ceqb_neq; intro F; apply N; left; auto).
  rewrite F. simpl. apply IH; [simpl in L; lia|]. intro K; apply N; right; auto.
Qed.

Lemma strncmp0_prefix_more f : forall g ra rb n, length f = length g -> nonul f ->
  strncmp0 (map Some f ++ ra) (map Some g ++ rb) (length f + n) =
  if list_eqb f g then strncmp0 ra rb n else Val false.
Proof.
  induction f as [|x f IH]; intros [|y g] ra rb n L N; try discriminate; [reflexivity|].
  simpl. destruct (ceqb x y) eqn:E; [|reflexivity].
  assert (F : ceqb x NUL = false) by (apply ceqb_neq; intro F; apply N; left; auto).
  rewrite F. simpl. apply IH; [simpl in L; lia|]. intro K; apply N; right; auto.
Qed.

Lemma shape_split a f o : ant_shape a f o ->
  length f = 20 /\ nonul f /\ exists t, a = map Some f ++ t /\ length a = 41 /\
  match o with
  | None => exists r, t = Some NUL :: r
  | Some s => t = map Some s ++ [Some NUL] /\ length s = 20 /\ nonul s
  end.
Proof.
  intro H. inversion H; subst; (split; [auto|split; [auto|]]); eexists; (split; [reflexivity|]); split;
    try (rewrite ?app_length, ?map_length; simpl; rewrite ?app_length, ?map_length; simpl; lia); eauto.
Qed.

Lemma skipn20 f t : length f = 20 -> skipn 20 (map (@Some ascii) f ++ t) = t.
Proof.
  intro L. rewrite skipn_app, map_length, L, Nat.sub_diag.
  rewrite skipn_all2 by (rewrite map_length; lia). reflexivity.
Qed.

Lemma compare_model_spec a b f g o p : ant_shape a f o -> ant_shape b g p ->
  compare_model a b = Val (list_eqb f g).
Proof.
  intros Ha Hb. apply shape_split in Ha as (Lf & Nf & t & -> & _ & _).
  apply shape_split in Hb as (Lg & Ng & u & -> & _ & _).
  unfold compare_model, strncmp_eq. simpl skipn. change mpr_sz with 20. rewrite <- Lf.
  apply strncmp0_prefix; congruence.
Qed.

Lemma has_serial_loop_spec s r : nonul s ->
  has_serial_loop (map Some s ++ Some NUL :: r) = Val (negb (forallb (fun c => ceqb c " "%char) s)).
Proof.
  induction s as [|c s IH]; intro N; [reflexivity|]. simpl.
  assert (F : ceqb c NUL = false) by (apply ceqb_neq; intro F; apply N; left; auto).
  rewrite F. destruct (ceqb c " "); simpl; [|reflexivity]. apply IH. intro K; apply N; right; auto.
Qed.

Definition blankb (s : list ascii) : bool := forallb (fun c => ceqb c " "%char) s.

Lemma blankb_false s : blankb s = false <-> exists c, In c s /\ c <> " "%char.
Proof.
  unfold blankb. split.
  - intro H. induction s as [|c s IH]; [discriminate|]. simpl in H.
    destruct (ceqb c " ") eqn:E; simpl in H.
    + destruct (IH H) as (x & Hx & Nx). exists x. split; [right|]; auto.
    + apply ceqb_neq in E. exists c. split; [left|]; auto.
  - intros (c & Hc & Nc). destruct (forallb _ s) eqn:E; [|reflexivity].
    rewrite forallb_forall in E. specialize (E c Hc). apply ceqb_eq in E. congruence.
Qed.

Lemma has_serial_spec a f o : ant_shape a f o ->
  has_serial a = Val (match o with None => false | Some s => negb (blankb s) end).
Proof.
  intro H. apply shape_split in H as (Lf & Nf & t & -> & _ & Ht).
  unfold has_serial. change mpr_sz with 20. rewrite skipn20 by auto.
  destruct o as [s|].
  - destruct Ht as (-> & Ls & Ns). apply has_serial_loop_spec. auto.
  - destruct Ht as (r & ->). reflexivity.
Qed.

Lemma ant_is_same_spec a b f g o p : ant_shape a f o -> ant_shape b g p ->
  ant_is_same a b = Val (match o, p with
     | Some s, Some t => negb (blankb s) && (negb (blankb t) && (list_eqb f g && list_eqb s t))
     | _, _ => false end).
Proof.
  intros Ha Hb. unfold ant_is_same. rewrite (has_serial_spec _ _ _ Ha). cbn [bind].
  destruct o as [s|]; [|reflexivity].
  destruct (blankb s); [destruct p; reflexivity|]. cbn [negb].
  rewrite (has_serial_spec _ _ _ Hb). cbn [bind]. destruct p as [t|]; [|reflexivity].
  destruct (blankb t); [reflexivity|]. cbn [negb andb].
  apply shape_split in Ha as (Lf & Nf & ta & -> & _ & -> & Ls & Ns).
  apply shape_split in Hb as (Lg & Ng & tb & -> & _ & -> & Lt & Nt).
  unfold strncmp_eq. simpl skipn. change ant_full_max with 41.
  replace 41 with (length f + 21) by lia. rewrite strncmp0_prefix_more by congruence.
  destruct (list_eqb f g); [|reflexivity]. simpl andb.
  replace 21 with (length s + 1) by lia. rewrite strncmp0_prefix_more by congruence.
  destruct (list_eqb s t); reflexivity.
Qed.

Lemma ceqb_sym a b : ceqb a b = ceqb b a.
Proof. apply Ascii.eqb_sym. Qed.

(** serial comparison with a C string *)
Lemma strncmp0_cstr s : forall t ra rb n, nonul s -> nonul t -> n <= length s ->
  strncmp0 (map Some s ++ ra) (map Some t ++ Some NUL :: rb) n =
  Val (list_eqb (firstn n s) (firstn n t)).
Proof.
  induction s as [|x s IH]; intros t ra rb n Ns Nt Hn.
  - simpl in Hn. replace n with 0 by lia. reflexivity.
  - destruct n as [|n]; [reflexivity|].
    assert (F : ceqb x NUL = false) by (apply ceqb_neq; intro F; apply Ns; left; auto).
    destruct t as [|y t].
    + simpl. rewrite F. reflexivity.
    + simpl. destruct (ceqb x y); [|reflexivity]. rewrite F. simpl.
      apply IH; [intro K; apply Ns; right; auto|intro K; apply Nt; right; auto|simpl in Hn; lia].
Qed.

Lemma compare_serial_spec a f o c off s : ant_shape a f o -> cstr c off = Val s ->
  compare_serial a c off = Val (match o with
     | Some t => list_eqb t (firstn 20 s)
     | None => match s with [] => true | _ => false end end).
Proof.
  intros Ha Hc. apply shape_split in Ha as (Lf & Nf & t & -> & _ & Ht).
  apply cstr_skipn in Hc as (Ns & r & E).
  unfold compare_serial, strncmp_eq. change mpr_sz with 20. change ant_serial_max with 20.
  rewrite skipn20 by auto. rewrite E. destruct o as [u|].
  - destruct Ht as (-> & Lu & Nu).
    rewrite strncmp0_cstr; auto; [|lia]. rewrite (firstn_all2 u) by lia. reflexivity.
  - destruct Ht as (u & ->). destruct s as [|x s]; [reflexivity|].
    cbn [strncmp0 map app]. rewrite ceqb_sym. assert (F : ceqb x NUL = false) by (apply ceqb_neq; intro F; apply Ns; left; auto).
    rewrite F. reflexivity.
Qed.

(** ** Satellite antenna *)
Lemma sant_copy_spec name c off s : length name = 21 -> cstr c off = Val s ->
  sant_copy name c off = Val (map Some (firstn 20 s) ++ Some NUL :: skipn (S (Nat.min (length s) 20)) name).
Proof.
  intros L H. unfold sant_copy, strlen. rewrite H. cbn [bind]. change sat_ant_max with 20.
  rewrite (memcpy_cstr _ _ _ s) by (auto; lia). cbn [bind]. unfold wr.
  rewrite app_length, map_length, firstn_length, skipn_length.
  destruct (Nat.ltb_spec (Nat.min (length s) 20) (Nat.min (Nat.min (length s) 20) (length s) + (length name - Nat.min (length s) 20))); [|lia].
  f_equal.
  assert (E : firstn (Nat.min (length s) 20) s = firstn 20 s).
  { destruct (Nat.le_ge_cases (length s) 20).
    - rewrite Nat.min_l by lia. rewrite !firstn_all2 by lia. reflexivity.
    - rewrite Nat.min_r by lia. reflexivity. }
  rewrite E.
  assert (Ll : length (map Some (firstn 20 s)) = Nat.min (length s) 20) by (rewrite map_length, firstn_length; lia).
  rewrite firstn_app, Ll, Nat.sub_diag, firstn_O, app_nil_r, firstn_all2 by lia. f_equal. f_equal.
  rewrite skipn_app, skipn_all2 by lia. rewrite Ll. rewrite skipn_skipn. cbn [app].
  f_equal. lia.
Qed.

Inductive reach_sant : mem -> Prop :=
| rs_default a : sant_default = Val a -> reach_sant a
| rs_cstr c off s a : cstr c off = Val s -> sant_of_cstr c off = Val a -> reach_sant a
| rs_set a c off s a' : reach_sant a -> cstr c off = Val s -> sant_copy a c off = Val a' -> reach_sant a'.

Lemma reach_sant_shape a : reach_sant a -> length a = 21 /\
  exists n r, a = map Some n ++ Some NUL :: r /\ length n <= 20 /\ nonul n.
Proof.
  assert (G : forall name c off s a, length name = 21 -> cstr c off = Val s -> sant_copy name c off = Val a ->
     length a = 21 /\ exists n r, a = map Some n ++ Some NUL :: r /\ length n <= 20 /\ nonul n).
  { intros name c off s b L Hc H. rewrite (sant_copy_spec _ _ _ s) in H by auto. apply Val_inj in H; subst. split.
    - rewrite app_length, map_length, firstn_length. cbn [length]. rewrite skipn_length. lia.
    - exists (firstn 20 s), (skipn (S (Nat.min (length s) 20)) name). split; auto.
      rewrite firstn_length. split; [lia|]. apply nonul_firstn. apply cstr_skipn in Hc. tauto. }
  intro R. induction R as [x H|c off s x Hs H|x c off s x' Hx IH Hs H].
  - assert (E : sant_default = Val (Some NUL :: repeat (Some NUL) 20)) by reflexivity.
    rewrite E in H. apply Val_inj in H; subst. split; [reflexivity|]. exists [], (repeat (Some NUL) 20).
    split; [reflexivity|]. split; [simpl; lia|]. intros [].
  - eapply G; eauto. reflexivity.
  - eapply G; eauto. apply IH.
Qed.

Lemma strncmp0_cstr2 s : forall t ra rb n, nonul s -> nonul t ->
  strncmp0 (map Some s ++ Some NUL :: ra) (map Some t ++ Some NUL :: rb) n =
  Val (list_eqb (firstn n s) (firstn n t)).
Proof.
  induction s as [|x s IH]; intros t ra rb n Ns Nt.
  - destruct n as [|n]; [reflexivity|]. destruct t as [|y t]; [reflexivity|].
    cbn [strncmp0 map app]. rewrite ceqb_sym. assert (F : ceqb y NUL = false) by (apply ceqb_neq; intro F; apply Nt; left; auto).
    rewrite F. reflexivity.
  - destruct n as [|n]; [reflexivity|].
    assert (F : ceqb x NUL = false) by (apply ceqb_neq; intro F; apply Ns; left; auto).
    destruct t as [|y t].
    + simpl. rewrite F. reflexivity.
    + simpl. destruct (ceqb x y); [|reflexivity]. rewrite F. simpl.
      apply IH; [intro K; apply Ns; right; auto|intro K; apply Nt; right; auto].
Qed.

Lemma sant_is_same_spec a n r c off s :
  a = map Some n ++ Some NUL :: r -> length n <= 20 -> nonul n -> cstr c off = Val s ->
  sant_is_same a c off = Val (negb (list_eqb n (firstn 20 s))).
Proof.
  intros -> Ln Nn Hc. apply cstr_skipn in Hc as (Ns & rb & E).
  unfold sant_is_same, strncmp_eq. rewrite E. simpl skipn. change sat_ant_max with 20.
  rewrite strncmp0_cstr2 by auto. cbn [bind]. rewrite (firstn_all2 n) by lia. reflexivity.
Qed.
