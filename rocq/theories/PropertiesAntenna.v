(** Properties C09-C13: receiver and satellite antennas.
    [reach_ant] / [reach_sant] are the objects obtainable through the public interface: default
    construction, construction from a C string, set_serial_nr / set_from_cstr, copies. *)
From Verif Require Import Base BaseLemmas ModelAntenna ProofAntenna.

(** The first twenty bytes: model and radome. *)
Definition model_field (a : mem) : mem := firstn 20 a.
(** Bytes 20..39: serial number. *)
Definition serial_field (a : mem) : mem := firstn 20 (skipn 20 a).
(** Bytes 16..19: radome. *)
Definition radome_field (a : mem) : mem := firstn 4 (skipn 16 a).

Lemma shape_fields a f o : ant_shape a f o ->
  model_field a = map Some f /\ match o with Some s => serial_field a = map Some s | None => True end.
Proof.
  intro H. apply shape_split in H as (Lf & Nf & t & -> & _ & Ht). unfold model_field, serial_field.
  rewrite skipn20 by auto. rewrite firstn_app, map_length, Lf, Nat.sub_diag, firstn_O, app_nil_r.
  rewrite firstn_all2 by (rewrite map_length; lia). split; auto.
  destruct o as [s|]; auto. destruct Ht as (-> & Ls & _).
  rewrite firstn_app, map_length, Ls, Nat.sub_diag, firstn_O, app_nil_r.
  rewrite firstn_all2 by (rewrite map_length; lia). reflexivity.
Qed.

(** C09: no operation on reachable objects is undefined behaviour *)
Theorem C09_antenna_safe : forall a b c off s,
  reach_ant a -> reach_ant b -> cstr c off = Val s ->
  length a = 41 /\
  (exists v, ant_of_cstr c off = Val v) /\ (exists v, ant_default = Val v) /\
  (exists v, has_serial a = Val v) /\ (exists v, compare_model a b = Val v) /\
  (exists v, compare_serial a c off = Val v) /\ (exists v, ant_is_same a b = Val v) /\
  (exists v, set_serial_nr a c off = Val v).
Proof.
  intros a b c off s Ha Hb Hc.
  apply reach_shape in Ha as (f & o & Sa). apply reach_shape in Hb as (g & p & Sb).
  split; [apply shape_split in Sa as (_ & _ & t & _ & L & _); exact L|].
  repeat split; eexists;
    eauto using ant_of_cstr_spec, ant_default_spec, has_serial_spec, compare_model_spec,
      compare_serial_spec, ant_is_same_spec, set_serial_spec.
Qed.
Print Assumptions C09_antenna_safe.

Theorem C09_model_from_first_20 : forall c off s c' off' s',
  cstr c off = Val s -> cstr c' off' = Val s' -> firstn 20 s = firstn 20 s' ->
  ant_of_cstr c off = ant_of_cstr c' off'.
Proof.
  intros c off s c' off' s' H H' E.
  rewrite (ant_of_cstr_spec _ _ _ H), (ant_of_cstr_spec _ _ _ H'). f_equal. f_equal. f_equal.
  assert (L : forall t : list ascii, (length t <? 20) = (length (firstn 20 t) <? 20)).
  { intro t. rewrite firstn_length. destruct (Nat.ltb_spec (length t) 20), (Nat.ltb_spec (Nat.min 20 (length t)) 20); auto; lia. }
  unfold built_field. rewrite (L s), (L s'), E. destruct (Nat.ltb_spec (length (firstn 20 s')) 20); auto.
  assert (length s' < 20) by (rewrite firstn_length in *; lia).
  assert (length s < 20) by (rewrite <- E in *; rewrite firstn_length in *; lia).
  rewrite !firstn_all2 in E by lia. subst. reflexivity.
Qed.
Print Assumptions C09_model_from_first_20.

Theorem C09_compare_model_iff : forall a b, reach_ant a -> reach_ant b ->
  exists v, compare_model a b = Val v /\ (v = true <-> model_field a = model_field b).
Proof.
  intros a b Ha Hb. apply reach_shape in Ha as (f & o & Sa). apply reach_shape in Hb as (g & p & Sb).
  rewrite (compare_model_spec _ _ _ _ _ _ Sa Sb). eexists; split; [reflexivity|].
  apply shape_fields in Sa as [-> _]. apply shape_fields in Sb as [-> _].
  rewrite list_eqb_eq. split; [congruence|apply map_Some_inj].
Qed.
Print Assumptions C09_compare_model_iff.

Theorem C09_compare_model_equivalence : forall a b c, reach_ant a -> reach_ant b -> reach_ant c ->
  compare_model a a = Val true /\
  (compare_model a b = Val true -> compare_model b a = Val true) /\
  (compare_model a b = Val true -> compare_model b c = Val true -> compare_model a c = Val true).
Proof.
  intros a b c Ha Hb Hc.
  assert (G : forall x y, reach_ant x -> reach_ant y -> (compare_model x y = Val true <-> model_field x = model_field y)).
  { intros x y Hx Hy. destruct (C09_compare_model_iff x y Hx Hy) as (v & -> & I). rewrite <- I.
    split; intro E; [injection E as ->; reflexivity|subst; reflexivity]. }
  rewrite !G by auto. repeat split; congruence.
Qed.
Print Assumptions C09_compare_model_equivalence.

Theorem C09_set_serial_keeps_model : forall a c off s a', reach_ant a -> cstr c off = Val s ->
  set_serial_nr a c off = Val a' -> model_field a' = model_field a.
Proof.
  intros a c off s a' Ha Hc H. pose proof (ra_serial _ _ _ _ _ Ha Hc H) as R.
  apply reach_shape in Ha as (f & o & Sa). rewrite (set_serial_spec _ _ _ _ _ _ Sa Hc) in H.
  apply reach_shape in R as (g & p & Sr). pose proof (shape_fields _ _ _ Sa) as [-> _].
  apply Val_inj in H; subst. unfold model_field. apply shape_split in Sa as (Lf & _).
  rewrite firstn_app, map_length, Lf, Nat.sub_diag, firstn_O, app_nil_r.
  apply firstn_all2. rewrite map_length. lia.
Qed.
Print Assumptions C09_set_serial_keeps_model.

Example C09_example : exists a b,
  ant_of_cstr (cbuf (lit "AOAD/M_T        SCIT")) 0 = Val a /\
  ant_of_cstr (cbuf (lit "AOAD/M_T        SCIT 1234")) 0 = Val b /\
  reach_ant a /\ reach_ant b /\ compare_model a b = Val true.
Proof.
  do 2 eexists. split; [reflexivity|]. split; [reflexivity|].
  split; [eapply (ra_cstr (cbuf (lit "AOAD/M_T        SCIT")) 0); reflexivity|].
  split; [eapply (ra_cstr (cbuf (lit "AOAD/M_T        SCIT 1234")) 0); reflexivity|]. reflexivity.
Qed.

(** C10.  [radome_cols s]: columns 17-20 of the string. *)
Definition radome_cols (s : list ascii) : list ascii := firstn 4 (skipn 16 s).

Definition C10_full : Prop := forall c off s a,
  cstr c off = Val s -> ant_of_cstr c off = Val a ->
  ((forall x, In x (radome_cols s) -> x = " "%char) -> radome_field a = map Some (lit "NONE")) /\
  ((exists x, In x (radome_cols s) /\ x <> " "%char) -> radome_field a = map Some (pad 4 (radome_cols s))).

(** the exact behaviour: strings of at least 20 characters keep columns 17-20 (even if blank),
    shorter ones get NONE (even if they carry 1-3 radome characters) *)
Theorem C10_radome_exact_partial : forall c off s a,
  cstr c off = Val s -> ant_of_cstr c off = Val a ->
  (20 <= length s -> radome_field a = map Some (radome_cols s)) /\
  (length s < 20 -> radome_field a = map Some (lit "NONE")).
Proof.
  intros c off s a Hc H. rewrite (ant_of_cstr_spec _ _ _ Hc) in H. apply Val_inj in H; subst.
  unfold radome_field, built_field, radome_cols. split; intro L.
  - destruct (Nat.ltb_spec (length s) 20); [lia|].
    rewrite skipn_app, map_length, firstn_length. replace (16 - Nat.min 20 (length s)) with 0 by lia.
    simpl (skipn 0 _). rewrite firstn_app, skipn_length, map_length, firstn_length.
    replace (4 - (Nat.min 20 (length s) - 16)) with 0 by lia. rewrite firstn_O, app_nil_r.
    rewrite <- !firstn_map. rewrite skipn_firstn_comm, firstn_firstn, <- !skipn_map. reflexivity.
  - destruct (Nat.ltb_spec (length s) 20); [|lia].
    assert (L16 : length (firstn 16 (pad 20 s)) = 16) by (rewrite firstn_length, pad_length; reflexivity).
    rewrite map_app, <- app_assoc. rewrite skipn_app, map_length, L16, Nat.sub_diag.
    rewrite skipn_all2 by (rewrite map_length; lia). reflexivity.
Qed.
Print Assumptions C10_radome_exact_partial.

Theorem C10_full_refuted : ~ C10_full.
Proof.
  intro H. destruct (H (cbuf (lit "AOAD/M_T            ")) 0 (lit "AOAD/M_T            ")
    (map Some (lit "AOAD/M_T            ") ++ Some NUL :: uninit 20) eq_refl eq_refl) as [K _].
  assert (E : radome_field (map Some (lit "AOAD/M_T            ") ++ Some NUL :: uninit 20) = map Some (lit "NONE")).
  { apply K. intros x Hx. simpl in Hx. intuition auto. }
  discriminate E.
Qed.
Print Assumptions C10_full_refuted.

(** the other half also fails: a three-character radome is replaced by NONE *)
Theorem C10_short_radome_lost : exists c s a,
  cstr c 0 = Val s /\ ant_of_cstr c 0 = Val a /\
  radome_cols s = lit "SCI" /\ radome_field a = map Some (lit "NONE").
Proof. exists (cbuf (lit "AOAD/M_T        SCI")). do 2 eexists. repeat split. Qed.
Print Assumptions C10_short_radome_lost.

(** C11 *)
Definition C11_full : Prop := forall a c off s a',
  reach_ant a -> cstr c off = Val s -> set_serial_nr a c off = Val a' ->
  compare_serial a' c off = Val true /\
  exists h, has_serial a' = Val h /\ (h = true <-> exists x, In x (firstn 20 s) /\ x <> " "%char).

Lemma pad_blank s : blankb (pad 20 s) = blankb (firstn 20 s).
Proof.
  unfold pad, blankb. rewrite forallb_app.
  assert (E : forallb (fun c => ceqb c " "%char) (repeat " "%char (20 - length s)) = true).
  { apply forallb_forall. intros x Hx. apply repeat_spec in Hx. subst. reflexivity. }
  rewrite E, andb_true_r. reflexivity.
Qed.

Lemma set_serial_shape a c off s a' f o :
  ant_shape a f o -> cstr c off = Val s -> set_serial_nr a c off = Val a' ->
  ant_shape a' f (Some (pad 20 s)).
Proof.
  intros Sa Hc H. rewrite (set_serial_spec _ _ _ _ _ _ Sa Hc) in H. apply Val_inj in H; subst.
  pose proof (cstr_skipn _ _ _ Hc) as (Hn & _). apply shape_split in Sa as (Lf & Nf & _).
  constructor; auto; [apply pad_length|apply pad_nonul; auto].
Qed.

(** has_serial is right for every string; compare_serial holds exactly for serials of 20 or
    more characters *)
Theorem C11_serial_partial : forall a c off s a',
  reach_ant a -> cstr c off = Val s -> set_serial_nr a c off = Val a' ->
  compare_serial a' c off = Val (20 <=? length s) /\
  serial_field a' = map Some (pad 20 s) /\
  exists h, has_serial a' = Val h /\ (h = true <-> exists x, In x (firstn 20 s) /\ x <> " "%char).
Proof.
  intros a c off s a' Ha Hc H. apply reach_shape in Ha as (f & o & Sa).
  pose proof (set_serial_shape _ _ _ _ _ _ _ Sa Hc H) as S'.
  split; [|split].
  - rewrite (compare_serial_spec _ _ _ _ _ _ S' Hc). f_equal.
    destruct (Nat.leb_spec 20 (length s)) as [L|L].
    + apply list_eqb_eq. unfold pad. replace (20 - length s) with 0 by lia. apply app_nil_r.
    + destruct (list_eqb (pad 20 s) (firstn 20 s)) eqn:E; auto. apply list_eqb_eq in E.
      apply (f_equal (@length _)) in E. rewrite pad_length, firstn_length in E. lia.
  - apply shape_fields in S' as [_ S']. exact S'.
  - rewrite (has_serial_spec _ _ _ S'). eexists; split; [reflexivity|].
    rewrite pad_blank, negb_true_iff. apply blankb_false.
Qed.
Print Assumptions C11_serial_partial.

Theorem C11_full_refuted : ~ C11_full.
Proof.
  intro H.
  assert (R : exists a, reach_ant a) by (eexists; eapply ra_default; reflexivity).
  destruct R as [a R]. pose proof (reach_shape _ R) as (f & o & Sa).
  assert (Hc : cstr (cbuf (lit "1234")) 0 = Val (lit "1234")) by reflexivity.
  pose proof (set_serial_spec _ _ _ _ _ _ Sa Hc) as E.
  destruct (H a _ 0 _ _ R Hc E) as [K _].
  destruct (C11_serial_partial a _ 0 _ _ R Hc E) as [K' _].
  rewrite K in K'. discriminate K'.
Qed.
Print Assumptions C11_full_refuted.

Example C11_example : exists a a',
  ant_default = Val a /\ set_serial_nr a (cbuf (lit "  77 ")) 0 = Val a' /\
  has_serial a = Val false /\ has_serial a' = Val true /\ compare_serial a' (cbuf (lit "  77 ")) 0 = Val false.
Proof. do 2 eexists. repeat split. Qed.

(** C12 *)
Theorem C12_is_same_iff : forall a b, reach_ant a -> reach_ant b ->
  exists v, ant_is_same a b = Val v /\
    (v = true <-> has_serial a = Val true /\ has_serial b = Val true /\
                  model_field a = model_field b /\ serial_field a = serial_field b).
Proof.
  intros a b Ha Hb. apply reach_shape in Ha as (f & o & Sa). apply reach_shape in Hb as (g & p & Sb).
  rewrite (ant_is_same_spec _ _ _ _ _ _ Sa Sb). eexists; split; [reflexivity|].
  rewrite (has_serial_spec _ _ _ Sa), (has_serial_spec _ _ _ Sb).
  apply shape_fields in Sa as [Ma Ea]. apply shape_fields in Sb as [Mb Eb].
  rewrite Ma, Mb. destruct o as [s|], p as [t|].
  - rewrite Ea, Eb. rewrite !andb_true_iff, !list_eqb_eq. split.
    + intros (-> & -> & -> & ->). auto.
    + intros (A & B & C & D). injection A as ->. injection B as ->.
      apply map_Some_inj in C, D. auto.
  - split; [discriminate|]. intros (_ & F & _). discriminate.
  - split; [discriminate|]. intros (F & _). discriminate.
  - split; [discriminate|]. intros (F & _). discriminate.
Qed.
Print Assumptions C12_is_same_iff.

Theorem C12_is_same_sym_trans : forall a b c, reach_ant a -> reach_ant b -> reach_ant c ->
  (ant_is_same a b = Val true -> ant_is_same b a = Val true) /\
  (ant_is_same a b = Val true -> ant_is_same b c = Val true -> ant_is_same a c = Val true) /\
  (has_serial a <> Val true -> ant_is_same a b = Val false /\ ant_is_same b a = Val false).
Proof.
  intros a b c Ha Hb Hc.
  assert (G : forall x y, reach_ant x -> reach_ant y -> (ant_is_same x y = Val true <->
     has_serial x = Val true /\ has_serial y = Val true /\ model_field x = model_field y /\ serial_field x = serial_field y)).
  { intros x y Hx Hy. destruct (C12_is_same_iff x y Hx Hy) as (v & -> & I). rewrite <- I.
    split; intro E; [injection E as ->; reflexivity|subst; reflexivity]. }
  rewrite !G by auto. repeat split; try (intuition congruence; fail).
  - destruct (C12_is_same_iff a b Ha Hb) as ([|] & E & I); auto.
    exfalso. apply H. apply I. reflexivity.
  - destruct (C12_is_same_iff b a Hb Ha) as ([|] & E & I); auto.
    exfalso. apply H. apply I. reflexivity.
Qed.
Print Assumptions C12_is_same_sym_trans.

Example C12_example : exists a a' b',
  ant_of_cstr (cbuf (lit "TRM29659.00     SNOW")) 0 = Val a /\
  set_serial_nr a (cbuf (lit "4711")) 0 = Val a' /\ set_serial_nr a (cbuf (lit "4711  ")) 0 = Val b' /\
  reach_ant a' /\ reach_ant b' /\ ant_is_same a' b' = Val true /\ ant_is_same a a' = Val false.
Proof.
  do 3 eexists. split; [reflexivity|]. split; [reflexivity|]. split; [reflexivity|].
  split; [eapply (ra_serial _ (cbuf (lit "4711")) 0);
          [eapply (ra_cstr (cbuf (lit "TRM29659.00     SNOW")) 0); reflexivity|reflexivity|reflexivity]|].
  split; [eapply (ra_serial _ (cbuf (lit "4711  ")) 0);
          [eapply (ra_cstr (cbuf (lit "TRM29659.00     SNOW")) 0); reflexivity|reflexivity|reflexivity]|].
  split; reflexivity.
Qed.

(** C13 *)
Definition C13_full : Prop := forall a n c off s,
  reach_sant a -> sant_to_string a = Val n -> cstr c off = Val s ->
  exists v, sant_is_same a c off = Val v /\ (v = true <-> n = firstn 20 s).

(** is_same is exactly the negation of what it claims *)
Theorem C13_is_same_inverted_partial : forall a n c off s,
  reach_sant a -> sant_to_string a = Val n -> cstr c off = Val s ->
  exists v, sant_is_same a c off = Val v /\ (v = true <-> n <> firstn 20 s).
Proof.
  intros a n c off s Ha Hn Hc. apply reach_sant_shape in Ha as (_ & n' & r & E & L & N).
  unfold sant_to_string, cstr in Hn. simpl skipn in Hn. rewrite E, cstr0_app in Hn by exact N.
  injection Hn as <-. rewrite (sant_is_same_spec _ _ _ _ _ _ E L N Hc). eexists; split; [reflexivity|].
  rewrite negb_true_iff. split; intro H.
  - intro F. apply list_eqb_eq in F. congruence.
  - destruct (list_eqb n' (firstn 20 s)) eqn:F; auto. apply list_eqb_eq in F. congruence.
Qed.
Print Assumptions C13_is_same_inverted_partial.

Theorem C13_full_refuted : ~ C13_full.
Proof.
  intro H.
  assert (R : exists a, sant_of_cstr (cbuf (lit "BLOCK IIF")) 0 = Val a /\ reach_sant a /\
              sant_to_string a = Val (lit "BLOCK IIF")).
  { eexists. split; [reflexivity|]. split; [eapply (rs_cstr (cbuf (lit "BLOCK IIF")) 0); reflexivity|reflexivity]. }
  destruct R as (a & _ & R & T).
  destruct (H a _ (cbuf (lit "BLOCK IIF")) 0 _ R T eq_refl) as (v & E & I).
  destruct (C13_is_same_inverted_partial a _ (cbuf (lit "BLOCK IIF")) 0 _ R T eq_refl) as (w & F & J).
  rewrite E in F. injection F as <-.
  assert (V : v = true) by (apply I; reflexivity). apply J in V. apply V. reflexivity.
Qed.
Print Assumptions C13_full_refuted.

Theorem C13_set_then_to_string : forall a c off s,
  reach_sant a -> cstr c off = Val s ->
  exists a', sant_copy a c off = Val a' /\ sant_to_string a' = Val (firstn 20 s).
Proof.
  intros a c off s Ha Hc. apply reach_sant_shape in Ha as (L & _).
  rewrite (sant_copy_spec _ _ _ s) by auto. eexists; split; [reflexivity|].
  unfold sant_to_string, cstr. simpl skipn at 1. apply cstr0_app.
  apply nonul_firstn. apply cstr_skipn in Hc. tauto.
Qed.
Print Assumptions C13_set_then_to_string.
