(** PropertiesSp3Errno: C99, what the SP3 reader does must not depend on what the program did before *)
From Coq Require Import Qround.
From Verif Require Import Base BaseLemmas CNum CNumLemmas Stream ModelSatsys ModelSp3 ModelSp3Errno SpecText SpecNum SpecObs SpecSp3 SpecSp3Errno
  ProofText ProofNum ProofStream ProofSp3 ProofSp3Epoch ProofSp3File ProofSp3Header ProofNavList ProofSp3Errno PropertiesSp3.
Local Open Scope string_scope.
Local Open Scope list_scope.

(** opening a file gives the same answer whatever SP3 files the program read before *)
Definition C99_full : Prop := forall wsow as_mjd steps e d r1 e1 r2 e2, sp3_history wsow as_mjd 0 steps e -> Forall sp3_only steps ->
  sp3_open_e wsow as_mjd d e = Val (r1, e1) -> sp3_open_e wsow as_mjd d 0 = Val (r2, e2) -> r1 = r2.

(** errno is not ERANGE: the reader is the one of the other claims, and errno is left alone on success *)
Theorem C99_same : forall wsow as_mjd e, e <> SP3_ERANGE ->
  (forall d r, sp3_read_header wsow as_mjd d = Val r <-> exists e1, sp3_open_e wsow as_mjd d e = Val (r, e1)) /\
  (forall d, sp3_read_header wsow as_mjd d = UB <-> sp3_open_e wsow as_mjd d e = UB) /\
  (forall d o e1, sp3_open_e wsow as_mjd d e = Val (inr o, e1) -> e1 = e) /\
  (forall d r, sp3_open_e wsow as_mjd d e = Val (r, SP3_ERANGE) -> r = inl 22%Z \/ r = inl 24%Z \/ r = inl 30%Z) /\
  (forall k st vec q, sp3_next_epoch k st vec = Val q <-> exists e1, sp3_next_epoch_e k st vec e = Val (q, e1)) /\
  (forall k st vec, sp3_next_epoch k st vec = UB <-> sp3_next_epoch_e k st vec e = UB) /\
  (forall k st vec, sp3_next_epoch k st vec = Fuel <-> sp3_next_epoch_e k st vec e = Fuel) /\
  (forall k st vec q e1, sp3_next_epoch_e k st vec e = Val (q, e1) -> e1 = e \/ e1 = 0%Z /\ q_sats q = None).
Proof.
  intros w m e N.
  assert (A : forall d, agrees (sp3_read_header w m d) (sp3_open_e w m d e) (open_quiet e)) by (intro d; apply open_agree; exact N).
  assert (B : forall k st vec, agrees (sp3_next_epoch k st vec) (sp3_next_epoch_e k st vec e) (epoch_quiet e)) by (intros; apply next_agree; exact N).
  split; [|split; [|split; [|split; [|split; [|split; [|split]]]]]].
  - intros d r. specialize (A d). destruct (sp3_read_header w m d) as [a| | | |]; cbn [agrees] in A; [destruct A as (e1 & A & _)|..]; rewrite A;
      (split; [intro H; try discriminate H|intros (e2 & H); try discriminate H]); [apply Val_inj in H; subst; eauto|congruence].
  - intro d. specialize (A d). destruct (sp3_read_header w m d) as [a| | | |]; cbn [agrees] in A; [destruct A as (e1 & A & _)|..]; rewrite A; (split; intro H; [try discriminate H|try discriminate H]); reflexivity.
  - intros d o e1 H. specialize (A d). destruct (sp3_read_header w m d) as [a| | | |]; cbn [agrees] in A; [destruct A as (e2 & A & Q)|..]; rewrite A in H; try discriminate H.
    assert (a = inr o /\ e2 = e1) as (-> & ->) by (split; congruence). destruct Q as [Q|[(_ & c & Q)|(_ & [Q|[Q|Q]])]]; congruence.
  - intros d r H. specialize (A d). destruct (sp3_read_header w m d) as [a| | | |]; cbn [agrees] in A; [destruct A as (e2 & A & Q)|..]; rewrite A in H; try discriminate H.
    assert (a = r /\ e2 = SP3_ERANGE) as (-> & ->) by (split; congruence). destruct Q as [Q|[(Q & _)|(_ & Q)]]; [congruence|discriminate Q|exact Q].
  - intros k st vec q. specialize (B k st vec). destruct (sp3_next_epoch k st vec) as [a| | | |]; cbn [agrees] in B; [destruct B as (e1 & B & _)|..]; rewrite B;
      (split; [intro H; try discriminate H|intros (e2 & H); try discriminate H]); [apply Val_inj in H; subst; eauto|congruence].
  - intros k st vec. specialize (B k st vec). destruct (sp3_next_epoch k st vec) as [a| | | |]; cbn [agrees] in B; [destruct B as (e1 & B & _)|..]; rewrite B; (split; intro H; [try discriminate H|try discriminate H]); reflexivity.
  - intros k st vec. specialize (B k st vec). destruct (sp3_next_epoch k st vec) as [a| | | |]; cbn [agrees] in B; [destruct B as (e1 & B & _)|..]; rewrite B; (split; intro H; [try discriminate H|try discriminate H]); reflexivity.
  - intros k st vec q e1 H. specialize (B k st vec). destruct (sp3_next_epoch k st vec) as [a| | | |]; cbn [agrees] in B; [destruct B as (e2 & B & Q)|..]; rewrite B in H; try discriminate H.
    assert (a = q /\ e2 = e1) as (-> & ->) by (split; congruence). exact Q.
Qed.
Print Assumptions C99_same.
(** a missing file (ENOENT, 2) or any other leftover is harmless *)
Example C99_same_example : (2 <> SP3_ERANGE)%Z /\ exists o, sp3_open cal1 mjd1 (sp3h_text hdr1 ++ "*"%char :: []) = Val o.
Proof.
  split; [discriminate|]. destruct (C62_header_partial cal1 mjd1 hdr1 "*"%char [] (proj1 hdr1_ok) (proj2 hdr1_ok) ltac:(discriminate)) as (g & st & E & _). eauto.
Qed.

(** programs that open only acceptable files: errno never becomes ERANGE *)
Theorem C99_history_partial : forall wsow as_mjd e0 steps e, sp3_history wsow as_mjd e0 steps e -> e0 <> SP3_ERANGE ->
  Forall (sp3_calm wsow as_mjd) steps -> e <> SP3_ERANGE.
Proof.
  intros w m e0 steps e H. induction H as [e|e d r e1 l e2 E H IH|e k st vec q e1 l e2 E H IH|e e1 l e2 H IH]; intros N F; [exact N|inversion F as [|? ? F1 F2]; subst; apply IH; try exact F2..].
  - destruct F1 as (o & F1). destruct (C99_same w m e N) as (S1 & _ & S3 & _). unfold sp3_open in F1.
    apply bind_inv in F1 as (r' & R & F1). destruct r' as [c|o']; [discriminate F1|]. apply S1 in R as (e' & R). rewrite R in E. assert (e1 = e') by congruence. subst e1.
    rewrite (S3 _ _ _ R). exact N.
  - destruct (C99_same w m e N) as (_ & _ & _ & _ & _ & _ & _ & S8). destruct (S8 _ _ _ _ _ E) as [-> |(-> & _)]; [exact N|discriminate].
  - exact F1.
Qed.
Print Assumptions C99_history_partial.
Example C99_history_example : exists e, sp3_history cal1 mjd1 2 [SOpen (sp3h_text hdr1 ++ "*"%char :: []); SOpen (sp3h_text hdr1 ++ "*"%char :: [])] e /\
  Forall (sp3_calm cal1 mjd1) [SOpen (sp3h_text hdr1 ++ "*"%char :: []); SOpen (sp3h_text hdr1 ++ "*"%char :: [])].
Proof.
  destruct C99_same_example as (N & o & E). destruct (C99_same cal1 mjd1 2 N) as (S1 & _ & S3 & _). pose proof E as E'. unfold sp3_open in E'.
  apply bind_inv in E' as (r & R & E'). destruct r as [c|o']; [discriminate E'|]. apply S1 in R as (e & R). pose proof (S3 _ _ _ R). subst e.
  exists 2%Z. split; [eapply sh_open; [exact R|]; eapply sh_open; [exact R|]; apply sh_nil|]. apply Forall_cons; [|apply Forall_cons; [|apply Forall_nil]]; exists o; exact E.
Qed.

(** ERANGE in errno: no file is accepted; a conforming one is refused with 11, and accepted at the second attempt *)
Theorem C99_refused : forall wsow as_mjd d r e1, sp3_open_e wsow as_mjd d SP3_ERANGE = Val (r, e1) ->
  r = inl 10%Z /\ e1 = SP3_ERANGE \/ r = inl 11%Z /\ e1 = 0%Z.
Proof. exact open_hot. Qed.
Print Assumptions C99_refused.
Theorem C99_second_try : forall wsow as_mjd h c tail, sp3h_ok h -> dates_agree wsow as_mjd h -> c <> "/"%char ->
  sp3_open_e wsow as_mjd (sp3h_text h ++ c :: tail) SP3_ERANGE = Val (inl 11%Z, 0%Z) /\
  exists g st, sp3_open_e wsow as_mjd (sp3h_text h ++ c :: tail) 0 = Val (inr (g, st), 0%Z) /\ is_header g h (firstn 3 (h_agency h)) /\ at_rest st (c :: tail).
Proof.
  intros w m h c tail H D C. destruct (sp3_header_exact w m h c tail H D C) as (g & st & E & Q & R & _). split.
  - assert (X : exists r e1, sp3_open_e w m (sp3h_text h ++ c :: tail) SP3_ERANGE = Val (r, e1) /\ r <> inl 10%Z).
    { revert E. unfold sp3_read_header, sp3_open_e. destruct (getline (open_stream _) _ _) as [(st1, l1)| | | |]; cbn [bind fst snd]; try discriminate.
      intro E. apply bind_inv in E as (a & A & E). destruct a as [z|a]; [discriminate E|]. clear E. revert A. unfold sp3_line1, sp3_line1_e.
      destruct (rd l1 0) as [c0| | | |]; cbn [bind]; try discriminate. destruct (negb (ceqb c0 "#")); [discriminate|].
      destruct (rd l1 1) as [c1| | | |]; cbn [bind]; try discriminate. destruct (negb _ && negb _); [discriminate|].
      destruct (strtol_at l1 3) as [((y, u), x)| | | |]; cbn [bind]; try discriminate. intros _. cbv zeta. rewrite hot_erange, Bool.orb_true_r.
      cbn [bind]. do 2 eexists. split; [reflexivity|discriminate]. }
    destruct X as (r & e1 & X & N). destruct (open_hot _ _ _ _ _ X) as [(-> & _)|(-> & ->)]; [congruence|exact X].
  - destruct (C99_same w m 0%Z ltac:(discriminate)) as (S1 & _ & S3 & _). apply S1 in E as (e1 & E). pose proof (S3 _ _ _ E). subst e1. exists g, st. auto.
Qed.
Print Assumptions C99_second_try.
Example C99_second_try_example : sp3h_ok hdr1 /\ dates_agree cal1 mjd1 hdr1.
Proof. exact hdr1_ok. Qed.

(** such an errno is left by a file that was refused: its seconds of week are no double (22) *)
Definition bad_sow : list ascii := sp3h_line1 hdr1 ++ NL :: lit "## 2127          1e9999   900.00000000 59133 0.0104166666667" ++ [NL].
Lemma bad_sow_leaves : sp3_open_e cal1 mjd1 bad_sow 0 = Val (inl 22%Z, SP3_ERANGE).
Proof. vm_compute. reflexivity. Qed.
Theorem C99_full_refuted : ~ C99_full.
Proof.
  intro F. destruct (C99_second_try cal1 mjd1 hdr1 "*"%char [] (proj1 hdr1_ok) (proj2 hdr1_ok) ltac:(discriminate)) as (A & g & st & B & _).
  assert (H : sp3_history cal1 mjd1 0 [SOpen bad_sow] SP3_ERANGE) by (eapply sh_open; [exact bad_sow_leaves|apply sh_nil]).
  specialize (F cal1 mjd1 _ _ _ _ _ _ _ H ltac:(repeat constructor) A B). discriminate F.
Qed.
Print Assumptions C99_full_refuted.

(** an epoch read with ERANGE in errno: its header line is refused (5), nothing is stored, errno is cleared and the stream is at its first record *)
Theorem C99_epoch_lost : forall e is tail st vec k, sp3_epoch_ok e is -> at_rest st (sp3_epoch_text e is ++ tail) ->
  exists q, sp3_next_epoch_e k st vec SP3_ERANGE = Val (q, 0%Z) /\ q_code q = 5%Z /\ q_vec q = vec /\ q_sats q = None /\ q_time q = None /\
    at_rest (q_stream q) (sp3_items_text is ++ tail).
Proof.
  intros e is tail st vec k [He Hi] R. destruct (head_shape e is tail st R He) as (st1 & line & G & Gl & L & R1 & _ & E).
  unfold sp3_next_epoch_e. rewrite G. cbn [negb]. change MAX_RECORD_CHARS with 128. rewrite Gl. cbn [bind].
  assert (X : sp3_epoch_header_e line SP3_ERANGE = Val (inl 5%Z, 0%Z)).
  { revert E. unfold sp3_epoch_header, sp3_epoch_header_e. destruct (rd line 0) as [c0| | | |]; cbn [bind]; try discriminate. destruct (negb (ceqb c0 "*")); [discriminate|].
    destruct (rd line 1) as [c1| | | |]; cbn [bind]; try discriminate. destruct (negb (ceqb c1 " ")); [discriminate|].
    destruct (strtol_at line 3) as [((y, u), x)| | | |]; cbn [bind]; try discriminate. intros _. cbv zeta. rewrite hot_erange, Bool.orb_true_r. reflexivity. }
  rewrite X. cbn [bind]. eexists. split; [reflexivity|]. cbn [q_code q_vec q_sats q_time q_stream]. auto 6.
Qed.
Print Assumptions C99_epoch_lost.
Lemma last_default {A} (l : list A) a b : l <> [] -> last l a = last l b.
Proof. induction l as [|x [|y l] IH]; intro H; [congruence|reflexivity|]. cbn [last]. apply IH. discriminate. Qed.
(** and every line of that epoch costs one more call (2) until the next epoch header *)
Theorem C99_epoch_skipped : forall is tail st vec e k, Forall sp3_item_ok is -> at_rest st (sp3_items_text is ++ tail) ->
  exists qs, sp3_calls_e (length is) k st vec e = Val (qs, e) /\ length qs = length is /\
    Forall (fun q => q_code q = 2%Z /\ q_vec q = vec /\ q_sats q = None /\ q_time q = None) qs /\
    at_rest (last (map q_stream qs) st) tail.
Proof.
  induction is as [|i is IH]; intros tail st vec e k F R.
  - exists []. cbn [length sp3_calls_e map last]. split; [reflexivity|]. split; [reflexivity|]. split; [apply Forall_nil|exact R].
  - inversion F as [|? ? Hi F']; subst. destruct (item_facts i Hi) as (C & L & _ & Hd).
    assert (R' : at_rest st (item_text i ++ NL :: (sp3_items_text is ++ tail))).
    { destruct R as [G R]. split; [exact G|]. rewrite R. unfold sp3_items_text, text_of. cbn [map flat_map concat]. rewrite <- ?app_assoc. reflexivity. }
    destruct (getline_line st (uninit 128) 128 _ _ R' (clean_nonl _ C) ltac:(lia) ltac:(unfold uninit; rewrite repeat_length; lia)) as (st1 & Gl & R1 & _).
    destruct (IH tail st1 vec e k F' R1) as (qs & E & Ln & Q & Rl).
    exists (mkSp3Res 2%Z None vec None st1 :: qs). cbn [length sp3_calls_e].
    assert (X : sp3_next_epoch_e k st vec e = Val (mkSp3Res 2%Z None vec None st1, e)).
    { unfold sp3_next_epoch_e. destruct R as [G _]. rewrite G. cbn [negb]. change MAX_RECORD_CHARS with 128. rewrite Gl. cbn [bind].
      unfold sp3_epoch_header_e. rewrite rd0_overlay. cbn [bind]. destruct (item_text i) as [|c l]; [reflexivity|].
      destruct (ceqb c "*") eqn:Q0; [|reflexivity]. apply ceqb_eq in Q0. subst c. exfalso. apply Hd. reflexivity. }
    rewrite X. cbn [bind fst snd q_stream q_vec]. rewrite E. cbn [bind fst snd]. split; [reflexivity|]. split; [rewrite Ln; reflexivity|]. split.
    + apply Forall_cons; [cbn; auto|exact Q].
    + cbn [map]. destruct qs as [|q qs]; [exact Rl|]. cbn [map] in *. rewrite (last_default _ st1 st) in Rl by discriminate. exact Rl.
Qed.
Print Assumptions C99_epoch_skipped.
Definition items1 : list sp3_item := [PPos pos1; POther (lit "EP  55  55  55"); PPos pos1].
Example C99_epoch_example :
  sp3_epoch_ok ep1 items1 /\ Forall sp3_item_ok items1 /\ at_rest (open_stream (sp3_epoch_text ep1 items1 ++ "*"%char :: [])) (sp3_epoch_text ep1 items1 ++ "*"%char :: []) /\
  exists q, sp3_next_epoch 9 (open_stream (sp3_epoch_text ep1 items1 ++ "*"%char :: [])) (repeat sp3rec_new 2) = Val q /\ q_code q = 0%Z /\ q_sats q = Some 2.
Proof.
  split; [exact ep1_items|]. split; [exact (proj2 ep1_items)|]. split; [split; reflexivity|].
  destruct (C30_epoch_partial ep1 items1 [] (open_stream (sp3_epoch_text ep1 items1 ++ "*"%char :: [])) (repeat sp3rec_new 2) ep1_items ltac:(split; reflexivity) ltac:(cbn; lia)) as (q & E & C & _ & N & _).
  exists q. split; [apply E; cbn; lia|]. split; [exact C|exact N].
Qed.
