(** ProofAntexSkip: skip_rest_of_antenna on every stream (C33); the comparison functions of C31. *)
From Verif Require Import Base BaseLemmas CNum CNumLemmas Stream ModelSatsys ModelObs ModelNvarstr ModelSatellite ModelAntenna
  ModelAntex SpecText SpecNum SpecObs SpecHeader SpecAntex ProofText ProofAntenna ProofNum ProofStream ProofObsTypes ProofObsRec ProofHeader ProofAntex ProofAntexFind.

Lemma getline_cases st buf n : 1 <= n -> n <= length buf ->
  exists st' l, getline st buf n = Val (st', overlay l buf) /\ length l < n /\ ~ In NL l /\ sdata st' = sdata st /\
  ((good st = false /\ l = [] /\ sfail st' = true) \/
   (good st = true /\
    ((exists t, rest st = l ++ NL :: t /\ good st' = true /\ rest st' = t) \/
     (rest st = l /\ seof st' = true /\ sfail st' = match l with [] => true | _ => false end) \/
     (length l = n - 1 /\ (exists c t, c <> NL /\ rest st = l ++ c :: t) /\ sfail st' = true /\ seof st' = false)))).
Proof.
  intros Hn Hb. destruct (good st) eqn:G.
  - unfold getline. rewrite G. destruct (take_line (n - 1) (rest st)) as [l e] eqn:T. destruct (take_line_inv _ _ _ _ T) as (N & L & Hc).
    rewrite wr_bytes_overlay by lia. cbn [bind]. eexists. exists l. split; [reflexivity|]. split; [lia|]. split; [exact N|].
    assert (GF : seof st = false /\ sfail st = false) by (unfold good in G; destruct (seof st), (sfail st); cbn in G; auto; discriminate).
    destruct GF as (Ge & Gf).
    destruct e.
    + destruct Hc as (t & R). split; [destruct l; reflexivity|]. right. split; [reflexivity|]. left. exists t. split; [exact R|].
      assert (A : at_rest (advance st (length l + 1)) t).
      { replace (length l + 1) with (length (l ++ [NL])) by (rewrite app_length; reflexivity). apply at_rest_advance. split; [exact G|]. rewrite R, <- app_assoc. reflexivity. }
      destruct l; exact A.
    + split; [destruct l; reflexivity|]. right. split; [reflexivity|]. right. left. split; [exact Hc|].
      destruct l; cbn; rewrite ?Gf; split; reflexivity.
    + destruct Hc as (Lk & c & t & Nc & R). split; [destruct l; reflexivity|]. right. split; [reflexivity|]. right. right. split; [exact Lk|].
      split; [exists c, t; auto|]. destruct l; cbn; rewrite ?Ge; split; reflexivity.
  - unfold getline. rewrite G. change [Some NUL] with (map Some (@nil ascii) ++ [Some NUL]). rewrite wr_bytes_overlay by (cbn; lia). cbn [bind].
    eexists. exists []. split; [reflexivity|]. split; [cbn; lia|]. split; [intros []|]. split; [reflexivity|]. left. repeat split.
Qed.

Lemma label_cases m s n : label m s n = UB \/ exists b, label m s n = Val b.
Proof.
  unfold label, strncmp_lit, strncmp_eq. generalize (skipn 60 m), (skipn 0 (cbuf (lit s))). induction n as [|n IH]; intros a b; [right; eexists; reflexivity|].
  destruct a as [|[x|] a]; [left; reflexivity| |left; reflexivity]. destruct b as [|[y|] b]; [left; reflexivity| |left; reflexivity]. cbn [strncmp0].
  destruct (ceqb x y); [|right; eexists; reflexivity]. destruct (ceqb x NUL); [right; eexists; reflexivity|apply IH].
Qed.

(** the buffer's label after a getline *)
Lemma label_step l buf s n : n = String.length s -> ~ In NUL (lit s) -> label buf s n <> Val true ->
  label (overlay l buf) s n = Val true -> labelled s l = true.
Proof.
  intros -> Hs Hb H. destruct (Nat.lt_ge_cases (length l) 60) as [L|L].
  - rewrite label_stale in H by exact L. contradiction.
  - rewrite label_other in H by auto. apply Val_inj in H. exact H.
Qed.
Lemma label_step_no l buf s n : n = String.length s -> ~ In NUL (lit s) -> label (overlay l buf) s n <> Val true -> s <> EmptyString -> labelled s l = false.
Proof.
  intros -> Hs H Ne. destruct (Nat.lt_ge_cases (length l) 60) as [L|L].
  - unfold labelled. rewrite skipn_all2 by lia. rewrite firstn_nil. destruct s; [congruence|reflexivity].
  - rewrite label_other in H by auto. destruct (labelled s l); congruence.
Qed.

Definition END_ANT : string := "END OF ANTENNA".
Lemma skip_bad : forall n st buf, length buf = 512 -> good st = false -> label buf END_ANT 14 <> Val true ->
  forall code st', skip_loop n st buf = Val (code, st') -> code = 1%Z /\ sdata st' = sdata st.
Proof.
  induction n as [|n IH]; intros st buf B G L code st' H; [cbn in H; apply Val_inj in H; injection H as <- <-; auto|]. cbn [skip_loop] in H.
  change ATX_GRID_CHARS with 512 in H.
  destruct (getline_cases st buf 512 ltac:(lia) ltac:(lia)) as (st1 & l & E & Ll & N & D & [(_ & -> & Sf)|(G' & _)]); [|congruence].
  rewrite E in H. cbn [bind] in H. change "END OF ANTENNA"%string with END_ANT in H.
  rewrite label_stale in H by (cbn; lia).
  destruct (label_cases buf END_ANT 14) as [U|(b & U)]; rewrite U in H; cbn [bind] in H; [discriminate|]. destruct b; [contradiction|].
  destruct n as [|n]; [apply Val_inj in H; injection H as <- <-; auto|].
  destruct (IH st1 (overlay [] buf) ltac:(rewrite overlay_length; cbn; lia) ltac:(unfold good; rewrite Sf; apply andb_false_r)
    ltac:(rewrite label_stale by (cbn; lia); exact L) code st' H) as (A & Q). split; congruence.
Qed.

(** where a successful skip stops *)
Definition stopped (f d l : list ascii) (st' : stream) : Prop :=
  (exists t, d = l ++ NL :: t /\ on st' f t) \/ (d = l /\ seof st' = true /\ sfail st' = false) \/
  (length l = 511 /\ length l < length d /\ firstn (length l) d = l /\ sfail st' = true).
Lemma skip_sound : forall n st f d buf st', length buf = 512 -> on st f d -> label buf END_ANT 14 <> Val true ->
  skip_loop n st buf = Val (0%Z, st') ->
  exists ls l e, d = text_of ls ++ e /\ length ls + 2 <= n /\ Forall (fun x => labelled END_ANT x = false) ls /\
    labelled END_ANT l = true /\ Forall (fun x => ~ In NL x) (ls ++ [l]) /\ stopped f e l st'.
Proof.
  induction n as [|n IH]; intros st f d buf st' B H L Hs; [discriminate Hs|]. cbn [skip_loop] in Hs. change ATX_GRID_CHARS with 512 in Hs.
  pose proof H as (G & D & R0). pose proof (on_rest _ _ _ H) as (_ & Rr).
  destruct (getline_cases st buf 512 ltac:(lia) ltac:(lia)) as (st1 & l & E & Ll & N & D1 & [(G' & _)|(_ & Cs)]); [congruence|].
  rewrite E in Hs. cbn [bind] in Hs. change "END OF ANTENNA"%string with END_ANT in Hs.
  destruct (label_cases (overlay l buf) END_ANT 14) as [U|(b & U)]; rewrite U in Hs; cbn [bind] in Hs; [discriminate|].
  destruct n as [|n]; [apply Val_inj in Hs; discriminate Hs|]. destruct b.
  - apply Val_inj in Hs. injection Hs as <-. exists [], l, d. split; [reflexivity|]. split; [cbn; lia|]. split; [constructor|].
    pose proof (label_step l buf END_ANT 14 eq_refl ltac:(nonul_lit) L U) as Lab.
    split; [exact Lab|]. split; [repeat constructor; exact N|]. rewrite Rr in Cs.
    destruct Cs as [(t & Rt & Gt & Rs)|[(Rl & Eo & Sf)|(L5 & (c & t & Nc & Rt) & Sf & _)]].
    + left. exists t. split; [exact Rt|]. split; [exact Gt|]. split; [congruence|]. unfold rest in Rs. rewrite D1, D in Rs. exact Rs.
    + right. left. split; [exact Rl|]. split; [exact Eo|]. destruct l; [discriminate Lab|exact Sf].
    + right. right. split; [lia|]. rewrite Rt. rewrite app_length. cbn [length]. split; [lia|]. split; [|exact Sf].
      rewrite firstn_app, firstn_all, Nat.sub_diag. cbn. apply app_nil_r.
  - assert (NL1 : label (overlay l buf) END_ANT 14 <> Val true) by congruence.
    assert (B1 : length (overlay l buf) = 512) by (rewrite overlay_length; lia). rewrite Rr in Cs.
    destruct Cs as [(t & Rt & Gt & Rs)|[(Rl & Eo & Sf)|(L5 & _ & Sf & _)]].
    + assert (H1 : on st1 f t) by (split; [exact Gt|]; split; [congruence|]; unfold rest in Rs; rewrite D1, D in Rs; exact Rs).
      destruct (IH st1 f t _ st' B1 H1 NL1 Hs) as (ls & l' & e & -> & Ln & Fl & Lab & Fn & St).
      exists (l :: ls), l', e. split; [rewrite text_of_one; exact Rt|]. split; [cbn; lia|].
      split; [constructor; [apply (label_step_no l buf END_ANT 14 eq_refl); [nonul_lit|exact NL1|discriminate]|exact Fl]|].
      split; [exact Lab|]. split; [constructor; [exact N|exact Fn]|exact St].
    + exfalso. assert (Gb : good st1 = false) by (unfold good; rewrite Eo; reflexivity).
      destruct (skip_bad _ _ _ B1 Gb NL1 _ _ Hs) as (X & _). discriminate X.
    + exfalso. assert (Gb : good st1 = false) by (unfold good; rewrite Sf; apply andb_false_r).
      destruct (skip_bad _ _ _ B1 Gb NL1 _ _ Hs) as (X & _). discriminate X.
Qed.

(** always returns *)
Lemma skip_total : forall n st buf, length buf = 512 ->
  match skip_loop n st buf with Val (code, st') => (code = 0%Z \/ code = 1%Z) /\ sdata st' = sdata st | UB => True | _ => False end.
Proof.
  induction n as [|n IH]; intros st buf B; [cbn; auto|]. cbn [skip_loop]. change ATX_GRID_CHARS with 512.
  destruct (getline_cases st buf 512 ltac:(lia) ltac:(lia)) as (st1 & l & E & Ll & N & D1 & _). rewrite E. cbn [bind].
  destruct (label_cases (overlay l buf) "END OF ANTENNA" 14) as [U|(b & U)]; rewrite U; cbn [bind]; [exact I|].
  destruct n as [|n]; [auto|]. destruct b; [auto|]. specialize (IH st1 (overlay l buf) ltac:(rewrite overlay_length; lia)).
  destruct (skip_loop (S n) st1 (overlay l buf)) as [[code st2]| | | |]; try contradiction; auto. destruct IH as (A & Q). split; congruence.
Qed.
Lemma label_uninit s n k : n <> 0 -> label (uninit k) s n = UB.
Proof.
  intro N. unfold label, strncmp_lit, strncmp_eq. destruct n; [congruence|]. destruct (skipn 60 (uninit k)) as [|x r] eqn:E; [reflexivity|].
  assert (In x (uninit k)) by (rewrite <- (firstn_skipn 60 (uninit k)); apply in_or_app; right; rewrite E; left; reflexivity).
  apply repeat_spec in H. subst. reflexivity.
Qed.
(** not UB as soon as the first line reaches column 60 *)
Lemma skip_defined : forall n st f l d buf, length buf = 512 -> on st f (l ++ d) -> ~ In NL l -> length l = 60 ->
  exists code st', skip_loop n st buf = Val (code, st').
Proof.
  assert (A : forall n st buf, length buf = 512 -> label buf END_ANT 14 <> UB -> exists code st', skip_loop n st buf = Val (code, st')).
  { induction n as [|n IH]; intros st buf B U; [do 2 eexists; reflexivity|]. cbn [skip_loop]. change ATX_GRID_CHARS with 512.
    destruct (getline_cases st buf 512 ltac:(lia) ltac:(lia)) as (st1 & l & E & Ll & N & D1 & _). rewrite E. cbn [bind].
    assert (U1 : label (overlay l buf) END_ANT 14 <> UB).
    { destruct (Nat.lt_ge_cases (length l) 60) as [Q|Q]; [rewrite label_stale by exact Q; exact U|rewrite label_other by (first [exact Q|reflexivity|nonul_lit]); discriminate]. }
    change "END OF ANTENNA"%string with END_ANT. destruct (label_cases (overlay l buf) END_ANT 14) as [X|(b & X)]; [congruence|]. rewrite X. cbn [bind].
    destruct n as [|n]; [do 2 eexists; reflexivity|]. destruct b; [do 2 eexists; reflexivity|]. apply IH; [rewrite overlay_length; lia|exact U1]. }
  intros n st f l d buf B H N L. destruct n as [|n]; [do 2 eexists; reflexivity|]. cbn [skip_loop]. change ATX_GRID_CHARS with 512.
  pose proof (on_rest _ _ _ H) as (G & R).
  destruct (getline_cases st buf 512 ltac:(lia) ltac:(lia)) as (st1 & l1 & E & Ll & N1 & D1 & [(G' & _)|(_ & Cs)]); [congruence|].
  assert (L60 : 60 <= length l1).
  { rewrite R in Cs. destruct Cs as [(t & Q & _)|[(Q & _)|(Q & _)]]; [|rewrite <- Q, app_length; lia|lia].
    destruct (Nat.le_gt_cases 60 (length l1)) as [K|K]; [exact K|exfalso]. apply N.
    assert (X : nth_error (l ++ d) (length l1) = Some NL) by (rewrite Q, nth_error_app2 by lia; rewrite Nat.sub_diag; reflexivity).
    rewrite nth_error_app1 in X by lia. eapply nth_error_In. exact X. }
  rewrite E. cbn [bind]. rewrite label_other by (first [exact L60|reflexivity|nonul_lit]). cbn [bind].
  destruct n as [|n]; [do 2 eexists; reflexivity|]. destruct (labelled _ l1) eqn:Lb; [do 2 eexists; reflexivity|].
  apply A; [rewrite overlay_length; lia|]. rewrite label_other by (first [exact L60|reflexivity|nonul_lit]). discriminate.
Qed.

(** ** the comparisons of the search in terms of bytes *)
Lemma blankb_all s : blankb s = true <-> all_blank s.
Proof.
  unfold blankb, all_blank. rewrite forallb_forall. split; intros H c Hc; specialize (H c Hc); [apply ceqb_eq in H; auto|apply ceqb_eq; auto].
Qed.
Lemma exactb_iff a r : reach_ant a -> ant_ok r -> (exactb a r = true <-> same_antenna r a).
Proof.
  intros Ha Hr. pose proof (rec_shape r Hr) as Sr. apply reach_shape in Ha as (g & p & Sa). unfold exactb, same_antenna, bytes_model, bytes_serial.
  rewrite (ant_is_same_spec _ _ _ _ _ _ Sr Sa). destruct Hr as ((C1 & L1) & (C2 & L2) & _).
  apply shape_split in Sa as (Lg & Ng & t & -> & _ & Ht). rewrite skipn20 by exact Lg.
  rewrite firstn_app, map_length, Lg, Nat.sub_diag, firstn_O, app_nil_r, firstn_all2 by (rewrite map_length; lia).
  rewrite <- blankb_all.
  destruct (blankb (r_serial r)) eqn:B.
  - split; [discriminate|]. intros (_ & _ & X). congruence.
  - destruct p as [s|].
    + destruct Ht as (-> & Ls & Ns). rewrite firstn_app, map_length, Ls, Nat.sub_diag, firstn_O, app_nil_r, firstn_all2 by (rewrite map_length; lia).
      rewrite B. cbn [negb andb]. rewrite !andb_true_iff, !list_eqb_eq. split.
      * intros (_ & -> & ->). repeat split; congruence.
      * intros (M & Sq & _). apply map_Some_inj in M, Sq. subst. rewrite B. repeat split.
    + destruct Ht as (u & ->). split; [discriminate|]. intros (_ & Sq & _). exfalso. apply (clean_nul _ C2).
      destruct (r_serial r) as [|c s]; [discriminate L2|]. cbn [firstn map] in Sq. injection Sq as <- _. left. reflexivity.
Qed.
Lemma plainb_iff a r : reach_ant a -> ant_ok r -> (plainb a r = true <-> same_type r a).
Proof.
  intros Ha Hr. pose proof (rec_shape r Hr) as Sr. apply reach_shape in Ha as (g & p & Sa). unfold plainb, same_type, bytes_model.
  rewrite (compare_model_spec _ _ _ _ _ _ Sr Sa). apply shape_split in Sa as (Lg & Ng & t & -> & _ & _).
  rewrite firstn_app, map_length, Lg, Nat.sub_diag, firstn_O, app_nil_r, firstn_all2 by (rewrite map_length; lia).
  rewrite andb_true_iff, list_eqb_eq, blankb_all. split; intros (M & Bl); split; auto; [congruence|apply map_Some_inj in M; congruence].
Qed.

Lemma first_split_some {A} (p : A -> bool) l a x b : first_split p l = Some (a, x, b) -> l = a ++ x :: b /\ p x = true /\ Forall (fun y => p y = false) a.
Proof.
  revert a x b. induction l as [|y l IH]; intros a x b H; [discriminate|]. cbn [first_split] in H. destruct (p y) eqn:P.
  - injection H as <- <- <-. auto.
  - destruct (first_split p l) as [[[a' x'] b']|]; [|discriminate]. injection H as <- <- <-. destruct (IH _ _ _ eq_refl) as (-> & Q & F). auto.
Qed.
Lemma first_split_none {A} (p : A -> bool) l : first_split p l = None -> Forall (fun y => p y = false) l.
Proof.
  induction l as [|y l IH]; intro H; [constructor|]. cbn [first_split] in H. destruct (p y) eqn:P; [discriminate|].
  destruct (first_split p l) as [[[a' x'] b']|]; [discriminate|]. auto.
Qed.
Lemma last_split_some {A} (p : A -> bool) l a x : last_split p l = Some (a, x) ->
  l = a ++ x :: skipn (S (length a)) l /\ p x = true /\ Forall (fun y => p y = false) (skipn (S (length a)) l).
Proof.
  revert a x. induction l as [|y l IH]; intros a x H; [discriminate|]. cbn [last_split] in H. destruct (last_split p l) as [[a' x']|] eqn:E.
  - injection H as <- <-. destruct (IH _ _ eq_refl) as (Q & P & F). cbn [length app skipn]. split; [f_equal; exact Q|auto].
  - destruct (p y) eqn:P; [|discriminate]. injection H as <- <-. cbn. split; [reflexivity|]. split; [exact P|].
    clear IH. revert E. induction l as [|z l IH]; intro E; [constructor|]. cbn [last_split] in E. destruct (last_split p l) as [[? ?]|]; [discriminate|].
    destruct (p z) eqn:Pz; [discriminate|]. auto.
Qed.
Lemma last_split_none {A} (p : A -> bool) l : last_split p l = None -> Forall (fun y => p y = false) l.
Proof.
  induction l as [|z l IH]; intro E; [constructor|]. cbn [last_split] in E. destruct (last_split p l) as [[? ?]|]; [discriminate|].
  destruct (p z) eqn:Pz; [discriminate|]. auto.
Qed.
