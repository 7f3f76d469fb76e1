(** ProofMove: C53. *)
From Verif Require Import Base BaseLemmas ModelMove.

(** the variables, and the blocks they point to *)
Definition points (s : mstate) (i b : nat) : Prop := var s i = Some (Some b).

Definition moveless (op : mop) : Prop := match op with MMoveConstruct _ | MMoveAssign _ _ => False | _ => True end.

(** every live block has exactly one owner and conversely *)
Definition owned (s : mstate) : Prop :=
  NoDup (m_live s) /\ (forall b, In b (m_live s) -> b < m_next s) /\
  (forall i b, points s i b -> In b (m_live s)) /\
  (forall i j b, points s i b -> points s j b -> i = j) /\
  (forall b, In b (m_live s) -> exists i, points s i b).

Lemma var_app s n l x i : var (mkM n l (m_vars s ++ [x])) i =
  if i =? length (m_vars s) then x else var s i.
Proof.
  unfold var. cbn [m_vars]. destruct (Nat.eqb_spec i (length (m_vars s))).
  - subst. rewrite nth_error_app2, Nat.sub_diag by auto. reflexivity.
  - destruct (Nat.lt_ge_cases i (length (m_vars s))).
    + rewrite nth_error_app1 by auto. reflexivity.
    + rewrite nth_error_app2 by auto. replace (nth_error (m_vars s) i) with (@None (option ptr)) by (symmetry; apply nth_error_None; auto).
      destruct (i - length (m_vars s)) as [|k] eqn:E; [lia|]. destruct k; reflexivity.
Qed.
Lemma var_lt s i p : var s i = Some p -> i < length (m_vars s).
Proof.
  unfold var. intro H. apply nth_error_Some. destruct (nth_error (m_vars s) i); congruence.
Qed.
Lemma nth_firstn {A} (l : list A) k j : j < k -> nth_error (firstn k l) j = nth_error l j.
Proof.
  revert l j. induction k as [|k IH]; intros l j H; [lia|]. destruct l as [|x l]; [destruct j; reflexivity|].
  destruct j as [|j]; [reflexivity|]. cbn. apply IH. lia.
Qed.
Lemma nth_skipn {A} (l : list A) k j : nth_error (skipn k l) j = nth_error l (k + j).
Proof.
  revert l. induction k as [|k IH]; intro l; [reflexivity|]. destruct l as [|x l]; [destruct j; reflexivity|].
  cbn. apply IH.
Qed.
Lemma var_set s n l i x j : i < length (m_vars s) ->
  var (mkM n l (set_var s i x)) j = if j =? i then x else var s j.
Proof.
  intro H. unfold var, set_var. cbn [m_vars]. destruct (Nat.eqb_spec j i).
  - subst. rewrite nth_error_app2 by (rewrite firstn_length; lia). rewrite firstn_length.
    replace (i - Nat.min i (length (m_vars s))) with 0 by lia. reflexivity.
  - destruct (Nat.lt_ge_cases j i).
    + rewrite nth_error_app1 by (rewrite firstn_length; lia). rewrite nth_firstn by auto. reflexivity.
    + rewrite nth_error_app2 by (rewrite firstn_length; lia). rewrite firstn_length.
      replace (j - Nat.min i (length (m_vars s))) with (S (j - S i)) by lia. cbn [nth_error].
      rewrite nth_skipn. replace (S i + (j - S i)) with j by lia. reflexivity.
Qed.

Lemma owned_init : owned m_init.
Proof.
  repeat split; cbn; try tauto; try constructor.
  - intros i b H. unfold points, var in H. cbn in H. destruct i; discriminate.
  - intros i j b H. unfold points, var in H. cbn in H. destruct i; discriminate.
Qed.

Lemma owned_step s op s' : owned s -> moveless op -> mstep s op = Val s' -> owned s'.
Proof.
  intros (N & B & P & U & O) M H. destruct op as [|i|i j|i]; try contradiction; cbn [mstep] in H.
  - apply Val_inj in H. subst s'.
    assert (V : forall i b, points (mkM (S (m_next s)) (m_next s :: m_live s) (m_vars s ++ [Some (Some (m_next s))])) i b
      <-> (i = length (m_vars s) /\ b = m_next s) \/ (i <> length (m_vars s) /\ points s i b)).
    { intros i b. unfold points. rewrite var_app. destruct (Nat.eqb_spec i (length (m_vars s))); split; intro Q.
      - left. split; congruence.
      - destruct Q as [[_ ->]|[Q _]]; [reflexivity|contradiction].
      - right. auto.
      - destruct Q as [[Q _]|[_ Q]]; [contradiction|exact Q]. }
    split; [|split; [|split; [|split]]]; cbn [m_live m_next].
    + constructor; auto. intro F. apply B in F. lia.
    + intros b [<-|F]; [lia|]. apply B in F. lia.
    + intros i b Q. apply V in Q as [[-> ->]|[_ Q]]; [left; auto|right; eauto].
    + intros i j b Q1 Q2. apply V in Q1. apply V in Q2.
      destruct Q1 as [[-> ->]|[I1 Q1]], Q2 as [[-> E]|[I2 Q2]]; auto.
      * apply P, B in Q2. lia.
      * subst b. apply P, B in Q1. lia.
      * eauto.
    + intros b [<-|F]; [exists (length (m_vars s)); apply V; auto|].
      apply O in F as [i F]. exists i. apply V. right. split; [|exact F].
      intros ->. apply var_lt in F. lia.
  - destruct (var s i) as [[b|]|] eqn:E; [|apply Val_inj in H; subst s'|discriminate].
    + destruct (in_dec Nat.eq_dec b (m_live s)) as [Hb|]; [|discriminate]. apply Val_inj in H. subst s'.
      assert (L : i < length (m_vars s)) by (eapply var_lt; eauto).
      assert (V : forall k c, points (mkM (m_next s) (remove Nat.eq_dec b (m_live s)) (set_var s i None)) k c
         <-> k <> i /\ points s k c).
      { intros k c. unfold points. rewrite var_set by auto. destruct (Nat.eqb_spec k i); split; intro Q; try tauto; try discriminate. }
      split; [|split; [|split; [|split]]]; cbn [m_live m_next].
      * clear -N. induction (m_live s) as [|x l IH]; [constructor|]. inversion N; subst. cbn. destruct (Nat.eq_dec b x); auto.
        constructor; auto. intro F. apply in_remove in F as [F _]. contradiction.
      * intros c F. apply in_remove in F as [F _]. auto.
      * intros k c Q. apply V in Q as [K Q]. apply in_in_remove; [|eauto]. intros ->. apply K. eapply U; eauto.
      * intros k l c Q1 Q2. apply V in Q1 as [_ Q1]. apply V in Q2 as [_ Q2]. eauto.
      * intros c F. apply in_remove in F as [F Hc]. apply O in F as [k F]. exists k. apply V. split; [|exact F].
        intros ->. unfold points in F. congruence.
    + assert (L : i < length (m_vars s)) by (eapply var_lt; eauto).
      assert (V : forall k c, points (mkM (m_next s) (m_live s) (set_var s i None)) k c <-> points s k c).
      { intros k c. unfold points. rewrite var_set by auto. destruct (Nat.eqb_spec k i); [subst; rewrite E|]; split; congruence. }
      split; [|split; [|split; [|split]]]; cbn [m_live m_next]; auto.
      * intros k c Q. apply V in Q. eauto.
      * intros k l c Q1 Q2. apply V in Q1. apply V in Q2. eauto.
      * intros c F. apply O in F as [k F]. exists k. apply V. exact F.
Qed.

Lemma owned_safe s op : owned s -> moveless op -> mstep s op <> UB.
Proof.
  intros (N & B & P & U & O) M. destruct op as [|i|i j|i]; try contradiction; cbn [mstep]; [discriminate|].
  destruct (var s i) as [[b|]|] eqn:E; try discriminate.
  destruct (in_dec Nat.eq_dec b (m_live s)) as [|n]; [discriminate|]. exfalso. apply n. eapply P. exact E.
Qed.

(** without moves: no double release, and when no object is left no block is left *)
Theorem moveless_run : forall ops s, owned s -> Forall moveless ops ->
  mrun s ops <> UB /\ (forall s', mrun s ops = Val s' -> owned s').
Proof.
  induction ops as [|op ops IH]; intros s Ho F.
  - split; [discriminate|]. intros s' H. apply Val_inj in H. subst. exact Ho.
  - inversion F as [|? ? M F']; subst. cbn [mrun]. pose proof (owned_safe s op Ho M) as NU.
    destruct (mstep s op) as [s1| | | |] eqn:E; cbn [bind]; try (split; [discriminate|intros ? Q; discriminate]); [|contradiction].
    apply IH; auto. eapply owned_step; eauto.
Qed.

Lemma owned_all_dead s : owned s -> (forall i, var s i = None) -> m_live s = [].
Proof.
  intros (_ & _ & _ & _ & O) H. destruct (m_live s) as [|b l] eqn:E; auto. destruct (O b) as [i Q]; [left; auto|].
  unfold points in Q. rewrite H in Q. discriminate.
Qed.

(** a move from an object that holds a buffer, then both objects destroyed, in either order *)
Theorem move_then_destroy_both s i b : points s i b ->
  let j := length (m_vars s) in
  mrun s [MMoveConstruct i; MDestroy i; MDestroy j] = UB /\
  mrun s [MMoveConstruct i; MDestroy j; MDestroy i] = UB.
Proof.
  intros H j. unfold points in H. assert (L : i < length (m_vars s)) by (eapply var_lt; eauto).
  cbn [mrun]. cbn [mstep]. rewrite H. cbn [bind].
  set (s1 := mkM (m_next s) (m_live s) (m_vars s ++ [Some (Some b)])).
  assert (Vi : var s1 i = Some (Some b)).
  { unfold s1. rewrite var_app. destruct (Nat.eqb_spec i (length (m_vars s))); auto. }
  assert (Vj : var s1 j = Some (Some b)).
  { unfold s1, j. rewrite var_app. rewrite Nat.eqb_refl. reflexivity. }
  assert (L1 : length (m_vars s1) = S (length (m_vars s))) by (unfold s1; cbn; rewrite app_length; cbn; lia).
  assert (G : forall p q, p <> q -> p < length (m_vars s1) -> var s1 p = Some (Some b) -> var s1 q = Some (Some b) ->
    mrun s1 [MDestroy p; MDestroy q] = UB).
  { intros p q Hpq Lp Vp Vq. cbn [mrun mstep]. rewrite Vp. destruct (in_dec Nat.eq_dec b (m_live s1)); [|reflexivity].
    cbn [bind]. rewrite var_set by auto. destruct (Nat.eqb_spec q p); [congruence|]. rewrite Vq.
    cbn [m_live]. destruct (in_dec Nat.eq_dec b (remove Nat.eq_dec b (m_live s1))) as [F|]; [|reflexivity].
    exfalso. exact (remove_In _ _ _ F). }
  split; apply G; auto; unfold j in *; rewrite ?L1; lia.
Qed.

(** a move assignment over an object that holds a buffer: that buffer is never released *)
Theorem move_assign_leaks s i j b c : owned s -> points s i b -> points s j c -> i <> j ->
  exists s', mstep s (MMoveAssign i j) = Val s' /\ In b (m_live s') /\ forall k, ~ points s' k b.
Proof.
  intros (N & B & P & U & O) Hi Hj Hij. unfold points in *. cbn [mstep]. rewrite Hi, Hj.
  eexists. split; [reflexivity|]. cbn [m_live]. split; [eauto|]. intros k.
  assert (L : i < length (m_vars s)) by (eapply var_lt; eauto).
  rewrite var_set by auto. destruct (Nat.eqb_spec k i) as [->|Hk].
  - intro Q. assert (c = b) by congruence. subst c. apply Hij. eapply U; eauto.
  - intro Q. apply Hk. eapply U; eauto.
Qed.
