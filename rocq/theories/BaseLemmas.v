(** BaseLemmas: facts about Base (buffers, C strings, decimal printing). *)
From Verif Require Import Base.
From Coq Require Import DecimalString DecimalN DecimalFacts DecimalPos.

Ltac inv H := inversion H; subst; clear H.

Lemma ceqb_eq a b : ceqb a b = true <-> a = b.
Proof. apply Ascii.eqb_eq. Qed.

Lemma ceqb_refl a : ceqb a a = true.
Proof. apply Ascii.eqb_refl. Qed.

Lemma ceqb_neq a b : ceqb a b = false <-> a <> b.
Proof. apply Ascii.eqb_neq. Qed.

Lemma list_eqb_eq a b : list_eqb a b = true <-> a = b.
Proof.
  revert b; induction a as [|x a IH]; intros [|y b]; simpl; split; intro H;
    try reflexivity; try discriminate.
  - apply andb_true_iff in H as [H1 H2]. apply ceqb_eq in H1. apply IH in H2. congruence.
  - inv H. rewrite ceqb_refl. apply IH. reflexivity.
Qed.

Lemma Val_inj {A} (x y : A) : Val x = Val y -> x = y.
Proof. intro H. injection H. auto. Qed.

Lemma bind_val {A B} (o : outcome A) (f : A -> outcome B) b :
  bind o f = Val b -> exists a, o = Val a /\ f a = Val b.
Proof. destruct o; simpl; intro H; try discriminate. eauto. Qed.

Lemma skipn_skipn {A} x y (l : list A) : skipn x (skipn y l) = skipn (x + y) l.
Proof.
  revert l; induction y as [|y IH]; intro l; simpl.
  - rewrite Nat.add_0_r. reflexivity.
  - rewrite Nat.add_succ_r. destruct l; simpl; [rewrite skipn_nil; reflexivity|apply IH].
Qed.

(** C strings *)
Lemma cstr0_val m s :
  cstr0 m = Val s <-> exists r, m = map Some s ++ Some NUL :: r /\ ~ In NUL s.
Proof.
  revert s; induction m as [|o m IH]; intro s; simpl.
  - split; [discriminate|]. intros (r & H & _). destruct s; discriminate.
  - destruct o as [c|].
    + destruct (ceqb c NUL) eqn:Ec.
      * apply ceqb_eq in Ec; subst c. split; intro H.
        -- inv H. exists m. simpl. auto.
        -- destruct H as (r & H & Hn). destruct s as [|x s]; [reflexivity|].
           simpl in H. inv H. exfalso. apply Hn. left. reflexivity.
      * apply ceqb_neq in Ec. split; intro H.
        -- apply bind_val in H as (t & Ht & Hs). inv Hs. apply IH in Ht as (r & -> & Hn).
           exists r. split; [reflexivity|]. intros [H|H]; [congruence|auto].
        -- destruct H as (r & H & Hn). destruct s as [|x s].
           ++ simpl in H. inv H. congruence.
           ++ simpl in H. inv H. assert (H : cstr0 (map Some s ++ Some NUL :: r) = Val s).
              { apply IH. exists r. split; [reflexivity|]. intro; apply Hn; right; auto. }
              rewrite H. reflexivity.
    + split; [discriminate|]. intros (r & H & _). destruct s; discriminate.
Qed.

Lemma cstr0_app s r : ~ In NUL s -> cstr0 (map Some s ++ Some NUL :: r) = Val s.
Proof. intro H. apply cstr0_val. eauto. Qed.

Lemma cstr_cbuf s : ~ In NUL s -> cstr (cbuf s) 0 = Val s.
Proof. intro H. unfold cstr, cbuf. simpl skipn. apply cstr0_app. exact H. Qed.

Lemma cstr0_cases m : cstr0 m = UB \/ exists s, cstr0 m = Val s.
Proof.
  induction m as [|[c|] m IH]; simpl; auto.
  destruct (ceqb c NUL); [right; eauto|].
  destruct IH as [->|[s ->]]; simpl; eauto.
Qed.

Lemma cstr_cases m off : cstr m off = UB \/ exists s, cstr m off = Val s.
Proof. apply cstr0_cases. Qed.

Lemma rd_cstr m off s i c :
  cstr m off = Val s -> nth_error s i = Some c -> rd m (off + i) = Val c.
Proof.
  unfold cstr. intros H Hn. apply cstr0_val in H as (r & H & _).
  unfold rd. rewrite <- (firstn_skipn off m) at 1.
  assert (Hl : off <= length m).
  { destruct (Nat.le_gt_cases off (length m)); auto. rewrite skipn_all2 in H by lia.
    destruct s; discriminate. }
  rewrite nth_error_app2; rewrite firstn_length; [|lia].
  replace (off + i - Nat.min off (length m)) with i by lia.
  rewrite H. rewrite nth_error_app1.
  - rewrite nth_error_map, Hn. reflexivity.
  - rewrite map_length. apply nth_error_Some. congruence.
Qed.

(** bytes [0..k) of a C string with terminator, initialised *)
Lemma map_Some_inj (a b : list ascii) : map Some a = map Some b -> a = b.
Proof.
  revert b; induction a as [|x a IH]; intros [|y b] H; simpl in H; try discriminate; auto.
  inv H. f_equal. auto.
Qed.

(** ** Decimal printing of integers *)
Lemma lit_inj a b : lit a = lit b -> a = b.
Proof.
  revert b; induction a as [|x a IH]; intros [|y b]; simpl; intro H; try discriminate; auto.
  inv H. f_equal. auto.
Qed.

Lemma nzero_string_inj u v :
  NilZero.string_of_uint u = NilZero.string_of_uint v ->
  u <> Decimal.Nil -> v <> Decimal.Nil -> u = v.
Proof.
  intros H Hu Hv. pose proof (NilZero.usu u Hu) as A. pose proof (NilZero.usu v Hv) as B. congruence.
Qed.

Lemma N_to_uint_nnil n : N.to_uint n <> Decimal.Nil.
Proof.
  destruct n; simpl; [discriminate|].
  apply DecimalPos.Unsigned.to_uint_nonnil.
Qed.

Lemma string_of_nonneg_inj a b :
  (0 <= a)%Z -> (0 <= b)%Z -> string_of_nonneg a = string_of_nonneg b -> a = b.
Proof.
  unfold string_of_nonneg. intros Ha Hb H.
  apply lit_inj in H. apply nzero_string_inj in H; try apply N_to_uint_nnil.
  apply (f_equal N.of_uint) in H. rewrite !DecimalN.Unsigned.of_to in H. lia.
Qed.

Fixpoint all_digits (s : list ascii) : bool :=
  match s with
  | [] => true
  | c :: r => ((48 <=? nat_of_ascii c) && (nat_of_ascii c <=? 57))%nat && all_digits r
  end.

Lemma lit_digits u : all_digits (lit (NilEmpty.string_of_uint u)) = true.
Proof. induction u; simpl; auto. Qed.

Lemma nz_digits u : all_digits (lit (NilZero.string_of_uint u)) = true.
Proof. destruct u; try reflexivity; apply (lit_digits (_)). Qed.

Lemma string_of_nonneg_digits z : all_digits (string_of_nonneg z) = true.
Proof. apply nz_digits. Qed.

Lemma string_of_nonneg_nonempty z : string_of_nonneg z <> [].
Proof.
  unfold string_of_nonneg.
  destruct (N.to_uint (Z.to_N z)); discriminate.
Qed.

Lemma to_string_Z_inj a b : to_string_Z a = to_string_Z b -> a = b.
Proof.
  unfold to_string_Z. destruct (Z.ltb_spec a 0), (Z.ltb_spec b 0); intro E.
  - inv E. apply string_of_nonneg_inj in H2; lia.
  - pose proof (string_of_nonneg_digits b) as D. rewrite <- E in D. discriminate.
  - pose proof (string_of_nonneg_digits a) as D. rewrite E in D. discriminate.
  - apply string_of_nonneg_inj in E; lia.
Qed.

(** Printed length of small non-negative integers (finite sweep). *)
Definition range (n : nat) : list Z := map Z.of_nat (seq 0 n).

Lemma range_in n z : (0 <= z < Z.of_nat n)%Z -> In z (range n).
Proof.
  intro H. unfold range. apply in_map_iff. exists (Z.to_nat z). split; [lia|].
  apply in_seq. lia.
Qed.
