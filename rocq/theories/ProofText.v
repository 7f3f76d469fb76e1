(** ProofText: lemmas for C01-C08, C14, C15. *)
From Verif Require Import Base BaseLemmas CNum CNumLemmas ModelSatsys ModelObs ModelNvarstr
  ModelSatellite SpecText.
From Coq Require Import Permutation.

(** ** C01 *)
Lemma satsys_eqb_eq a b : satsys_eqb a b = true <-> a = b.
Proof. destruct a, b; simpl; split; intro; congruence. Qed.

Lemma satsys_codec s : char_to_satsys (satsys_to_char s) = Val s.
Proof. destruct s; reflexivity. Qed.

Lemma char_to_satsys_spec c :
  (forall s, char_to_satsys c = Val s <-> In (c, s) satsys_letters) /\
  ((forall s, ~ In (c, s) satsys_letters) -> char_to_satsys c = Exn).
Proof.
  unfold satsys_letters. split.
  - intro s. split.
    + unfold char_to_satsys.
      repeat (match goal with |- context[ceqb c ?x] =>
                let E := fresh "E" in destruct (ceqb c x) eqn:E; [apply ceqb_eq in E; subst|] end;
              [intro H; inv H; simpl; tauto|]).
      discriminate.
    + simpl. intro H. repeat (destruct H as [H|H]; [inv H; reflexivity|]). contradiction.
  - intro H. unfold char_to_satsys.
    repeat (match goal with |- context[ceqb c ?x] =>
                let E := fresh "E" in destruct (ceqb c x) eqn:E; [apply ceqb_eq in E; subst|] end;
              [exfalso; eapply H; simpl; tauto|]).
    reflexivity.
Qed.

(** ** C02, C03 *)
Lemma obstype_eqb_eq a b : obstype_eqb a b = true <-> a = b.
Proof. destruct a, b; simpl; split; intro; congruence. Qed.

Lemma obscode_eqb_eq a b : obscode_eqb a b = true <-> a = b.
Proof.
  unfold obscode_eqb. rewrite !andb_true_iff, obstype_eqb_eq, Z.eqb_eq, ceqb_eq.
  destruct a, b; simpl. split; [intros (->&->&->); reflexivity | intro H; inv H; auto].
Qed.

Lemma char_to_obstype_spec c :
  (forall t, char_to_obstype c = Val t <-> In (c, t) obstype_letters) /\
  (char_to_obstype c = Exn <-> forall t, ~ In (c, t) obstype_letters) /\
  (forall t, char_to_obstype c = Val t \/ char_to_obstype c <> Val t) /\
  (char_to_obstype c = Exn \/ exists t, char_to_obstype c = Val t).
Proof.
  unfold char_to_obstype, obstype_letters.
  destruct (ceqb c "C") eqn:E1; [apply ceqb_eq in E1; subst|
  destruct (ceqb c "L") eqn:E2; [apply ceqb_eq in E2; subst|
  destruct (ceqb c "D") eqn:E3; [apply ceqb_eq in E3; subst|
  destruct (ceqb c "S") eqn:E4; [apply ceqb_eq in E4; subst|
  destruct (ceqb c "I") eqn:E5; [apply ceqb_eq in E5; subst|
  destruct (ceqb c "X") eqn:E6; [apply ceqb_eq in E6; subst|]]]]]].
  1-6: (split; [intro t; split; [intro H; inv H; simpl; tauto
                              | intro H; simpl in H; repeat (destruct H as [H|H]; [inv H; reflexivity|]); contradiction]
           |split; [split; [discriminate|intro H; exfalso; eapply H; simpl; tauto]|
            split; [intro t; destruct t; (left; reflexivity) || (right; discriminate) | right; eexists; reflexivity]]]).
  rewrite !ceqb_neq in *.
  split; [intro t; split; [discriminate|simpl; intro H; repeat (destruct H as [H|H]; [inv H; congruence|]); contradiction]|].
  split; [split; [intros _ t H; simpl in H; repeat (destruct H as [H|H]; [inv H; congruence|]); contradiction|auto]|].
  split; [right; discriminate|left; reflexivity].
Qed.

Lemma cstr_first m off c s : cstr m off = Val (c :: s) -> rd m off = Val c.
Proof. intro H. rewrite <- (Nat.add_0_r off). eapply rd_cstr; eauto. Qed.

(** Full characterisation of the constructor on a C string. *)
Lemma obscode_of_cstr_spec m off s :
  cstr m off = Val s ->
  obscode_of_cstr m off =
  match s with
  | c0 :: c1 :: r =>
      match char_to_obstype c0 with
      | Val t => Val (mkCode t (zchar c1 - 48)
                   (match r with c2 :: _ => if ceqb c2 " "%char then "?"%char else c2 | [] => "?"%char end))
      | _ => Exn
      end
  | _ => Exn
  end.
Proof.
  intro H. unfold obscode_of_cstr. rewrite H. cbn [bind].
  destruct s as [|c0 [|c1 r]]; [reflexivity|reflexivity|].
  cbn [length Nat.ltb Nat.leb].
  rewrite (cstr_first _ _ _ _ H). cbn [bind].
  destruct (char_to_obstype_spec c0) as (_ & _ & _ & [->|[t ->]]); [reflexivity|]. cbn [bind].
  rewrite (rd_cstr _ _ _ 1 c1 H eq_refl). cbn [bind].
  destruct r as [|c2 r]; [reflexivity|]. cbn [length].
  change (2 <? S (S (S (length r)))) with true. cbn iota.
  rewrite (rd_cstr _ _ _ 2 c2 H eq_refl). cbn [bind].
  destruct (ceqb c2 " "); reflexivity.
Qed.

Lemma obscode_parse_reject m off s :
  cstr m off = Val s ->
  (obscode_of_cstr m off = Exn <->
   (length s < 2 \/ exists c r, s = c :: r /\ forall t, ~ In (c, t) obstype_letters)).
Proof.
  intro H. rewrite (obscode_of_cstr_spec _ _ _ H).
  destruct s as [|c0 [|c1 r]].
  - split; [left; simpl; lia|reflexivity].
  - split; [left; simpl; lia|reflexivity].
  - destruct (char_to_obstype_spec c0) as (Hv & He & _ & [E|[t E]]); rewrite E.
    + split; [|reflexivity]. intros _. right. exists c0, (c1 :: r). split; [reflexivity|]. apply He. exact E.
    + split; [discriminate|]. intros [Hl|(c & r' & Hs & Hn)]; [simpl in Hl; lia|].
      inv Hs. exfalso. apply (Hn t). apply Hv. exact E.
Qed.

Lemma obscode_parse_accept m off c0 c1 r t :
  cstr m off = Val (c0 :: c1 :: r) -> In (c0, t) obstype_letters ->
  exists a, obscode_of_cstr m off = Val (mkCode t (zchar c1 - 48) a) /\
    (r = [] -> a = "?"%char) /\
    (forall r', r = " "%char :: r' -> a = "?"%char) /\
    (forall c2 r', r = c2 :: r' -> c2 <> " "%char -> a = c2).
Proof.
  intros H Ht. rewrite (obscode_of_cstr_spec _ _ _ H).
  destruct (char_to_obstype_spec c0) as (Hv & _). apply Hv in Ht. rewrite Ht.
  eexists. split; [reflexivity|]. split; [intros ->; reflexivity|].
  split.
  - intros r' ->. reflexivity.
  - intros c2 r' -> Hn. apply ceqb_neq in Hn. rewrite Hn. reflexivity.
Qed.

Lemma obstype_to_char_ok t : t <> AnyType -> char_to_obstype (obstype_to_char t) = Val t.
Proof. destruct t; intro; try reflexivity; congruence. Qed.

Lemma obstype_to_char_nonnul t : obstype_to_char t <> NUL.
Proof. destruct t; discriminate. Qed.

Lemma digit_char_roundtrip b :
  (0 <= b <= 9)%Z ->
  exists d, to_string_Z b = [d] /\ (zchar d - 48 = b)%Z /\ d <> NUL.
Proof.
  intro H.
  assert (A : forallb (fun z => match to_string_Z z with
       | [d] => (zchar d - 48 =? z)%Z && negb (ceqb d NUL) | _ => false end) (range 10) = true) by reflexivity.
  rewrite forallb_forall in A. specialize (A b (range_in 10 b ltac:(lia))).
  destruct (to_string_Z b) as [|d [|? ?]]; try discriminate.
  apply andb_true_iff in A as [A B]. apply Z.eqb_eq in A. apply negb_true_iff, ceqb_neq in B. eauto.
Qed.

Lemma obscode_roundtrip c :
  ctype c <> AnyType -> (0 <= cband c <= 9)%Z -> cattr c <> " "%char -> cattr c <> NUL ->
  obscode_of_cstr (cbuf (obscode_to_string c)) 0 = Val c /\ length (obscode_to_string c) = 3.
Proof.
  intros Ht Hb Ha Hn. destruct (digit_char_roundtrip _ Hb) as (d & Ed & Hd & Hdn).
  split; [|reflexivity].
  unfold obscode_to_string. rewrite Ed.
  rewrite (obscode_of_cstr_spec _ _ [obstype_to_char (ctype c); d; cattr c]).
  - rewrite obstype_to_char_ok by exact Ht. apply ceqb_neq in Ha. rewrite Ha, Hd. destruct c; reflexivity.
  - apply cstr_cbuf. simpl. pose proof (obstype_to_char_nonnul (ctype c)). intuition congruence.
Qed.

Definition printable_code (c : obscode) : Prop :=
  ctype c <> AnyType /\ (0 <= cband c <= 9)%Z /\ cattr c <> " "%char /\ cattr c <> NUL.

Lemma obscode_print_inj c d :
  printable_code c -> printable_code d -> obscode_to_string c = obscode_to_string d -> c = d.
Proof.
  intros (A1&A2&A3&A4) (B1&B2&B3&B4) E.
  pose proof (proj1 (obscode_roundtrip c A1 A2 A3 A4)) as R.
  pose proof (proj1 (obscode_roundtrip d B1 B2 B3 B4)) as S.
  rewrite E in R. congruence.
Qed.

Lemma zchar_digit_range d : ((48 <=? nat_of_ascii d) && (nat_of_ascii d <=? 57))%nat = true ->
  (0 <= zchar d - 48 <= 9)%Z /\ to_string_Z (zchar d - 48) = [d].
Proof.
  intro H.
  assert (K : let n := nat_of_ascii d in ((48 <=? n) && (n <=? 57))%nat = true) by exact H. clear H.
  destruct d as [[][][][][][][][]]; vm_compute in K; try discriminate; vm_compute; intuition congruence.
Qed.

Lemma obscode_lossy c :
  (10 <= cband c)%Z ->
  exists d, d <> c /\ (0 <= cband d <= 9)%Z /\ obscode_to_string d = obscode_to_string c.
Proof.
  intro H.
  assert (E : to_string_Z (cband c) = string_of_nonneg (cband c)).
  { unfold to_string_Z. destruct (Z.ltb_spec (cband c) 0); [lia|reflexivity]. }
  pose proof (string_of_nonneg_digits (cband c)) as D.
  pose proof (string_of_nonneg_nonempty (cband c)) as N.
  destruct (string_of_nonneg (cband c)) as [|d r] eqn:Es; [congruence|].
  simpl in D. apply andb_true_iff in D as [D _]. apply zchar_digit_range in D as [D1 D2].
  exists (mkCode (ctype c) (zchar d - 48) (cattr c)). split; [|split; [exact D1|]].
  - intro F. rewrite <- F in H. simpl in H. lia.
  - unfold obscode_to_string. simpl. rewrite D2, E. reflexivity.
Qed.

Lemma obscode_any_rejected b a : 
  obscode_of_cstr (cbuf (obscode_to_string (mkCode AnyType b a))) 0 = Exn.
Proof.
  unfold obscode_to_string. simpl.
  set (d := match to_string_Z b with d :: _ => d | [] => "?"%char end).
  destruct (cstr_cases (cbuf ["?"%char; d; a]) 0) as [H|[s H]].
  - exfalso. unfold cstr, cbuf in H. simpl in H.
    destruct (ceqb d NUL); simpl in H; [discriminate|]. destruct (ceqb a NUL); simpl in H; discriminate.
  - apply (obscode_parse_reject _ _ _ H).
    destruct s as [|c r]; [left; simpl; lia|].
    right. exists c, r. split; [reflexivity|].
    apply cstr_first in H. unfold rd in H. simpl in H. inv H.
    intros t F. simpl in F. intuition congruence.
Qed.

(** ** C04 *)
Lemma rawobs_eqb_eq a b : rawobs_eqb a b = true <-> a = b.
Proof.
  unfold rawobs_eqb. rewrite andb_true_iff, satsys_eqb_eq, obscode_eqb_eq.
  destruct a, b; simpl. split; [intros [-> ->]; reflexivity|intro H; inv H; auto].
Qed.

Lemma obspart_eqb_same a b : obspart_eqb a b = true <-> same_part a b.
Proof.
  unfold obspart_eqb, same_part. rewrite andb_true_iff, rawobs_eqb_eq.
  destruct (pcoef a), (pcoef b); simpl; intuition (try discriminate).
  - apply Qeq_bool_iff. auto.
  - apply Qeq_bool_iff. auto.
  - apply Bool.eqb_prop. auto.
  - subst. apply Bool.eqb_reflx.
Qed.

Lemma same_part_sym a b : same_part a b -> same_part b a.
Proof.
  unfold same_part. intros [-> H]. split; auto. destruct (pcoef a), (pcoef b); auto.
  symmetry; auto.
Qed.

Lemma same_part_trans a b c : same_part a b -> same_part b c -> same_part a c.
Proof.
  unfold same_part. intros [-> H] [-> K]. split; auto.
  destruct (pcoef a), (pcoef b), (pcoef c); try contradiction; try congruence.
  etransitivity; eauto.
Qed.

Lemma same_part_refl a : pcoef a <> DNan -> same_part a a.
Proof. unfold same_part. intro H. split; auto. destruct (pcoef a); auto. reflexivity. Qed.

Lemma observable_eqb_iff a b :
  observable_eqb a b = true <->
  length a = length b /\ forall p, In p a -> exists q, In q b /\ same_part q p.
Proof.
  unfold observable_eqb. destruct (Nat.eqb_spec (length b) (length a)); simpl.
  - rewrite forallb_forall. split.
    + intro H. split; [auto|]. intros p Hp. specialize (H p Hp). apply existsb_exists in H as (q & Hq & E).
      exists q. split; auto. apply obspart_eqb_same. exact E.
    + intros [_ H] p Hp. apply existsb_exists. destruct (H p Hp) as (q & Hq & E).
      exists q. split; auto. apply obspart_eqb_same. exact E.
  - split; [discriminate|]. intros [H _]. congruence.
Qed.

Lemma observable_eqb_refl a : no_nan a -> observable_eqb a a = true.
Proof.
  intro H. apply observable_eqb_iff. split; auto. intros p Hp. exists p. split; auto.
  apply same_part_refl. auto.
Qed.

Lemma observable_eqb_trans a b c :
  observable_eqb a b = true -> observable_eqb b c = true -> observable_eqb a c = true.
Proof.
  rewrite !observable_eqb_iff. intros [L1 H1] [L2 H2]. split; [congruence|].
  intros p Hp. destruct (H1 p Hp) as (q & Hq & E). destruct (H2 q Hq) as (r & Hr & F).
  exists r. split; auto. eapply same_part_trans; eauto.
Qed.

Lemma observable_eqb_perm a a' b b' :
  Permutation a a' -> Permutation b b' -> observable_eqb a b = observable_eqb a' b'.
Proof.
  intros Pa Pb. apply eq_true_iff_eq. rewrite !observable_eqb_iff.
  rewrite (Permutation_length Pa), (Permutation_length Pb).
  split; intros [L H]; split; auto; intros p Hp.
  - destruct (H p) as (q & Hq & E); [eapply Permutation_in; [symmetry; exact Pa|exact Hp]|].
    exists q. split; auto. eapply Permutation_in; eauto.
  - destruct (H p) as (q & Hq & E); [eapply Permutation_in; eauto|].
    exists q. split; auto. eapply Permutation_in; [symmetry; exact Pb|auto].
Qed.

(** canonical representative: same_part is Leibniz equality of canonical forms *)
Definition canon (p : obspart) : rawobs * cdbl :=
  (ptype p, match pcoef p with DFin q => DFin (Qred q) | d => d end).

Lemma same_part_canon a b : same_part a b -> canon a = canon b.
Proof.
  unfold same_part, canon. intros [-> H]. f_equal.
  destruct (pcoef a), (pcoef b); try contradiction; try congruence.
  f_equal. apply Qred_complete. exact H.
Qed.

Lemma canon_same_part a b : pcoef a <> DNan -> canon a = canon b -> same_part a b.
Proof.
  unfold same_part, canon. intros Hn H. inv H. split; auto.
  destruct (pcoef a), (pcoef b); try congruence.
  inv H2. rewrite <- (Qred_correct q), <- (Qred_correct q0), H0. reflexivity.
Qed.

Lemma no_dup_canon a : no_nan a -> no_dup_parts a -> NoDup (map canon a).
Proof.
  induction a as [|p a IH]; intros Hn Hd; simpl; constructor.
  - intro F. apply in_map_iff in F as (q & E & Hq). destruct Hd as [Hd _].
    apply (Hd q Hq). apply same_part_sym, canon_same_part; [apply Hn; right; auto|auto].
  - apply IH; [intros x Hx; apply Hn; right; auto|apply Hd].
Qed.

Lemma observable_eqb_sym_nodup a b :
  no_nan a -> no_dup_parts a -> observable_eqb a b = true -> observable_eqb b a = true.
Proof.
  rewrite !observable_eqb_iff. intros Hn Hd [L H]. split; auto.
  assert (I : incl (map canon b) (map canon a)).
  { apply NoDup_length_incl.
    - apply no_dup_canon; auto.
    - rewrite !map_length. lia.
    - intros x Hx. apply in_map_iff in Hx as (p & <- & Hp). destruct (H p Hp) as (q & Hq & E).
      apply same_part_canon in E. rewrite <- E. apply in_map. auto. }
  intros p Hp. assert (Hc : In (canon p) (map canon a)) by (apply I, in_map; auto).
  apply in_map_iff in Hc as (q & E & Hq). exists q. split; auto.
  apply canon_same_part; auto.
Qed.

Lemma same_parts_length a b : same_parts a b -> length a = length b.
Proof.
  induction 1; auto. rewrite app_length in *. simpl. lia.
Qed.

Lemma same_parts_eqb a b : same_parts a b -> observable_eqb a b = true.
Proof.
  intro H. apply observable_eqb_iff. split; [apply same_parts_length; auto|].
  induction H as [|x y a b1 b2 Hxy Hs IH]; [intros p []|].
  intros p [<-|Hp].
  - exists y. split; [apply in_elt|]. apply same_part_sym. auto.
  - destruct (IH p Hp) as (q & Hq & E). exists q. split; auto.
    apply in_app_or in Hq. apply in_or_app. simpl. tauto.
Qed.

Lemma eqb_same_parts a : forall b,
  no_nan a -> no_dup_parts a -> observable_eqb a b = true -> same_parts a b.
Proof.
  induction a as [|x a IH]; intros b Hn Hd H; apply observable_eqb_iff in H as [L H].
  - destruct b; [constructor|discriminate].
  - destruct (H x (or_introl eq_refl)) as (y & Hy & E).
    apply in_split in Hy as (b1 & b2 & ->).
    constructor; [apply same_part_sym; auto|].
    apply IH.
    + intros p Hp. apply Hn. right; auto.
    + apply Hd.
    + apply observable_eqb_iff. split; [rewrite app_length in *; simpl in L; lia|].
      intros p Hp. destruct (H p (or_intror Hp)) as (q & Hq & F).
      exists q. split; auto. apply in_app_or in Hq. apply in_or_app.
      destruct Hq as [Hq|[<-|Hq]]; auto.
      exfalso. destruct Hd as [Hd _]. apply (Hd p Hp).
      eapply same_part_trans; [apply same_part_sym; exact E|exact F].
Qed.

(** ** C05 *)
Lemma is_mixed_iff o :
  is_mixed o = true <-> exists p q, In p o /\ In q o /\ rsys (ptype p) <> rsys (ptype q).
Proof.
  destruct o as [|p0 o]; simpl is_mixed.
  - split; [discriminate|]. intros (p & q & [] & _).
  - set (f := fun p => negb (satsys_eqb (rsys (ptype p)) (rsys (ptype p0)))).
    change (existsb f (p0 :: o) = true <-> exists p q, In p (p0 :: o) /\ In q (p0 :: o) /\ rsys (ptype p) <> rsys (ptype q)).
    rewrite existsb_exists. split.
    + intros (p & Hp & E). exists p, p0. split; auto. split; [left; auto|].
      unfold f in E. apply negb_true_iff in E. intro F. apply satsys_eqb_eq in F. congruence.
    + intros (p & q & Hp & Hq & Hne).
      destruct (satsys_eqb (rsys (ptype p)) (rsys (ptype p0))) eqn:E.
      * apply satsys_eqb_eq in E. exists q. split; auto. unfold f. apply negb_true_iff.
        destruct (satsys_eqb _ _) eqn:F; auto. apply satsys_eqb_eq in F. congruence.
      * exists p. split; auto. unfold f. rewrite E. reflexivity.
Qed.

Lemma is_mixed_perm a b : Permutation a b -> is_mixed a = is_mixed b.
Proof.
  intro P. apply eq_true_iff_eq. rewrite !is_mixed_iff.
  split; intros (p & q & Hp & Hq & N); exists p, q;
    repeat split; auto; (eapply Permutation_in; [|eassumption]; auto using Permutation_sym).
Qed.

(** ** C06 *)
Definition finite_coef (p : obspart) : Prop := exists q, pcoef p = DFin q.
Definition coefQ (p : obspart) : Q := match pcoef p with DFin q => q | _ => 0%Q end.
Definition as_terms (o : observable) : list (satsys * Z * Q) :=
  map (fun p => (rsys (ptype p), cband (rcode (ptype p)), coefQ p)) o.

Lemma band2frequency_nominal s b :
  s <> Glonass ->
  match nominal s b with
  | Some f => exists f', band2frequency s b = Val f' /\ (f' == f)%Q
  | None => band2frequency s b = Exn
  end.
Proof.
  intro Hg. unfold band2frequency, nominal.
  destruct s; try congruence; cbn [frequency_map map_at];
  repeat match goal with
  | |- context[Z.eqb ?k b] => destruct (Z.eqb_spec k b) as [<-|];
       [eexists; split; [reflexivity|reflexivity]|]
  end;
  (destruct b as [|p|p]; try reflexivity;
   repeat (match goal with |- context[match ?p with xI _ => _ | xO _ => _ | xH => _ end] => destruct p end;
           try reflexivity; try congruence)).
Qed.

(** termination condition, any coefficients *)
Definition band_listed (p : obspart) : Prop :=
  rsys (ptype p) = Glonass \/ rsys (ptype p) = Mixed \/
  nominal (rsys (ptype p)) (cband (rcode (ptype p))) <> None.

Lemma part_frequency_total p :
  (band_listed p /\ exists v, part_frequency p = Val v) \/ (~ band_listed p /\ part_frequency p = Exn).
Proof.
  unfold part_frequency, band_listed.
  pose proof (band2frequency_nominal (rsys (ptype p)) (cband (rcode (ptype p)))) as H.
  destruct (rsys (ptype p)); try (left; split; [tauto|eauto]; fail);
  (specialize (H ltac:(discriminate)); destruct (nominal _ _);
   [left; destruct H as (f' & -> & _); split; [right; right; discriminate|simpl; eauto]
   |right; rewrite H; split; [intuition congruence|reflexivity]]).
Qed.

Lemma frequency_loop_total o : forall acc,
  (Forall band_listed o /\ exists v, frequency_loop o acc = Val v) \/
  (~ Forall band_listed o /\ frequency_loop o acc = Exn).
Proof.
  induction o as [|p o IH]; intro acc; simpl.
  - left. split; [constructor|eauto].
  - destruct (part_frequency_total p) as [[Hb [v ->]]|[Hb ->]]; simpl.
    + destruct (IH (dadd acc v)) as [[Hf [w E]]|[Hf E]]; rewrite E.
      * left. split; [constructor; auto|eauto].
      * right. split; [|reflexivity]. intro F. inv F. auto.
    + right. split; [|reflexivity]. intro F. inv F. auto.
Qed.

Lemma observable_frequency_total o :
  (Forall band_listed o <-> exists v, observable_frequency o = Val v) /\
  (~ Forall band_listed o <-> observable_frequency o = Term).
Proof.
  unfold observable_frequency.
  destruct (frequency_loop_total o (DFin 0)) as [[H [v E]]|[H E]]; rewrite E; simpl; split; split; intro K;
    try tauto; try discriminate; eauto.
  destruct K; discriminate.
Qed.

(** ** C07 *)
Lemma considered_cut s stop : considered s stop = firstn (cut_len (length s) stop) s.
Proof.
  destruct stop as [k|]; simpl.
  - destruct (Nat.ltb_spec k (length s)); auto. rewrite !firstn_all2 by lia. reflexivity.
  - rewrite firstn_all. reflexivity.
Qed.

Lemma cut_len_le (s : list ascii) stop : cut_len (length s) stop <= length s.
Proof. destruct stop as [k|]; simpl; [destruct (Nat.ltb_spec k (length s)); lia|lia]. Qed.

Lemma back_nonblank_spec s n : n <= length s ->
  back_nonblank s n <= n /\
  strips_trailing (firstn n s) (firstn (back_nonblank s n) s).
Proof.
  induction n as [|n IH]; intro Hn; cbn [back_nonblank].
  - split; auto. exists []. split; [reflexivity|]. split; [intros c []|].
    intros r' c H. destruct r'; discriminate.
  - destruct (ceqb (nth n s NUL) " ") eqn:E.
    + apply ceqb_eq in E. destruct (IH ltac:(lia)) as (Hle & b & Hb & Hab & Hlast). split; [lia|].
      exists (b ++ [" "%char]). split; [|split; auto].
      * assert (Hs : firstn (S n) s = firstn n s ++ [nth n s NUL]).
        { clear - Hn. revert s Hn. induction n; intros [|c s] H; simpl in *; try lia; auto.
          f_equal. apply IHn. lia. }
        rewrite Hs, E, Hb at 1. rewrite <- app_assoc. reflexivity.
      * intros c Hc. apply in_app_or in Hc as [Hc|[Hc|[]]]; auto.
    + apply ceqb_neq in E. split; auto. exists []. rewrite app_nil_r. split; auto. split; [intros c []|].
      intros r' c H.
      assert (Hs : firstn (S n) s = firstn n s ++ [nth n s NUL]).
      { clear - Hn. revert s Hn. induction n; intros [|d s] H; simpl in *; try lia; auto.
        f_equal. apply IHn. lia. }
      rewrite Hs in H. apply app_inj_tail in H as [_ <-]. exact E.
Qed.

Lemma strips_trailing_nil r : strips_trailing [] r -> r = [].
Proof. intros (b & H & _). destruct r; [reflexivity|discriminate]. Qed.

Lemma rtrim_end_spec m off stop s :
  cstr m off = Val s ->
  exists r, rtrim_end m off stop = Val (r, length r) /\ strips_trailing (considered s stop) r.
Proof.
  intro H. unfold rtrim_end. rewrite H. cbn [bind].
  rewrite considered_cut. pose proof (cut_len_le s stop) as Hl.
  destruct (Nat.eqb_spec (cut_len (length s) stop) 0) as [E|E].
  - rewrite E. exists []. split; [reflexivity|]. exists []. split; [reflexivity|].
    split; [intros c []|]. intros r' c F. destruct r'; discriminate.
  - destruct (back_nonblank_spec s _ Hl) as [Hb Hs].
    exists (firstn (back_nonblank s (cut_len (length s) stop)) s). split; [|exact Hs].
    rewrite firstn_length. repeat f_equal. lia.
Qed.

Lemma find_blank_spec s : forall n, n <= length s ->
  find_blank s n <= n /\ before_first_blank (firstn n s) (firstn (find_blank s n) s).
Proof.
  induction s as [|c s IH]; intros n Hn.
  - simpl in Hn. assert (n = 0) by lia. subst. simpl. split; auto. exists [].
    split; [reflexivity|]. split; [intros []|discriminate].
  - destruct n as [|n].
    + simpl. split; auto. exists []. split; [reflexivity|]. split; [intros []|discriminate].
    + cbn [find_blank]. destruct (ceqb c " ") eqn:E.
      * apply ceqb_eq in E. subst c. split; [lia|]. exists (firstn (S n) (" "%char :: s)).
        split; [reflexivity|]. split; [intros []|]. intros x t H. inv H. reflexivity.
      * apply ceqb_neq in E. simpl in Hn. destruct (IH n ltac:(lia)) as (Hle & t & Ht & Hnb & Hh).
        split; [lia|]. exists t. split; [|split; auto].
        -- simpl. rewrite <- Ht. reflexivity.
        -- simpl. intros [F|F]; auto.
Qed.

Lemma rtrim_start_spec m off stop s :
  cstr m off = Val s ->
  exists r, rtrim_start m off stop = Val (r, length r) /\ before_first_blank (considered s stop) r.
Proof.
  intro H. unfold rtrim_start. rewrite H. cbn [bind].
  rewrite considered_cut. pose proof (cut_len_le s stop) as Hl.
  destruct (Nat.eqb_spec (cut_len (length s) stop) 0) as [E|E].
  - rewrite E. exists []. split; [reflexivity|]. exists []. split; [reflexivity|].
    split; [intros []|discriminate].
  - destruct (find_blank_spec s _ Hl) as [Hb Hs].
    exists (firstn (find_blank s (cut_len (length s) stop)) s). split; [|exact Hs].
    rewrite firstn_length. repeat f_equal. lia.
Qed.

Lemma find_nonblank_spec s : forall n, n <= length s ->
  find_nonblank s n <= n /\
  all_blank (firstn (find_nonblank s n) s) /\
  (forall c t, firstn (n - find_nonblank s n) (skipn (find_nonblank s n) s) = c :: t -> c <> " "%char).
Proof.
  induction s as [|c s IH]; intros n Hn.
  - simpl in Hn. assert (n = 0) by lia. subst. simpl. repeat split; auto; [intros c []|discriminate].
  - destruct n as [|n].
    + simpl. repeat split; auto; [intros x []|discriminate].
    + cbn [find_nonblank]. simpl in Hn. destruct (ceqb c " ") eqn:E.
      * apply ceqb_eq in E. subst c. destruct (IH n ltac:(lia)) as (Hle & Hb & Hh).
        split; [lia|]. split.
        -- intros x [<-|Hx]; auto.
        -- simpl. exact Hh.
      * apply ceqb_neq in E. split; [lia|]. split; [intros x []|].
        simpl. intros x t H. inv H. auto.
Qed.

Lemma ltrim_spec m off stop s :
  cstr m off = Val s ->
  exists b r, ltrim m off stop = Val (r, length b) /\ considered s stop = b ++ r /\
    strips_leading (considered s stop) r.
Proof.
  intro H. unfold ltrim. rewrite H. cbn [bind].
  rewrite considered_cut. pose proof (cut_len_le s stop) as Hl.
  destruct (Nat.eqb_spec (cut_len (length s) stop) 0) as [E|E].
  - rewrite E. exists [], []. split; [reflexivity|]. split; [reflexivity|]. exists []. split; [reflexivity|].
    split; [intros c []|discriminate].
  - set (n := cut_len (length s) stop) in *.
    destruct (find_nonblank_spec s n Hl) as (Hle & Hb & Hh).
    assert (D : firstn n s = firstn (find_nonblank s n) s ++ firstn (n - find_nonblank s n) (skipn (find_nonblank s n) s)).
    { rewrite <- (firstn_skipn (find_nonblank s n) (firstn n s)) at 1.
      rewrite firstn_firstn, Nat.min_l by lia. f_equal. rewrite skipn_firstn_comm. reflexivity. }
    exists (firstn (find_nonblank s n) s), (firstn (n - find_nonblank s n) (skipn (find_nonblank s n) s)).
    split; [|split; [exact D|]].
    + rewrite firstn_length. repeat f_equal. lia.
    + exists (firstn (find_nonblank s n) s). auto.
Qed.

Lemma string_is_empty_spec m off stop s :
  cstr m off = Val s ->
  exists b, string_is_empty m off stop = Val b /\ (b = true <-> all_blank (considered s stop)).
Proof.
  intro H. unfold string_is_empty. rewrite H. cbn [bind]. eexists. split; [reflexivity|].
  rewrite considered_cut, forallb_forall. unfold all_blank.
  split; intros K c Hc; specialize (K c Hc); apply ceqb_eq; auto.
Qed.

(** uniqueness of the specified pieces *)
Lemma strips_trailing_unique s r1 r2 : strips_trailing s r1 -> strips_trailing s r2 -> r1 = r2.
Proof.
  intros (b1 & E1 & B1 & L1) (b2 & E2 & B2 & L2). subst s.
  assert (G : forall (r1 r2 b1 b2 : list ascii), r1 ++ b1 = r2 ++ b2 -> all_blank b1 -> all_blank b2 ->
     (forall r' c, r1 = r' ++ [c] -> c <> " "%char) -> length r1 <= length r2 ->
     (forall r' c, r2 = r' ++ [c] -> c <> " "%char) -> r1 = r2).
  { clear. intros r1 r2 b1 b2 E B1 B2 L1 Hl L2.
    apply app_eq_app in E as (l & [[-> Hb]|[-> Hb]]).
    - rewrite app_length in Hl. destruct l; [rewrite app_nil_r; reflexivity|simpl in Hl; lia].
    - destruct (rev l) as [|c l'] eqn:El.
      + apply (f_equal (@rev _)) in El. rewrite rev_involutive in El. subst l. rewrite app_nil_r. reflexivity.
      + apply (f_equal (@rev _)) in El. rewrite rev_involutive in El. simpl in El. subst l.
        exfalso. apply (L2 (r1 ++ rev l') c); [rewrite app_assoc; reflexivity|].
        apply B1. rewrite Hb. apply in_or_app. left. apply in_or_app. right. left. reflexivity. }
  destruct (Nat.le_ge_cases (length r1) (length r2)).
  - eapply G; eauto.
  - symmetry. eapply G; eauto.
Qed.

Lemma rtrim_end_idempotent m off stop r e :
  rtrim_end m off stop = Val (r, e) -> rtrim_end (cbuf r) 0 None = Val (r, e).
Proof.
  intro H. destruct (cstr_cases m off) as [U|[s Hs]].
  { unfold rtrim_end in H. rewrite U in H. discriminate. }
  destruct (rtrim_end_spec m off stop s Hs) as (r' & E & S). rewrite E in H. inv H.
  assert (Hn : ~ In NUL r).
  { apply cstr0_val in Hs as (t & _ & Hn). intro F. apply Hn. destruct S as (b & Eb & _).
    assert (I : In NUL (considered s stop)) by (rewrite Eb; apply in_or_app; auto).
    destruct stop as [k|]; simpl in I; auto. rewrite <- (firstn_skipn k s). apply in_or_app; auto. }
  destruct (rtrim_end_spec (cbuf r) 0 None r (cstr_cbuf r Hn)) as (r2 & E2 & S2).
  simpl in S2. assert (r2 = r); [|subst; exact E2].
  apply (strips_trailing_unique r r2 r S2). destruct S as (b & Eb & B & L).
  exists []. rewrite app_nil_r. split; auto. split; auto. intros c [].
Qed.

Lemma rtrim_start_idempotent m off stop r e :
  rtrim_start m off stop = Val (r, e) -> rtrim_start (cbuf r) 0 None = Val (r, e).
Proof.
  intro H. destruct (cstr_cases m off) as [U|[s Hs]].
  { unfold rtrim_start in H. rewrite U in H. discriminate. }
  destruct (rtrim_start_spec m off stop s Hs) as (r' & E & S). rewrite E in H. inv H.
  destruct S as (t & Et & Nb & Ht).
  assert (Hn : ~ In NUL r).
  { apply cstr0_val in Hs as (u & _ & Hn). intro F. apply Hn.
    assert (I : In NUL (considered s stop)) by (rewrite Et; apply in_or_app; auto).
    destruct stop as [k|]; simpl in I; auto. rewrite <- (firstn_skipn k s). apply in_or_app; auto. }
  destruct (rtrim_start_spec (cbuf r) 0 None r (cstr_cbuf r Hn)) as (r2 & E2 & S2).
  simpl in S2. destruct S2 as (t2 & Et2 & _ & Ht2). assert (t2 = []).
  { destruct t2 as [|c t2]; auto. specialize (Ht2 c t2 eq_refl). subst c. exfalso. apply Nb.
    rewrite Et2. apply in_or_app. right. left. reflexivity. }
  subst t2. rewrite app_nil_r in Et2. subst r2. exact E2.
Qed.

(** ** C08 *)
Definition d2e (c : ascii) : ascii :=
  if ceqb c "D"%char || ceqb c "d"%char then "E"%char else c.

Lemma d2e_nonnul c : c <> NUL -> d2e c <> NUL.
Proof. intro H. unfold d2e. destruct (_ || _); [discriminate|auto]. Qed.

Lemma for2cpp_spec s r : ~ In NUL s ->
  for2cpp (map Some s ++ Some NUL :: r) = Val (map Some (map d2e s) ++ Some NUL :: r).
Proof.
  induction s as [|c s IH]; intro H; simpl.
  - reflexivity.
  - assert (E : ceqb c NUL = false) by (apply ceqb_neq; intro F; apply H; left; auto).
    rewrite E, IH by (intro F; apply H; right; auto). reflexivity.
Qed.

Lemma for2cpp_val m m' : for2cpp m = Val m' ->
  exists s r, m = map Some s ++ Some NUL :: r /\ ~ In NUL s /\ m' = map Some (map d2e s) ++ Some NUL :: r.
Proof.
  intro H.
  assert (C : exists s, cstr0 m = Val s).
  { revert m' H. induction m as [|[c|] m IH]; intros m' H; simpl in *; try discriminate.
    destruct (ceqb c NUL); [eauto|]. apply bind_val in H as (r' & Hr & _).
    destruct (IH r' Hr) as [s ->]. simpl. eauto. }
  destruct C as [s Hs]. apply cstr0_val in Hs as (r & -> & Hn). rewrite for2cpp_spec in H by auto.
  inv H. eauto.
Qed.

Lemma d2e_idem c : d2e (d2e c) = d2e c.
Proof. unfold d2e. destruct (ceqb c "D" || ceqb c "d") eqn:E; [reflexivity|rewrite E; reflexivity]. Qed.

Lemma for2cpp_idem m m' : for2cpp m = Val m' -> for2cpp m' = Val m'.
Proof.
  intro H. apply for2cpp_val in H as (s & r & -> & Hn & ->).
  rewrite for2cpp_spec.
  - f_equal. f_equal. rewrite !map_map. apply map_ext. intro. rewrite d2e_idem. reflexivity.
  - intro F. apply in_map_iff in F as (c & E & Hc). apply (d2e_nonnul c); [|exact E].
    intro G. subst. auto.
Qed.

Lemma for2cpp_defined m s : cstr m 0 = Val s -> exists m', for2cpp m = Val m'.
Proof.
  intro H. apply cstr0_val in H as (r & H & Hn). simpl in H. subst m.
  eexists. apply for2cpp_spec. auto.
Qed.

(** ** C14 *)
Lemma sat_compact_read s : (0 <= sat_prn s <= LONG_MAX)%Z ->
  exists t, sat_compact s = satsys_to_char (sat_sys s) :: t /\
    fst (fst (strtol t)) = sat_prn s /\ snd (fst (strtol t)) = length t /\ 2 <= length t.
Proof.
  intro H. unfold sat_compact, to_string_Z.
  destruct (Z.ltb_spec (sat_prn s) 0); [lia|]. eexists. split; [reflexivity|].
  pose proof (strtol_nonneg 0 (sat_prn s) [] H I) as S. simpl repeat in S. cbn [app] in S. rewrite app_nil_r in S.
  destruct (Z.ltb_spec (sat_prn s) 10) as [L|L].
  - assert (A : forallb (fun z => let t := "0"%char :: string_of_nonneg z in
       (fst (fst (strtol t)) =? z)%Z && (snd (fst (strtol t)) =? length t)%nat && (2 <=? length t)%nat) (range 10) = true)
      by (vm_compute; reflexivity).
    rewrite forallb_forall in A. specialize (A (sat_prn s) (range_in 10 (sat_prn s) ltac:(lia))). cbv zeta in A.
    rewrite !andb_true_iff in A. destruct A as [[A B] C].
    apply Z.eqb_eq in A. apply Nat.eqb_eq in B. apply Nat.leb_le in C. auto.
  - rewrite S. simpl. split; auto. split; auto.
    pose proof (string_of_nonneg_nonempty (sat_prn s)) as N.
    destruct (string_of_nonneg (sat_prn s)) as [|c [|c' r]] eqn:E; simpl; try lia; [congruence|].
    exfalso. pose proof (string_of_nonneg_digits (sat_prn s)) as D. rewrite E in D. simpl in D.
    rewrite andb_true_r in D. apply zchar_digit_range in D as [D1 D2].
    unfold to_string_Z in D2. destruct (Z.ltb_spec (zchar c - 48) 0); [lia|].
    rewrite <- E in D2. apply string_of_nonneg_inj in D2; lia.
Qed.

Lemma sat_compact_len3 s : (0 <= sat_prn s <= 99)%Z -> length (sat_compact s) = 3.
Proof.
  intro H. unfold sat_compact.
  assert (A : forallb (fun z => length (if (z <? 10)%Z then "0"%char :: to_string_Z z else to_string_Z z) =? 2) (range 100) = true)
    by (vm_compute; reflexivity).
  rewrite forallb_forall in A. specialize (A (sat_prn s) (range_in 100 (sat_prn s) ltac:(lia))).
  apply Nat.eqb_eq in A. simpl. rewrite A. reflexivity.
Qed.

Lemma satsys_to_char_inj a b : satsys_to_char a = satsys_to_char b -> a = b.
Proof.
  intro H. pose proof (satsys_codec a) as A. pose proof (satsys_codec b) as B. rewrite H in A. congruence.
Qed.

Lemma zero_digit_small c z k r :
  all_digits ["0"%char; c] = true -> scan_digits ["0"%char; c] 0 = (z, k, r) -> (z <= 9)%Z.
Proof.
  intros D S. cbn [all_digits] in D. rewrite !andb_true_iff in D. destruct D as [_ [[_ D] _]].
  apply Nat.leb_le in D. cbn [scan_digits] in S. change (is_digit "0"%char) with true in S. cbn iota in S.
  change (digit_val "0"%char) with 0%Z in S. unfold digit_val in S.
  destruct (is_digit c); inv S; lia.
Qed.

Lemma sat_compact_inj s t :
  (0 <= sat_prn s)%Z -> (0 <= sat_prn t)%Z -> sat_compact s = sat_compact t ->
  sat_sys s = sat_sys t /\ sat_prn s = sat_prn t.
Proof.
  intros Hs Ht E. unfold sat_compact in E. injection E as E1 E2. split; [apply satsys_to_char_inj; auto|].
  destruct (Z.ltb_spec (sat_prn s) 10), (Z.ltb_spec (sat_prn t) 10).
  - injection E2 as E3. apply to_string_Z_inj. auto.
  - exfalso. clear E1.
    assert (A : forallb (fun z => match to_string_Z z with [c] => true | _ => false end) (range 10) = true) by reflexivity.
    rewrite forallb_forall in A. specialize (A _ (range_in 10 (sat_prn s) ltac:(lia))).
    unfold to_string_Z in E2, A. destruct (Z.ltb_spec (sat_prn s) 0); [lia|]. destruct (Z.ltb_spec (sat_prn t) 0); [lia|].
    destruct (string_of_nonneg (sat_prn s)) as [|c [|? ?]]; try discriminate.
    pose proof (string_of_nonneg_digits (sat_prn t)) as D. rewrite <- E2 in D.
    pose proof (scan_digits_nonneg (sat_prn t) [] Ht I) as S. rewrite app_nil_r, <- E2 in S.
    apply (zero_digit_small _ _ _ _ D) in S. lia.
  - exfalso. clear E1.
    assert (A : forallb (fun z => match to_string_Z z with [c] => true | _ => false end) (range 10) = true) by reflexivity.
    rewrite forallb_forall in A. specialize (A _ (range_in 10 (sat_prn t) ltac:(lia))).
    unfold to_string_Z in E2, A. destruct (Z.ltb_spec (sat_prn s) 0); [lia|]. destruct (Z.ltb_spec (sat_prn t) 0); [lia|].
    destruct (string_of_nonneg (sat_prn t)) as [|c [|? ?]]; try discriminate.
    pose proof (string_of_nonneg_digits (sat_prn s)) as D. rewrite E2 in D.
    pose proof (scan_digits_nonneg (sat_prn s) [] Hs I) as S. rewrite app_nil_r, E2 in S.
    apply (zero_digit_small _ _ _ _ D) in S. lia.
  - apply to_string_Z_inj. auto.
Qed.

(** ** C15 *)
Lemma year_spec y : (0 <= y <= 99)%Z ->
  let f := four2two_digit_year y in
  ((y <= 79)%Z -> (f = 2000 + y)%Z) /\ ((80 <= y)%Z -> (f = 1900 + y)%Z) /\ (f mod 100 = y)%Z /\ (1980 <= f <= 2079)%Z.
Proof.
  intro H. unfold four2two_digit_year. cbv zeta.
  destruct (Z.leb_spec y 79); repeat split; intros; try lia;
  (Z.div_mod_to_equations; lia).
Qed.
