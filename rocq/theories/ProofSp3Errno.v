(** ProofSp3Errno: when errno is not ERANGE the errno-aware SP3 reader is the plain one *)
From Coq Require Import Qround.
From Verif Require Import Base BaseLemmas CNum CNumLemmas Stream ModelSatsys ModelSp3 ModelSp3Errno SpecText SpecNum SpecObs SpecSp3
  ProofText ProofNum ProofStream ProofSp3 ProofSp3Epoch ProofSp3File ProofSp3Header ProofNavList.
Local Open Scope list_scope.

(** the same outcome, and errno afterwards satisfies [P] *)
Definition agrees {A} (x : outcome A) (y : outcome (A * Z)) (P : A -> Z -> Prop) : Prop :=
  match x with
  | Val a => exists e, y = Val (a, e) /\ P a e
  | Exn => y = Exn
  | Term => y = Term
  | UB => y = UB
  | Fuel => y = Fuel
  end.
(** kept on success, kept or cleared on an error *)
Definition quiet {A} (e : Z) (r : Z + A) (e1 : Z) : Prop := e1 = e \/ e1 = 0%Z /\ exists c, r = inl c.

Lemma note_hot e er : e <> SP3_ERANGE -> hot (note e er) = er.
Proof. intro H. unfold note, hot. destruct er; [reflexivity|]. apply Z.eqb_neq. exact H. Qed.
Lemma note_false e : note e false = e.
Proof. reflexivity. Qed.
Lemma hot_erange er : hot (note SP3_ERANGE er) = true.
Proof. destruct er; reflexivity. Qed.

Lemma numbers_agree n : forall line i k e, e <> SP3_ERANGE -> agrees (sp3_numbers n line i k) (sp3_numbers_e n line i k e) (quiet e).
Proof.
  induction n as [|n IH]; intros line i k e N; cbn [sp3_numbers sp3_numbers_e]; [exists e; split; [reflexivity|left; reflexivity]|].
  destruct (strtod_at line k) as [((v, used), er)| | | |]; cbn [bind]; try reflexivity. cbv zeta. rewrite note_hot by exact N.
  destruct er; cbn [orb]; [exists 0%Z; split; [reflexivity|right; eauto]|]. destruct (used =? 0)%nat; [exists 0%Z; split; [reflexivity|right; eauto]|].
  rewrite note_false. specialize (IH line (i + 1)%Z (k + 14) e N).
  destruct (sp3_numbers n line (i + 1) (k + 14)) as [[c|vs]| | | |]; cbn [agrees bind] in *; try (rewrite IH; reflexivity); destruct IH as (e1 & -> & [Q|(Q & c' & Q')]); cbn [bind];
    (eexists; split; [reflexivity|]); subst; [left; reflexivity|right; eauto|left; reflexivity|discriminate Q'].
Qed.
Lemma position_agree line f e : e <> SP3_ERANGE -> agrees (sp3_position line f) (sp3_position_e line f e) (quiet e).
Proof.
  intro N. unfold sp3_position, sp3_position_e. cbv zeta. destruct (rd line 0) as [c0| | | |]; cbn [bind]; try reflexivity.
  destruct (negb (ceqb c0 "P")); [exists e; split; [reflexivity|left; reflexivity]|].
  destruct (rd line 1) as [c1| | | |]; cbn [bind]; try reflexivity. destruct (char_to_satsys c1) as [s| | | |]; try reflexivity; [|exists e; split; [reflexivity|left; reflexivity]].
  destruct (strtol_at line 2) as [((prn, used), er)| | | |]; cbn [bind]; try reflexivity. rewrite note_hot by exact N.
  destruct er; cbn [orb]; [exists 0%Z; split; [reflexivity|right; eauto]|]. destruct (used =? 0)%nat; [exists 0%Z; split; [reflexivity|right; eauto]|].
  rewrite note_false. pose proof (numbers_agree 4 line 0%Z 4 e N) as A.
  destruct (sp3_numbers 4 line 0 4) as [[c|vs]| | | |]; cbn [agrees bind] in A |- *; try (rewrite A; reflexivity); destruct A as (e1 & -> & A); cbn [bind].
  - exists e1. split; [reflexivity|]. destruct A as [A|(A & _)]; [left; exact A|right; eauto].
  - assert (e1 = e) by (destruct A as [A|(_ & c & A)]; [exact A|discriminate A]). subst e1. clear A.
    destruct vs as [|x [|y [|z [|k [|]]]]]; try reflexivity.
    destruct (rd line 74) as [c74| | | |]; cbn [bind]; try reflexivity. destruct (rd line 75) as [c75| | | |]; cbn [bind]; try reflexivity.
    destruct (rd line 78) as [c78| | | |]; cbn [bind]; try reflexivity. destruct (rd line 79) as [c79| | | |]; cbn [bind]; try reflexivity.
    exists e. split; [reflexivity|left; reflexivity].
Qed.
Lemma date_agree n : forall line i k e, e <> SP3_ERANGE -> agrees (sp3_date n line i k) (sp3_date_e n line i k e) (quiet e).
Proof.
  induction n as [|n IH]; intros line i k e N; cbn [sp3_date sp3_date_e]; [exists e; split; [reflexivity|left; reflexivity]|].
  destruct (strtol_at line k) as [((v, used), er)| | | |]; cbn [bind]; try reflexivity. cbv zeta. rewrite note_hot by exact N.
  destruct er; cbn [orb]; [exists 0%Z; split; [reflexivity|right; eauto]|]. destruct (used =? 0)%nat; [exists 0%Z; split; [reflexivity|right; eauto]|].
  rewrite note_false. specialize (IH line (i + 1)%Z (k + 3) e N).
  destruct (sp3_date n line (i + 1) (k + 3)) as [[c|vs]| | | |]; cbn [agrees bind] in *; try (rewrite IH; reflexivity); destruct IH as (e1 & -> & [Q|(Q & c' & Q')]); cbn [bind];
    (eexists; split; [reflexivity|]); subst; [left; reflexivity|right; eauto|left; reflexivity|discriminate Q'].
Qed.
Lemma header_agree line e : e <> SP3_ERANGE -> agrees (sp3_epoch_header line) (sp3_epoch_header_e line e) (quiet e).
Proof.
  intro N. unfold sp3_epoch_header, sp3_epoch_header_e. cbv zeta. destruct (rd line 0) as [c0| | | |]; cbn [bind]; try reflexivity.
  destruct (negb (ceqb c0 "*")); [exists e; split; [reflexivity|left; reflexivity]|].
  destruct (rd line 1) as [c1| | | |]; cbn [bind]; try reflexivity. destruct (negb (ceqb c1 " ")); [exists e; split; [reflexivity|left; reflexivity]|].
  destruct (strtol_at line 3) as [((y, used), er)| | | |]; cbn [bind]; try reflexivity. rewrite note_hot by exact N.
  destruct (to_i32 y =? 0)%Z; cbn [orb]; [exists 0%Z; split; [reflexivity|right; eauto]|]. destruct er; [exists 0%Z; split; [reflexivity|right; eauto]|].
  rewrite note_false. pose proof (date_agree 4 line 1%Z 8 e N) as A.
  destruct (sp3_date 4 line 1 8) as [[c|ds]| | | |]; cbn [agrees bind] in A |- *; try (rewrite A; reflexivity); destruct A as (e1 & -> & A); cbn [bind].
  - exists e1. split; [reflexivity|]. destruct A as [A|(A & _)]; [left; exact A|right; eauto].
  - assert (e1 = e) by (destruct A as [A|(_ & c & A)]; [exact A|discriminate A]). subst e1. clear A.
    destruct (strtod_at line 20) as [((v, used2), er)| | | |]; cbn [bind]; try reflexivity. rewrite note_hot by exact N.
    destruct er; cbn [orb]; [exists 0%Z; split; [reflexivity|right; eauto]|]. destruct (used2 =? 0)%nat; [exists 0%Z; split; [reflexivity|right; eauto]|].
    destruct (to_usec v) as [u| | | |]; cbn [bind]; try reflexivity. exists e. split; [reflexivity|left; reflexivity].
Qed.
(** kept whenever the epoch was completed *)
Definition epoch_quiet (e : Z) (q : sp3res) (e1 : Z) : Prop := e1 = e \/ e1 = 0%Z /\ q_sats q = None.
Lemma loop_agree : forall k st line t vec it f e, e <> SP3_ERANGE -> agrees (sp3_loop k st line t vec it f) (sp3_loop_e k st line t vec it f e) (epoch_quiet e).
Proof.
  induction k as [|k IH]; intros st line t vec it f e N; cbn [sp3_loop sp3_loop_e]; [reflexivity|]. destruct (peek st) as (st1, c).
  destruct (match c with Some x => ceqb x "*" | None => false end); [exists e; split; [reflexivity|left; reflexivity]|].
  destruct (getline st1 line MAX_RECORD_CHARS) as [(st2, line2)| | | |]; cbn [bind]; try reflexivity. destruct (rd line2 0) as [c0| | | |]; cbn [bind]; try reflexivity.
  destruct (ceqb c0 "P").
  - pose proof (position_agree line2 f e N) as A. destruct (sp3_position line2 f) as [[j|r]| | | |]; cbn [agrees bind] in A |- *; try (rewrite A; reflexivity); destruct A as (e1 & -> & A); cbn [bind].
    + exists e1. split; [reflexivity|]. destruct A as [A|(A & _)]; [left; exact A|right; auto].
    + assert (e1 = e) by (destruct A as [A|(_ & c' & A)]; [exact A|discriminate A]). subst e1. destruct (put_rec vec it r) as [vec'| | | |]; cbn [bind]; try reflexivity. apply IH. exact N.
  - destruct (strncmp_lit line2 0 "EOF" 3) as [[]| | | |]; cbn [bind]; try reflexivity; [exists e; split; [reflexivity|left; reflexivity]|]. apply IH. exact N.
Qed.
Lemma next_agree k st vec e : e <> SP3_ERANGE -> agrees (sp3_next_epoch k st vec) (sp3_next_epoch_e k st vec e) (epoch_quiet e).
Proof.
  intro N. unfold sp3_next_epoch, sp3_next_epoch_e. destruct (negb (good st)); [exists e; split; [reflexivity|left; reflexivity]|].
  destruct (getline st (uninit MAX_RECORD_CHARS) MAX_RECORD_CHARS) as [(st1, line)| | | |]; cbn [bind]; try reflexivity.
  pose proof (header_agree line e N) as A. destruct (sp3_epoch_header line) as [[j|t]| | | |]; cbn [agrees bind] in A |- *; try (rewrite A; reflexivity); destruct A as (e1 & -> & A); cbn [bind].
  - exists e1. split; [reflexivity|]. destruct A as [A|(A & _)]; [left; exact A|right; auto].
  - assert (e1 = e) by (destruct A as [A|(_ & c' & A)]; [exact A|discriminate A]). subst e1. apply loop_agree. exact N.
Qed.

Lemma line1_agree line e : e <> SP3_ERANGE -> agrees (sp3_line1 line) (sp3_line1_e line e) (quiet e).
Proof.
  intro N. unfold sp3_line1, sp3_line1_e. cbv zeta. destruct (rd line 0) as [c0| | | |]; cbn [bind]; try reflexivity.
  destruct (negb (ceqb c0 "#")); [exists e; split; [reflexivity|left; reflexivity]|].
  destruct (rd line 1) as [c1| | | |]; cbn [bind]; try reflexivity. destruct (negb _ && negb _); [exists e; split; [reflexivity|left; reflexivity]|].
  destruct (strtol_at line 3) as [((y, u1), x1)| | | |]; cbn [bind]; try reflexivity. rewrite note_hot by exact N.
  destruct (to_i32 y =? 0)%Z; cbn [orb]; [exists 0%Z; split; [reflexivity|right; eauto]|]. destruct x1; [exists 0%Z; split; [reflexivity|right; eauto]|]. rewrite note_false.
  destruct (strtol_at line 8) as [((mo, u2), x2)| | | |]; cbn [bind]; try reflexivity. rewrite note_hot by exact N.
  destruct (to_i32 mo =? 0)%Z; cbn [orb]; [exists 0%Z; split; [reflexivity|right; eauto]|]. destruct x2; [exists 0%Z; split; [reflexivity|right; eauto]|]. rewrite note_false.
  destruct (strtol_at line 11) as [((d, u3), x3)| | | |]; cbn [bind]; try reflexivity. rewrite note_hot by exact N.
  destruct (to_i32 d =? 0)%Z; cbn [orb]; [exists 0%Z; split; [reflexivity|right; eauto]|]. destruct x3; [exists 0%Z; split; [reflexivity|right; eauto]|]. rewrite note_false.
  destruct (strtol_at line 14) as [((h, u4), x4)| | | |]; cbn [bind]; try reflexivity. rewrite note_hot by exact N.
  destruct x4; cbn [orb]; [exists 0%Z; split; [reflexivity|right; eauto]|]. destruct (u4 =? 0)%nat; [exists 0%Z; split; [reflexivity|right; eauto]|]. rewrite note_false.
  destruct (strtol_at line 17) as [((mi, u5), x5)| | | |]; cbn [bind]; try reflexivity. rewrite note_hot by exact N.
  destruct x5; cbn [orb]; [exists 0%Z; split; [reflexivity|right; eauto]|]. destruct (u5 =? 0)%nat; [exists 0%Z; split; [reflexivity|right; eauto]|]. rewrite note_false.
  destruct (strtod_at line 20) as [((sec, u6), x6)| | | |]; cbn [bind]; try reflexivity.
  destruct (strtol_at line 32) as [((ne, u7), x7)| | | |]; cbn [bind]; try reflexivity.
  assert (H : hot (note (note e x6) x7) = x6 || x7) by (destruct x6, x7; try reflexivity; apply Z.eqb_neq; exact N). rewrite H.
  destruct (to_i32 ne =? 0)%Z; cbn [orb]; [exists 0%Z; split; [reflexivity|right; eauto]|]. destruct x6; cbn [orb]; [exists 0%Z; split; [reflexivity|right; eauto]|].
  destruct x7; [exists 0%Z; split; [reflexivity|right; eauto]|]. rewrite !note_false.
  destruct (sub_at line 46 5) as [crd| | | |]; cbn [bind]; try reflexivity. destruct (sub_at line 52 3) as [orb| | | |]; cbn [bind]; try reflexivity.
  destruct (sub_at line 56 3) as [ag| | | |]; cbn [bind]; try reflexivity. destruct (to_usec sec) as [u| | | |]; cbn [bind]; try reflexivity.
  exists e. split; [reflexivity|left; reflexivity].
Qed.
(** the second line: what [sp3_line2] notes as a boolean is errno *)
Definition line2_quiet (e : Z) (r : Z + (Z * bool)) (y : outcome ((Z + Z) * Z)) : Prop :=
  match r with
  | inl c => exists e1, y = Val (inl c, e1) /\ (e1 = e \/ e1 = 0%Z \/ e1 = SP3_ERANGE /\ (c = 22%Z \/ c = 24%Z))
  | inr (u, x) => y = Val (inr u, note e x)
  end.
Definition line2_agrees (x : outcome (Z + (Z * bool))) (y : outcome ((Z + Z) * Z)) (e : Z) : Prop :=
  match x with Val r => line2_quiet e r y | Exn => y = Exn | Term => y = Term | UB => y = UB | Fuel => y = Fuel end.
Lemma note_note e x y : note (note e x) y = note e (x || y).
Proof. destruct x, y; reflexivity. Qed.
Lemma note_cases e x : note e x = e \/ note e x = SP3_ERANGE.
Proof. destruct x; auto. Qed.
Lemma line2_agree w m line t e : e <> SP3_ERANGE -> line2_agrees (sp3_line2 w m line t) (sp3_line2_e w m line t e) e.
Proof.
  intro N. unfold sp3_line2, sp3_line2_e. cbv zeta. destruct (rd line 0) as [c0| | | |]; cbn [bind]; try reflexivity.
  destruct (negb (ceqb c0 "#")); [exists e; auto|]. destruct (rd line 1) as [c1| | | |]; cbn [bind]; try reflexivity. destruct (negb (ceqb c1 "#")); [exists e; auto|].
  destruct (strtol_at line 3) as [((wk, u1), x1)| | | |]; cbn [bind]; try reflexivity. rewrite note_hot by exact N.
  destruct (to_i32 wk =? 0)%Z; cbn [orb]; [exists 0%Z; auto|]. destruct x1; [exists 0%Z; auto|]. rewrite note_false.
  destruct (strtod_at line 8) as [((sow, u2), x2)| | | |]; cbn [bind]; try reflexivity.
  destruct (negb _ || negb _). { exists (note e x2). split; [reflexivity|]. destruct (note_cases e x2); auto. }
  destruct (strtod_at line 24) as [((iv, u3), x3)| | | |]; cbn [bind]; try reflexivity. destruct (to_usec iv) as [u| | | |]; cbn [bind]; try reflexivity.
  destruct (strtol_at line 39) as [((mjd, u4), x4)| | | |]; cbn [bind]; try reflexivity. rewrite !note_note, note_hot, (Bool.orb_assoc x2 x3 x4) by exact N.
  destruct (to_i32 mjd =? 0)%Z; cbn [orb]; [exists 0%Z; auto|]. destruct (x2 || x3 || x4); [exists 0%Z; auto|]. cbn [orb].
  destruct (strtod_at line 45) as [((fr, u5), x5)| | | |]; cbn [bind]; try reflexivity. rewrite ?note_false. cbn [orb].
  destruct (negb _). { exists (note e x5). split; [reflexivity|]. destruct (note_cases e x5); auto. }
  reflexivity.
Qed.
(** opening: ERANGE is left behind only with the codes 22, 24 and 30 *)
Definition open_quiet (e : Z) (r : Z + (sp3hdr * stream)) (e1 : Z) : Prop :=
  e1 = e \/ e1 = 0%Z /\ (exists c, r = inl c) \/ e1 = SP3_ERANGE /\ (r = inl 22%Z \/ r = inl 24%Z \/ r = inl 30%Z).
Lemma open_agree w m d e : e <> SP3_ERANGE -> agrees (sp3_read_header w m d) (sp3_open_e w m d e) (open_quiet e).
Proof.
  intro N. unfold sp3_read_header, sp3_open_e. destruct (getline (open_stream d) _ _) as [(st1, l1)| | | |]; cbn [bind fst snd]; try reflexivity.
  pose proof (line1_agree l1 e N) as A. destruct (sp3_line1 l1) as [[c|(((((ver, start), ne), crd), obt), ag)]| | | |]; cbn [agrees bind] in A |- *; try (rewrite A; reflexivity); destruct A as (e1 & -> & A); cbn [bind].
  { exists e1. split; [reflexivity|]. destruct A as [A|(A & _)]; [left; exact A|right; left; eauto]. }
  assert (e1 = e) by (destruct A as [A|(_ & c' & A)]; [exact A|discriminate A]). subst e1. clear A.
  destruct (getline st1 l1 _) as [(st2, l2)| | | |]; cbn [bind fst snd]; try reflexivity.
  pose proof (line2_agree w m l2 start e N) as A. destruct (sp3_line2 w m l2 start) as [[c|(iv, x5)]| | | |]; cbn [line2_agrees line2_quiet bind] in A |- *; try (rewrite A; reflexivity).
  { destruct A as (e1 & -> & A). cbn [bind]. exists e1. split; [reflexivity|]. unfold open_quiet. destruct A as [A|[A|(A & [->| ->])]]; [left; exact A|right; left; split; [exact A|exists c; reflexivity]|right; right; auto|right; right; auto]. }
  rewrite A. cbn [bind]. clear A. destruct (getline st2 l2 _) as [(st3, l3)| | | |]; cbn [bind fst snd]; try reflexivity.
  destruct (rd l3 0) as [c0| | | |]; cbn [bind]; try reflexivity.
  assert (B : forall y, y = Val (@inl Z (sp3hdr * stream) 30%Z, note e x5) -> agrees (Val (@inl Z (sp3hdr * stream) 30%Z)) y (open_quiet e)).
  { intros y ->. exists (note e x5). split; [reflexivity|]. unfold open_quiet. destruct (note_cases e x5); [left; assumption|right; right; auto]. }
  destruct (negb (ceqb c0 "+")); [apply B; reflexivity|]. destruct (rd l3 1) as [c1| | | |]; cbn [bind]; try reflexivity. destruct (negb (ceqb c1 " ")); [apply B; reflexivity|]. clear B.
  destruct (strtol_at l3 3) as [((ns, u), x)| | | |]; cbn [bind]; try reflexivity. cbv zeta. rewrite note_note, note_hot by exact N.
  destruct (to_i32 ns =? 0)%Z; cbn [orb]; [exists 0%Z; split; [reflexivity|right; left; eauto]|]. destruct (x5 || x); [exists 0%Z; split; [reflexivity|right; left; eauto]|].
  rewrite note_false. match goal with |- agrees ?t _ _ => change t with (sp3_tail ver start ne crd obt ag iv (to_i32 ns) st3 l3) end.
  destruct (sp3_tail ver start ne crd obt ag iv (to_i32 ns) st3 l3) as [r| | | |]; cbn [bind]; try reflexivity. exists e. split; [reflexivity|left; reflexivity].
Qed.

(** with ERANGE in errno *)
Lemma open_hot w m d r e1 : sp3_open_e w m d SP3_ERANGE = Val (r, e1) -> r = inl 10%Z /\ e1 = SP3_ERANGE \/ r = inl 11%Z /\ e1 = 0%Z.
Proof.
  unfold sp3_open_e. intro H. apply bind_inv in H as (sl1 & _ & H). apply bind_inv in H as ((a, e2) & A & H). revert A. unfold sp3_line1_e. intro A.
  apply bind_inv in A as (c0 & _ & A). destruct (negb (ceqb c0 "#")). { apply Val_inj in A. inversion A; subst. apply Val_inj in H. inversion H; subst. auto. }
  apply bind_inv in A as (ver & _ & A). destruct (negb _ && negb _). { apply Val_inj in A. inversion A; subst. apply Val_inj in H. inversion H; subst. auto. }
  apply bind_inv in A as (((y, u), x) & _ & A). cbv zeta in A. rewrite hot_erange, Bool.orb_true_r in A. apply Val_inj in A. inversion A; subst. apply Val_inj in H. inversion H; subst. auto.
Qed.
