(** ProofEpoch: epochs of an observation file (C22, C25, C26, C55). *)
From Verif Require Import Base BaseLemmas CNum CNumLemmas Stream ModelSatsys ModelObs ModelNvarstr
  ModelSatellite ModelObsRnx SpecText SpecNum SpecObs ProofText ProofNum ProofStream ProofObsTypes
  ProofObsRec ProofCollect.

Definition plan_t := smap (list vecof_idpair).

(** the entries of the output vector are wide enough for the plan *)
Definition wide (plan : plan_t) (out : list satentry) : Prop :=
  forall e s reqs, In e out -> plan s = Some reqs -> length reqs <= length (snd e).

(** satellites and values placed over the first entries *)
Fixpoint fill (new : list (satsys * Z * list cdbl)) (old : list satentry) : list satentry :=
  match new, old with
  | (s, p, v) :: n, (_, w) :: o => (new_satellite s p, v ++ skipn (length v) w) :: fill n o
  | _, _ => old
  end.

Lemma system_of_spec c :
  match system_of c with
  | Some s => char_to_satsys c = Val s
  | None => char_to_satsys c = Exn
  end.
Proof.
  destruct c as [[] [] [] [] [] [] [] []]; reflexivity.
Qed.

Lemma cut_nul_none l : ~ In NUL (cut_nul l).
Proof.
  induction l as [|c l IH]; simpl; auto. destruct (Ascii.eqb_spec c NUL); simpl; auto.
  intros [H|H]; auto.
Qed.
Lemma cut_nul_id l : ~ In NUL l -> cut_nul l = l.
Proof.
  induction l as [|c l IH]; simpl; auto. intro H. destruct (Ascii.eqb_spec c NUL).
  - subst. exfalso. auto.
  - rewrite IH; auto.
Qed.
Lemma cut_nul_split l : l = cut_nul l \/ exists r, l = cut_nul l ++ NUL :: r.
Proof.
  induction l as [|c l IH]; simpl; auto. destruct (Ascii.eqb_spec c NUL).
  - subst. right. eexists. reflexivity.
  - destruct IH as [E|[r E]].
    + left. congruence.
    + right. exists r. simpl. congruence.
Qed.
Lemma holds_cut l buf : holds (overlay l buf) (cut_nul l).
Proof.
  unfold holds, overlay. destruct (cut_nul_split l) as [E|[r E]].
  - eexists. split; [|apply cut_nul_none]. rewrite <- E. reflexivity.
  - eexists. split; [|apply cut_nul_none]. rewrite E at 1. rewrite map_app, <- app_assoc. reflexivity.
Qed.
Lemma rd0_overlay l buf : rd (overlay l buf) 0 = Val (match l with [] => NUL | c :: _ => c end).
Proof. destruct l; reflexivity. Qed.
Lemma cut_head l : match l with [] => NUL | c :: _ => c end = match cut_nul l with [] => NUL | c :: _ => c end.
Proof. destruct l as [|c l]; simpl; auto. destruct (Ascii.eqb_spec c NUL); auto. Qed.

Lemma taken_cons plan l ls :
  taken plan (l :: ls) =
  match record_of plan l with RTake s p v => (s, p, v) :: taken plan ls | _ => taken plan ls end.
Proof. unfold taken. simpl. destruct (record_of plan l); reflexivity. Qed.

(** ** one record *)
Lemma loop_step k plan st buf bufsz done todo st1 l :
  getline st buf bufsz = Val (st1, overlay l buf) -> 3 <= length (overlay l buf) -> wide plan todo ->
  match record_of plan (cut_nul l) with
  | RBad => (exists n out', collect_loop (S k) plan st buf bufsz (done ++ todo) (length done)
                          = Val (1%Z, n, out', st1, overlay l buf) /\ n = length done /\
                 length out' = length (done ++ todo)) \/
            (todo = [] /\ collect_loop (S k) plan st buf bufsz (done ++ todo) (length done) = UB)
  | RSkip => collect_loop (S k) plan st buf bufsz (done ++ todo) (length done)
             = collect_loop k plan st1 (overlay l buf) bufsz (done ++ todo) (length done)
  | RTake s p v =>
      match todo with
      | [] => collect_loop (S k) plan st buf bufsz (done ++ todo) (length done) = UB
      | (_, w) :: t =>
          let e := (new_satellite s p, v ++ skipn (length v) w) in
          collect_loop (S k) plan st buf bufsz (done ++ todo) (length done)
          = collect_loop k plan st1 (overlay l buf) bufsz ((done ++ [e]) ++ t) (length (done ++ [e]))
      end
  end.
Proof.
  intros G H3 W. cbn [collect_loop]. rewrite G. cbn [bind]. rewrite rd0_overlay. cbn [bind].
  pose proof (holds_cut l buf) as Hh. rewrite cut_head.
  remember (cut_nul l) as line eqn:El. unfold record_of.
  destruct line as [|c line].
  { left. eexists _, _. split; [reflexivity|]. split; reflexivity. }
  pose proof (system_of_spec c) as HS. destruct (system_of c) as [s|].
  2:{ rewrite HS. left. eexists _, _. split; [reflexivity|]. split; reflexivity. }
  rewrite HS. destruct (plan s) as [reqs|] eqn:Ep; [|reflexivity].
  assert (EN : nth_error (done ++ todo) (length done) = nth_error todo 0).
  { rewrite nth_error_app2 by lia. rewrite Nat.sub_diag. reflexivity. }
  rewrite EN. destruct todo as [|[sat w] t].
  { cbn [nth_error]. destruct (prn_of (c :: line)); [|right; auto].
    match goal with |- context [if ?b then _ else _] => destruct b end; [right; auto|reflexivity]. }
  cbn [nth_error].
  assert (Lw : length reqs <= length w) by (apply (W (sat, w) s reqs); [left; auto|exact Ep]).
  pose proof (sat_collect_spec (overlay l buf) (c :: line) reqs w Hh ltac:(discriminate) H3 Lw) as HC.
  assert (LE : forall x, length (entry_set (done ++ (sat, w) :: t) (length done) x) = length (done ++ (sat, w) :: t)).
  { intro x. unfold entry_set. rewrite !app_length, firstn_length, app_length. cbn [length].
    rewrite skipn_length, app_length. cbn [length]. lia. }
  destruct (prn_of (c :: line)) as [prn|].
  2:{ destruct HC as (n & E). rewrite E. cbn [bind]. left. eexists _, _. split; [reflexivity|]. auto. }
  change (existsb (existsb (fun p : nat * cdbl => cell_bad (cell_of (c :: line) (fst p)))) reqs)
    with (existsb (bad_request (c :: line)) reqs).
  destruct (existsb (bad_request (c :: line)) reqs).
  - destruct HC as (v' & Lv & E). rewrite E. cbn [bind]. left. eexists _, _. split; [reflexivity|]. auto.
  - rewrite HC. cbn [bind]. pose proof (blank_total_nonneg (c :: line) reqs).
    destruct (Z.gtb_spec (- blank_total (c :: line) reqs) 0); [lia|].
    cbv zeta. rewrite map_length. 
    assert (ES : forall x, entry_set (done ++ (sat, w) :: t) (length done) x = (done ++ [x]) ++ t).
    { intro x. unfold entry_set. rewrite firstn_app, Nat.sub_diag, firstn_O, app_nil_r, firstn_all.
      rewrite <- app_assoc. cbn [app]. f_equal. f_equal.
      rewrite skipn_app. rewrite skipn_all2 by lia. replace (S (length done) - length done) with 1 by lia. reflexivity. }
    rewrite ES. rewrite app_length. cbn [length]. rewrite Nat.add_1_r. reflexivity.
Qed.

Definition bad_line plan l := record_of plan l = RBad.

Lemma wide_tail plan e t : wide plan (e :: t) -> wide plan t.
Proof. intros W x s reqs Hx. apply W. right. exact Hx. Qed.

(** ** forward: complete, fitting lines *)
Lemma loop_forward plan bufsz :
  forall lines st buf done todo tail,
  at_rest st (text_of lines ++ tail) -> Forall clean lines -> Forall (fun l => length l < bufsz) lines ->
  Forall (fun l => record_of plan l <> RBad) lines ->
  4 <= bufsz -> length buf = bufsz -> wide plan todo ->
  if length (taken plan lines) <=? length todo then
    exists st' buf',
      collect_loop (length lines) plan st buf bufsz (done ++ todo) (length done)
      = Val (0%Z, length done + length (taken plan lines), done ++ fill (taken plan lines) todo, st', buf') /\
      at_rest st' tail /\ sdata st' = sdata st /\ length buf' = bufsz
  else collect_loop (length lines) plan st buf bufsz (done ++ todo) (length done) = UB.
Proof.
  induction lines as [|l lines IH]; intros st buf done todo tail Hst Hc Hf Hb H4 Lb W.
  - cbn. exists st, buf. rewrite Nat.add_0_r.
    split; [reflexivity|]. split; [exact Hst|]. auto.
  - inversion Hc as [|? ? Cl Hc']; subst. inversion Hf as [|? ? Fl Hf']; subst.
    inversion Hb as [|? ? Bl Hb']; subst.
    assert (R : at_rest st (l ++ NL :: text_of lines ++ tail)).
    { destruct Hst as [G R]. split; [exact G|]. rewrite R. unfold text_of. simpl.
      rewrite <- !app_assoc. reflexivity. }
    destruct (getline_line st buf (length buf) l _ R (clean_nl _ Cl) Fl (le_n _))
      as (st1 & G & R1 & Hd & _).
    assert (L3 : length (overlay l buf) = length buf) by (apply overlay_length; exact Fl).
    pose proof (loop_step (length lines) plan st buf (length buf) done todo st1 l G ltac:(lia) W) as S1.
    rewrite (cut_nul_id l (clean_nul _ Cl)) in S1.
    rewrite taken_cons. cbn [length]. destruct (record_of plan l) as [| |s p v]; [|congruence|].
    + rewrite S1. specialize (IH st1 (overlay l buf) done todo tail R1 Hc').
      rewrite L3 in IH. specialize (IH Hf' Hb' H4 eq_refl W). 
      destruct (_ <=? _); [|exact IH]. destruct IH as (st' & buf' & E & A & D & L). exists st', buf'.
      rewrite <- Hd. auto.
    + destruct todo as [|[sat w] t]; [exact S1|].
      cbv zeta in S1. rewrite S1. set (e := (new_satellite s p, v ++ skipn (length v) w)) in *.
      specialize (IH st1 (overlay l buf) (done ++ [e]) t tail R1 Hc').
      rewrite L3 in IH. specialize (IH Hf' Hb' H4 eq_refl (wide_tail _ _ _ W)). cbn [length].
      change (S (length (taken plan lines)) <=? S (length t)) with (length (taken plan lines) <=? length t).
      destruct (_ <=? _); [|exact IH]. destruct IH as (st' & buf' & E & A & D & L). exists st', buf'.
      rewrite E, <- Hd. split; auto. rewrite app_length. cbn [length fill]. fold e.
      rewrite <- app_assoc. cbn [app].
      replace (length done + S (length (taken plan lines))) with (length done + 1 + length (taken plan lines)) by lia.
      reflexivity.
Qed.

(** ** a bad record *)
Lemma loop_bad plan bufsz :
  forall lines st buf done todo bad k rest,
  at_rest st (text_of lines ++ bad ++ NL :: rest) -> Forall clean lines -> Forall (fun l => length l < bufsz) lines ->
  Forall (fun l => record_of plan l <> RBad) lines -> clean bad -> length bad < bufsz -> record_of plan bad = RBad ->
  4 <= bufsz -> length buf = bufsz -> wide plan todo -> length (taken plan lines) < length todo ->
  exists n out' st' buf',
      collect_loop (length lines + S k) plan st buf bufsz (done ++ todo) (length done)
      = Val (1%Z, n, out', st', buf') /\ n = length done + length (taken plan lines) /\ sdata st' = sdata st /\
        length buf' = bufsz /\ length out' = length (done ++ todo).
Proof.
  induction lines as [|l lines IH]; intros st buf done todo bad k rest Hst Hc Hf Hb Cb Fb Bb H4 Lb W Ht.
  - cbn in Hst. destruct (getline_line st buf (length buf) bad _ Hst (clean_nl _ Cb) ltac:(lia) (le_n _))
      as (st1 & G & R1 & Hd & _).
    assert (L3 : length (overlay bad buf) = length buf) by (apply overlay_length; lia).
    rewrite Lb in *.
    pose proof (loop_step k plan st buf bufsz done todo st1 bad G ltac:(lia) W) as S1.
    rewrite (cut_nul_id bad (clean_nul _ Cb)) in S1. rewrite Bb in S1.
    destruct S1 as [(n & out' & E & En & El)|(-> & _)]; [|simpl in Ht; lia].
    cbn [length Nat.add taken flat_map]. eexists _, _, _, _. split; [exact E|]. subst n.
    repeat split; auto; lia.
  - inversion Hc as [|? ? Cl Hc']; subst. inversion Hf as [|? ? Fl Hf']; subst.
    inversion Hb as [|? ? Bl Hb']; subst.
    assert (R : at_rest st (l ++ NL :: text_of lines ++ bad ++ NL :: rest)).
    { destruct Hst as [G R]. split; [exact G|]. rewrite R. unfold text_of. simpl.
      rewrite <- !app_assoc. reflexivity. }
    destruct (getline_line st buf (length buf) l _ R (clean_nl _ Cl) Fl (le_n _))
      as (st1 & G & R1 & Hd & _).
    assert (L3 : length (overlay l buf) = length buf) by (apply overlay_length; exact Fl).
    cbn [length Nat.add].
    pose proof (loop_step (length lines + S k) plan st buf (length buf) done todo st1 l G ltac:(lia) W) as S1.
    rewrite (cut_nul_id l (clean_nul _ Cl)) in S1.
    rewrite taken_cons in *. destruct (record_of plan l) as [| |s p v]; [|congruence|].
    + rewrite S1. specialize (IH st1 (overlay l buf) done todo bad k rest R1 Hc').
      rewrite L3 in IH. destruct (IH Hf' Hb' Cb Fb Bb H4 eq_refl W Ht) as (n & out' & st' & buf' & E & ? & ? & ? & ?).
      exists n, out', st', buf'. rewrite <- Hd. auto.
    + destruct todo as [|[sat w] t]; [simpl in Ht; lia|].
      cbv zeta in S1. rewrite S1. set (e := (new_satellite s p, v ++ skipn (length v) w)) in *.
      specialize (IH st1 (overlay l buf) (done ++ [e]) t bad k rest R1 Hc').
      rewrite L3 in IH. cbn [length] in Ht.
      destruct (IH Hf' Hb' Cb Fb Bb H4 eq_refl (wide_tail _ _ _ W) ltac:(lia)) as (n & out' & st' & buf' & E & ? & ? & ? & ?).
      exists n, out', st', buf'. rewrite <- Hd. split; auto. cbn [length].
      rewrite !app_length in *. cbn [length] in *. repeat split; auto; lia.
Qed.

(** ** inverse: what success means, whatever the bytes *)

(** [bufsz] bytes hold the line; how a stream may give lines *)
Definition consumed (bufsz : nat) (before : list ascii) (lines : list (list ascii)) (after : list ascii) : Prop :=
  before = text_of lines ++ after \/
  exists ls l, lines = ls ++ [l] /\ before = text_of ls ++ l ++ after /\
    (after = [] \/ length l = bufsz - 1).

Lemma rest_advance s a b : rest s = a ++ b -> rest (advance s (length a)) = b.
Proof.
  intro R. unfold rest, advance in *. simpl.
  rewrite Nat.add_comm, <- skipn_skipn. rewrite R. rewrite skipn_app, skipn_all, Nat.sub_diag. reflexivity.
Qed.

Lemma getline_shape_nl st buf n :
  1 <= n -> n <= length buf ->
  exists st1 l, getline st buf n = Val (st1, overlay l buf) /\ length l < n /\ ~ In NL l /\ sdata st1 = sdata st /\
  ((good st = true /\ good st1 = true /\ rest st = l ++ NL :: rest st1) \/
   (good st1 = false /\ l = []) \/
   (good st = true /\ good st1 = false /\ l <> [] /\ rest st = l ++ rest st1 /\
    (rest st1 = [] \/ length l = n - 1))).
Proof.
  intros Hn Hb. unfold getline. destruct (good st) eqn:Gd.
  - destruct (take_line (n - 1) (rest st)) as [t e] eqn:T.
    pose proof (take_line_inv _ _ _ _ T) as (Ht & Hl & He).
    rewrite wr_bytes_overlay by lia. cbn [bind].
    eexists _, t. split; [reflexivity|]. split; [lia|]. split; [exact Ht|].
    split; [destruct t, e; reflexivity|].
    destruct e.
    + left. destruct He as [r Er]. split; [reflexivity|].
      assert (R : rest (advance st (length t + 1)) = r).
      { replace (length t + 1) with (length (t ++ [NL])) by (rewrite app_length; reflexivity).
        apply rest_advance. rewrite Er, <- app_assoc. reflexivity. }
      split; [destruct t; exact Gd|]. rewrite Er. f_equal. f_equal.
      rewrite <- R. destruct t; reflexivity.
    + destruct t as [|c t]; [right; left|right; right].
      * split; [|reflexivity]. simpl. unfold good. simpl. rewrite ?orb_true_r, ?andb_false_r; reflexivity.
      * split; [reflexivity|]. split; [reflexivity|]. split; [discriminate|].
        assert (R : rest (advance st (length (c :: t) + 0)) = []).
        { rewrite Nat.add_0_r. apply rest_advance. rewrite He, app_nil_r. reflexivity. }
        change (rest (set_eof (advance st (length (c :: t) + 0)))) with (rest (advance st (length (c :: t) + 0))).
        rewrite R, app_nil_r. auto.
    + destruct He as (Hk & c' & r & Hc & Er).
      destruct t as [|c t]; [right; left|right; right].
      * split; [|reflexivity]. simpl. unfold good. simpl. rewrite ?orb_true_r, ?andb_false_r; reflexivity.
      * split; [reflexivity|]. split; [unfold good; simpl; rewrite ?orb_true_r, ?andb_false_r; reflexivity|].
        split; [discriminate|].
        change (rest (set_fail (advance st (length (c :: t) + 0)))) with (rest (advance st (length (c :: t) + 0))).
        rewrite Nat.add_0_r. rewrite (rest_advance _ _ _ Er). auto.
  - change [Some NUL] with (map Some [] ++ [Some NUL]). rewrite wr_bytes_overlay by (simpl; lia). cbn [bind].
    eexists _, []. split; [reflexivity|]. split; [simpl; lia|]. split; [intros []|]. split; [reflexivity|]. right. left.
    split; [|reflexivity]. unfold good. simpl. rewrite ?orb_true_r, ?andb_false_r; reflexivity.
Qed.
Lemma getline_shape st buf n :
  1 <= n -> n <= length buf ->
  exists st1 l, getline st buf n = Val (st1, overlay l buf) /\ length l < n /\ sdata st1 = sdata st /\
  ((good st = true /\ good st1 = true /\ rest st = l ++ NL :: rest st1) \/
   (good st1 = false /\ l = []) \/
   (good st = true /\ good st1 = false /\ l <> [] /\ rest st = l ++ rest st1 /\
    (rest st1 = [] \/ length l = n - 1))).
Proof.
  intros Hn Hb. destruct (getline_shape_nl st buf n Hn Hb) as (st1 & l & G & L & _ & R). exists st1, l. auto.
Qed.

Lemma loop_inverse plan bufsz :
  forall k st buf done todo n out' st' buf',
  good st = true -> 4 <= bufsz -> length buf = bufsz -> wide plan todo ->
  collect_loop k plan st buf bufsz (done ++ todo) (length done) = Val (0%Z, n, out', st', buf') ->
  exists lines, length lines = k /\ consumed bufsz (rest st) lines (rest st') /\
    Forall (fun l => record_of plan (cut_nul l) <> RBad) lines /\
    n = length done + length (taken plan (map cut_nul lines)) /\
    length (taken plan (map cut_nul lines)) <= length todo /\
    out' = done ++ fill (taken plan (map cut_nul lines)) todo.
Proof.
  induction k as [|k IH]; intros st buf done todo n out' st' buf' Gd H4 Lb W H.
  - cbn in H. injection H as <- <- <- <-. exists []. split; [reflexivity|].
    split; [left; reflexivity|]. split; [constructor|]. cbn. split; [lia|]. split; [lia|reflexivity].
  - destruct (getline_shape st buf bufsz ltac:(lia) ltac:(lia)) as (st1 & l & G & Hl & Hd & Hc).
    assert (L3 : length (overlay l buf) = bufsz) by (rewrite overlay_length; lia).
    pose proof (loop_step k plan st buf bufsz done todo st1 l G ltac:(lia) W) as S1.
    destruct Hc as [(_ & G1 & R)|[(_ & ->)|(_ & G1 & Hne & R & Hend)]].
    + (* a full line *)
      destruct (record_of plan (cut_nul l)) as [| |s p v] eqn:Er.
      * rewrite S1 in H. destruct (IH _ _ _ _ _ _ _ _ G1 H4 L3 W H) as (ls & Ll & C & F & N & T & O).
        exists (l :: ls). split; [cbn; lia|]. split.
        { destruct C as [C|(ls' & x & -> & C & Q)].
          - left. rewrite R, C. unfold text_of. cbn [flat_map]. rewrite <- !app_assoc. reflexivity.
          - right. exists (l :: ls'), x. split; [reflexivity|]. split; [|exact Q]. rewrite R, C.
            unfold text_of. cbn [flat_map]. rewrite <- !app_assoc. reflexivity. }
        split; [constructor; [congruence|exact F]|]. cbn [map]. rewrite taken_cons, Er. auto.
      * destruct S1 as [(n0 & o0 & E & _)|[_ E]]; rewrite E in H; discriminate.
      * destruct todo as [|[sat w] t]; [rewrite S1 in H; discriminate|].
        cbv zeta in S1. rewrite S1 in H.
        destruct (IH _ _ _ _ _ _ _ _ G1 H4 L3 (wide_tail _ _ _ W) H) as (ls & Ll & C & F & N & T & O).
        exists (l :: ls). split; [cbn; lia|]. split.
        { destruct C as [C|(ls' & x & -> & C & Q)].
          - left. rewrite R, C. unfold text_of. cbn [flat_map]. rewrite <- !app_assoc. reflexivity.
          - right. exists (l :: ls'), x. split; [reflexivity|]. split; [|exact Q]. rewrite R, C.
            unfold text_of. cbn [flat_map]. rewrite <- !app_assoc. reflexivity. }
        split; [constructor; [congruence|exact F]|]. cbn [map]. rewrite taken_cons, Er. cbn [length fill].
        rewrite app_length in N. cbn [length] in N. split; [lia|]. split; [lia|].
        rewrite O, <- app_assoc. reflexivity.
    + (* nothing read *)
      cbn in S1. destruct S1 as [(n0 & o0 & E & _)|[_ E]]; cbn in H; rewrite E in H; discriminate.
    + (* the last line *)
      assert (K : forall d t, wide plan t -> collect_loop k plan st1 (overlay l buf) bufsz (d ++ t) (length d) = Val (0%Z, n, out', st', buf') ->
                  k = 0 /\ n = length d /\ out' = d ++ t /\ st' = st1).
      { intros d t Wt E. destruct k as [|k'].
        - cbn in E. injection E as <- <- <- <-. auto.
        - exfalso. destruct (getline_shape st1 (overlay l buf) bufsz ltac:(lia) ltac:(lia)) as (st2 & l2 & G2 & Hl2 & _ & Hc2).
          destruct Hc2 as [(Q & _)|[(_ & ->)|(Q & _)]]; [congruence| |congruence].
          assert (L4 : length (overlay [] (overlay l buf)) = bufsz) by (rewrite overlay_length; simpl; lia).
          pose proof (loop_step k' plan st1 (overlay l buf) bufsz d t st2 [] G2 ltac:(lia) Wt) as S2. cbn [cut_nul record_of] in S2.
          destruct S2 as [(n0 & o0 & E2 & _)|[_ E2]]; rewrite E2 in E; discriminate. }
      assert (CS : consumed bufsz (rest st) [l] (rest st1)).
      { right. exists [], l. split; [reflexivity|]. split; [exact R|]. exact Hend. }
      destruct (record_of plan (cut_nul l)) as [| |s p v] eqn:Er.
      * rewrite S1 in H. destruct (K _ _ W H) as (-> & -> & -> & ->).
        exists [l]. split; [reflexivity|]. split; [exact CS|]. split; [repeat constructor; congruence|].
        cbn [map]. rewrite taken_cons, Er. cbn. split; [lia|]. split; [lia|reflexivity].
      * destruct S1 as [(n0 & o0 & E & _)|[_ E]]; rewrite E in H; discriminate.
      * destruct todo as [|[sat w] t]; [rewrite S1 in H; discriminate|].
        cbv zeta in S1. rewrite S1 in H.
        destruct (K _ _ (wide_tail _ _ _ W) H) as (-> & -> & -> & ->).
        exists [l]. split; [reflexivity|]. split; [exact CS|]. split; [repeat constructor; congruence|].
        cbn [map]. rewrite taken_cons, Er. cbn [length fill taken flat_map map].
        rewrite app_length. cbn [length]. split; [lia|]. split; [lia|].
        rewrite <- app_assoc. reflexivity.
Qed.

(** ** the last line of the file without a newline *)
Lemma loop_unterminated plan bufsz :
  forall lines last st buf done todo,
  at_rest st (text_of lines ++ last) -> Forall clean (lines ++ [last]) ->
  Forall (fun l => length l < bufsz) (lines ++ [last]) ->
  Forall (fun l => record_of plan l <> RBad) (lines ++ [last]) ->
  4 <= bufsz -> length buf = bufsz -> wide plan todo ->
  length (taken plan (lines ++ [last])) <= length todo ->
    exists st' buf',
      collect_loop (length (lines ++ [last])) plan st buf bufsz (done ++ todo) (length done)
      = Val (0%Z, length done + length (taken plan (lines ++ [last])),
             done ++ fill (taken plan (lines ++ [last])) todo, st', buf') /\
      seof st' = true /\ sfail st' = false /\ rest st' = [] /\ length buf' = bufsz.
Proof.
  induction lines as [|l lines IH]; intros last st buf done todo Hst Hc Hf Hb H4 Lb W Ht.
  - cbn [app] in *. inversion Hc as [|? ? Cl _]; subst. inversion Hf as [|? ? Fl _]; subst.
    inversion Hb as [|? ? Bl _]; subst.
    assert (Hne : last <> []) by (intros ->; apply Bl; reflexivity).
    destruct (getline_last st buf (length buf) last Hst (clean_nl _ Cl) Hne Fl (le_n _))
      as (st1 & G & He & Hff & Hr).
    assert (L3 : length (overlay last buf) = length buf) by (apply overlay_length; exact Fl).
    pose proof (loop_step 0 plan st buf (length buf) done todo st1 last G ltac:(lia) W) as S1.
    rewrite (cut_nul_id last (clean_nul _ Cl)) in S1. cbn [length].
    rewrite taken_cons in *. destruct (record_of plan last) as [| |s p v]; [|congruence|].
    + rewrite S1. cbn. rewrite Nat.add_0_r. eexists _, _. split; [reflexivity|]. auto.
    + destruct todo as [|[sat w] t]; [cbn in Ht; lia|]. cbv zeta in S1. rewrite S1.
      eexists _, _. split; [|eauto]. cbn. rewrite <- app_assoc, app_length. reflexivity.
  - cbn [app] in *. inversion Hc as [|? ? Cl Hc']; subst. inversion Hf as [|? ? Fl Hf']; subst.
    inversion Hb as [|? ? Bl Hb']; subst.
    assert (R : at_rest st (l ++ NL :: text_of lines ++ last)).
    { destruct Hst as [G R]. split; [exact G|]. rewrite R. unfold text_of. simpl.
      rewrite <- !app_assoc. reflexivity. }
    destruct (getline_line st buf (length buf) l _ R (clean_nl _ Cl) Fl (le_n _))
      as (st1 & G & R1 & Hd & _).
    assert (L3 : length (overlay l buf) = length buf) by (apply overlay_length; exact Fl).
    pose proof (loop_step (length (lines ++ [last])) plan st buf (length buf) done todo st1 l G ltac:(lia) W) as S1.
    rewrite (cut_nul_id l (clean_nul _ Cl)) in S1.
    rewrite taken_cons in *. cbn [length]. destruct (record_of plan l) as [| |s p v]; [|congruence|].
    + rewrite S1. specialize (IH last st1 (overlay l buf) done todo R1 Hc').
      rewrite L3 in IH. exact (IH Hf' Hb' H4 eq_refl W Ht).
    + destruct todo as [|[sat w] t]; [cbn in Ht; lia|].
      cbv zeta in S1. rewrite S1. set (e := (new_satellite s p, v ++ skipn (length v) w)) in *.
      specialize (IH last st1 (overlay l buf) (done ++ [e]) t R1 Hc').
      rewrite L3 in IH. cbn [length] in Ht.
      destruct (IH Hf' Hb' H4 eq_refl (wide_tail _ _ _ W) ltac:(lia)) as (st' & buf' & E & Q).
      exists st', buf'. split; [|exact Q]. rewrite E. rewrite app_length. cbn [length fill]. fold e.
      rewrite <- app_assoc. cbn [app].
      match goal with |- Val (_, ?a, _, _, _) = Val (_, ?b, _, _, _) => replace a with b by lia end.
      reflexivity.
Qed.

(** ** read_next_epoch *)

(** epoch and its records as text *)
Definition epoch_text (e : epoch_src) (recs : list (list ascii)) : list ascii :=
  text_of (epoch_line e :: recs).

(** an epoch the buffer can hold, whose records the plan can read *)
Definition epoch_ok (plan : plan_t) (bufsz : nat) (e : epoch_src) (recs : list (list ascii)) : Prop :=
  epoch_src_ok e /\ length (epoch_line e) < bufsz /\ dec_val (s_nsat e) = Z.of_nat (length recs) /\
  Forall clean recs /\ Forall (fun l => length l < bufsz) recs /\
  Forall (fun l => record_of plan l <> RBad) recs.

(** an object ready to read [d] *)
Definition ready (o : obsfile) (d : list ascii) : Prop :=
  at_rest (o_stream o) d /\ length (o_buf o) = o_bufsz o /\ 4 <= o_bufsz o.

(** the epoch header read from the text *)
Definition header_of (h : epochhdr) (e : epoch_src) : Prop :=
  e_ints h = spec_ints e /\ e_sec h = DFin (spec_sec e) /\ e_flag h = indicator (s_flag e) /\
  e_nsats h = dec_val (s_nsat e).

Lemma epoch_line_clean e : epoch_src_ok e -> clean (epoch_line e).
Proof.
  intros (Hy & Hy4 & Hm & Hd & Hh & Hmi & Hs & Hs10 & Hfl & Hns & Hoff).
  assert (D : forall l, digits l -> clean l).
  { intros l H. induction H as [|c l Hc _ IH]; constructor; auto.
    unfold digit in Hc. split; intros ->; cbn in Hc; lia. }
  assert (DF : forall w l, field_ok w l -> clean l) by (intros w l (H & _); auto).
  unfold epoch_line, epoch_base. rewrite <- !app_assoc.
  repeat match goal with |- clean (_ ++ _) => apply clean_app; split end;
    try apply clean_blanks; try apply rjust_clean;
    try (eapply DF; eauto; fail); try (apply D; assumption); try (apply num_text_clean; assumption);
    try (apply lit_clean; reflexivity).
  all: try (destruct (s_off e) as [n|]; [|constructor];
            apply clean_app; split; [apply clean_blanks|]; apply rjust_clean; apply num_text_clean; tauto).
  - apply D. constructor; [exact Hfl|constructor].
Qed.

Lemma epoch_line_head e : exists r, epoch_line e = ">"%char :: r.
Proof. eexists. reflexivity. Qed.

Theorem epoch_read plan o e recs tail out :
  ready o (epoch_text e recs ++ tail) -> epoch_ok plan (o_bufsz o) e recs -> wide plan out ->
  length (taken plan recs) <= length out ->
  exists r h, read_next_epoch o plan out = Val r /\
    er_code r = 0%Z /\ er_hdr r = Some h /\ header_of h e /\
    er_sats r = length (taken plan recs) /\ er_out r = fill (taken plan recs) out /\
    ready (er_obj r) tail /\ o_bufsz (er_obj r) = o_bufsz o /\ o_hdr (er_obj r) = o_hdr o /\
    o_eoh (er_obj r) = o_eoh o /\ sdata (o_stream (er_obj r)) = sdata (o_stream o).
Proof.
  intros ((G & R) & Lb & H4) (Hok & Hle & Hn & Hc & Hf & Hb) W Ht.
  unfold read_next_epoch. unfold peek. rewrite G.
  destruct (epoch_line_head e) as [x Ex].
  assert (RR : rest (o_stream o) = epoch_line e ++ NL :: text_of recs ++ tail).
  { rewrite R. unfold epoch_text, text_of. cbn [flat_map]. rewrite <- !app_assoc. reflexivity. }
  rewrite RR. rewrite Ex. cbn [app].
  destruct (getline_line (o_stream o) (o_buf o) (o_bufsz o) (epoch_line e) _ (conj G RR)
    (clean_nl _ (epoch_line_clean e Hok)) Hle ltac:(lia)) as (st1 & Gl & R1 & Hd1 & _).
  rewrite Gl. cbn [bind].
  destruct (epoch_line_exact e (o_buf o) Hok) as (coff & Er & _). rewrite Er. cbn [bind].
  cbn [e_nsats]. unfold collect_epoch. rewrite Hn, Nat2Z.id.
  assert (L3 : length (overlay (epoch_line e) (o_buf o)) = o_bufsz o) by (rewrite overlay_length; lia).
  pose proof (loop_forward plan (o_bufsz o) recs st1 _ [] out tail R1 Hc Hf Hb H4 L3 W) as FW.
  cbn [length app Nat.add] in FW. destruct (Nat.leb_spec (length (taken plan recs)) (length out)); [|lia].
  destruct FW as (st' & buf' & E & A & D & L). rewrite E. cbn [bind negb Z.eqb].
  assert (Hs : seof st' = false).
  { destruct A as [A _]. unfold good in A. destruct (seof st'); [discriminate|reflexivity]. }
  rewrite Hs. eexists _, _. split; [reflexivity|]. cbn.
  split; [reflexivity|]. split; [reflexivity|]. split; [unfold header_of; cbn; auto|].
  repeat split; auto; try apply A; try congruence.
Qed.

Theorem epoch_read_unterminated plan o e recs last out :
  ready o (epoch_text e recs ++ last) -> epoch_ok plan (o_bufsz o) e (recs ++ [last]) -> wide plan out ->
  length (taken plan (recs ++ [last])) <= length out ->
  exists r h, read_next_epoch o plan out = Val r /\
    er_code r = (-1)%Z /\ er_hdr r = Some h /\ header_of h e /\
    er_sats r = length (taken plan (recs ++ [last])) /\ er_out r = fill (taken plan (recs ++ [last])) out.
Proof.
  intros ((G & R) & Lb & H4) (Hok & Hle & Hn & Hc & Hf & Hb) W Ht.
  unfold read_next_epoch. unfold peek. rewrite G.
  destruct (epoch_line_head e) as [x Ex].
  assert (RR : rest (o_stream o) = epoch_line e ++ NL :: text_of recs ++ last).
  { rewrite R. unfold epoch_text, text_of. cbn [flat_map]. rewrite <- !app_assoc. reflexivity. }
  rewrite RR. rewrite Ex. cbn [app].
  destruct (getline_line (o_stream o) (o_buf o) (o_bufsz o) (epoch_line e) _ (conj G RR)
    (clean_nl _ (epoch_line_clean e Hok)) Hle ltac:(lia)) as (st1 & Gl & R1 & Hd1 & _).
  rewrite Gl. cbn [bind].
  destruct (epoch_line_exact e (o_buf o) Hok) as (coff & Er & _). rewrite Er. cbn [bind].
  cbn [e_nsats]. unfold collect_epoch. rewrite Hn, Nat2Z.id.
  assert (L3 : length (overlay (epoch_line e) (o_buf o)) = o_bufsz o) by (rewrite overlay_length; lia).
  destruct (loop_unterminated plan (o_bufsz o) recs last st1 _ [] out R1 Hc Hf Hb H4 L3 W Ht)
    as (st' & buf' & E & Se & _).
  cbn [length app Nat.add] in E. rewrite E. cbn [bind negb Z.eqb]. rewrite Se.
  eexists _, _. split; [reflexivity|]. cbn.
  split; [reflexivity|]. split; [reflexivity|]. split; [unfold header_of; cbn; auto|]. auto.
Qed.

(** too many satellites for the output vector *)
Theorem epoch_overflow plan o e recs tail out :
  ready o (epoch_text e recs ++ tail) -> epoch_ok plan (o_bufsz o) e recs -> wide plan out ->
  length out < length (taken plan recs) ->
  read_next_epoch o plan out = UB.
Proof.
  intros ((G & R) & Lb & H4) (Hok & Hle & Hn & Hc & Hf & Hb) W Ht.
  unfold read_next_epoch. unfold peek. rewrite G.
  destruct (epoch_line_head e) as [x Ex].
  assert (RR : rest (o_stream o) = epoch_line e ++ NL :: text_of recs ++ tail).
  { rewrite R. unfold epoch_text, text_of. cbn [flat_map]. rewrite <- !app_assoc. reflexivity. }
  rewrite RR. rewrite Ex. cbn [app].
  destruct (getline_line (o_stream o) (o_buf o) (o_bufsz o) (epoch_line e) _ (conj G RR)
    (clean_nl _ (epoch_line_clean e Hok)) Hle ltac:(lia)) as (st1 & Gl & R1 & Hd1 & _).
  rewrite Gl. cbn [bind].
  destruct (epoch_line_exact e (o_buf o) Hok) as (coff & Er & _). rewrite Er. cbn [bind].
  cbn [e_nsats]. unfold collect_epoch. rewrite Hn, Nat2Z.id.
  assert (L3 : length (overlay (epoch_line e) (o_buf o)) = o_bufsz o) by (rewrite overlay_length; lia).
  pose proof (loop_forward plan (o_bufsz o) recs st1 _ [] out tail R1 Hc Hf Hb H4 L3 W) as FW.
  cbn [length app Nat.add] in FW. destruct (Nat.leb_spec (length (taken plan recs)) (length out)); [lia|].
  rewrite FW. reflexivity.
Qed.

(** end of file *)
Theorem epoch_eof plan o out :
  ready o [] ->
  exists r, read_next_epoch o plan out = Val r /\ er_code r = (-1)%Z /\ er_sats r = 0 /\ er_out r = out /\
    er_hdr r = None /\ ready (er_obj r) [] /\ o_bufsz (er_obj r) = o_bufsz o /\
    o_eoh (er_obj r) = o_eoh o /\ sdata (o_stream (er_obj r)) = sdata (o_stream o).
Proof.
  intros ((G & R) & Lb & H4). unfold read_next_epoch, peek. rewrite G, R.
  change (seof (set_eof (o_stream o))) with true.
  eexists. split; [reflexivity|]. cbn. repeat split; auto.
Qed.

(** a failed stream: 0, nothing delivered, for ever *)
Theorem epoch_failed plan o out :
  sfail (o_stream o) = true -> seof (o_stream o) = false ->
  read_next_epoch o plan out = Val (mkRes 0%Z (mkObsFile (o_stream o) (o_hdr o) (o_eoh o) (o_buf o) (o_bufsz o)) out 0 None).
Proof.
  intros F E. unfold read_next_epoch, peek. unfold good. rewrite F, andb_false_r.
  cbn [seof set_fail]. rewrite E. repeat f_equal. unfold set_fail. destruct (o_stream o); cbn in *. subst. reflexivity.
Qed.

(** ** reading a whole file of epochs *)
Fixpoint read_n (n : nat) (o : obsfile) (plan : plan_t) (out : list satentry) : outcome (list epochres) :=
  match n with
  | O => Val []
  | S k => do r <- read_next_epoch o plan out; do rs <- read_n k (er_obj r) plan (er_out r); Val (r :: rs)
  end.

(** the first entries of [out] hold the satellites and values *)
Definition delivers (out : list satentry) (new : list (satsys * Z * list cdbl)) : Prop :=
  forall i s p v, nth_error new i = Some (s, p, v) ->
    exists w, nth_error out i = Some (new_satellite s p, v ++ w).

Lemma fill_delivers new old : length new <= length old -> delivers (fill new old) new.
Proof.
  revert old. induction new as [|[[s p] v] new IH]; intros old H i s' p' v' E.
  - destruct i; discriminate.
  - destruct old as [|[x w] old]; [simpl in H; lia|]. destruct i as [|i]; cbn in *.
    + injection E as <- <- <-. eauto.
    + apply (IH old ltac:(lia) i). exact E.
Qed.
Lemma fill_rest new old i : length new <= i -> nth_error (fill new old) i = nth_error old i.
Proof.
  revert old i. induction new as [|[[s p] v] new IH]; intros old i H; [reflexivity|].
  destruct old as [|[x w] old]; [reflexivity|]. destruct i as [|i]; [simpl in H; lia|]. cbn. apply IH. simpl in H. lia.
Qed.
Lemma fill_length new old : length (fill new old) = length old.
Proof.
  revert old. induction new as [|[[s p] v] new IH]; intros [|[x w] old]; try reflexivity. cbn. rewrite IH. reflexivity.
Qed.
Lemma fill_wide plan new old : wide plan old -> wide plan (fill new old).
Proof.
  revert old. induction new as [|[[s p] v] new IH]; intros [|[x w] old] W; auto.
  intros e s' reqs [<-|Hin] Hp; cbn.
  - specialize (W (x, w) s' reqs (or_introl eq_refl) Hp). cbn in W. rewrite app_length, skipn_length. lia.
  - apply (IH old (wide_tail _ _ _ W) e s' reqs Hin Hp).
Qed.

Lemma last_cons {A} (x d : A) l : last (x :: l) d = last l x.
Proof. revert x d. induction l as [|y l IH]; intros x d; [reflexivity|]. exact (eq_trans (IH y d) (eq_sym (IH y x))). Qed.

Definition file_text (eps : list (epoch_src * list (list ascii))) : list ascii :=
  flat_map (fun ep => epoch_text (fst ep) (snd ep)) eps.

Theorem file_read plan :
  forall eps o tail out,
  ready o (file_text eps ++ tail) ->
  Forall (fun ep => epoch_ok plan (o_bufsz o) (fst ep) (snd ep)) eps ->
  wide plan out -> Forall (fun ep => length (taken plan (snd ep)) <= length out) eps ->
  exists rs, read_n (length eps) o plan out = Val rs /\
    Forall2 (fun r ep => er_code r = 0%Z /\ (exists h, er_hdr r = Some h /\ header_of h (fst ep)) /\
               er_sats r = length (taken plan (snd ep)) /\ delivers (er_out r) (taken plan (snd ep))) rs eps /\
    ready (last (map er_obj rs) o) tail.
Proof.
  induction eps as [|[e recs] eps IH]; intros o tail out Ho Hok W Ht.
  - exists []. cbn. split; [reflexivity|]. split; [constructor|exact Ho].
  - inversion Hok as [|? ? Ok1 Hok']; subst. inversion Ht as [|? ? T1 Ht']; subst. cbn [fst snd] in *.
    assert (H1 : ready o (epoch_text e recs ++ file_text eps ++ tail)).
    { destruct Ho as ((G & R) & Q). split; [|exact Q]. split; [exact G|]. rewrite R. unfold file_text. cbn [flat_map fst snd].
      rewrite <- app_assoc. reflexivity. }
    destruct (epoch_read plan o e recs _ out H1 Ok1 W T1)
      as (r & h & E & E0 & Eh & Hh & Es & Eo & Rd & Bs & _).
    assert (Hok2 : Forall (fun ep => epoch_ok plan (o_bufsz (er_obj r)) (fst ep) (snd ep)) eps) by (rewrite Bs; exact Hok').
    assert (W2 : wide plan (er_out r)) by (rewrite Eo; apply fill_wide; exact W).
    assert (Ht2 : Forall (fun ep => length (taken plan (snd ep)) <= length (er_out r)) eps)
      by (rewrite Eo, fill_length; exact Ht').
    destruct (IH (er_obj r) tail (er_out r) Rd Hok2 W2 Ht2) as (rs & Ers & F & L).
    exists (r :: rs). cbn [length read_n]. rewrite E. cbn [bind]. rewrite Ers. cbn [bind].
    split; [reflexivity|]. split.
    + constructor; [|exact F]. cbn [fst snd]. split; [exact E0|]. split; [eauto|]. split; [exact Es|].
      rewrite Eo. apply fill_delivers. exact T1.
    + cbn [map]. rewrite last_cons. exact L.
Qed.

(** ** return codes *)
Lemma resolve_epoch_codes m j h : resolve_epoch m = Val (j, h) ->
  (h = None /\ (1 <= j <= 5)%Z) \/ (exists x, h = Some x /\ j = 0%Z).
Proof.
  unfold resolve_epoch. intro H. apply bind_val in H as (line & _ & H). apply bind_val in H as (c & _ & H).
  destruct (_ || _); [injection H as <- <-; left; split; [auto|lia]|].
  apply bind_val in H as (r & _ & H). destruct r as [[ints start]|]; [|injection H as <- <-; left; split; [auto|lia]].
  apply bind_val in H as (s & _ & H). destruct (strtod s) as [[rs n] er].
  destruct (er || _); [injection H as <- <-; left; split; [auto|lia]|]. cbv zeta in H.
  apply bind_val in H as (c31 & _ & H). apply bind_val in H as (s2 & _ & H).
  destruct (strtol s2) as [[v2 n2] er2].
  destruct (er2 || _) eqn:Q; [injection H as <- <-; left; split; [auto|lia]|].
  destruct (41 <? length line).
  - apply bind_val in H as (e & _ & H). destruct e.
    + destruct (start =? 32 + n2); injection H as <- <-; [left; split; [auto|lia]|right; eauto].
    + apply bind_val in H as (s3 & _ & H). destruct (strtod s3) as [[v3 n3] er3].
      destruct (er3 || _); injection H as <- <-; [left; split; [auto|lia]|right; eauto].
  - injection H as <- <-. right; eauto.
Qed.

Lemma collect_codes k plan : forall st buf bufsz out pos j n out' st' buf',
  collect_loop k plan st buf bufsz out pos = Val (j, n, out', st', buf') -> j = 0%Z \/ j = 1%Z.
Proof.
  induction k as [|k IH]; intros st buf bufsz out pos j n out' st' buf' H; cbn [collect_loop] in H.
  - injection H as <- _ _ _ _. auto.
  - apply bind_val in H as ([st1 b1] & _ & H). apply bind_val in H as (c0 & _ & H).
    destruct (char_to_satsys c0) as [s| | | |]; try discriminate.
    2:{ injection H as <- _ _ _ _. auto. }
    destruct (plan s); [|eapply IH; eauto].
    destruct (nth_error out pos) as [[sat vals]|]; [|discriminate].
    apply bind_val in H as ([[code prn] v'] & _ & H). destruct (code >? 0)%Z; [|eapply IH; eauto].
    injection H as <- _ _ _ _. auto.
Qed.

Theorem epoch_codes o plan out r : read_next_epoch o plan out = Val r ->
  (er_code r = 0 \/ er_code r = -1 \/ (21 <= er_code r <= 25) \/ er_code r = 31)%Z.
Proof.
  unfold read_next_epoch. destruct (peek (o_stream o)) as [st0 [ch|]].
  - intro H. apply bind_val in H as ([st1 buf1] & _ & H). apply bind_val in H as ([j hdr] & Hr & H).
    apply resolve_epoch_codes in Hr. destruct hdr as [h|].
    + apply bind_val in H as ([[[[j2 n] out'] st2] buf2] & Hc & H). apply collect_codes in Hc.
      destruct (negb (j2 =? 0)%Z) eqn:Ej.
      * apply Val_inj in H; subst r. cbn [er_code]. destruct Hc as [->| ->]; [discriminate|lia].
      * destruct (seof st2); apply Val_inj in H; subst r; cbn [er_code]; lia.
    + apply Val_inj in H; subst r. cbn [er_code]. destruct Hr as [[_ Hr]|(x & Hx & _)]; [lia|discriminate].
  - intro H. destruct (seof st0); apply Val_inj in H; subst r; cbn [er_code]; lia.
Qed.

(** end-of-file flag only at the end *)
Definition eof_inv (s : stream) : Prop := seof s = true -> rest s = [].

Lemma getline_eof_inv s buf n s' b : eof_inv s -> getline s buf n = Val (s', b) -> eof_inv s'.
Proof.
  intros I H. unfold getline in H. destruct (good s) eqn:G.
  - destruct (take_line (n - 1) (rest s)) as [t e] eqn:T.
    pose proof (take_line_inv _ _ _ _ T) as (Ht & Hl & He).
    apply bind_val in H as (b' & _ & H). injection H as <- _.
    assert (Es : seof s = false) by (unfold good in G; destruct (seof s); [discriminate|reflexivity]).
    destruct e.
    + intro Q. exfalso. destruct t; cbn in Q; congruence.
    + assert (R : rest (advance s (length t + 0)) = []).
      { rewrite Nat.add_0_r. apply rest_advance. rewrite He, app_nil_r. reflexivity. }
      intro Q. destruct t; exact R.
    + intro Q. exfalso. destruct t; cbn in Q; congruence.
  - apply bind_val in H as (b' & _ & H). injection H as <- _. exact I.
Qed.

Lemma collect_eof_inv k plan : forall st buf bufsz out pos j n out' st' buf',
  eof_inv st -> collect_loop k plan st buf bufsz out pos = Val (j, n, out', st', buf') -> eof_inv st'.
Proof.
  induction k as [|k IH]; intros st buf bufsz out pos j n out' st' buf' I H; cbn [collect_loop] in H.
  - injection H as _ _ _ <- _. auto.
  - apply bind_val in H as ([st1 b1] & G & H). apply (getline_eof_inv _ _ _ _ _ I) in G.
    apply bind_val in H as (c0 & _ & H).
    destruct (char_to_satsys c0) as [s| | | |]; try discriminate.
    2:{ injection H as _ _ _ <- _. auto. }
    destruct (plan s); [|eapply IH; eauto].
    destruct (nth_error out pos) as [[sat vals]|]; [|discriminate].
    apply bind_val in H as ([[code prn] v'] & _ & H). destruct (code >? 0)%Z; [|eapply IH; eauto].
    injection H as _ _ _ <- _. auto.
Qed.

(** -1 only when everything has been consumed; the stream can be used again *)
Theorem epoch_minus_one o plan out r : eof_inv (o_stream o) ->
  read_next_epoch o plan out = Val r -> er_code r = (-1)%Z ->
  rest (o_stream (er_obj r)) = [] /\ good (o_stream (er_obj r)) = true.
Proof.
  intros I H Hc. unfold read_next_epoch in H. destruct (peek (o_stream o)) as [st0 [ch|]] eqn:P.
  - assert (st0 = o_stream o).
    { unfold peek in P. destruct (good _); [destruct (rest (o_stream o))|]; congruence. }
    subst st0. apply bind_val in H as ([st1 buf1] & G & H). apply (getline_eof_inv _ _ _ _ _ I) in G.
    apply bind_val in H as ([j hdr] & Hr & H). apply resolve_epoch_codes in Hr. destruct hdr as [h|].
    + apply bind_val in H as ([[[[j2 n] out'] st2] buf2] & C & H). pose proof (collect_codes _ _ _ _ _ _ _ _ _ _ _ _ C) as Cc.
      apply (collect_eof_inv _ _ _ _ _ _ _ _ _ _ _ _ G) in C.
      destruct (negb (j2 =? 0)%Z).
      * apply Val_inj in H; subst r. cbn [er_code] in Hc. lia.
      * destruct (seof st2) eqn:Es; apply Val_inj in H; subst r; cbn [er_code] in Hc; [|lia]. split; [exact (C Es)|reflexivity].
    + apply Val_inj in H; subst r. cbn [er_code] in Hc. destruct Hr as [[_ Hr]|(x & Hx & _)]; [lia|discriminate].
  - destruct (seof st0) eqn:Es; apply Val_inj in H; subst r; cbn [er_code] in Hc; [|lia].
    unfold peek in P. destruct (good (o_stream o)) eqn:G.
    + destruct (rest (o_stream o)) eqn:R; [|congruence]. injection P as <-. split; [exact R|reflexivity].
    + injection P as <-. split; [exact (I Es)|reflexivity].
Qed.

(** when is 0 returned without an epoch: only on a failed stream *)
Theorem epoch_zero o plan out r :
  read_next_epoch o plan out = Val r -> er_code r = 0%Z -> good (o_stream o) = true -> exists h, er_hdr r = Some h.
Proof.
  intros H Hc G. unfold read_next_epoch, peek in H. rewrite G in H. destruct (rest (o_stream o)).
  - cbn in H. apply Val_inj in H; subst r. discriminate.
  - apply bind_val in H as ([st1 buf1] & _ & H). apply bind_val in H as ([j hdr] & Hr & H).
    apply resolve_epoch_codes in Hr. destruct hdr as [h|].
    + apply bind_val in H as ([[[[j2 n] out'] st2] buf2] & C & H). pose proof (collect_codes _ _ _ _ _ _ _ _ _ _ _ _ C) as Cc.
      destruct (negb (j2 =? 0)%Z); [apply Val_inj in H; subst r; cbn [er_code] in Hc; lia|].
      destruct (seof st2); apply Val_inj in H; subst r; cbn [er_code er_hdr] in *; [lia|eauto].
    + apply Val_inj in H; subst r. cbn [er_code] in Hc. destruct Hr as [[_ Hr]|(x & Hx & _)]; [lia|discriminate].
Qed.

(** a record the plan cannot read: 31 *)
Theorem epoch_bad_record plan o e recs bad tail out :
  ready o (epoch_line e ++ NL :: text_of recs ++ bad ++ NL :: tail) ->
  epoch_src_ok e -> length (epoch_line e) < o_bufsz o -> (Z.of_nat (length recs) < dec_val (s_nsat e))%Z ->
  Forall clean (recs ++ [bad]) -> Forall (fun l => length l < o_bufsz o) (recs ++ [bad]) ->
  Forall (fun l => record_of plan l <> RBad) recs -> record_of plan bad = RBad -> wide plan out ->
  length (taken plan recs) < length out ->
  exists r, read_next_epoch o plan out = Val r /\ er_code r = 31%Z.
Proof.
  intros ((G & R) & Lb & H4) Hok Hle Hn Hc Hf Hb Bb W Ht.
  apply Forall_app in Hc as [Hc Cb]. inversion Cb as [|? ? Cb' _]; subst.
  apply Forall_app in Hf as [Hf Fb]. inversion Fb as [|? ? Fb' _]; subst.
  unfold read_next_epoch. unfold peek. rewrite G.
  destruct (epoch_line_head e) as [x Ex]. rewrite R. rewrite Ex. cbn [app].
  destruct (getline_line (o_stream o) (o_buf o) (o_bufsz o) (epoch_line e) _ (conj G R)
    (clean_nl _ (epoch_line_clean e Hok)) Hle ltac:(lia)) as (st1 & Gl & R1 & Hd1 & _).
  rewrite Gl. cbn [bind].
  destruct (epoch_line_exact e (o_buf o) Hok) as (coff & Er & _). rewrite Er. cbn [bind].
  cbn [e_nsats]. unfold collect_epoch.
  replace (Z.to_nat (dec_val (s_nsat e))) with (length recs + S (Z.to_nat (dec_val (s_nsat e)) - length recs - 1)) by lia.
  assert (L3 : length (overlay (epoch_line e) (o_buf o)) = o_bufsz o) by (rewrite overlay_length; lia).
  destruct (loop_bad plan (o_bufsz o) recs st1 (overlay (epoch_line e) (o_buf o)) [] out bad
    (Z.to_nat (dec_val (s_nsat e)) - length recs - 1) tail R1 Hc Hf Hb Cb' Fb' Bb H4 L3 W Ht)
    as (n & out' & st' & buf' & E & _).
  cbn [length app] in E. rewrite E. cbn. eauto.
Qed.
