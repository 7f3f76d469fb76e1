(** ProofNavBlock: reading a conforming navigation block (for C39, C44) *)
From Coq Require Import Qround.
From Verif Require Import Base BaseLemmas CNum CNumLemmas Stream ModelSatsys ModelNvarstr ModelNav SpecText SpecNum SpecObs SpecNav
  ProofText ProofNum ProofStream ProofEpoch ProofNav.
From Verif Require ProofObsRec.

(** ** data slots *)
Definition over (d : list cdbl) (off : nat) (vs : list cdbl) : list cdbl := firstn off d ++ vs ++ skipn (off + length vs) d.
Lemma put_val d off vs : off + length vs <= length d -> put d off vs = Val (over d off vs).
Proof. intro H. unfold put. destruct (Nat.leb_spec (off + length vs) (length d)); [reflexivity|lia]. Qed.
Lemma put_inv d off vs d' : put d off vs = Val d' -> off + length vs <= length d /\ d' = over d off vs.
Proof. unfold put. destruct (Nat.leb_spec (off + length vs) (length d)); [|discriminate]. intro E. injection E as <-. auto. Qed.
Lemma over_length d off vs : off + length vs <= length d -> length (over d off vs) = length d.
Proof. intro H. unfold over. rewrite !app_length, firstn_length, skipn_length. lia. Qed.
Lemma nth_skipn' {A} : forall n i (l : list A), nth_error (skipn n l) i = nth_error l (n + i).
Proof. induction n; intros i [|x l]; cbn; auto. destruct i; reflexivity. Qed.
Lemma nth_firstn' {A} : forall n i (l : list A), i < n -> nth_error (firstn n l) i = nth_error l i.
Proof. induction n; intros i [|x l] H; try lia; [reflexivity|]. destruct i; [reflexivity|]. cbn. apply IHn. lia. Qed.
Lemma nth_over d off vs i : off + length vs <= length d ->
  nth_error (over d off vs) i = if (off <=? i) && (i <? off + length vs) then nth_error vs (i - off) else nth_error d i.
Proof.
  intro H. unfold over. destruct (Nat.leb_spec off i); cbn [andb].
  - rewrite nth_error_app2 by (rewrite firstn_length; lia). rewrite firstn_length, Nat.min_l by lia.
    destruct (Nat.ltb_spec i (off + length vs)).
    + rewrite nth_error_app1 by lia. reflexivity.
    + rewrite nth_error_app2 by lia. rewrite nth_skipn'. f_equal. lia.
  - rewrite nth_error_app1 by (rewrite firstn_length; lia). apply nth_firstn'. lia.
Qed.
Lemma vals_length ns : length (vals ns) = length ns.
Proof. apply map_length. Qed.

Fixpoint over_all (ln : nat) (nss : list (list numlit)) (d : list cdbl) : list cdbl :=
  match nss with
  | [] => d
  | ns :: r => over_all (S ln) r (over d (3 + ln * 4) (vals ns))
  end.
Lemma over_all_length : forall nss ln d, Forall (fun ns => length ns <= 4) nss -> 3 + (ln + length nss) * 4 <= length d ->
  length (over_all ln nss d) = length d.
Proof.
  induction nss as [|ns nss IH]; intros ln d F H; [reflexivity|]. inversion F; subst. cbn [over_all length] in *.
  assert (E : length (over d (3 + ln * 4) (vals ns)) = length d) by (apply over_length; rewrite vals_length; lia).
  rewrite IH; auto. lia.
Qed.
Lemma over_all_app : forall a ln b d, over_all ln (a ++ b) d = over_all (ln + length a) b (over_all ln a d).
Proof. induction a as [|x a IH]; intros ln b d; cbn [over_all app length]; [rewrite Nat.add_0_r; reflexivity|]. rewrite IH. f_equal. lia. Qed.
Lemma nth_over_all : forall nss ln d i, Forall (fun ns => length ns <= 4) nss -> 3 + (ln + length nss) * 4 <= length d ->
  nth_error (over_all ln nss d) i =
  if i <? 3 + ln * 4 then nth_error d i
  else match nth_error nss ((i - 3) / 4 - ln) with
       | Some ns => match nth_error ns ((i - 3) mod 4) with Some n => Some (DFin (num_val n)) | None => nth_error d i end
       | None => nth_error d i
       end.
Proof.
  induction nss as [|ns nss IH]; intros ln d i F H; cbn [over_all length] in *.
  - destruct (i <? _); [reflexivity|]. destruct ((i - 3) / 4 - ln); reflexivity.
  - inversion F as [|? ? L F']; subst.
    assert (Lo : 3 + ln * 4 + length (vals ns) <= length d) by (rewrite vals_length; lia).
    rewrite IH; [|exact F'|rewrite over_length by exact Lo; lia]. rewrite nth_over by exact Lo. rewrite vals_length.
    pose proof (Nat.div_mod (i - 3) 4 ltac:(lia)) as Ed. pose proof (Nat.mod_upper_bound (i - 3) 4 ltac:(lia)) as Em.
    set (q := (i - 3) / 4) in *. set (r := (i - 3) mod 4) in *.
    destruct (Nat.ltb_spec i (3 + ln * 4)) as [H1|H1].
    + destruct (Nat.ltb_spec i (3 + S ln * 4)); [|lia]. destruct (Nat.leb_spec (3 + ln * 4) i); [lia|]. reflexivity.
    + destruct (Nat.leb_spec (3 + ln * 4) i); [|lia]. cbn [andb].
      destruct (Nat.ltb_spec i (3 + S ln * 4)) as [H2|H2].
      * assert (q = ln) by lia. assert (Er : i - (3 + ln * 4) = r) by lia.
        replace (q - ln) with 0 by lia. cbn [nth_error]. rewrite Er. unfold vals. rewrite nth_error_map.
        destruct (Nat.ltb_spec i (3 + ln * 4 + length ns)).
        -- destruct (nth_error ns r) eqn:En; [reflexivity|]. apply nth_error_None in En. lia.
        -- destruct (nth_error ns r) eqn:En; [|reflexivity]. assert (r < length ns) by (apply nth_error_Some; congruence). lia.
      * destruct (Nat.ltb_spec i (3 + ln * 4 + length ns)); [lia|].
        destruct (q - ln) as [|m] eqn:Eq; [lia|]. replace (q - S ln) with m by lia. reflexivity.
Qed.

(** ** middle lines *)
Definition need (s : satsys) (ln : nat) : nat := if (satsys_eqb s Galileo || satsys_eqb s Beidou) && (ln =? 4) then 3 else 4.
Fixpoint reads_all (s : satsys) (ln : nat) (ls : list orbit) (nss : list (list numlit)) : Prop :=
  match ls, nss with
  | [], [] => True
  | l :: ls', ns :: nss' => reads (fst l) (need s ln) = Some ns /\ reads_all s (S ln) ls' nss'
  | _, _ => False
  end.
Lemma need_le s ln : need s ln <= 4.
Proof. unfold need. destruct (_ && _); lia. Qed.
Lemma reads_all_len : forall ls s ln nss, reads_all s ln ls nss -> length nss = length ls /\ Forall (fun ns => length ns <= 4) nss.
Proof.
  induction ls as [|l ls IH]; intros s ln [|ns nss] R; cbn in R; try contradiction; [split; [reflexivity|constructor]|].
  destruct R as (R1 & R2). destruct (IH _ _ _ R2). split; [cbn; lia|]. constructor; [|assumption]. rewrite (reads_length _ _ _ R1). apply need_le.
Qed.
Lemma text_of_cons' l ls r : text_of (l :: ls) ++ r = l ++ NL :: (text_of ls ++ r).
Proof. unfold text_of. cbn [flat_map]. rewrite <- !app_assoc. reflexivity. Qed.
(** one orbit line: getline and for2cpp *)
Lemma orbit_get st line l tail : orbit_wf l -> at_rest st (orbit_text l ++ NL :: tail) -> length line = 128 ->
  exists st1, getline st line 128 = Val (st1, overlay (orbit_text l) line) /\ sfail st1 = false /\ at_rest st1 tail /\ sdata st1 = sdata st /\
    for2cpp (overlay (orbit_text l) line) = Val (overlay (map d2e (orbit_text l)) line) /\
    length (overlay (map d2e (orbit_text l)) line) = 128.
Proof.
  intros W R Lb. pose proof (orbit_length l W) as Ll. pose proof (orbit_clean l W) as C.
  destruct (getline_line st line 128 (orbit_text l) tail R (clean_nl _ C) ltac:(lia) ltac:(lia)) as (st1 & G & R1 & D & _ & _ & Fl).
  exists st1. split; [exact G|]. split; [exact Fl|]. split; [exact R1|]. split; [exact D|]. split; [apply for2cpp_overlay, clean_nul, C|].
  rewrite overlay_length; rewrite ?map_length; lia.
Qed.
Lemma c2d_line l N ns line : orbit_wf l -> reads (fst l) N = Some ns ->
  c2d (overlay (map d2e (orbit_text l)) line) 4 N 0 = Val (true, vals ns, 0%Z).
Proof.
  intros W R. unfold c2d. change (negb (0 =? 0)%Z) with false.
  rewrite (c2d_ok N (fst l) ns (snd l)); [reflexivity|apply W|exact R|]. intros j Hj. apply orbit_fields_at; assumption.
Qed.
Lemma mid_exact : forall ls ln nss st line f tail, Forall orbit_wf ls -> reads_all (f_sys f) ln ls nss ->
  at_rest st (text_of (map orbit_text ls) ++ tail) -> length line = 128 -> 3 + (ln + length ls) * 4 <= length (f_data f) ->
  exists st' line', mid_lines (length ls) ln st line f 0 = Val (inr (st', line', set_data (over_all ln nss (f_data f)) f, 0%Z)) /\
    at_rest st' tail /\ sdata st' = sdata st /\ length line' = 128.
Proof.
  induction ls as [|l ls IH]; intros ln nss st line f tail W R At Lb B; destruct nss as [|ns nss]; cbn in R; try contradiction.
  - exists st, line. cbn [length mid_lines over_all]. split; [|auto]. destruct f; reflexivity.
  - inversion W as [|? ? Wl W']; subst. destruct R as (R1 & R2). cbn [map] in At. rewrite text_of_cons' in At. cbn [length] in B.
    destruct (orbit_get _ _ _ _ Wl At Lb) as (st1 & G & Fl & At1 & D1 & F2 & L2).
    cbn [length mid_lines]. rewrite G. cbn [bind]. rewrite Fl, F2. cbn [bind].
    change (if (satsys_eqb (f_sys f) Galileo || satsys_eqb (f_sys f) Beidou) && (ln =? 4) then 3 else 4) with (need (f_sys f) ln).
    rewrite (c2d_line _ _ _ _ Wl R1). cbn [bind].
    pose proof (need_le (f_sys f) ln) as Nl. pose proof (reads_length _ _ _ R1) as Ln.
    assert (Lo : 3 + ln * 4 + length (vals ns) <= length (f_data f)) by (rewrite vals_length; lia).
    rewrite put_val by exact Lo. cbn [bind].
    destruct (IH (S ln) nss st1 (overlay (map d2e (orbit_text l)) line) (set_data (over (f_data f) (3 + ln * 4) (vals ns)) f) tail W' R2 At1 L2)
      as (st' & line' & E & At' & D' & L'). { cbn [set_data f_data]. rewrite over_length by exact Lo. lia. }
    exists st', line'. rewrite E. split; [destruct f; reflexivity|]. split; [exact At'|]. split; [congruence|exact L'].
Qed.
(** a line without enough numbers *)
Lemma mid_bad : forall ls ln nss st line f l tail, Forall orbit_wf ls -> reads_all (f_sys f) ln ls nss -> orbit_wf l ->
  reads (fst l) (need (f_sys f) (ln + length ls)) = None -> need (f_sys f) (ln + length ls) <= S (length (fst l)) ->
  at_rest st (text_of (map orbit_text (ls ++ [l])) ++ tail) -> length line = 128 -> 3 + (ln + S (length ls)) * 4 <= length (f_data f) ->
  forall k, length ls < k ->
  exists f' st', mid_lines k ln st line f 0 = Val (inl (mkNav 6 f' st' 0)) /\ at_rest st' tail /\ sdata st' = sdata st /\
    f_sys f' = f_sys f /\ f_prn f' = f_prn f /\ f_toc f' = f_toc f.
Proof.
  induction ls as [|l0 ls IH]; intros ln nss st line f l tail W R Wl Rn Nl At Lb B k Hk; destruct nss as [|ns nss]; cbn in R; try contradiction;
    (destruct k as [|k]; [cbn in Hk; lia|]).
  - cbn [app map] in At. rewrite text_of_cons' in At. change (text_of [] ++ tail) with tail in At. cbn [length] in *. rewrite Nat.add_0_r in Rn, Nl.
    destruct (orbit_get _ _ _ _ Wl At Lb) as (st1 & G & Fl & At1 & D1 & F2 & L2).
    cbn [mid_lines]. rewrite G. cbn [bind]. rewrite Fl, F2. cbn [bind].
    change (if (satsys_eqb (f_sys f) Galileo || satsys_eqb (f_sys f) Beidou) && (ln =? 4) then 3 else 4) with (need (f_sys f) ln).
    unfold c2d. change (negb (0 =? 0)%Z) with false.
    destruct (c2d_bad (need (f_sys f) ln) (fst l) (snd l) (overlay (map d2e (orbit_text l)) line) 4) as (vs & Ec & Lv);
      [apply Wl|exact Rn|exact Nl|intros j Hj; apply orbit_fields_at; assumption|].
    rewrite Ec. cbn [bind]. pose proof (need_le (f_sys f) ln). rewrite put_val by lia. cbn [bind].
    eexists _, st1. split; [reflexivity|]. split; [exact At1|]. split; [exact D1|]. destruct f; auto.
  - inversion W as [|? ? Wl0 W']; subst. destruct R as (R1 & R2). cbn [app map] in At. rewrite text_of_cons' in At. cbn [length] in *.
    destruct (orbit_get _ _ _ _ Wl0 At Lb) as (st1 & G & Fl & At1 & D1 & F2 & L2).
    cbn [mid_lines]. rewrite G. cbn [bind]. rewrite Fl, F2. cbn [bind].
    change (if (satsys_eqb (f_sys f) Galileo || satsys_eqb (f_sys f) Beidou) && (ln =? 4) then 3 else 4) with (need (f_sys f) ln).
    rewrite (c2d_line _ _ _ _ Wl0 R1). cbn [bind].
    pose proof (need_le (f_sys f) ln) as Nl0. pose proof (reads_length _ _ _ R1) as Ln.
    assert (Lo : 3 + ln * 4 + length (vals ns) <= length (f_data f)) by (rewrite vals_length; lia).
    rewrite put_val by exact Lo. cbn [bind].
    destruct (IH (S ln) nss st1 (overlay (map d2e (orbit_text l0)) line) (set_data (over (f_data f) (3 + ln * 4) (vals ns)) f) l tail W' R2 Wl)
      with (k := k) as (f' & st' & E & At' & D' & E1 & E2 & E3).
    + cbn [set_data f_sys]. replace (S ln + length ls) with (ln + S (length ls)) by lia. exact Rn.
    + cbn [set_data f_sys]. replace (S ln + length ls) with (ln + S (length ls)) by lia. exact Nl.
    + exact At1.
    + exact L2.
    + cbn [set_data f_data]. rewrite over_length by exact Lo. lia.
    + lia.
    + exists f', st'. rewrite E. destruct f; cbn in *. split; [reflexivity|]. split; [exact At'|]. split; [congruence|auto].
Qed.

(** ** first line *)
Lemma skipn_overlay l buf k : k <= length l -> skipn k (overlay l buf) = overlay (skipn k l) (skipn k buf).
Proof.
  intro H. unfold overlay. rewrite skipn_app, map_length. replace (k - length l) with 0 by lia. rewrite skipn_O, skipn_map. f_equal. f_equal.
  rewrite skipn_skipn. f_equal. rewrite skipn_length. lia.
Qed.
Lemma firstn_overlay l buf k : k <= length l -> firstn k (overlay l buf) = map Some (firstn k l).
Proof. intro H. unfold overlay. rewrite firstn_app, map_length. replace (k - length l) with 0 by lia. rewrite firstn_O, app_nil_r, firstn_map. reflexivity. Qed.
Lemma overlay_app a b buf : map Some a ++ overlay b (skipn (length a) buf) = overlay (a ++ b) buf.
Proof. unfold overlay. rewrite map_app, <- app_assoc. f_equal. f_equal. f_equal. rewrite skipn_skipn. f_equal. rewrite app_length. lia. Qed.
Definition head23 (b : nav_src) : list ascii := [b_letter b] ++ rjust 2 (b_prn b) ++ date_text (b_date b).
Definition clk_text (b : nav_src) : list ascii := flat_map field_text (map Some (b_clk b)) ++ blanks (b_pad b).
Lemma head_split b : head_line b = head23 b ++ clk_text b.
Proof.
  unfold head_line, head23, clk_text. rewrite <- !app_assoc. do 4 f_equal. rewrite flat_map_concat_map, flat_map_concat_map, map_map. reflexivity.
Qed.
Lemma rjust_length w s : length s <= w -> length (rjust w s) = w.
Proof. intro H. unfold rjust, blanks. rewrite app_length, repeat_length. lia. Qed.
Lemma date_length d : date_ok d -> length (date_text d) = 20.
Proof.
  intros (_ & Y & (_ & _ & A) & (_ & _ & B) & (_ & _ & C) & (_ & _ & D) & (_ & _ & E)). unfold date_text.
  rewrite !app_length, !rjust_length, Y by assumption. reflexivity.
Qed.
Lemma clean_rjust w s : digits s -> clean (rjust w s).
Proof. intro H. unfold rjust. apply clean_app2; [apply clean_blanks|apply clean_digits, H]. Qed.
Lemma clean_sp : clean (lit " "). Proof. repeat constructor; discriminate. Qed.
Lemma date_clean d : date_ok d -> clean (date_text d).
Proof.
  intros (Yd & _ & (A & _ & _) & (B & _ & _) & (C & _ & _) & (D & _ & _) & (E & _ & _)). unfold date_text.
  apply clean_app2; [apply clean_sp|]. apply clean_app2; [apply clean_digits, Yd|].
  apply clean_app2; [apply clean_sp|]. apply clean_app2; [apply clean_rjust, A|].
  apply clean_app2; [apply clean_sp|]. apply clean_app2; [apply clean_rjust, B|].
  apply clean_app2; [apply clean_sp|]. apply clean_app2; [apply clean_rjust, C|].
  apply clean_app2; [apply clean_sp|]. apply clean_app2; [apply clean_rjust, D|].
  apply clean_app2; [apply clean_sp|]. apply clean_rjust, E.
Qed.
Lemma letter_clean c s : In (c, s) satsys_letters -> c <> NUL /\ c <> NL.
Proof. cbn. intro H. repeat (destruct H as [H|H]; [injection H as <- <-; split; discriminate|]). contradiction. Qed.
Lemma letter_sys c s : In (c, s) satsys_letters -> char_to_satsys c = Val s.
Proof. cbn. intro H. repeat (destruct H as [H|H]; [injection H as <- <-; reflexivity|]). contradiction. Qed.
Lemma head23_length b : block_ok b -> length (head23 b) = 23.
Proof.
  intros (_ & _ & (_ & _ & P) & _ & D & _). unfold head23. rewrite !app_length, rjust_length, date_length by assumption. reflexivity.
Qed.
Lemma clk_fields b : Forall nav_field (b_clk b) -> Forall opt_field (map Some (b_clk b)).
Proof. intro H. apply Forall_forall. intros o I. apply in_map_iff in I as (n & <- & I). rewrite Forall_forall in H. apply H, I. Qed.
Lemma clk_clean b : block_ok b -> clean (clk_text b).
Proof. intros (_ & _ & _ & _ & _ & _ & F & _). unfold clk_text. apply clean_app2; [apply clean_fields, clk_fields, F|apply clean_blanks]. Qed.
Lemma clk_length b : block_ok b -> 57 <= length (clk_text b) <= 97.
Proof.
  intros (_ & _ & _ & _ & _ & L & F & P & _). unfold clk_text. rewrite app_length, fields_length by (apply clk_fields, F).
  rewrite map_length, L. unfold blanks. rewrite repeat_length. lia.
Qed.
Lemma head_clean b : block_ok b -> clean (head_line b).
Proof.
  intro Ok. rewrite head_split. apply clean_app2; [|apply clk_clean, Ok]. destruct Ok as (Lt & _ & (P & _) & _ & D & _).
  unfold head23. apply clean_app2; [constructor; [apply (letter_clean _ _ Lt)|constructor]|].
  apply clean_app2; [apply clean_rjust, P|apply date_clean, D].
Qed.
Lemma clk_soft b : block_ok b -> soft (clk_text b).
Proof. intros (_ & _ & _ & _ & _ & _ & F & _). apply soft_fields, clk_fields, F. Qed.

(** every number of a block is a field *)
Lemma number_field b i n : block_ok b -> number_at b i = Some n -> nav_field n.
Proof.
  intros (_ & _ & _ & _ & _ & _ & F & _ & O & _) H. unfold number_at in H. destruct (i <? 3).
  - apply nth_error_In in H. rewrite Forall_forall in F. apply F, H.
  - destruct (nth_error (b_orb b) ((i - 3) / 4)) as [l|] eqn:E; [|discriminate].
    assert (X : exists fl, orbit_ok l fl).
    { clear -O E. revert E. generalize ((i - 3) / 4). induction O as [|x y lx ly Hx Hl IH]; intros [|k] E; cbn [nth_error] in E; try discriminate; [injection E as <-; eauto|eauto]. }
    destruct X as (fl & (req & extra & El & F2 & F3) & _).
    destruct (nth_error (fst l) ((i - 3) mod 4)) as [o|] eqn:En; [|discriminate]. subst o. apply nth_error_In in En. rewrite El in En. apply in_app_or in En as [En|En].
    + clear -F2 En. induction F2 as [|x y lx ly (Hx & _) Hl IH]; [destruct En|]. destruct En as [->|En]; [exact Hx|exact (IH En)].
    + rewrite Forall_forall in F3. exact (F3 _ En).
Qed.
(** ** GLONASS scaling *)
Lemma slot_val d i v : nth_error d i = Some v -> slot d i = Val v.
Proof. unfold slot. intros ->. reflexivity. Qed.
Lemma scale_exact : forall ix d, NoDup ix -> Forall (fun i => i < length d) ix ->
  exists d', scale_at ix d = Val d' /\ length d' = length d /\
    forall i, nth_error d' i = if existsb (Nat.eqb i) ix then option_map (fun v => dmul v (DFin 1000)) (nth_error d i) else nth_error d i.
Proof.
  induction ix as [|j ix IH]; intros d N F; [exists d; split; [reflexivity|]; split; [reflexivity|]; intro i; reflexivity|].
  inversion N as [|? ? Nj N']; subst. inversion F as [|? ? Fj F']; subst. cbn [scale_at].
  destruct (nth_error d j) as [v|] eqn:Ev; [|apply nth_error_None in Ev; lia]. rewrite (slot_val _ _ _ Ev). cbn [bind].
  rewrite put_val by (cbn; lia). cbn [bind].
  assert (Lo : length (over d j [dmul v (DFin 1000)]) = length d) by (apply over_length; cbn; lia).
  destruct (IH (over d j [dmul v (DFin 1000)]) N') as (d' & E & L & A). { rewrite Lo. exact F'. }
  exists d'. split; [exact E|]. split; [lia|]. intro i. rewrite A. rewrite nth_over by (cbn; lia). cbn [length existsb].
  destruct (Nat.eqb_spec i j) as [->|Nij]; cbn [orb].
  - destruct (existsb (Nat.eqb j) ix) eqn:Ex; [apply existsb_exists in Ex as (y & Iy & Ey); apply Nat.eqb_eq in Ey; subst y; contradiction|].
    destruct (Nat.leb_spec j j); [|lia]. destruct (Nat.ltb_spec j (j + 1)); [|lia]. cbn [andb]. rewrite Nat.sub_diag. cbn [nth_error].
    rewrite Ev. reflexivity.
  - destruct (Nat.leb_spec j i), (Nat.ltb_spec i (j + 1)); cbn [andb]; try reflexivity. lia.
Qed.

(** ** casts *)
Lemma trunc_ok lo hi q : (inject_Z lo <= q)%Q -> (q <= inject_Z hi)%Q -> (lo <= 0 <= hi)%Z ->
  exists z, forall lo' hi', (lo' <= lo)%Z -> (hi <= hi')%Z -> trunc_in lo' hi' (DFin q) = Val z.
Proof.
  intros A B H. exists (Z.quot (Qnum q) (Zpos (Qden q))). intros lo' hi' Hl Hh. unfold trunc_in.
  unfold Qle in A, B. cbn [Qnum Qden inject_Z] in A, B. rewrite Z.mul_1_r in A, B.
  assert (lo <= Z.quot (Qnum q) (Z.pos (Qden q)) <= hi)%Z.
  { destruct (Z.le_gt_cases 0 (Qnum q)).
    - rewrite Z.quot_div_nonneg by lia. pose proof (Z.div_pos (Qnum q) (Z.pos (Qden q)) ltac:(lia) ltac:(lia)).
      split; [lia|]. apply Z.div_le_upper_bound; lia.
    - rewrite <- (Z.opp_involutive (Qnum q)), Z.quot_opp_l by lia. rewrite Z.quot_div_nonneg by lia.
      pose proof (Z.div_pos (- Qnum q) (Z.pos (Qden q)) ltac:(lia) ltac:(lia)).
      split; [|lia]. enough (- Qnum q / Z.pos (Qden q) <= - lo)%Z by lia. apply Z.div_le_upper_bound; lia. }
  cbv zeta. destruct (Z.leb_spec lo' (Z.quot (Qnum q) (Z.pos (Qden q)))); [|lia].
  destruct (Z.leb_spec (Z.quot (Qnum q) (Z.pos (Qden q))) hi'); [|lia]. reflexivity.
Qed.

(** ** the first line and the dispatch *)
Lemma head_exact strp cal b tail st f : reads_dates strp cal -> block_ok b -> 3 <= length (f_data f) ->
  at_rest st (head_line b ++ NL :: tail) ->
  exists st1 line1, at_rest st1 tail /\ sdata st1 = sdata st /\ length line1 = 128 /\
  set_from_rnx3 strp st f 0 = noexcept (
    let f4 := mkFrame (b_sys b) (dec_val (b_prn b)) (cal (date_vals (b_date b))) (f_toe f) (over (f_data f) 0 (vals (b_clk b))) in
    let '(nl, last) := lines_per_satsys (b_sys b) in
    let k := Z.to_nat (nl - 1 - 1) in
    do m <- mid_lines k 0 st1 line1 f4 0;
    match m with
    | inl res => Val res
    | inr (st2, line2, f5, e3) =>
        do r <- getline st2 line2 128;
        let '(st3, line3) := r in
        if sfail st3 then Val (mkNav 7 f5 st3 e3)
        else
          do line4 <- for2cpp line3;
          do c <- c2d line4 4 last e3;
          let '(ok, vs, e4) := c in
          do d2 <- put (f_data f5) (3 + k * 4) vs;
          let f6 := set_data d2 f5 in
          if negb ok then Val (mkNav 8 f6 st3 0)
          else
            do f7 <- (if satsys_eqb (b_sys b) Glonass
                      then do d <- scale_at glo_km (f_data f6); Val (set_data d f6)
                      else Val f6);
            match b_sys b with
            | Gps | Glonass | Galileo | Beidou =>
                do toe <- toe2date f7; Val (mkNav 0 (set_toe toe f7) st3 e4)
            | _ => Val (mkNav 0 f7 st3 e4)
            end
    end).
Proof.
  intros RD Ok L3 R. pose proof (head_clean b Ok) as C. pose proof (head23_length b Ok) as L23. pose proof (clk_length b Ok) as Lc.
  assert (Lh : length (head_line b) = 23 + length (clk_text b)) by (rewrite head_split, app_length; lia).
  destruct (getline_line st (uninit 128) 128 (head_line b) tail R (clean_nl _ C) ltac:(lia) ltac:(unfold uninit; rewrite repeat_length; lia))
    as (st1 & G & R1 & D & _ & _ & Fl).
  set (line1 := overlay (head23 b ++ map d2e (clk_text b)) (uninit 128)).
  exists st1, line1. split; [exact R1|]. split; [exact D|].
  assert (L1 : length line1 = 128).
  { unfold line1. rewrite overlay_length; unfold uninit; rewrite ?repeat_length, ?app_length, ?map_length; lia. }
  split; [exact L1|]. unfold set_from_rnx3. rewrite G. cbn [bind]. rewrite Fl.
  pose proof Ok as (Lt & NM & P & P0 & Dt & Lk & Fk & _).
  rewrite (rd_overlay _ _ 0 (b_letter b)) by reflexivity. cbn [bind]. rewrite (letter_sys _ _ Lt). cbn [bind].
  rewrite cstr_overlay_off by (try lia; apply clean_nul, C). cbn [bind].
  assert (E3 : skipn 3 (head_line b) = date_text (b_date b) ++ clk_text b).
  { rewrite head_split. unfold head23. rewrite <- !app_assoc. rewrite app_assoc. rewrite skipn_app, skipn_all2.
    - rewrite app_length, rjust_length by apply P. reflexivity.
    - rewrite app_length, rjust_length by apply P. cbn; lia. }
  rewrite E3. rewrite (RD (b_date b) (clk_text b) Dt).
  2:{ pose proof (clk_soft b Ok) as S. destruct (clk_text b) as [|c r]; [exact I|]. destruct S as [->|[->| ->]]; split; try discriminate; unfold digit; vm_compute; lia. }
  rewrite cstr_overlay_off by (try lia; apply clean_nul, C). cbn [bind].
  assert (E1 : skipn 1 (head_line b) = rjust 2 (b_prn b) ++ date_text (b_date b) ++ clk_text b).
  { rewrite head_split. unfold head23. rewrite <- !app_assoc. reflexivity. }
  rewrite E1. destruct (ProofObsRec.strtol_rjust 2 (b_prn b) (date_text (b_date b) ++ clk_text b) P ltac:(lia)) as [Es Bs]; [reflexivity|].
  rewrite Es. cbv iota beta.
  assert (Ei : to_i32 (dec_val (b_prn b)) = dec_val (b_prn b)).
  { unfold to_i32. rewrite Z.mod_small; [lia|]. change (10 ^ Z.of_nat 2)%Z with 100%Z in Bs. lia. }
  rewrite Ei. destruct (Z.eqb_spec (dec_val (b_prn b)) 0); [contradiction|]. change (0 =? ERANGE)%Z with false. cbn [orb].
  rewrite skipn_overlay by lia.
  assert (E23 : skipn 23 (head_line b) = clk_text b) by (rewrite head_split, skipn_app, skipn_all2, L23 by lia; reflexivity).
  rewrite E23. rewrite for2cpp_overlay by (apply clean_nul, clk_clean, Ok). cbn [bind].
  rewrite firstn_overlay by lia.
  assert (F23 : firstn 23 (head_line b) = head23 b) by (rewrite head_split, firstn_app, L23, firstn_O, app_nil_r, firstn_all2 by lia; reflexivity).
  rewrite F23. replace (skipn 23 (uninit 128)) with (skipn (length (head23 b)) (uninit 128)) by (rewrite L23; reflexivity). rewrite overlay_app. fold line1.
  assert (Ec : c2d line1 23 3 0 = Val (true, vals (b_clk b), 0%Z)).
  { unfold c2d. change (negb (0 =? 0)%Z) with false. rewrite (c2d_ok 3 (map Some (b_clk b)) (b_clk b) (b_pad b)); [reflexivity|apply clk_fields, Fk| |].
    - destruct (b_clk b) as [|n1 [|n2 [|n3 [|]]]]; try discriminate Lk. reflexivity.
    - intros j Hj. unfold line1. rewrite cstr_overlay_off.
      + f_equal. rewrite skipn_app, skipn_all2 by lia. cbn [app]. replace (23 + 19 * j - length (head23 b)) with (19 * j) by lia.
        unfold clk_text, ftext. rewrite skipn_map. rewrite skip_fields; [reflexivity|apply clk_fields, Fk|exact Hj].
      + intro I. apply in_app_or in I as [I|I]; [|revert I; apply d2e_not_nul, clean_nul, clk_clean, Ok].
        rewrite <- F23 in I. apply (clean_nul _ C). rewrite <- (firstn_skipn 23). apply in_or_app. left. exact I.
      + rewrite app_length, map_length. unfold clk_text. rewrite app_length, fields_length by (apply clk_fields, Fk). rewrite map_length in *. lia. }
  rewrite Ec. cbn [bind]. rewrite put_val by (rewrite vals_length; cbn [set_prn set_toc set_sys f_data]; lia). cbn [bind negb].
  cbn [set_prn set_toc set_sys set_data f_data f_sys f_prn f_toc f_toe].
  destruct (b_sys b) eqn:Eb; try congruence; cbn [lines_per_satsys fst snd]; reflexivity.
Qed.

(** ** the whole block *)
(** the fields the code reads: as in RINEX, but for IRNSS it wants four numbers in orbit lines 1-6 *)
Definition code_fields (s : satsys) : list (list bool) :=
  match s with Irnss => [T4; T4; T4; T4; T4; T4; [true]] | _ => orbit_fields s end.
Fixpoint needs_ok (s : satsys) (ln : nat) (fls : list (list bool)) : Prop :=
  match fls with
  | [] => True
  | fl :: r => need s ln = length fl /\ last fl true = true /\ needs_ok s (S ln) r
  end.
(** the numbers read from a line *)
Definition line_reads (l : orbit) (fl : list bool) (ns : list numlit) : Prop :=
  reads (fst l) (length fl) = Some ns /\
  forall j n, nth_error fl j = Some true -> nth_error (fst l) j = Some (Some n) -> nth_error ns j = Some n.
Lemma line_reads_ex l fl : orbit_ok l fl -> last fl true = true -> exists ns, line_reads l fl ns.
Proof.
  intros ((req & extra & E & F & _) & _) L. unfold line_reads. rewrite E. destruct (reads_need fl req extra F L) as (ns & A & B). exists ns. auto.
Qed.
Lemma mids_read : forall ls fls s ln, Forall2 orbit_ok ls fls -> needs_ok s ln fls ->
  exists nss, reads_all s ln ls nss /\ Forall2 (fun x ns => line_reads (fst x) (snd x) ns) (combine ls fls) nss.
Proof.
  induction ls as [|l ls IH]; intros fls s ln F N; inversion F as [|? fl ? fls' Ol F']; subst.
  - exists []. split; [exact I|constructor].
  - destruct N as (N1 & N2 & N3). destruct (IH fls' s (S ln) F' N3) as (nss & R & A).
    destruct (line_reads_ex l fl Ol N2) as (ns & R1 & R2). exists (ns :: nss). split; [split; [rewrite N1; exact R1|exact R]|].
    constructor; [split; assumption|exact A].
Qed.
Lemma forall2_nth {A B} (P : A -> B -> Prop) : forall l m, Forall2 P l m -> forall i,
  match nth_error l i, nth_error m i with Some a, Some b => P a b | None, None => True | _, _ => False end.
Proof. induction 1 as [|a b l m H F IH]; intros [|i]; cbn; auto. apply IH. Qed.
Lemma combine_nth {A B} : forall (l : list A) (m : list B) i,
  nth_error (combine l m) i = match nth_error l i, nth_error m i with Some a, Some b => Some (a, b) | _, _ => None end.
Proof. induction l as [|a l IH]; intros [|b m] [|i]; cbn; auto. destruct (nth_error l i); reflexivity. Qed.
Lemma wf_all : forall ls fls, Forall2 orbit_ok ls fls -> Forall orbit_wf ls.
Proof. induction 1; constructor; auto. eapply orbit_ok_wf; eauto. Qed.

Definition init_fields (s : satsys) : list (list bool) := removelast (code_fields s).
Definition last_fields (s : satsys) : list bool := last (code_fields s) [].
Lemma needs_table s : needs_ok s 0 (init_fields s).
Proof. destruct s; cbn; repeat split. Qed.
Lemma last_table s : s <> Mixed -> last (last_fields s) true = true /\ length (last_fields s) = snd (lines_per_satsys s) /\
  Z.to_nat (fst (lines_per_satsys s) - 1 - 1) = length (init_fields s) /\ code_fields s = init_fields s ++ [last_fields s].
Proof. intro H. destruct s; try congruence; repeat split. Qed.
Lemma code_fields_len s : length (code_fields s) <= 7 /\ Forall (fun fl => length fl <= 4) (code_fields s).
Proof. destruct s; (split; [vm_compute; lia|]); repeat (apply Forall_cons; [vm_compute; lia|]); apply Forall_nil. Qed.
Lemma documented_code s i : documented s i = true -> 3 <= i ->
  exists fl, nth_error (code_fields s) ((i - 3) / 4) = Some fl /\ nth_error fl ((i - 3) mod 4) = Some true.
Proof.
  unfold documented. intros H H3. destruct (Nat.ltb_spec i 3); [lia|].
  destruct (nth_error (orbit_fields s) ((i - 3) / 4)) as [fl|] eqn:E; [|discriminate].
  destruct (nth_error fl ((i - 3) mod 4)) as [b|] eqn:E2; [|discriminate]. subst b.
  destruct s; try (exists fl; split; [exact E|exact E2]).
  (* Irnss *)
  set (q := (i - 3) / 4) in *. set (r := (i - 3) mod 4) in *.
  destruct q as [|[|[|[|[|[|[|q]]]]]]]; cbn in E; try (injection E as <-); try discriminate; try (destruct q; discriminate);
    try (eexists; split; [reflexivity|exact E2]);
    (exists T4; split; [reflexivity|]); destruct r as [|[|[|[|r]]]]; cbn in E2 |- *; try discriminate; try reflexivity; destruct r; discriminate.
Qed.

(** slot [i] is assigned by reading a block of system [s] *)
Definition assigned (s : satsys) (i : nat) : bool :=
  if i <? 3 then true
  else match nth_error (code_fields s) ((i - 3) / 4) with
       | Some fl => (i - 3) mod 4 <? length fl
       | None => false
       end.
Definition has_toe (s : satsys) : bool := match s with Gps | Glonass | Galileo | Beidou => true | _ => false end.

Theorem block_exact strp cal b tail st f : reads_dates strp cal -> block_ok b ->
  Forall2 orbit_ok (b_orb b) (code_fields (b_sys b)) -> length (f_data f) = 31 ->
  at_rest st (block_text b ++ tail) ->
  exists g st', set_from_rnx3 strp st f 0 = Val (mkNav 0 g st' 0) /\ at_rest st' tail /\ sdata st' = sdata st /\ is_block cal g b /\
    (forall i, assigned (b_sys b) i = false -> nth_error (f_data g) i = nth_error (f_data f) i) /\
    (has_toe (b_sys b) = true -> toe2date g = Val (f_toe g)) /\ (has_toe (b_sys b) = false -> f_toe g = f_toe f).
Proof.
  intros RD Ok CF L31 At. pose proof Ok as (Lt & NM & _ & _ & _ & Lk & Fk & _ & _ & TF).
  unfold block_text, block_lines in At. rewrite text_of_cons' in At.
  destruct (head_exact strp cal b _ st f RD Ok ltac:(lia) At) as (st1 & line1 & R1 & D1 & L1 & E). rewrite E. clear E.
  destruct (last_table (b_sys b) NM) as (LT1 & LT2 & LT3 & LT4).
  destruct (lines_per_satsys (b_sys b)) as [nl lst] eqn:EL. cbn [fst snd] in LT2, LT3. cbv zeta. rewrite LT3.
  rewrite LT4 in CF. apply Forall2_app_inv_r in CF as (mids & lastl & Fm & Fl & Eo).
  inversion Fl as [|ll ? ? ? Ol Fn]; subst. inversion Fn; subst. clear Fn.
  destruct (mids_read mids (init_fields (b_sys b)) (b_sys b) 0 Fm (needs_table _)) as (nss & RA & RL).
  destruct (line_reads_ex ll (last_fields (b_sys b)) Ol LT1) as (nsl & RL1 & RL2).
  pose proof (wf_all _ _ Fm) as Wm. pose proof (orbit_ok_wf _ _ Ol) as Wl.
  assert (Lm : length mids = length (init_fields (b_sys b))) by (clear - Fm; induction Fm; cbn; congruence).
  destruct (code_fields_len (b_sys b)) as (C7 & C4). rewrite LT4, app_length in C7. cbn [length] in C7.
  assert (L4 : length (last_fields (b_sys b)) <= 4) by (rewrite LT4 in C4; apply Forall_app in C4 as (_ & C4); inversion C4; assumption).
  rewrite Eo, map_app in R1. unfold text_of in R1. rewrite flat_map_app in R1. fold (text_of (map orbit_text mids)) (text_of (map orbit_text [ll])) in R1.
  rewrite <- app_assoc in R1.
  set (f4 := mkFrame (b_sys b) (dec_val (b_prn b)) (cal (date_vals (b_date b))) (f_toe f) (over (f_data f) 0 (vals (b_clk b)))).
  assert (L3 : 0 + length (vals (b_clk b)) <= length (f_data f)) by (rewrite vals_length; lia).
  assert (Lf4 : length (f_data f4) = 31) by (unfold f4; cbn [f_data]; rewrite over_length by exact L3; exact L31).
  destruct (mid_exact mids 0 nss st1 line1 f4 (text_of (map orbit_text [ll]) ++ tail)) as (st2 & line2 & Em & R2 & D2 & L2); auto.
  { rewrite Lf4. lia. }
  rewrite <- Lm. rewrite Em. cbn [bind]. cbn [map] in R2. rewrite text_of_cons' in R2. change (text_of [] ++ tail) with tail in R2.
  destruct (orbit_get _ _ _ _ Wl R2 L2) as (st3 & G & Fl3 & R3 & D3 & F3 & _). rewrite G. cbn [bind]. rewrite Fl3, F3. cbn [bind].
  rewrite (c2d_line _ _ _ _ Wl RL1). cbn [bind].
  destruct (reads_all_len _ _ _ _ RA) as (Ln & F4). pose proof (reads_length _ _ _ RL1) as Lnl.
  assert (Lo : length (over_all 0 nss (f_data f4)) = 31) by (rewrite over_all_length by (auto; rewrite Lf4; lia); exact Lf4).
  cbn [set_data f_data]. rewrite put_val by (rewrite vals_length, Lo; lia). cbn [bind negb].
  change (over (over_all 0 nss (f_data f4)) (3 + length mids * 4) (vals nsl))
    with (over_all (length mids) [nsl] (over_all 0 nss (f_data f4))).
  rewrite <- Ln. set (all := nss ++ [nsl]). set (d6 := over_all 0 all (f_data f4)).
  assert (E6 : over_all (length nss) [nsl] (over_all 0 nss (f_data f4)) = d6) by (unfold d6, all; rewrite over_all_app; reflexivity).
  rewrite !E6.
  assert (Fall : Forall (fun ns => length ns <= 4) all) by (apply Forall_app; split; [exact F4|constructor; [lia|constructor]]).
  assert (Lall : length all <= 7) by (unfold all; rewrite app_length; cbn; lia).
  assert (L6 : length d6 = 31) by (unfold d6; rewrite over_all_length by (auto; rewrite Lf4; lia); exact Lf4).
  assert (Rall : Forall2 (fun x ns => line_reads (fst x) (snd x) ns) (combine (b_orb b) (code_fields (b_sys b))) all).
  { rewrite Eo, LT4. unfold all. clear - RL RL1 RL2 Fm. revert nss RL. induction Fm; intros nss RL; inversion RL; subst; cbn [app combine].
    - constructor; [split; assumption|constructor].
    - constructor; [assumption|]. apply IHFm. assumption. }
  (* slots before scaling *)
  assert (S1 : forall i n, documented (b_sys b) i = true -> number_at b i = Some n -> nth_error d6 i = Some (DFin (num_val n))).
  { intros i n Hd Hn. unfold d6. rewrite nth_over_all by (auto; rewrite Lf4; lia). unfold number_at in Hn. cbn [Nat.mul Nat.add].
    destruct (Nat.ltb_spec i 3) as [H3|H3].
    - cbn [f4 f_data]. rewrite nth_over by exact L3. cbn [Nat.leb andb]. rewrite vals_length, Lk.
      destruct (Nat.ltb_spec i (0 + 3)); [|lia]. unfold vals. rewrite nth_error_map, Nat.sub_0_r, Hn. reflexivity.
    - destruct (documented_code _ _ Hd H3) as (fl & Ef & Ej). rewrite Nat.sub_0_r.
      pose proof (forall2_nth _ _ _ Rall ((i - 3) / 4)) as A. rewrite combine_nth in A. rewrite Ef in A.
      destruct (nth_error (b_orb b) ((i - 3) / 4)) as [l|]; [|discriminate].
      destruct (nth_error all ((i - 3) / 4)) as [ns|]; [|contradiction]. destruct A as (_ & A). cbn [fst snd] in A.
      destruct (nth_error (fst l) ((i - 3) mod 4)) as [o|] eqn:En; [|discriminate]. subst o. rewrite (A _ _ Ej En). reflexivity. }
  assert (S2 : forall i, assigned (b_sys b) i = false -> nth_error d6 i = nth_error (f_data f) i).
  { intros i Ha. unfold assigned in Ha. destruct (Nat.ltb_spec i 3) as [H3|H3]; [discriminate|].
    assert (Ed : nth_error (f_data f4) i = nth_error (f_data f) i).
    { cbn [f4 f_data]. rewrite nth_over by exact L3. rewrite vals_length, Lk. destruct (Nat.ltb_spec i (0 + 3)); [lia|]. rewrite andb_false_r. reflexivity. }
    unfold d6. rewrite nth_over_all by (auto; rewrite Lf4; lia). cbn [Nat.mul Nat.add]. destruct (Nat.ltb_spec i 3); [lia|]. rewrite Nat.sub_0_r, Ed.
    pose proof (forall2_nth _ _ _ Rall ((i - 3) / 4)) as A. rewrite combine_nth in A.
    destruct (nth_error all ((i - 3) / 4)) as [ns|] eqn:Ea; [|reflexivity].
    destruct (nth_error (b_orb b) ((i - 3) / 4)) as [l|]; [|contradiction].
    destruct (nth_error (code_fields (b_sys b)) ((i - 3) / 4)) as [fl|]; [|contradiction]. destruct A as (A & _). cbn [fst snd] in A.
    apply Nat.ltb_ge in Ha. rewrite <- (reads_length _ _ _ A) in Ha. apply nth_error_None in Ha. rewrite Ha. reflexivity. }
  (* scaling *)
  assert (Sc : exists d7, (if satsys_eqb (b_sys b) Glonass then do d <- scale_at glo_km d6; Val (set_data d (set_data d6 (set_data (over_all 0 nss (f_data f4)) f4)))
                           else Val (set_data d6 (set_data (over_all 0 nss (f_data f4)) f4))) = Val (set_data d7 f4) /\ length d7 = 31 /\
     (forall i n, documented (b_sys b) i = true -> number_at b i = Some n -> nth_error d7 i = Some (DFin (si_value (b_sys b) i n))) /\
     (forall i, assigned (b_sys b) i = false -> nth_error d7 i = nth_error (f_data f) i) /\
     (b_sys b <> Glonass \/ nth_error d7 2 = nth_error d6 2)).
  { destruct (satsys_eqb (b_sys b) Glonass) eqn:Eg.
    - assert (Es : b_sys b = Glonass) by (destruct (b_sys b); try discriminate; reflexivity).
      destruct (scale_exact glo_km d6) as (d7 & E7 & L7 & A7).
      { unfold glo_km. repeat (constructor; [cbn; intuition discriminate|]). constructor. }
      { unfold glo_km. rewrite L6. repeat (apply Forall_cons; [lia|]). apply Forall_nil. }
      exists d7. rewrite E7. cbn [bind]. split; [reflexivity|]. split; [congruence|]. split; [|split; [|right; apply A7]].
      + intros i n Hd Hn. rewrite A7, (S1 i n Hd Hn). unfold si_value. rewrite Es. destruct (existsb (Nat.eqb i) glo_km); [|reflexivity]. unfold option_map. rewrite km_nav by exact (number_field b i n Ok Hn). reflexivity.
      + intros i Ha. rewrite A7, (S2 i Ha). destruct (existsb (Nat.eqb i) glo_km) eqn:Ex; [|reflexivity]. exfalso.
        apply existsb_exists in Ex as (y & Iy & Ey). apply Nat.eqb_eq in Ey. subst y. rewrite Es in Ha.
        cbn in Iy. repeat (destruct Iy as [<-|Iy]; [vm_compute in Ha; discriminate|]). contradiction.
    - exists d6. split; [reflexivity|]. split; [exact L6|]. split; [|split; [exact S2|left; intro X; rewrite X in Eg; discriminate]].
      intros i n Hd Hn. rewrite (S1 i n Hd Hn). unfold si_value. destruct (b_sys b); try reflexivity. discriminate. }
  destruct Sc as (d7 & E7 & L7 & T1 & T2 & T3). 
  match goal with |- context[if satsys_eqb (b_sys b) Glonass then ?A else ?B] =>
    replace (if satsys_eqb (b_sys b) Glonass then A else B) with (Val (set_data d7 f4)) by (symmetry; exact E7) end. cbn [bind].
  assert (IB : forall toe, is_block cal (set_toe toe (set_data d7 f4)) b).
  { intro toe. repeat (split; [reflexivity|]). split; [exact L7|exact T1]. }
  destruct (has_toe (b_sys b)) eqn:Ht.
  - assert (Te : exists z, toe2date (set_data d7 f4) = Val z).
    { unfold toe2date. cbn [set_data f_sys f4]. unfold toe_fits in TF.
      assert (Nm : forall i, documented (b_sys b) i = true -> exists n, number_at b i = Some n).
      { intros i Hd. unfold number_at. destruct (Nat.ltb_spec i 3) as [H3|H3].
        - destruct (nth_error (b_clk b) i) as [n|] eqn:En; [eauto|]. apply nth_error_None in En. lia.
        - destruct (documented_code _ _ Hd H3) as (fl & Ef & Ej). pose proof Fm as Fm'. assert (FF : Forall2 orbit_ok (b_orb b) (code_fields (b_sys b))).
          { rewrite Eo, LT4. apply Forall2_app; [exact Fm|constructor; [exact Ol|constructor]]. }
          pose proof (forall2_nth _ _ _ FF ((i - 3) / 4)) as A. rewrite Ef in A. destruct (nth_error (b_orb b) ((i - 3) / 4)) as [l|]; [|contradiction].
          destruct A as ((req & ex & Er & Fr & _) & _). pose proof (forall2_nth _ _ _ Fr ((i - 3) mod 4)) as A. rewrite Ej in A.
          destruct (nth_error req ((i - 3) mod 4)) as [o|] eqn:Eq; [|contradiction]. destruct A as (_ & A).
          rewrite Er, nth_error_app1 by (apply nth_error_Some; congruence). rewrite Eq. destruct o as [n|]; [eauto|]. exfalso. apply A; reflexivity. }
      destruct (b_sys b) eqn:Es; try discriminate Ht.
      all: try (destruct TF as (TF1 & TF2); destruct (Nm 21 eq_refl) as (n21 & E21), (Nm 11 eq_refl) as (n11 & E11);
        rewrite E21 in TF1; rewrite E11 in TF2; cbn [fits] in TF1, TF2;
        pose proof (T1 21 n21 eq_refl E21) as X21; pose proof (T1 11 n11 eq_refl E11) as X11; cbn [si_value] in X21, X11;
        destruct (trunc_ok _ _ _ (proj1 TF1) (proj2 TF1) ltac:(lia)) as (z21 & Z21); destruct (trunc_ok _ _ _ (proj1 TF2) (proj2 TF2) ltac:(lia)) as (z11 & Z11);
        unfold gps_toe, bds_toe; cbn [f_data set_data]; rewrite (slot_val _ _ _ X21); cbn [bind]; unfold to_int; rewrite (Z21 _ _ (Z.le_refl _) (Z.le_refl _)); cbn [bind];
        rewrite (slot_val _ _ _ X11); cbn [bind]; unfold to_long; rewrite Z11 by (unfold LONG_MIN, LONG_MAX; lia); cbn [bind]; eexists; reflexivity).
      destruct (Nm 2 eq_refl) as (n2 & E2). rewrite E2 in TF. cbn [fits] in TF. pose proof (T1 2 n2 eq_refl E2) as X2.
      destruct (trunc_ok _ _ _ (proj1 TF) (proj2 TF) ltac:(lia)) as (z2 & Z2).
      unfold glo_toe. cbn [f_data set_data]. rewrite (slot_val _ _ _ X2). cbn [bind]. unfold si_value. cbn [existsb glo_km Nat.eqb orb].
      unfold to_long. rewrite Z2 by (unfold LONG_MIN, LONG_MAX; lia). cbn [bind]. eexists; reflexivity. }
    destruct Te as (z & Ez). exists (set_toe z (set_data d7 f4)), st3.
    split; [destruct (b_sys b); try discriminate Ht; rewrite Ez; reflexivity|]. split; [exact R3|]. split; [congruence|]. split; [apply IB|]. split; [exact T2|].
    split; [|discriminate]. intros _. exact Ez.
  - exists (set_data d7 f4), st3. split; [destruct (b_sys b); try discriminate Ht; try reflexivity; congruence|]. split; [exact R3|]. split; [congruence|].
    split; [exact (IB (f_toe f))|]. split; [exact T2|]. split; [discriminate|]. reflexivity.
Qed.
