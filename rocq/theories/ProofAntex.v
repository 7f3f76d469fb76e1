(** ProofAntex: reading ANTEX blocks (for C31-C36). *)
From Verif Require Import Base BaseLemmas CNum CNumLemmas Stream ModelSatsys ModelObs ModelNvarstr ModelSatellite ModelAntenna
  ModelAntex SpecText SpecNum SpecObs SpecHeader SpecAntex ProofText ProofAntenna ProofNum ProofStream ProofObsTypes ProofObsRec ProofHeader.

(** the stream reads file [f], is good, and [d] is what is left *)
Definition on (st : stream) (f d : list ascii) : Prop := good st = true /\ sdata st = f /\ skipn (spos st) f = d.

Lemma on_rest st f d : on st f d -> at_rest st d.
Proof. intros (G & D & R). split; [exact G|]. unfold rest. rewrite D. exact R. Qed.
Lemma on_nofail st f d : on st f d -> sfail st = false.
Proof. intros (G & _). unfold good in G. destruct (seof st), (sfail st); cbn in G; congruence. Qed.
Lemma on_noeof st f d : on st f d -> seof st = false.
Proof. intros (G & _). unfold good in G. destruct (seof st), (sfail st); cbn in G; congruence. Qed.
Lemma text_of_one l ls r : text_of (l :: ls) ++ r = l ++ NL :: (text_of ls ++ r).
Proof. unfold text_of. cbn [flat_map]. rewrite <- !app_assoc. reflexivity. Qed.
Lemma text_of_app a b : text_of (a ++ b) = text_of a ++ text_of b.
Proof. unfold text_of. apply flat_map_app. Qed.

Lemma on_line st f l t buf n : on st f (l ++ NL :: t) -> clean l -> length l < n -> n <= length buf ->
  exists st', getline st buf n = Val (st', overlay l buf) /\ on st' f t.
Proof.
  intros H C L B. pose proof H as (G & D & R).
  destruct (getline_line st buf n l t (on_rest _ _ _ H) (clean_nl _ C) L B) as (st' & E & (G' & R') & D' & _).
  exists st'. split; [exact E|]. split; [exact G'|]. unfold rest in R'. rewrite D', D in *. auto.
Qed.
Lemma on_text st f l ls t buf n : on st f (text_of (l :: ls) ++ t) -> clean l -> length l < n -> n <= length buf ->
  exists st', getline st buf n = Val (st', overlay l buf) /\ on st' f (text_of ls ++ t).
Proof. rewrite text_of_one. apply on_line. Qed.

(** at the end of the file *)
Lemma on_end st f buf n : on st f [] -> 1 <= n -> n <= length buf ->
  exists st', getline st buf n = Val (st', overlay [] buf) /\ sfail st' = true /\ seof st' = true /\ sdata st' = f /\ spos st' = spos st.
Proof.
  intros H N B. pose proof (on_rest _ _ _ H) as (G & R). unfold getline. rewrite G, R. destruct (n - 1); cbn [take_line];
  change [Some NUL] with (map Some (@nil ascii) ++ [Some NUL]); rewrite wr_bytes_overlay by (cbn; lia); cbn [bind];
  eexists; (split; [reflexivity|]); destruct H as (_ & D & _); repeat split; try exact D; cbn; lia.
Qed.

(** strncmp(line + 60, s, strlen(s)) on a buffer filled by getline, for every line *)
Lemma label_other l buf s n : 60 <= length l -> n = String.length s -> ~ In NUL (lit s) ->
  label (overlay l buf) s n = Val (labelled s l).
Proof.
  intros L -> Hs. unfold label, strncmp_lit, strncmp_eq, labelled, overlay. rewrite skipn_app, map_length.
  replace (60 - length l) with 0 by lia. rewrite skipn_O, skipn_map.
  generalize (skipn 60 l). generalize (skipn (S (length l)) buf). clear L l buf. intros r0.
  unfold cbuf. rewrite skipn_O. generalize ([Some NUL]). revert Hs.
  induction s as [|x s IH]; intros Hs t l; [reflexivity|]. cbn [lit map app String.length].
  assert (X : ceqb x NUL = false) by (apply ceqb_neq; intro; apply Hs; left; congruence).
  destruct l as [|y l]; cbn [map app strncmp0 firstn list_eqb].
  - destruct (ceqb NUL x) eqn:E; [apply ceqb_eq in E; subst; discriminate|reflexivity].
  - destruct (ceqb y x) eqn:E; [|reflexivity]. apply ceqb_eq in E. subst. rewrite X. cbn [andb].
    apply IH. intro K. apply Hs. right. exact K.
Qed.
Lemma label_stale l buf s n : length l < 60 -> label (overlay l buf) s n = label buf s n.
Proof.
  intro L. unfold label, strncmp_lit, strncmp_eq, overlay. f_equal. rewrite skipn_app, skipn_all2 by (rewrite map_length; lia).
  rewrite map_length. cbn [app]. replace (60 - length l) with (S (60 - length l - 1)) by lia.
  change (skipn (S (60 - length l - 1)) (Some NUL :: skipn (S (length l)) buf)) with (skipn (60 - length l - 1) (skipn (S (length l)) buf)).
  rewrite skipn_skipn. f_equal. lia.
Qed.

Ltac nonul_lit := let H := fresh in intro H; cbn in H; repeat (destruct H as [H|H]; [discriminate H|]); exact H.

Lemma len_uninit n : length (uninit n) = n. Proof. apply repeat_length. Qed.

(** ** lines of a block *)
Lemma lit_ok s : forallb (fun c => negb (ceqb c NUL) && negb (ceqb c NL)) (lit s) = true -> clean (lit s).
Proof. apply lit_clean. Qed.
Lemma start_clean r : clean (start_line r). Proof. apply hl_clean; [constructor|apply lit_ok; reflexivity]. Qed.
Lemma stop_clean r : clean (stop_line r). Proof. apply hl_clean; [constructor|apply lit_ok; reflexivity]. Qed.
Lemma start_len r : length (start_line r) = 76 + r_pad r. Proof. unfold start_line. rewrite hl_length by (cbn; lia). reflexivity. Qed.
Lemma stop_len r : length (stop_line r) = 74 + r_pad r. Proof. unfold stop_line. rewrite hl_length by (cbn; lia). reflexivity. Qed.
Lemma cols60 r : ant_ok r -> length (r_model r ++ r_serial r ++ r_more r) = 60 /\ clean (r_model r ++ r_serial r ++ r_more r).
Proof.
  intros ((C1 & L1) & (C2 & L2) & (C3 & L3) & _). rewrite !app_length, L1, L2, L3. split; [reflexivity|].
  apply clean_app. split; [exact C1|]. apply clean_app. split; assumption.
Qed.
Lemma type_eq r : ant_ok r -> type_line r = r_model r ++ r_serial r ++ r_more r ++ lit "TYPE / SERIAL NO" ++ blanks (r_pad r).
Proof.
  intro H. destruct (cols60 r H) as (L & _). unfold type_line, header_line, ljust. rewrite L. cbn [Nat.sub blanks repeat].
  rewrite app_nil_r, <- !app_assoc. reflexivity.
Qed.
Lemma type_clean r : ant_ok r -> clean (type_line r).
Proof. intro H. destruct (cols60 r H) as (_ & C). apply hl_clean; [exact C|apply lit_ok; reflexivity]. Qed.
Lemma type_len r : ant_ok r -> length (type_line r) = 76 + r_pad r.
Proof. intro H. destruct (cols60 r H) as (L & _). unfold type_line. rewrite hl_length by lia. reflexivity. Qed.
Lemma start_lab r : labelled "START OF ANTENNA" (start_line r) = true.
Proof. unfold start_line. rewrite labelled_hl by (cbn; lia). reflexivity. Qed.
Lemma stop_lab r : labelled "END OF ANTENNA" (stop_line r) = true.
Proof. unfold stop_line. rewrite labelled_hl by (cbn; lia). reflexivity. Qed.
Lemma type_lab r : ant_ok r -> labelled "TYPE / SERIAL NO" (type_line r) = true.
Proof. intro H. destruct (cols60 r H) as (L & _). unfold type_line. rewrite labelled_hl by lia. reflexivity. Qed.

(** columns 20..39 *)
Lemma some_nonblank_overlay : forall s a b buf, length a = 20 - 20 + length a ->
  some_nonblank (overlay (a ++ s ++ b) buf) (length a) (length s) = Val (negb (blankb s)).
Proof.
  induction s as [|c s IH]; intros a b buf _; [reflexivity|]. cbn [length some_nonblank].
  rewrite (rd_overlay _ _ _ c) by (rewrite nth_error_app2 by lia; rewrite Nat.sub_diag; reflexivity). cbn [bind blankb forallb].
  destruct (ceqb c " "); cbn [negb andb]; [|reflexivity].
  replace (a ++ (c :: s) ++ b) with ((a ++ [c]) ++ s ++ b) by (rewrite <- app_assoc; reflexivity).
  replace (S (length a)) with (length (a ++ [c])) by (rewrite app_length; cbn; lia). apply IH. lia.
Qed.

(** the antenna object of a block *)
Definition rec_antenna (r : ant_src) : mem :=
  antenna_mem (r_model r) (if blankb (r_serial r) then None else Some (r_serial r)).
Lemma antenna_name20 s : length s = 20 -> antenna_name s = s.
Proof. intro L. unfold antenna_name. rewrite L. cbn [Nat.ltb Nat.leb]. apply firstn_all2. lia. Qed.
Lemma rec_shape r : ant_ok r -> ant_shape (rec_antenna r) (r_model r) (if blankb (r_serial r) then None else Some (r_serial r)).
Proof.
  intros ((C1 & L1) & (C2 & L2) & _). unfold rec_antenna, antenna_mem. rewrite antenna_name20 by exact L1.
  destruct (blankb (r_serial r)); constructor; auto; apply clean_nul; assumption.
Qed.
Lemma built20 s t : length s = 20 -> built_field (s ++ t) = s.
Proof.
  intro L. unfold built_field. rewrite app_length. destruct (Nat.ltb_spec (length s + length t) 20); [lia|].
  rewrite firstn_app, L, Nat.sub_diag, firstn_O, app_nil_r. apply firstn_all2. lia.
Qed.
Lemma pad20 s t : length s = 20 -> pad 20 (s ++ t) = s.
Proof.
  intro L. unfold pad. rewrite app_length. replace (20 - (length s + length t)) with 0 by lia. cbn [repeat]. rewrite app_nil_r.
  rewrite firstn_app, L, Nat.sub_diag, firstn_O, app_nil_r. apply firstn_all2. lia.
Qed.

(** read_next_antenna_type on a block *)
Lemma read_type r st f t (c : option mem) : ant_ok r -> on st f (text_of (ant_lines r) ++ t) ->
  (forall m : mem, c = Some m -> 60 <= length m) ->
  exists st', read_next_antenna_type st c =
    Val (0%Z, Some (rec_antenna r),
         match c with Some m => Some (map Some (r_model r ++ r_serial r ++ r_more r) ++ skipn 60 m) | None => None end, st')
    /\ on st' f (ant_tail r ++ t).
Proof.
  intros Hr H Hc. unfold read_next_antenna_type, ant_lines in *. destruct Hr as (P1 & P2 & P3 & Hp & Hb). pose proof (conj P1 (conj P2 (conj P3 (conj Hp Hb)))) as Hr.
  destruct (on_text st f _ _ _ (uninit 85) 85 H (start_clean r) ltac:(rewrite start_len; lia) ltac:(rewrite len_uninit; lia)) as (st1 & E1 & H1).
  change ATX_HEADER_CHARS with 85. rewrite E1. cbn [bind]. rewrite (on_nofail _ _ _ H1).
  rewrite label_other by (first [reflexivity|nonul_lit|rewrite start_len; lia]). rewrite start_lab. cbn [bind negb].
  destruct (on_text st1 f _ _ _ (overlay (start_line r) (uninit 85)) 85 H1 (type_clean r Hr) ltac:(rewrite type_len by exact Hr; lia)
    ltac:(rewrite overlay_length; [rewrite len_uninit; lia|rewrite start_len, len_uninit; lia])) as (st2 & E2 & H2).
  rewrite E2. cbn [bind]. rewrite (on_nofail _ _ _ H2).
  rewrite label_other by (first [reflexivity|nonul_lit|rewrite type_len by exact Hr; lia]). rewrite type_lab by exact Hr. cbn [bind negb].
  set (buf := overlay (start_line r) (uninit 85)).
  assert (Lb : length buf = 85) by (unfold buf; rewrite overlay_length, len_uninit; [reflexivity|rewrite start_len, len_uninit; lia]).
  assert (C0 : cstr (overlay (type_line r) buf) 0 = Val (type_line r)) by (apply cstr_overlay, clean_nul, type_clean, Hr).
  rewrite (ant_of_cstr_spec _ _ _ C0). cbn [bind].
  assert (L1 : length (r_model r) = 20) by apply P1. assert (L2 : length (r_serial r) = 20) by apply P2. assert (L3 : length (r_more r) = 20) by apply P3.
  assert (C20 : cstr (overlay (type_line r) buf) 20 = Val (r_serial r ++ r_more r ++ lit "TYPE / SERIAL NO" ++ blanks (r_pad r))).
  { rewrite cstr_overlay_off; [|apply clean_nul, type_clean, Hr|rewrite type_len by exact Hr; lia].
    rewrite type_eq by exact Hr. f_equal. apply skipn_app_exact. lia. }
  assert (SB : some_nonblank (overlay (type_line r) buf) 20 20 = Val (negb (blankb (r_serial r)))).
  { rewrite type_eq by exact Hr. pose proof (some_nonblank_overlay (r_serial r) (r_model r) (r_more r ++ lit "TYPE / SERIAL NO" ++ blanks (r_pad r)) buf) as X.
    rewrite L1, L2 in X. apply X. reflexivity. }
  rewrite SB. cbn [bind].
  assert (EB : built_field (type_line r) = r_model r) by (rewrite type_eq by exact Hr; apply built20, L1).
  rewrite EB.
  assert (A : (if negb (blankb (r_serial r)) then set_serial_nr (map Some (r_model r) ++ Some NUL :: uninit 20) (overlay (type_line r) buf) 20
               else @Val mem (map Some (r_model r) ++ Some NUL :: uninit 20)) = Val (rec_antenna r)).
  { unfold rec_antenna, antenna_mem. rewrite antenna_name20 by exact L1. destruct (blankb (r_serial r)); cbn [negb]; [reflexivity|].
    assert (Sh : ant_shape (map Some (r_model r) ++ Some NUL :: uninit 20) (r_model r) None) by (constructor; [exact L1|apply clean_nul, P1|reflexivity]).
    rewrite (set_serial_spec _ _ _ _ _ _ Sh C20), pad20 by exact L2. reflexivity. }
  rewrite A. cbn [bind].
  exists st2. split; [|exact H2].
  destruct c as [m|]; [|reflexivity]. specialize (Hc m eq_refl). unfold memcpy. rewrite overlay_length by (rewrite type_len by exact Hr; lia). rewrite Lb.
  cbn [Nat.add Nat.leb skipn]. change (60 <=? 85) with true. cbn iota.
  assert (F : firstn 60 (overlay (type_line r) buf) = map Some (r_model r ++ r_serial r ++ r_more r)).
  { rewrite type_eq by exact Hr. unfold overlay. rewrite !app_assoc. rewrite <- (app_assoc _ (lit _)). rewrite map_app, <- app_assoc.
    rewrite <- !app_assoc. rewrite !app_assoc, <- (app_assoc (_ ++ _) (r_more r)). destruct (cols60 r Hr) as (L60 & _).
    rewrite <- !app_assoc. rewrite firstn_app, firstn_all2 by (rewrite map_length; lia). rewrite map_length, L60. cbn [Nat.sub firstn]. apply app_nil_r. }
  rewrite F. unfold wr_bytes. rewrite map_length. destruct (cols60 r Hr) as (L60 & _). rewrite L60.
  destruct (Nat.leb_spec (0 + 60) (length m)); [|lia]. reflexivity.
Qed.
