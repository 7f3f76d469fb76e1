(** ProofApp: proofs about the message cache of test/pp_rnx.cpp *)
From Verif Require Import Base BaseLemmas CNum CNumLemmas Stream ModelSatsys ModelObs ModelObsRnx ModelNav ModelApp SpecText SpecNum SpecNav
  ProofText ProofNum ProofStream ProofNav ProofNavBlock ProofNavFile ProofNavFind ProofNavList.
Open Scope list_scope.

Lemma same_sv_iff sys prn p : same_sv sys prn p = true <-> f_sys p = sys /\ f_prn p = prn.
Proof.
  unfold same_sv. rewrite andb_true_iff, satsys_eqb_eq, Z.eqb_eq. split; intros (A & B); auto.
Qed.

(** check_nav_msg answers 0 only for usable messages *)
Lemma check_zero m t : check_nav_msg m t = Val 0%Z -> healthy m /\ (covers t m \/ wild_hours m).
Proof.
  unfold check_nav_msg. intro H. apply bind_inv in H as (h & Hh & H). destruct (Z.eqb_spec h 0) as [->|N]; cbn [negb] in H; [|discriminate].
  split; [apply health_inv, Hh|]. apply bind_inv in H as (fit & Hf & H). destruct (satsys_eqb (f_sys m) Glonass) eqn:E.
  - apply satsys_eqb_eq in E. left. unfold covers, fit_interval in *. rewrite E in *. injection Hf as <-.
    destruct (_ && _)%bool eqn:C in H; [|discriminate]. apply window_iff in C. lia.
  - apply (fit_inv _ fit); auto; [intro X; apply satsys_eqb_eq in X; congruence|].
    destruct (Z.leb_spec (f_toc m * 1000) t); [|discriminate]. destruct (Z.ltb_spec t (f_toc m * 1000 + fit * 1000)); [lia|discriminate].
Qed.
Lemma check_range m t c : check_nav_msg m t = Val c -> (c = -1 \/ c = 0 \/ c = 1)%Z /\ (c = (-1)%Z -> exists h, sv_health m = Val h /\ h <> 0%Z).
Proof.
  unfold check_nav_msg. intro H. apply bind_inv in H as (h & Hh & H). destruct (Z.eqb_spec h 0) as [->|N]; cbn [negb] in H.
  - apply bind_inv in H as (fit & Hf & H). destruct (satsys_eqb _ _); repeat (destruct (_ : bool) in H); apply Val_inj in H; subst c; (split; [auto|discriminate]).
  - apply Val_inj in H. subst c. split; [auto|]. eauto.
Qed.
(** an unhealthy field is not zero *)
Lemma healthy_not m h : healthy m -> sv_health m = Val h -> h = 0%Z.
Proof.
  intros H E. unfold sv_health, healthy in *. destruct (f_sys m); try discriminate;
    (destruct H as (v & Hv & q & -> & B); unfold slot in E; rewrite Hv in E; cbn [bind] in E; apply trunc_inv in E as (q' & Eq & -> & _);
     injection Eq as <-; apply tr_zero; exact B).
Qed.

(** ** the search of the cache *)
Lemma cache_search_spec sys prn t : forall cache i s r, cache_search sys prn t cache i s = Val r ->
  (snd r = 0%Z /\ s <> 0%Z -> exists p, (i <= fst r)%nat /\ nth_error cache (fst r - i) = Some p /\ same_sv sys prn p = true /\ check_nav_msg p t = Val 0%Z) /\
  (snd r <> 0%Z -> (snd r = s /\ Forall (fun p => same_sv sys prn p = false) cache) \/
     (exists p, In p cache /\ same_sv sys prn p = true /\ check_nav_msg p t = Val (snd r))).
Proof.
  induction cache as [|p cache IH]; cbn [cache_search]; intros i s r H.
  - apply Val_inj in H. subst r. cbn [fst snd]. split; [intros (A & B); congruence|]. auto.
  - destruct (same_sv sys prn p) eqn:E.
    + apply bind_inv in H as (c & Hc & H). destruct (Z.eqb_spec c 0) as [->|N].
      * apply Val_inj in H. subst r. cbn [fst snd]. split; [|congruence]. intros _. exists p. rewrite Nat.sub_diag. auto.
      * destruct (IH _ _ _ H) as (A & B). split.
        -- intros (Z0 & _). destruct (A (conj Z0 N)) as (p' & L & Hn & R). exists p'. split; [lia|].
           replace (fst r - i)%nat with (S (fst r - S i)) by lia. auto.
        -- intro Nz. right. destruct (B Nz) as [(Es & _)|(p' & In' & R)]; [exists p; rewrite Es; cbn; auto|exists p'; cbn; auto].
    + destruct (IH _ _ _ H) as (A & B). split.
      * intro X. destruct (A X) as (p' & L & Hn & R). exists p'. split; [lia|]. replace (fst r - i)%nat with (S (fst r - S i)) by lia. auto.
      * intro Nz. destruct (B Nz) as [(Es & F)|(p' & In' & R)]; [left; auto|right; exists p'; cbn; auto].
Qed.
Lemma first_sv_spec sys prn : forall cache i, match first_sv sys prn cache i with
  | Some k => (i <= k)%nat /\ exists p, nth_error cache (k - i) = Some p /\ same_sv sys prn p = true /\ Forall (fun p => same_sv sys prn p = false) (firstn (k - i) cache)
  | None => Forall (fun p => same_sv sys prn p = false) cache end.
Proof.
  induction cache as [|p cache IH]; intro i; cbn [first_sv]; [constructor|].
  destruct (same_sv sys prn p) eqn:E.
  - split; [lia|]. exists p. rewrite Nat.sub_diag. cbn. auto.
  - specialize (IH (S i)). destruct (first_sv sys prn cache (S i)) as [k|].
    + destruct IH as (L & p' & Hn & R & F). split; [lia|]. exists p'. replace (k - i)%nat with (S (k - S i)) by lia. cbn. auto.
    + constructor; auto.
Qed.

(** ** update_msg *)
Lemma update_inv fuel strp eoh nmsg t st e msg c msg' st' e' : update_msg fuel strp eoh nmsg t st e msg = Val (c, msg', st', e') ->
  (good st = true -> st' = st) /\
  (c = 0%Z -> f_sys msg' = f_sys msg /\ f_prn msg' = f_prn msg /\ healthy msg' /\ (covers t msg' \/ wild_hours msg')).
Proof.
  unfold update_msg. intro H. apply bind_inv in H as ([pos r] & E & H). apply Val_inj in H.
  injection H as <- <- <- <-. split.
  - intro G. apply (valid_rewind _ _ _ _ _ _ _ _ _ _ eoh G E).
  - intro Z0. rewrite Z0. cbn [Z.eqb]. unfold find_next_valid in E. destruct (tellg st) as [st1 p1].
    apply bind_inv in E as (r' & E & X). injection X as _ <-.
    destruct (valid_loop fuel strp t st1 nmsg e (f_sys msg) (f_prn msg)) as [r1| | | |] eqn:V; try discriminate. cbn in E. apply Val_inj in E. subst r1.
    exact (valid_zero _ _ _ _ _ _ _ _ _ V Z0).
Qed.

(** ** get_valid_msg *)
Lemma get_inv fuel strp eoh nmsg st e sys prn t cache r : get_valid_msg fuel strp eoh nmsg st e sys prn t cache = Val r ->
  (good st = true -> g_stream r = st) /\
  ( (g_status r = 0%Z /\ exists k p, g_it r = Some k /\ nth_error (g_cache r) k = Some p /\ f_sys p = sys /\ f_prn p = prn /\ healthy p /\ (covers t p \/ wild_hours p) /\
      (g_cache r = cache \/
       (exists a q b, cache = a ++ q :: b /\ g_cache r = a ++ p :: b /\ same_sv sys prn q = true /\ Forall (fun x => same_sv sys prn x = false) a) \/
       (g_cache r = cache ++ [p] /\ (Forall (fun x => same_sv sys prn x = false) cache \/
          exists q h, In q cache /\ same_sv sys prn q = true /\ sv_health q = Val h /\ h <> 0%Z))))
    \/ (g_status r <> 0%Z /\ g_it r = None /\ g_cache r = cache)).
Proof.
  unfold get_valid_msg. intro H. apply bind_inv in H as ([i s] & Es & H). destruct (cache_search_spec _ _ _ _ _ _ _ Es) as (A & B). cbn [fst snd] in A, B.
  destruct (Z.eqb_spec s 0) as [->|Ns].
  - apply Val_inj in H. subst r. cbn [g_stream g_status g_it g_cache]. split; [auto|]. left. split; [reflexivity|].
    assert (N2 : (-200 <> 0)%Z) by lia. destruct (A (conj eq_refl N2)) as (p & _ & Hn & Sv & C). rewrite Nat.sub_0_r in Hn. apply same_sv_iff in Sv as (S1 & S2). destruct (check_zero _ _ C) as (C1 & C2).
    exists i, p. auto 10.
  - apply bind_inv in H as ([[[j msg] st'] e'] & Eu & H). destruct (update_inv _ _ _ _ _ _ _ _ _ _ _ _ Eu) as (Us & Uz). cbn [set_prn set_sys f_sys f_prn] in Uz.
    destruct (Z.eqb_spec j 0) as [->|Nj]; cbn [negb] in H.
    2:{ apply Val_inj in H. subst r. cbn [g_stream g_status g_it g_cache]. auto. }
    destruct (Uz eq_refl) as (U1 & U2 & U3 & U4). destruct (Z.leb_spec 0 s) as [Ls|Ls].
    + pose proof (first_sv_spec sys prn cache 0) as F. destruct (first_sv sys prn cache 0) as [k|]; [|discriminate]. apply Val_inj in H. subst r.
      cbn [g_stream g_status g_it g_cache]. split; [exact Us|]. left. split; [reflexivity|]. destruct F as (_ & q & Hq & Sq & Fq). rewrite Nat.sub_0_r in *.
      pose proof (nth_error_split _ _ Hq) as (a & b & Ec & La). subst cache k.
      exists (length a), msg. split; [reflexivity|].
      replace (firstn (length a) (a ++ q :: b)) with a in * by (rewrite firstn_app, firstn_all, Nat.sub_diag, firstn_O, app_nil_r; reflexivity).
      replace (skipn (S (length a)) (a ++ q :: b)) with b by (rewrite skipn_app, skipn_all2 by lia; replace (S (length a) - length a)%nat with 1%nat by lia; reflexivity).
      split; [rewrite nth_error_app2, Nat.sub_diag by lia; reflexivity|]. repeat (split; [assumption|]). right. left. exists a, q, b. auto.
    + apply Val_inj in H. subst r. cbn [g_stream g_status g_it g_cache]. split; [exact Us|]. left. split; [reflexivity|].
      exists (length cache), msg. split; [reflexivity|]. split; [rewrite nth_error_app2, Nat.sub_diag by lia; reflexivity|].
      repeat (split; [assumption|]). right. right. split; [reflexivity|]. destruct (B Ns) as [(-> & F)|(q & Iq & Sq & C)]; [left; exact F|].
      right. destruct (check_range _ _ _ C) as ([X|[X|X]] & Y); [|lia|lia]. destruct (Y X) as (h & Hh & Nh). exists q, h. auto.
Qed.

(** ** the search finds what the file has *)
Lemma valid_complete strp cal t sys prn : reads_dates strp cal -> has_toe sys = true ->
  forall bs st f tail k, Forall block_ok bs -> Forall (fun b => serves sys prn b -> ~ too_late cal t b /\ int_fits b) bs ->
  length (f_data f) = 31%nat -> at_rest st (blocks_text bs ++ tail) -> (length bs < k)%nat ->
  (exists b, In b bs /\ serves sys prn b /\ forall g, frame_of cal b g -> usable t g) ->
  exists r, valid_loop k strp t st f 0 sys prn = Val r /\ n_code r = 0%Z /\ n_errno r = 0%Z.
Proof.
  intros RD T. induction bs as [|b bs IH]; intros st f tail k Ok W L At Hk (b0 & Hin & Sv & U); [destruct Hin|].
  inversion Ok as [|? ? O1 O2]; subst. inversion W as [|? ? W1 W2]; subst. unfold blocks_text in At. cbn [flat_map] in At. rewrite <- app_assoc in At.
  destruct k as [|k]; [inversion Hk|]. cbn [length] in Hk.
  destruct (serves_dec sys prn b) as [Sb|Nb].
  - destruct (W1 Sb) as (NL' & Fi). destruct (valid_turn strp cal t sys prn b st f _ k RD O1 Sb T L At) as (g & st' & Fg & A & _ & _ & E1 & E2).
    assert (D : usable t g \/ ~ usable t g).
    { destruct Fg as (Bg & _). pose proof Sb as (Es & _). assert (T' : has_toe (b_sys b) = true) by (rewrite Es; exact T).
      destruct (verdict cal g b t Bg O1 T' Fi) as (h & fit & _ & _ & Hh & Hw). unfold usable.
      destruct (Z.eq_dec h 0); [|right; intros (X & _); apply Hh in X; contradiction].
      destruct (in_window t g fit); [left; split; [apply Hh; auto|apply Hw; auto]|right; intros (_ & X); apply Hw in X; discriminate]. }
    destruct D as [D|D].
    + rewrite E1 by auto. eexists. split; [reflexivity|]. auto.
    + rewrite E2 by auto. apply (IH st' g tail k O2 W2); [apply (is_block_data _ _ _ (proj1 Fg))|exact A|lia|].
      destruct Hin as [->|Hin]; [exfalso; apply D, U, Fg|]. exists b0. auto.
  - destruct (valid_other strp cal t sys prn b st f _ k RD O1 Nb ltac:(intros ->; discriminate) L At) as (g & st' & E & Lg & A & _).
    rewrite E. apply (IH st' g tail k O2 W2); [exact Lg|exact A|lia|]. destruct Hin as [->|Hin]; [contradiction|]. exists b0. auto.
Qed.
Lemma search_total sys prn t : forall cache i s, (forall p, In p cache -> same_sv sys prn p = true -> exists c, check_nav_msg p t = Val c) ->
  exists r, cache_search sys prn t cache i s = Val r.
Proof.
  induction cache as [|p cache IH]; intros i s H; cbn [cache_search]; [eauto|]. destruct (same_sv sys prn p) eqn:E; [|apply IH; cbn in H; auto].
  destruct (H p ltac:(cbn; auto) E) as (c & ->). cbn [bind]. destruct (c =? 0)%Z; [eauto|]. apply IH. cbn in H. auto.
Qed.
Lemma get_complete fuel strp eoh cal nmsg st sys prn t cache bs tail : reads_dates strp cal -> has_toe sys = true ->
  (forall p, In p cache -> same_sv sys prn p = true -> exists c, check_nav_msg p t = Val c) ->
  Forall block_ok bs -> Forall (fun b => serves sys prn b -> ~ too_late cal t b /\ int_fits b) bs ->
  length (f_data nmsg) = 31%nat -> at_rest st (blocks_text bs ++ tail) -> (length bs < fuel)%nat ->
  (exists b, In b bs /\ serves sys prn b /\ forall g, frame_of cal b g -> usable t g) ->
  exists r, get_valid_msg fuel strp eoh nmsg st 0 sys prn t cache = Val r /\ g_status r = 0%Z.
Proof.
  intros RD T HC Ok W L At Hk Hb. unfold get_valid_msg. destruct (search_total sys prn t cache 0 (-200) HC) as ([i s] & Es). pose proof (cache_search_spec _ _ _ _ _ _ _ Es) as (_ & B).
  rewrite Es. cbn [bind]. cbn [fst snd] in B. destruct (Z.eqb_spec s 0) as [->|Ns]; [eexists; split; reflexivity|].
  unfold update_msg. cbn [set_prn set_sys f_sys f_prn]. unfold find_next_valid, tellg. rewrite (proj1 At).
  destruct (valid_complete strp cal t sys prn RD T bs st nmsg tail fuel Ok W L At Hk Hb) as (r & -> & Z0 & _). cbn [bind noexcept]. rewrite Z0. cbn [Z.eqb negb].
  destruct (Z.leb_spec 0 s) as [Ls|Ls]; [|eexists; split; reflexivity].
  pose proof (first_sv_spec sys prn cache 0) as F. destruct (first_sv sys prn cache 0) as [k|]; [eexists; split; reflexivity|].
  destruct (B Ns) as [(-> & _)|(q & Iq & Sq & _)]; [lia|]. rewrite Forall_forall in F. rewrite (F q Iq) in Sq. discriminate.
Qed.

(** the message found is one of the file's *)
Lemma valid_from strp cal t sys prn : reads_dates strp cal -> has_toe sys = true ->
  forall bs st f k r, Forall block_ok bs -> Forall (fun b => serves sys prn b -> int_fits b) bs ->
  length (f_data f) = 31%nat -> at_rest st (blocks_text bs) -> (length bs < k)%nat ->
  valid_loop k strp t st f 0 sys prn = Val r -> n_errno r = 0%Z /\ (n_code r = 0%Z \/ n_code r = (-1)%Z) /\
  (n_code r = 0%Z -> exists b, In b bs /\ serves sys prn b /\ frame_of cal b (n_frame r) /\ usable t (n_frame r)).
Proof.
  intros RD T. induction bs as [|b bs IH]; intros st f k r Ok W L At Hk E.
  - destruct k; [inversion Hk|]. cbn [valid_loop] in E. destruct At as (G & R). rewrite (peak_good _ G), R in E. cbn in E. apply Val_inj in E. subst r. cbn. split; [auto|]. split; [auto|discriminate].
  - inversion Ok as [|? ? O1 O2]; subst. inversion W as [|? ? W1 W2]; subst. unfold blocks_text in At. cbn [flat_map] in At.
    destruct k as [|k]; [inversion Hk|]. cbn [length] in Hk.
    assert (X : forall st' g, length (f_data g) = 31%nat -> at_rest st' (blocks_text bs) -> valid_loop k strp t st' g 0 sys prn = Val r ->
      n_errno r = 0%Z /\ (n_code r = 0%Z \/ n_code r = (-1)%Z) /\ (n_code r = 0%Z -> exists b0, In b0 (b :: bs) /\ serves sys prn b0 /\ frame_of cal b0 (n_frame r) /\ usable t (n_frame r))).
    { intros st' g Lg A E'. destruct (IH st' g k r O2 W2 Lg A ltac:(lia) E') as (P & Q & R). split; [exact P|]. split; [exact Q|].
      intro Z0. destruct (R Z0) as (b0 & I0 & R0). exists b0. split; [right; exact I0|exact R0]. }
    destruct (serves_dec sys prn b) as [Sb|Nb].
    + pose proof (W1 Sb) as Fi. destruct (valid_turn strp cal t sys prn b st f _ k RD O1 Sb T L At) as (g & st' & Fg & A & _ & E0 & E1 & E2).
      assert (DL : too_late cal t b \/ ~ too_late cal t b) by (unfold too_late; lia).
      destruct DL as [DL|DL]; [rewrite (E0 DL) in E; apply Val_inj in E; subst r; cbn; split; [auto|]; split; [auto|discriminate]|].
      assert (D : usable t g \/ ~ usable t g).
      { pose proof Fg as (Bg & _). pose proof Sb as (Es & _). assert (T' : has_toe (b_sys b) = true) by (rewrite Es; exact T).
        destruct (verdict cal g b t Bg O1 T' Fi) as (h & fit & _ & _ & Hh & Hw). unfold usable.
        destruct (Z.eq_dec h 0); [|right; intros (X1 & _); apply Hh in X1; contradiction].
        destruct (in_window t g fit); [left; split; [apply Hh; auto|apply Hw; auto]|right; intros (_ & X1); apply Hw in X1; discriminate]. }
      destruct D as [D|D].
      * rewrite E1 in E by auto. apply Val_inj in E. subst r. cbn. split; [auto|]. split; [auto|]. intros _. exists b. split; [left; reflexivity|auto].
      * rewrite E2 in E by auto. apply (X st' g); [apply (is_block_data _ _ _ (proj1 Fg))|exact A|exact E].
    + destruct (valid_other strp cal t sys prn b st f _ k RD O1 Nb ltac:(intros ->; discriminate) L At) as (g & st' & E1 & Lg & A & _).
      rewrite E1 in E. exact (X st' g Lg A E).
Qed.
Lemma get_from fuel strp eoh cal nmsg st sys prn t cache bs r : reads_dates strp cal -> has_toe sys = true ->
  Forall block_ok bs -> Forall (fun b => serves sys prn b -> int_fits b) bs ->
  length (f_data nmsg) = 31%nat -> at_rest st (blocks_text bs) -> (length bs < fuel)%nat ->
  (forall p, In p cache -> exists b, In b bs /\ frame_of cal b p) ->
  get_valid_msg fuel strp eoh nmsg st 0 sys prn t cache = Val r ->
  g_errno r = 0%Z /\ (forall p, In p (g_cache r) -> exists b, In b bs /\ frame_of cal b p) /\ (g_status r = 0%Z \/ g_status r = (-1)%Z).
Proof.
  intros RD T Ok W L At Hk HC. unfold get_valid_msg. intro H. apply bind_inv in H as ([i s] & Es & H).
  destruct (s =? 0)%Z; [apply Val_inj in H; subst r; cbn; auto|].
  unfold update_msg in H. cbn [set_prn set_sys f_sys f_prn] in H. unfold find_next_valid, tellg in H. rewrite (proj1 At) in H.
  destruct (valid_loop fuel strp t st nmsg 0 sys prn) as [r1| | | |] eqn:V; try discriminate. cbn [bind noexcept] in H.
  destruct (valid_from strp cal t sys prn RD T bs st nmsg fuel r1 Ok W L At Hk V) as (E0 & C & F). rewrite E0 in H.
  destruct (Z.eqb_spec (n_code r1) 0) as [Z0|N0]; cbn [negb] in H.
  2:{ apply Val_inj in H. subst r. cbn. split; [auto|]. split; [exact HC|]. destruct C; auto. }
  destruct (F Z0) as (b & Ib & _ & Fb & _). destruct (0 <=? s)%Z.
  - destruct (first_sv sys prn cache 0) as [k|]; [|discriminate]. apply Val_inj in H. subst r. cbn [g_errno g_cache g_status]. split; [auto|]. split; [|auto].
    intros p Hp. apply in_app_iff in Hp as [Hp|[<-|Hp]]; [apply HC|eauto|apply HC].
    + rewrite <- (firstn_skipn k cache). apply in_app_iff. left. exact Hp.
    + rewrite <- (firstn_skipn (S k) cache). apply in_app_iff. right. exact Hp.
  - apply Val_inj in H. subst r. cbn [g_errno g_cache g_status]. split; [auto|]. split; [|auto].
    intros p Hp. apply in_app_iff in Hp as [Hp|[<-|[]]]; [apply HC, Hp|eauto].
Qed.
