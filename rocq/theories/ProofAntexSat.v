(** ProofAntexSat: validity intervals and the search for satellite antennas (C34, C36). *)
From Verif Require Import Base BaseLemmas CNum CNumLemmas Stream ModelSatsys ModelObs ModelNvarstr ModelSatellite ModelAntenna
  ModelAntex SpecText SpecNum SpecObs SpecHeader SpecAntex SpecAntexObj ProofText ProofAntenna ProofNum ProofStream ProofObsTypes ProofObsRec ProofHeader ProofAntex
  ProofAntexFind ProofAntexSkip ProofAntexPco.

(** ** resolving a TYPE / SERIAL NO line *)
Definition sat_wf (x : asat) : Prop := length (as_ant x) = 21 /\ length (sat_cospar (as_sat x)) = 9.

Lemma letter_system_spec c : match letter_system c with Some s => char_to_satsys c = Val s | None => char_to_satsys c = Exn end.
Proof.
  unfold letter_system. destruct (find _ satsys_letters) as [[d s]|] eqn:F.
  - apply find_some in F as (I & E). cbn [fst snd] in *. apply Ascii.eqb_eq in E. subst. apply char_to_satsys_spec. exact I.
  - apply char_to_satsys_spec. intros s I. pose proof (find_none _ _ F _ I) as E. cbn [fst] in E. rewrite Ascii.eqb_refl in E. discriminate.
Qed.
Lemma stoi_cases s : (exists z, stoi s = Val z) \/ stoi s = Exn.
Proof. unfold stoi. destruct (strtol s) as [[v n] er]. destruct n; [auto|]. destruct (_ || _); [auto|left; eexists; reflexivity]. Qed.
Lemma rd_map (a : list ascii) c b k (r : mem) : length a = k -> rd (map Some (a ++ c :: b) ++ r) k = Val c.
Proof. intros <-. unfold rd. rewrite map_app, <- app_assoc, nth_error_app2 by (rewrite map_length; lia). rewrite map_length, Nat.sub_diag. reflexivity. Qed.
Lemma skip_map (a s : list ascii) (r : mem) k : length a = k -> skipn k (map Some (a ++ s) ++ r) = map Some s ++ r.
Proof. intros <-. rewrite map_app, <- app_assoc. apply skipn_app_exact. symmetry. apply map_length. Qed.
Lemma empty10 (a s b : list ascii) (r : mem) k t : length a = k -> length s = 10 -> clean s -> clean b -> cstr0 r = Val t ->
  string_is_empty (map Some (a ++ s ++ b) ++ r) k (Some 10) = Val (blank s).
Proof.
  intros La Ls Cs Cb Ct. unfold string_is_empty, cstr. rewrite skip_map by exact La.
  assert (E : cstr0 (map Some (s ++ b) ++ r) = Val ((s ++ b) ++ t)).
  { assert (N : ~ In NUL (s ++ b)) by (intro K; apply in_app_or in K as [K|K]; [exact (clean_nul _ Cs K)|exact (clean_nul _ Cb K)]).
    clear - N Ct. induction (s ++ b) as [|c l IH]; [exact Ct|]. cbn [map app cstr0].
    destruct (ceqb c NUL) eqn:X; [apply ceqb_eq in X; exfalso; apply N; left; exact X|]. rewrite IH by (intro; apply N; right; assumption). reflexivity. }
  rewrite E. cbn [bind]. unfold cut_len. rewrite <- app_assoc. rewrite app_length, Ls.
  assert (F : firstn (if 10 <? 10 + length (b ++ t) then 10 else 10 + length (b ++ t)) (s ++ b ++ t) = s).
  { destruct (Nat.ltb_spec 10 (10 + length (b ++ t))).
    - rewrite firstn_app, Ls, firstn_O, app_nil_r. apply firstn_all2. lia.
    - rewrite firstn_app, firstn_all2 by lia. replace (10 + length (b ++ t) - length s) with 0 by lia. rewrite firstn_O. apply app_nil_r. }
  rewrite F. reflexivity.
Qed.
Lemma cstr0_pre (l : list ascii) (r : mem) t : ~ In NUL l -> cstr0 r = Val t -> cstr0 (map Some l ++ r) = Val (l ++ t).
Proof.
  intros N Ct. induction l as [|c l IH]; [exact Ct|]. cbn [map app cstr0].
  destruct (ceqb c NUL) eqn:X; [apply ceqb_eq in X; exfalso; apply N; left; exact X|]. rewrite IH by (intro; apply N; right; assumption). reflexivity.
Qed.

Lemma rd_n_first : forall (s : list ascii) (r : mem) n, n <= length s -> rd_n (map Some s ++ r) n = Val (firstn n s).
Proof.
  induction s as [|c s IH]; intros r n L; destruct n as [|n]; try (cbn in L; lia); [destruct r; reflexivity|reflexivity|].
  cbn [map app rd_n firstn]. rewrite IH by (cbn in L; lia). reflexivity.
Qed.

Lemma wr_last (a b : mem) : length a = 8 -> length b = 1 -> wr (a ++ b) 8 NUL = Val (a ++ [Some NUL]).
Proof.
  intros A B. destruct b as [|x [|y b]]; try discriminate B. unfold wr. rewrite app_length, A. cbn [length Nat.add Nat.ltb Nat.leb].
  rewrite firstn_app, A, Nat.sub_diag, firstn_O, app_nil_r, firstn_all2 by lia.
  rewrite skipn_all2; [reflexivity|rewrite app_length, A; cbn; lia].
Qed.

(** what the Satellite carries after a successful resolution of block [r] *)

Lemma resolve_exact r (tl : mem) t x : ant_ok r -> cstr0 tl = Val t -> sat_wf x ->
  exists code x', resolve_satellite_antenna_line (map Some (r_model r ++ r_serial r ++ r_more r) ++ tl) x = Val (code, x') /\ sat_wf x' /\
    match sat_ident r with
    | Some id => code = 0%Z /\ sat_of r id x' /\
        (i_svn id = None -> sat_svn (as_sat x') = sat_svn (as_sat x)) /\ (i_cospar id = None -> sat_cospar (as_sat x') = sat_cospar (as_sat x))
    | None => code <> 0%Z
    end.
Proof.
  intros Hr Ct (Wa & Wc). destruct (cols60 r Hr) as (L60 & C60). destruct Hr as ((C1 & L1) & (C2 & L2) & (C3 & L3) & _).
  unfold resolve_satellite_antenna_line, strlen, cstr. change (skipn 0 ?m) with m. cbn [skipn].
  rewrite (cstr0_pre _ _ _ (clean_nul _ C60) Ct). cbn [bind]. rewrite app_length, L60.
  destruct (Nat.ltb_spec (60 + length t) 60); [lia|].
  assert (SC : sant_copy (as_ant x) (map Some (r_model r ++ r_serial r ++ r_more r) ++ tl) 0 = Val (map Some (r_model r) ++ [Some NUL])).
  { rewrite (sant_copy_spec _ _ _ ((r_model r ++ r_serial r ++ r_more r) ++ t)); [|exact Wa|apply (cstr0_pre _ _ _ (clean_nul _ C60) Ct)].
    rewrite app_length, L60. replace (Nat.min (60 + length t) 20) with 20 by lia. rewrite skipn_all2 by lia.
    rewrite <- app_assoc. rewrite firstn_app, L1, firstn_O, app_nil_r, firstn_all2 by lia. reflexivity. }
  rewrite SC. cbn [bind]. set (x1 := set_sant (map Some (r_model r) ++ [Some NUL]) x).
  assert (W1 : sat_wf x1) by (split; [cbn; rewrite app_length, map_length, L1; reflexivity|exact Wc]).
  assert (A1 : firstn 20 (as_ant x1) = map Some (r_model r) /\ nth_error (as_ant x1) 20 = Some (Some NUL)).
  { cbn [x1 set_sant as_ant]. split; [rewrite firstn_app, map_length, L1, firstn_O, app_nil_r, firstn_all2 by (rewrite map_length; lia); reflexivity|].
    rewrite nth_error_app2, map_length, L1 by (rewrite map_length; lia). reflexivity. }
  destruct (r_serial r) as [|c s] eqn:ES; [discriminate L2|].
  assert (R20 : rd (map Some (r_model r ++ (c :: s) ++ r_more r) ++ tl) 20 = Val c) by (apply (rd_map (r_model r) c (s ++ r_more r)); exact L1).
  rewrite R20. cbn [bind].
  unfold sat_ident. rewrite ES. pose proof (letter_system_spec c) as LS.
  destruct (ceqb c " "%char) eqn:EB.
  { apply ceqb_eq in EB. subst c. change (letter_system " "%char) with (@None satsys). do 2 eexists. split; [reflexivity|]. split; [exact W1|discriminate]. }
  destruct (letter_system c) as [ss|]; rewrite LS; [|do 2 eexists; split; [reflexivity|]; split; [exact W1|discriminate]].
  assert (L5 : length s = 19) by (cbn in L2; lia).
  assert (RD : rd_n (skipn 21 (map Some (r_model r ++ (c :: s) ++ r_more r) ++ tl)) 5 = Val (firstn 5 s)).
  { replace (r_model r ++ (c :: s) ++ r_more r) with ((r_model r ++ [c]) ++ s ++ r_more r) by (rewrite <- app_assoc; reflexivity).
    rewrite skip_map by (rewrite app_length, L1; reflexivity). rewrite map_app, <- app_assoc.
    apply rd_n_first. lia. }
  unfold stoi_at at 1. rewrite RD. cbn [bind]. unfold int_field at 1.
  destruct (stoi_cases (firstn 5 s)) as [(p & EP)|EP]; rewrite EP; [|do 2 eexists; split; [reflexivity|]; split; [exact W1|discriminate]].
  set (x3 := set_sprn p (set_ssys ss x1)).
  assert (F10 : length (firstn 10 (r_more r)) = 10) by (rewrite firstn_length; lia).
  assert (G10 : length (skipn 10 (r_more r)) = 10) by (rewrite skipn_length; lia).
  assert (Cf : clean (firstn 10 (r_more r)) /\ clean (skipn 10 (r_more r))) by (apply clean_app; rewrite firstn_skipn; exact C3).
  destruct Cf as (Cf & Cg).
  assert (EQ40 : r_model r ++ (c :: s) ++ r_more r = (r_model r ++ (c :: s)) ++ firstn 10 (r_more r) ++ skipn 10 (r_more r)) by (rewrite firstn_skipn, app_assoc; reflexivity).
  assert (L40 : length (r_model r ++ c :: s) = 40) by (rewrite app_length, L1; cbn; lia).
  assert (E40 : string_is_empty (map Some (r_model r ++ (c :: s) ++ r_more r) ++ tl) 40 (Some 10) = Val (blank (firstn 10 (r_more r)))).
  { rewrite EQ40. eapply empty10; eauto. }
  assert (E50 : string_is_empty (map Some (r_model r ++ (c :: s) ++ r_more r) ++ tl) 50 (Some 10) = Val (blank (skipn 10 (r_more r)))).
  { rewrite EQ40. rewrite app_assoc. rewrite <- (app_nil_r (skipn 10 (r_more r))) at 1. eapply empty10; eauto; [rewrite app_length; lia|constructor]. }
  rewrite E40. cbn [bind].
  destruct (firstn 10 (r_more r)) as [|d u] eqn:EF; [discriminate F10|].
  assert (R40 : rd (map Some (r_model r ++ (c :: s) ++ r_more r) ++ tl) 40 = Val d).
  { rewrite EQ40. cbn [app]. apply rd_map. exact L40. }
  rewrite R40. cbn [bind].
  (* the cospar part *)
  assert (CO : forall x4, sat_wf x4 -> exists x5,
    (do e2 <- string_is_empty (map Some (r_model r ++ (c :: s) ++ r_more r) ++ tl) 50 (Some 10);
     if e2 then Val (0%Z, x4)
     else do m1 <- memcpy (sat_cospar (as_sat x4)) 0 (map Some (r_model r ++ (c :: s) ++ r_more r) ++ tl) 50 COSPAR_ID_CHARS;
          do m2 <- wr m1 COSPAR_ID_CHARS NUL; Val (0%Z, set_scospar m2 x4)) = Val (0%Z, x5) /\
    sat_wf x5 /\ as_ant x5 = as_ant x4 /\ sat_sys (as_sat x5) = sat_sys (as_sat x4) /\ sat_prn (as_sat x5) = sat_prn (as_sat x4) /\
    sat_svn (as_sat x5) = sat_svn (as_sat x4) /\
    sat_cospar (as_sat x5) = if blank (skipn 10 (r_more r)) then sat_cospar (as_sat x4) else map Some (firstn 8 (skipn 10 (r_more r))) ++ [Some NUL]).
  { intros x4 (Va & Vc). rewrite E50. cbn [bind]. destruct (blank (skipn 10 (r_more r))); [exists x4; repeat split; auto|].
    assert (MC : memcpy (sat_cospar (as_sat x4)) 0 (map Some (r_model r ++ (c :: s) ++ r_more r) ++ tl) 50 8 =
                 Val (map Some (firstn 8 (skipn 10 (r_more r))) ++ skipn 8 (sat_cospar (as_sat x4)))).
    { unfold memcpy. destruct (Nat.leb_spec (50 + 8) (length (map Some (r_model r ++ (c :: s) ++ r_more r) ++ tl))) as [K|K];
        [|rewrite app_length, map_length, L60 in K; lia].
      rewrite EQ40, app_assoc. rewrite skip_map by (rewrite app_length; lia). rewrite firstn_app, map_length, G10, firstn_O, app_nil_r, firstn_map.
      unfold wr_bytes. rewrite map_length, firstn_length, G10. change (Nat.min 8 10) with 8. rewrite Vc. reflexivity. }
    change COSPAR_ID_CHARS with 8. rewrite MC. cbn [bind]. assert (M8 : length (map Some (firstn 8 (skipn 10 (r_more r)))) = 8) by (rewrite map_length, firstn_length, G10; reflexivity).
    rewrite wr_last by (first [exact M8|rewrite skipn_length, Vc; reflexivity]). cbn [bind]. eexists. split; [reflexivity|].
    split; [split; [exact Va|cbn [set_scospar as_sat sat_cospar]; rewrite app_length, M8; reflexivity]|]. repeat split. }
  assert (W3 : sat_wf x3) by exact W1.
  destruct (blank (d :: u)) eqn:EBl.
  { destruct (CO x3 W3) as (x5 & E5 & W5 & A5 & S5 & P5 & V5 & C5). exists 0%Z, x5. split; [exact E5|]. split; [exact W5|].
    split; [reflexivity|]. cbn [i_sys i_prn i_svn i_cospar].
    split; [split; [rewrite S5; reflexivity|]; split; [rewrite P5; reflexivity|]; rewrite A5; split; [apply A1|]; split; [apply A1|]; split; [discriminate|]|].
    - cbn [i_cospar]. intros k Hk. rewrite C5. destruct (blank (skipn 10 (r_more r))); [discriminate Hk|injection Hk as <-; reflexivity].
    - split; [intros _; rewrite V5; reflexivity|]. rewrite C5. destruct (blank (skipn 10 (r_more r))); [reflexivity|discriminate]. }
  destruct (ceqb d c) eqn:EDC; unfold ceqb in EDC; rewrite EDC; cbn [negb]; [|do 2 eexists; split; [reflexivity|]; split; [exact W1|discriminate]].
  assert (RV : rd_n (skipn 41 (map Some (r_model r ++ (c :: s) ++ r_more r) ++ tl)) 5 = Val (firstn 5 u)).
  { rewrite EQ40. replace ((r_model r ++ c :: s) ++ (d :: u) ++ skipn 10 (r_more r)) with (((r_model r ++ c :: s) ++ [d]) ++ u ++ skipn 10 (r_more r)) by (rewrite <- app_assoc; reflexivity).
    rewrite skip_map by (rewrite app_length, L40; reflexivity). rewrite map_app, <- app_assoc.
    apply rd_n_first. cbn in F10. lia. }
  unfold stoi_at at 1. rewrite RV. cbn [bind]. unfold int_field.
  destruct (stoi_cases (firstn 5 u)) as [(v & EV)|EV]; rewrite EV; [|do 2 eexists; split; [reflexivity|]; split; [exact W1|discriminate]].
  assert (W4 : sat_wf (set_ssvn v x3)) by exact W1.
  destruct (CO _ W4) as (x5 & E5 & W5 & A5 & S5 & P5 & V5 & C5). exists 0%Z, x5. split; [exact E5|]. split; [exact W5|].
  split; [reflexivity|]. cbn [i_sys i_prn i_svn i_cospar].
  split; [split; [rewrite S5; reflexivity|]; split; [rewrite P5; reflexivity|]; rewrite A5; split; [apply A1|]; split; [apply A1|]; split|].
  - cbn [i_svn]. intros k Hk. injection Hk as <-. rewrite V5. reflexivity.
  - cbn [i_cospar]. intros k Hk. rewrite C5. destruct (blank (skipn 10 (r_more r))); [discriminate Hk|injection Hk as <-; reflexivity].
  - split; [discriminate|]. rewrite C5. destruct (blank (skipn 10 (r_more r))); [reflexivity|discriminate].
Qed.

(** ** validity interval *)
Section Interval.
  Variable strp : list ascii -> option Z.
  Definition date_of (ls : list (list ascii)) : option Z := match ls with l :: _ => strp l | [] => None end.
  Definition or_else (a b : option Z) : option Z := match a with Some x => Some x | None => b end.
  Definition room (a : option Z) : nat := match a with Some _ => 0 | None => 1 end.

  Lemma labels_exclusive l : labelled "VALID FROM" l = true -> labelled "VALID UNTIL" l = false.
  Proof.
    unfold labelled. intro H. apply list_eqb_eq in H. cbn [String.length lit] in *.
    destruct (skipn 60 l) as [|a [|b [|c [|d [|e [|f [|g m]]]]]]]; cbn in H; try discriminate H; cbn [firstn list_eqb].
    injection H as -> -> -> -> -> -> -> H. reflexivity.
  Qed.

  Lemma valid_exact : forall opt fuel st f start more t buf from to,
    Forall (fun l => body_line l /\ labelled "START OF FREQUENCY" l = false) opt ->
    body_line start -> labelled "START OF FREQUENCY" start = true ->
    length buf = 512 -> length opt < fuel ->
    length (from_lines opt) <= room from -> length (until_lines opt) <= room to -> (from = None \/ to = None) ->
    Forall (fun l => strp l <> None) (from_lines opt) -> Forall (fun l => strp l <> None) (until_lines opt) ->
    on st f (text_of (opt ++ start :: more) ++ t) ->
    exists st' left, valid_loop strp fuel st buf from to = Val (inr (or_else from (date_of (from_lines opt)), or_else to (date_of (until_lines opt)), st')) /\
      on st' f (text_of left ++ t) /\ exists pre, opt ++ start :: more = pre ++ left.
  Proof.
    induction opt as [|l opt IH]; intros fuel st f start more t buf from to F (Cs & Ls) Es B Hf Nf Nu Ne Rf Ru H; (destruct fuel as [|fuel]; [cbn in Hf; lia|]); cbn [app] in H.
    - cbn [valid_loop]. change ATX_GRID_CHARS with 512.
      destruct (on_text st f _ _ _ buf 512 H Cs ltac:(lia) ltac:(lia)) as (st1 & E & H1). rewrite E. cbn [bind].
      assert (X : labelled "VALID FROM" start = false /\ labelled "VALID UNTIL" start = false).
      { unfold labelled in *. apply list_eqb_eq in Es. cbn [String.length lit] in *. destruct (skipn 60 start) as [|a m]; [discriminate Es|]. cbn [firstn] in Es.
        injection Es as -> _. split; reflexivity. }
      destruct X as (X1 & X2).
      rewrite label_other by (first [reflexivity|nonul_lit|lia]). rewrite X1. cbn [bind].
      rewrite label_other by (first [reflexivity|nonul_lit|lia]). rewrite X2. cbn [bind].
      rewrite label_other by (first [reflexivity|nonul_lit|lia]). rewrite Es. cbn [bind].
      exists st1, more. cbn [from_lines until_lines filter date_of]. split; [destruct from, to; try (destruct Ne; discriminate); reflexivity|].
      split; [exact H1|]. exists [start]. reflexivity.
    - inversion F as [|? ? ((C & L) & E0) F']; subst. cbn [valid_loop]. change ATX_GRID_CHARS with 512.
      destruct (on_text st f _ _ _ buf 512 H C ltac:(lia) ltac:(lia)) as (st1 & E & H1). rewrite E. cbn [bind].
      rewrite label_other by (first [reflexivity|nonul_lit|lia]).
      assert (CS : cstr (overlay l buf) 0 = Val l) by (apply cstr_overlay, clean_nul, C). rewrite CS.
      assert (ST : label (overlay l buf) "START OF FREQUENCY" 18 = Val false) by (rewrite label_other by (first [reflexivity|nonul_lit|lia]); rewrite E0; reflexivity).
      assert (B1 : length (overlay l buf) = 512) by (rewrite overlay_length; lia).
      cbn [from_lines until_lines filter] in *.
      destruct (labelled "VALID FROM" l) eqn:LF.
      + rewrite (labels_exclusive l LF) in *. cbn [bind]. inversion Rf as [|? ? Rl Rf']; subst. destruct (strp l) as [d|] eqn:ED; [|congruence].
        destruct from as [x|]; [cbn in Nf; lia|]. cbn [date_of or_else]. rewrite ED. cbn [or_else].
        destruct to as [y|].
        * exists st1, (opt ++ start :: more). split; [reflexivity|]. split; [exact H1|]. exists [l]. reflexivity.
        * rewrite ST. cbn [bind].
          destruct (IH fuel st1 f start more t _ (Some d) None F' (conj Cs Ls) Es B1 ltac:(cbn in Hf; lia) ltac:(cbn in Nf |- *; unfold from_lines; lia) Nu (or_intror eq_refl) Rf' Ru H1)
            as (st' & left & EQ & H2 & pre & P).
          exists st', left. split; [exact EQ|]. split; [exact H2|]. exists (l :: pre). cbn [app]. rewrite P. reflexivity.
      + rewrite label_other by (first [reflexivity|nonul_lit|lia]). destruct (labelled "VALID UNTIL" l) eqn:LU; cbn [bind].
        * inversion Ru as [|? ? Rl Ru']; subst. destruct (strp l) as [d|] eqn:ED; [|congruence].
          destruct to as [x|]; [cbn in Nu; lia|]. cbn [date_of or_else]. rewrite ED. cbn [or_else].
          destruct from as [y|].
          -- exists st1, (opt ++ start :: more). split; [reflexivity|]. split; [exact H1|]. exists [l]. reflexivity.
          -- rewrite ST. cbn [bind].
             destruct (IH fuel st1 f start more t _ None (Some d) F' (conj Cs Ls) Es B1 ltac:(cbn in Hf; lia) Nf ltac:(cbn in Nu |- *; unfold until_lines; lia) (or_introl eq_refl) Rf Ru' H1)
               as (st' & left & EQ & H2 & pre & P).
             exists st', left. split; [exact EQ|]. split; [exact H2|]. exists (l :: pre). cbn [app]. rewrite P. reflexivity.
        * assert (K : match from, to with Some _, Some _ => False | _, _ => True end) by (destruct from, to; try exact I; destruct Ne; discriminate).
          destruct (IH fuel st1 f start more t _ from to F' (conj Cs Ls) Es B1 ltac:(cbn in Hf; lia) Nf Nu Ne Rf Ru H1) as (st' & left & EQ & H2 & pre & P).
          exists st', left. split; [|split; [exact H2|]; exists (l :: pre); cbn [app]; rewrite P; reflexivity].
          etransitivity; [|exact EQ]. clear EQ IH. destruct from, to; try contradiction; rewrite ST; reflexivity.
  Qed.

  Lemma valid_at_dates opt t : dates_ok strp opt ->
    (valid_at strp opt t <-> (exists f, date_of (from_lines opt) = Some f /\ (f <= t)%Z) /\ (forall u, date_of (until_lines opt) = Some u -> (t <= u)%Z)).
  Proof.
    intros (Nf & Nu & Rf & Ru). unfold valid_at. generalize dependent (from_lines opt). generalize dependent (until_lines opt). intros us Nu Ru fs Nf Rf. split.
    - intros ((l & f & I & E & L) & U). split.
      + exists f. split; [|exact L]. destruct fs as [|a [|b fs]]; cbn in Nf, I; [contradiction| |lia]. destruct I as [->|[]]. exact E.
      + intros u Hu. destruct us as [|a us]; [discriminate Hu|]. apply (U a); [left; reflexivity|exact Hu].
    - intros ((f & E & L) & U). split.
      + destruct fs as [|a fs]; [discriminate E|]. exists a, f. split; [left; reflexivity|auto].
      + intros l u I Hu. destruct us as [|a [|b us]]; cbn in Nu, I; [contradiction| |lia]. destruct I as [->|[]]. apply U. exact Hu.
  Qed.

  Theorem interval_exact : forall body opt fuel st f t at_, sat_body body opt -> dates_ok strp opt -> Forall body_line body -> length body <= fuel ->
    on st f (text_of body ++ t) ->
    exists code st' left, check_time_interval strp fuel st at_ = Val (code, st') /\ (code = 0%Z <-> valid_at strp opt at_) /\ (code = 0 \/ code = 1 \/ code = 21)%Z /\
      on st' f (text_of left ++ t) /\ exists pre, body = pre ++ left.
  Proof.
    intros body opt fuel st f t at_ (meth & start & more & -> & Em & Es & Fo) Dk Fb Hf H.
    inversion Fb as [|? ? (Cm & Lm) Fb']; subst. apply Forall_app in Fb' as (Fbo & Fbs). inversion Fbs as [|? ? Bs _]; subst.
    destruct (on_text st f _ _ _ (uninit 512) 512 H Cm ltac:(lia) ltac:(rewrite len_uninit; lia)) as (st1 & E & H1).
    unfold check_time_interval. change ATX_GRID_CHARS with 512. rewrite E. cbn [bind]. rewrite (on_nofail _ _ _ H1).
    rewrite label_other by (first [reflexivity|nonul_lit|lia]). rewrite Em. cbn [bind negb].
    assert (FF : Forall (fun l => body_line l /\ labelled "START OF FREQUENCY" l = false) opt) by (apply Forall_and; assumption).
    assert (Dk' := Dk). destruct Dk' as (Nf & Nu & Rf & Ru).
    destruct (valid_exact opt fuel st1 f start more t (overlay meth (uninit 512)) None None FF Bs Es ltac:(rewrite overlay_length; rewrite len_uninit; lia)
      ltac:(cbn in Hf; rewrite app_length in Hf; cbn in Hf; lia) Nf Nu (or_introl eq_refl) Rf Ru H1) as (st' & left & EQ & H2 & pre & P).
    rewrite EQ. cbn [bind or_else]. pose proof (valid_at_dates opt at_ Dk) as V.
    destruct (date_of (from_lines opt)) as [fd|] eqn:EF.
    - destruct (date_of (until_lines opt)) as [ud|] eqn:EU; (eexists; exists st', left; split; [reflexivity|]; split; [|split; [|split; [exact H2|exists (meth :: pre); cbn [app]; rewrite P; reflexivity]]]).
      + rewrite V. destruct (Z.leb_spec fd at_), (Z.leb_spec at_ ud); cbn [andb]; split; intro X; try discriminate X; try reflexivity.
        * split; [exists fd; auto|]. intros u Hu. injection Hu as <-. assumption.
        * destruct X as (_ & U). specialize (U ud eq_refl). lia.
        * destruct X as ((g & Hg & L) & _). injection Hg as <-. lia.
        * destruct X as ((g & Hg & L) & _). injection Hg as <-. lia.
      + destruct (_ && _); auto.
      + rewrite V. destruct (Z.leb_spec fd at_); split; intro X; try discriminate X; try reflexivity.
        * split; [exists fd; auto|]. discriminate.
        * destruct X as ((g & Hg & L) & _). injection Hg as <-. lia.
      + destruct (_ <=? _)%Z; auto.
    - exists 21%Z, st', left. split; [destruct (date_of (until_lines opt)); reflexivity|]. split; [|split; [auto|split; [exact H2|exists (meth :: pre); cbn [app]; rewrite P; reflexivity]]].
      rewrite V. split; [discriminate|]. intros ((g & Hg & _) & _). discriminate.
  Qed.

  (** ** the search *)
  Definition wantsb (prn : Z) (ss : satsys) (r : ant_src) : bool :=
    match sat_ident r with Some id => (i_prn id =? prn)%Z && satsys_eqb (i_sys id) ss | None => false end.
  Lemma satsys_eqb_iff a b : satsys_eqb a b = true <-> a = b.
  Proof. destruct a, b; cbn; split; intro H; try reflexivity; discriminate. Qed.
  Lemma wantsb_iff prn ss r : wantsb prn ss r = true <-> wants prn ss r.
  Proof.
    unfold wantsb, wants. destruct (sat_ident r) as [id|].
    - rewrite andb_true_iff, Z.eqb_eq, satsys_eqb_iff. split; [intros (A & B); exists id; auto|]. intros (i & E & A & B). injection E as <-. auto.
    - split; [discriminate|]. intros (i & E & _). discriminate.
  Qed.

  (** the interval of the records asked for is readable *)
  Lemma sat_body_opt body o1 o2 : sat_body body o1 -> sat_body body o2 -> o1 = o2.
  Proof.
    intros (m1 & s1 & r1 & E1 & _ & S1 & F1) (m2 & s2 & r2 & E2 & _ & S2 & F2). rewrite E1 in E2. injection E2 as _ E. clear E1.
    revert o2 E F2. induction o1 as [|a o1 IH]; intros o2 E F2; destruct o2 as [|b o2]; cbn [app] in E.
    - reflexivity.
    - injection E as -> _. inversion F2; subst. congruence.
    - injection E as <- _. inversion F1; subst. congruence.
    - injection E as <- E. inversion F1; inversion F2; subst. f_equal. apply IH; auto.
  Qed.

  Definition line_ok (m : mem) : Prop := length m = 85 /\ exists s, cstr0 (skipn 60 m) = Val s.

  Theorem satellite_exact : forall rs fuel tfuel st f line prn ss at_ pos cur s2, Forall ant_ok rs ->
    Forall (fun r => wants prn ss r -> interval_ok strp r) rs -> Forall (fun r => length (r_body r) <= tfuel) rs ->
    length rs < fuel -> line_ok line -> sat_wf cur -> on st f (ants_text rs) -> (rs = [] -> s2 = Some 0%Z) ->
    exists st', sdata st' = f /\ sfail st' = false /\
    ((exists rs1 r rs2 id x, rs = rs1 ++ r :: rs2 /\ Forall (fun q => ~ (wants prn ss q /\ rec_valid strp q at_)) rs1 /\
        sat_ident r = Some id /\ i_prn id = prn /\ i_sys id = ss /\ rec_valid strp r at_ /\ sat_of r id x /\ sat_wf x /\
        satellite_loop strp fuel tfuel st line prn ss at_ pos cur s2 = Val (0%Z, Some (length f - length (ant_tail r ++ ants_text rs2)), Some x, st')) \/
     (Forall (fun q => ~ (wants prn ss q /\ rec_valid strp q at_)) rs /\
      exists p, satellite_loop strp fuel tfuel st line prn ss at_ pos cur s2 = Val (10%Z, p, None, st'))).
  Proof.
    induction rs as [|r rs IH]; intros fuel tfuel st f line prn ss at_ pos cur s2 F FI FB Hf Hl Hw H Hs; (destruct fuel as [|fuel]; [lia|]).
    - change (ants_text []) with (@nil ascii) in H. destruct (end_of_file st f (Some line) H) as (st1 & E & H1). exists st1.
      split; [apply H1|]. split; [exact (on_nofail _ _ _ H1)|]. right. split; [constructor|]. exists pos. cbn [satellite_loop]. rewrite E. cbn [bind].
      rewrite (Hs eq_refl). reflexivity.
    - inversion F as [|? ? Hr F']; subst. inversion FI as [|? ? Ir FI']; subst. inversion FB as [|? ? Br FB']; subst.
      rewrite <- (app_nil_r (ants_text (r :: rs))), ants_cons, app_nil_r in H.
      destruct Hl as (L85 & sx & Cx).
      destruct (read_type r st f _ (Some line) Hr H ltac:(intros m E; injection E as <-; lia)) as (st1 & E & H1).
      cbn [satellite_loop]. rewrite E. cbn [bind]. rewrite (on_tellg _ _ _ H1).
      assert (P1 : spos st1 = length f - length (ant_tail r ++ ants_text rs)) by (pose proof (on_pos _ _ _ H1 (tail_nonempty _ _)); lia).
      set (line1 := map Some (r_model r ++ r_serial r ++ r_more r) ++ skipn 60 line).
      destruct (resolve_exact r (skipn 60 line) sx (set_ssys Mixed cur) Hr Cx Hw) as (code & x & ER & Wx & MI). fold line1 in ER.
      rewrite ER. cbn [bind].
      assert (Hl1 : line_ok line1).
      { destruct (cols60 r Hr) as (L60 & _). split; [unfold line1; rewrite app_length, map_length, L60, skipn_length, L85; reflexivity|].
        exists sx. unfold line1. rewrite skipn_app_exact by (rewrite map_length; symmetry; exact L60). exact Cx. }
      assert (EW : ((code =? 0)%Z && (sat_prn (as_sat x) =? prn)%Z && satsys_eqb (sat_sys (as_sat x)) ss)%bool = wantsb prn ss r).
      { unfold wantsb. destruct (sat_ident r) as [id|].
        - destruct MI as (-> & (S1 & S2 & _) & _). rewrite S1, S2. reflexivity.
        - destruct (Z.eqb_spec code 0); [contradiction|reflexivity]. }
      rewrite EW.
      (* skipping to the next block from any suffix of the body *)
      assert (Sk : forall st2 left, (exists pre, r_body r = pre ++ left) -> on st2 f (text_of left ++ (text_of [stop_line r] ++ ants_text rs)) ->
        exists st3, skip_rest_of_antenna st2 = Val (0%Z, st3) /\ on st3 f (ants_text rs)).
      { intros st2 left (pre & Ep) H2. destruct Hr as (_ & _ & _ & Pd & Fb & Lb). rewrite Ep in Fb, Lb. apply Forall_app in Fb as (_ & Fb).
        rewrite app_length in Lb. eapply (skip_tail r); [exact Fb|exact Pd|apply (Nat.le_trans _ (length pre + length left)); [apply Nat.le_add_l|exact Lb]|].
        rewrite text_of_app, <- app_assoc. exact H2. }
      assert (Next : forall st2 left, (exists pre, r_body r = pre ++ left) -> on st2 f (text_of left ++ (text_of [stop_line r] ++ ants_text rs)) ->
        ~ (wants prn ss r /\ rec_valid strp r at_) ->
        exists st', sdata st' = f /\ sfail st' = false /\
        ((exists rs1 r0 rs2 id x0, r :: rs = rs1 ++ r0 :: rs2 /\ Forall (fun q => ~ (wants prn ss q /\ rec_valid strp q at_)) rs1 /\
            sat_ident r0 = Some id /\ i_prn id = prn /\ i_sys id = ss /\ rec_valid strp r0 at_ /\ sat_of r0 id x0 /\ sat_wf x0 /\
            (do k <- skip_rest_of_antenna st2; let '(s2', st4) := k in
             if (s2' =? 0)%Z then satellite_loop strp fuel tfuel st4 line1 prn ss at_ (Some (spos st1)) x (Some s2')
             else satellite_end 0 (Some s2') (Some (spos st1)) st4) = Val (0%Z, Some (length f - length (ant_tail r0 ++ ants_text rs2)), Some x0, st')) \/
         (Forall (fun q => ~ (wants prn ss q /\ rec_valid strp q at_)) (r :: rs) /\
          exists p, (do k <- skip_rest_of_antenna st2; let '(s2', st4) := k in
             if (s2' =? 0)%Z then satellite_loop strp fuel tfuel st4 line1 prn ss at_ (Some (spos st1)) x (Some s2')
             else satellite_end 0 (Some s2') (Some (spos st1)) st4) = Val (10%Z, p, None, st')))).
      { intros st2 left Pl H2 NW. destruct (Sk st2 left Pl H2) as (st3 & Es & H3).
        destruct (IH fuel tfuel st3 f line1 prn ss at_ (Some (spos st1)) x (Some 0%Z) F' FI' FB' ltac:(cbn in Hf; lia) Hl1 Wx H3 (fun _ => eq_refl))
          as (st' & D & Nf & [(rs1 & r0 & rs2 & id & x0 & Q & Fq & A1 & A2 & A3 & A4 & A5 & A6 & A7)|(Fq & p & A7)]); exists st'; (split; [exact D|]); (split; [exact Nf|]).
        - left. exists (r :: rs1), r0, rs2, id, x0. split; [rewrite Q; reflexivity|]. split; [constructor; assumption|]. do 6 (split; [assumption|]).
          rewrite Es. cbn [bind]. exact A7.
        - right. split; [constructor; assumption|]. exists p. rewrite Es. cbn [bind]. exact A7. }
      assert (H1' : on st1 f (text_of (r_body r) ++ (text_of [stop_line r] ++ ants_text rs))).
      { unfold ant_tail in H1. rewrite text_of_app, <- app_assoc in H1. exact H1. }
      destruct (wantsb prn ss r) eqn:WB.
      + apply wantsb_iff in WB. destruct (Ir WB) as (opt & Sb & Dk).
        assert (Fb : Forall body_line (r_body r)) by (destruct Hr as (_ & _ & _ & _ & Fb & _); eapply Forall_impl; [|exact Fb]; intros l (A & _); exact A).
        destruct (interval_exact (r_body r) opt tfuel st1 f _ at_ Sb Dk Fb Br H1') as (c & st2 & left & EI & V & Cc & H2 & Pl).
        rewrite EI. cbn [bind]. destruct (Z.eqb_spec c 0) as [->|Nc].
        * exists st2. split; [apply H2|]. split; [exact (on_nofail _ _ _ H2)|]. left. destruct WB as (id & Ei & Ep & Es).
          exists [], r, rs, id, x. rewrite Ei in MI. destruct MI as (_ & So & _).
          split; [reflexivity|]. split; [constructor|]. split; [exact Ei|]. split; [exact Ep|]. split; [exact Es|].
          split; [exists opt; split; [exact Sb|split; [exact Dk|apply V; reflexivity]]|]. split; [exact So|]. split; [exact Wx|].
          rewrite P1. reflexivity.
        * apply (Next st2 left Pl H2). intros (_ & o & So & Do & Vo). rewrite (sat_body_opt _ _ _ So Sb) in Vo. apply V in Vo. contradiction.
      + cbn [bind]. change (1 =? 0)%Z with false. cbn iota.
        apply (Next st1 (r_body r)); [exists []; reflexivity|exact H1'|].
        intros (W & _). apply wantsb_iff in W. congruence.
  Qed.

  (** ** without START OF FREQUENCY the check does not return *)
  Lemma valid_bad : forall fuel st buf from to, length buf = 512 -> good st = false -> (from = None \/ to = None) ->
    label buf "VALID FROM" 10 = Val false -> label buf "VALID UNTIL" 11 = Val false -> label buf "START OF FREQUENCY" 18 = Val false ->
    valid_loop strp fuel st buf from to = Fuel.
  Proof.
    induction fuel as [|fuel IH]; intros st buf from to B G Ne L1 L2 L3; [reflexivity|]. cbn [valid_loop]. change ATX_GRID_CHARS with 512.
    destruct (getline_cases st buf 512 ltac:(lia) ltac:(lia)) as (st1 & l & E & Ll & N & D & [(_ & -> & Sf)|(G' & _)]); [|congruence].
    rewrite E. cbn [bind]. rewrite !label_stale by (cbn; lia). rewrite L1. cbn [bind]. rewrite L2. cbn [bind]. rewrite L3. cbn [bind].
    rewrite IH; auto; try (rewrite label_stale by (cbn; lia); assumption).
    - destruct from, to; try reflexivity. destruct Ne; discriminate.
    - rewrite overlay_length; cbn; lia.
    - unfold good. rewrite Sf. apply andb_false_r.
  Qed.
  Lemma valid_never : forall ls fuel st f buf, length buf = 512 -> on st f (text_of ls) ->
    Forall (fun l => body_line l /\ labelled "START OF FREQUENCY" l = false /\ labelled "VALID FROM" l = false /\ labelled "VALID UNTIL" l = false) ls ->
    label buf "VALID FROM" 10 = Val false -> label buf "VALID UNTIL" 11 = Val false -> label buf "START OF FREQUENCY" 18 = Val false ->
    valid_loop strp fuel st buf None None = Fuel.
  Proof.
    induction ls as [|l ls IH]; intros fuel st f buf B H F L1 L2 L3; (destruct fuel as [|fuel]; [reflexivity|]).
    - cbn [valid_loop]. change ATX_GRID_CHARS with 512. destruct (on_end st f buf 512 H ltac:(lia) ltac:(lia)) as (st1 & E & Sf & _).
      rewrite E. cbn [bind]. rewrite !label_stale by (cbn; lia). rewrite L1. cbn [bind]. rewrite L2. cbn [bind]. rewrite L3. cbn [bind].
      apply valid_bad; auto; try (rewrite label_stale by (cbn; lia); assumption).
      + rewrite overlay_length; cbn; lia.
      + unfold good. rewrite Sf. apply andb_false_r.
    - inversion F as [|? ? ((C & L) & X1 & X2 & X3) F']; subst. cbn [valid_loop]. change ATX_GRID_CHARS with 512.
      rewrite <- (app_nil_r (text_of _)) in H.
      destruct (on_text st f _ _ _ buf 512 H C ltac:(lia) ltac:(lia)) as (st1 & E & H1). rewrite app_nil_r in H1. rewrite E. cbn [bind].
      assert (A1 : label (overlay l buf) "VALID FROM" 10 = Val false) by (rewrite label_other by (first [reflexivity|nonul_lit|lia]); rewrite X2; reflexivity).
      assert (A2 : label (overlay l buf) "VALID UNTIL" 11 = Val false) by (rewrite label_other by (first [reflexivity|nonul_lit|lia]); rewrite X3; reflexivity).
      assert (A3 : label (overlay l buf) "START OF FREQUENCY" 18 = Val false) by (rewrite label_other by (first [reflexivity|nonul_lit|lia]); rewrite X1; reflexivity).
      rewrite A1. cbn [bind]. rewrite A2. cbn [bind]. rewrite A3. cbn [bind]. eapply IH; eauto. rewrite overlay_length; lia.
  Qed.
End Interval.
