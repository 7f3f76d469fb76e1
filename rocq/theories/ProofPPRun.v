(** ProofPPRun: proofs about the main loop of test/pp_rnx.cpp *)
From Coq Require Import Reals Lra Lia ZArith List QArith Qreals Qround.
From Verif Require ProofB64.
From Verif Require Import B64 Base BaseLemmas CNum CNumLemmas Stream ModelSatsys ModelSatellite ModelObs ModelObsRnx ModelNav ModelOrbit ModelApp ModelPP
  SpecText SpecNum SpecObs SpecNav ProofText ProofNum ProofStream ProofObsRec ProofCollect ProofEpoch ProofNav ProofNavList ProofApp SpecApp SpecPP SpecPPRun ProofPP.
Import ListNotations.
Local Open Scope R_scope.

Definition same_head (e e' : satentry) : Prop := fst e = fst e' /\ nth_error (snd e) 0 = nth_error (snd e') 0.
Lemma same_observed e e' v : same_head e e' -> observed e v -> observed e' v.
Proof. intros (_ & H) (A & B). split; [congruence|exact B]. Qed.
Lemma same_sym e e' : same_head e e' -> same_head e' e. Proof. intros (A & B). split; auto. Qed.
Lemma same_supplies gv src ell pos d t e e' m : same_head e e' -> supplies gv src ell pos d t e m -> supplies gv src ell pos d t e' m.
Proof.
  intros H (v & g & a & A & B & R). exists v, g, a. split; [apply (same_observed e); assumption|]. split; [|exact R]. unfold message_for in *. rewrite <- (proj1 H). exact B.
Qed.
Lemma same_nothing gv src ell pos cal bs t e e' : same_head e e' -> supplies_nothing gv src ell pos (none_usable cal bs t) t e -> supplies_nothing gv src ell pos (none_usable cal bs t) t e'.
Proof.
  intros H [(v & A & B)|[A|(g & sv & A & R)]].
  - left. exists v. split; [rewrite <- (proj2 H); exact A|]. intro C. apply B, (same_observed e'); [apply same_sym|]; assumption.
  - right. left. unfold none_usable in *. rewrite <- (proj1 H). exact A.
  - right. right. exists g, sv. split; [|exact R]. unfold message_for in *. rewrite <- (proj1 H). exact A.
Qed.
Lemma same_below src ell pos t e e' : same_head e e' -> far_below src ell pos t e -> far_below src ell pos t e'.
Proof. intros H (g & sv & a & A & R). exists g, sv, a. split; [|exact R]. unfold message_for in *. rewrite <- (proj1 H). exact A. Qed.
Lemma same_serviced cal bs e e' : same_head e e' -> serviced cal bs e -> serviced cal bs e'.
Proof.
  intros (H1 & H2) (A & B & C). unfold serviced. rewrite <- H1. split; [exact A|]. split; [|exact C]. intro X. rewrite X in H2. cbn in H2. destruct (snd e); [congruence|discriminate].
Qed.
Lemma same_selection {B} (u : satentry -> B -> Prop) (s : satentry -> Prop) (l l' : list satentry) (m : list B) : (forall e e' b, same_head e e' -> u e b -> u e' b) -> (forall e e', same_head e e' -> s e -> s e') ->
  Forall2 same_head l l' -> selection u s l m -> selection u s l' m.
Proof.
  intros U S F H. revert l' F. induction H as [|a b l m Ha H IH|a l m Ha H IH]; intros l' F; inversion F as [|? e' ? l2 Fh Ft]; subst; [constructor| |].
  - apply sel_use; [apply (U a); assumption|apply IH, Ft].
  - apply sel_skip; [apply (S a); assumption|apply IH, Ft].
Qed.

Lemma delivered_entries : forall new out, delivers out new -> Forall (fun e => snd e <> []) (map entry_of new) ->
  (length new <= length out)%nat /\ Forall2 same_head (map entry_of new) (firstn (length new) out).
Proof.
  induction new as [|[[s p] v] new IH]; intros out D Ne; [split; [apply Nat.le_0_l|constructor]|].
  cbn [map entry_of] in Ne. inversion Ne as [|? ? N1 N2]; subst. cbn [snd] in N1.
  destruct (D 0%nat s p v eq_refl) as (w & E). destruct out as [|e out]; [discriminate|]. cbn in E. injection E as ->.
  destruct (IH out) as (L & F); [intros i s' p' v' E; apply (D (S i)); exact E|exact N2|].
  split; [cbn [length]; lia|]. cbn [map entry_of length firstn]. constructor; [|exact F]. split; [reflexivity|]. destruct v; [congruence|reflexivity].
Qed.

Lemma epoch_ms_ok day h e : header_of h e -> (0 <= spec_sec e < 100000)%Q -> epoch_ms day h = Val (epoch_time day e).
Proof.
  intros (H1 & H2 & _) (L & U). unfold epoch_ms, epoch_time. rewrite H1, H2.
  assert (B0 : (0 <= b64 (spec_sec e * 1000))%Q) by (apply ProofB64.b64_nonneg, Qmult_le_0_compat; [exact L|discriminate]).
  assert (P : Qle_bool 0 (b64 (spec_sec e * 1000)) = true) by (apply Qle_bool_iff; exact B0). rewrite P.
  assert (F0 : (0 <= Qfloor (b64 (spec_sec e * 1000)))%Z) by (apply (Qfloor_resp_le 0); exact B0).
  assert (F1 : (Qfloor (b64 (spec_sec e * 1000)) <= 100000000)%Z).
  { rewrite <- (Qfloor_Z 100000000). apply Qfloor_resp_le. rewrite <- (ProofB64.b64_int 100000000) by lia.
    apply ProofB64.b64_le; [apply ProofB64.b64_double|]. rewrite (ProofB64.b64_int 100000000) by lia. apply Qle_trans with (100000 * 1000)%Q; [apply Qmult_le_compat_r; [apply Qlt_le_weak; exact U|discriminate]|vm_compute; discriminate]. }
  replace (_ && _)%bool with true; [reflexivity|]. symmetry. apply andb_true_intro. split; [apply Z.leb_le|apply Z.ltb_lt]; lia.
Qed.

Lemma run_total en cal bs ell day pos tr plan : forall eps k o out last p, in_order en cal bs (p_cache p) (p_nav p) (p_errno p) ->
  ready o (file_text eps) -> Forall (fun ep => epoch_ok plan (o_bufsz o) (fst ep) (snd ep)) eps -> wide plan out ->
  Forall (fun ep => (length (taken plan (snd ep)) <= length out)%nat) eps -> Forall (epoch_fine day cal bs plan) eps ->
  (last <> None /\ (exists t h, last = Some h /\ epoch_ms day h = Val t) \/ eps <> []) -> (length eps < k)%nat ->
  (exists calls, pp_loop k en ell day pos tr plan o out last p = Val ((-1)%Z, calls) /\ selection (contributes ell day pos (saas_correction tr) cal bs plan) (few plan) eps calls) \/
  (pp_loop k en ell day pos tr plan o out last p = Term /\ Exists (idle ell day pos cal bs plan) eps) \/
  (pp_loop k en ell day pos tr plan o out last p = Exn /\ Exists (sunken ell day pos cal bs plan) eps).
Proof.
  induction eps as [|[e recs] eps IH]; intros k o out last p Io Rd Hok W Ht Hf Hl Hk; (destruct k as [|k]; [inversion Hk|]); cbn [pp_loop].
  - destruct Hl as [(_ & t & h & -> & Et)|X]; [|congruence]. destruct (epoch_eof plan o out Rd) as (r & -> & E1 & E2 & E3 & E4 & _). cbn [bind]. rewrite E4, Et. cbn [bind].
    rewrite E2. unfold epoch_step. change (4 <? 0)%nat with false. cbn [bind]. rewrite E1. left. exists []. split; [reflexivity|constructor].
  - inversion Hok as [|? ? Ok1 Hok']; subst. inversion Ht as [|? ? T1 Ht']; subst. inversion Hf as [|? ? F1 Hf']; subst. cbn [fst snd length] in *.
    destruct F1 as (Sec & L30 & Sv). cbn [fst snd] in *.
    assert (H1 : ready o (epoch_text e recs ++ file_text eps)) by exact Rd.
    destruct (epoch_read plan o e recs _ out H1 Ok1 W T1) as (r & h & Er & E0 & Eh & Hh & Es & Eo & Rd' & Bs & _).
    rewrite Er. cbn [bind]. rewrite Eh. pose proof (epoch_ms_ok day h e Hh Sec) as Em. rewrite Em. cbn [bind].
    assert (Ne : Forall (fun e => snd e <> []) (map entry_of (taken plan recs))) by (revert Sv; apply Forall_impl; intros x (_ & X & _); exact X).
    assert (Dl : delivers (er_out r) (taken plan recs)) by (rewrite Eo; apply fill_delivers; exact T1).
    destruct (delivered_entries _ _ Dl Ne) as (Lo & F2).
    assert (Sv2 : Forall (serviced cal bs) (firstn (er_sats r) (er_out r))).
    { rewrite Es. clear - Sv F2. revert Sv. induction F2 as [|a b l m Hab F2 IH]; intro Sv; [constructor|]. inversion Sv; subst. constructor; [apply (same_serviced _ _ a); assumption|auto]. }
    assert (F2' : Forall2 same_head (firstn (er_sats r) (er_out r)) (map entry_of (taken plan recs))).
    { rewrite Es. clear - F2. induction F2; constructor; [apply same_sym; assumption|assumption]. }
    rewrite <- Es in Lo, L30.
    destruct (epoch_total en cal bs ell pos tr (er_sats r) (er_out r) (e_sec h) (epoch_time day e) p Io Lo L30 Sv2) as [(q & call & -> & Iq & K)|[(-> & L4 & F)|(-> & L4 & F)]]; cbn [bind].
    + rewrite E0. change (0 =? 0)%Z with true. cbv iota.
      assert (Hok2 : Forall (fun ep => epoch_ok plan (o_bufsz (er_obj r)) (fst ep) (snd ep)) eps) by (rewrite Bs; exact Hok').
      assert (W2 : wide plan (er_out r)) by (rewrite Eo; apply fill_wide; exact W).
      assert (Ht2 : Forall (fun ep => (length (taken plan (snd ep)) <= length (er_out r))%nat) eps) by (rewrite Eo, fill_length; exact Ht').
      destruct (IH k (er_obj r) (er_out r) (Some h) q Iq Rd' Hok2 W2 Ht2 Hf') as [(calls & -> & Sel)|[(-> & F)|(-> & F)]]; cbn [bind].
      { left. split; [discriminate|]. exists (epoch_time day e), h. split; [reflexivity|exact Em]. }
      { lia. }
      * left. destruct K as [(L4 & ->)|(L4 & u & -> & A1 & A2 & A3 & A4 & A5 & A6)].
        -- exists calls. split; [reflexivity|]. apply sel_skip; [|exact Sel]. unfold few. cbn [snd]. rewrite <- Es. exact L4.
        -- exists (u :: calls). split; [reflexivity|]. apply sel_use; [|exact Sel]. unfold contributes. cbn [fst snd]. rewrite map_length, <- Es.
           split; [exact L4|]. repeat (split; [assumption|]). split; [rewrite A5; apply Hh|].
           apply (same_selection _ _ (firstn (er_sats r) (er_out r))); [intros x y b; apply same_supplies|intros x y; apply same_nothing|exact F2'|exact A6].
      * right. left. split; [reflexivity|right; exact F].
      * right. right. split; [reflexivity|right; exact F].
    + right. left. split; [reflexivity|]. left. split; cbn [fst snd]; [rewrite <- Es; exact L4|]. clear - F F2'. revert F. induction F2'; intro F; [constructor|]. inversion F; subst. constructor; [eapply same_nothing; eassumption|auto].
    + right. right. split; [reflexivity|]. left. split; cbn [fst snd]; [rewrite <- Es; exact L4|]. clear - F F2'. revert F. induction F2' as [|a b l m Hab F2 IH]; intro F; inversion F; subst; [left; apply (same_below _ _ _ _ a); assumption|right; auto].
Qed.

(** ** without assumptions on the files: the calls made follow the epochs read *)
Lemma no_header_no_sats o plan out r : read_next_epoch o plan out = Val r -> er_hdr r = None -> er_sats r = 0%nat.
Proof.
  unfold read_next_epoch. destruct (peek (o_stream o)) as (st0, [c|]).
  - intros H N. apply bind_inv in H as ((st1, buf1) & _ & H). apply bind_inv in H as ((j, hdr) & _ & H).
    destruct hdr as [h|]; [|apply Val_inj in H; subst r; reflexivity]. apply bind_inv in H as (((((j2, n), out'), st2), buf2) & _ & H).
    destruct (negb _); [apply Val_inj in H; subst r; discriminate N|]. destruct (seof st2); apply Val_inj in H; subst r; discriminate N.
  - intros H _. destruct (seof st0); apply Val_inj in H; subst r; reflexivity.
Qed.
Lemma history_keeps en nav sys : keeps en (history en nav) sys.
Proof. intros cache st e prn t r (reqs & H) E. exists (reqs ++ [(sys, prn, t)]). exact (one_more _ _ _ _ _ _ _ _ _ _ _ _ _ H E). Qed.
Lemma run_inv en ell day pos tr plan nav : forall k o out last p code calls, history en nav (p_cache p) (p_nav p) (p_errno p) ->
  pp_loop k en ell day pos tr plan o out last p = Val (code, calls) ->
  exists rs, read_n (length rs) o plan out = Val rs /\ code <> 0%Z /\ (exists pre z, rs = pre ++ [z] /\ er_code z = code /\ Forall (fun r => er_code r = 0%Z) pre) /\
    selection (answers en nav ell day pos (saas_correction tr)) (fun r => (er_sats r <= 4)%nat) rs calls.
Proof.
  induction k as [|k IH]; intros o out last p code calls Np H; cbn [pp_loop] in H; [discriminate|].
  apply bind_inv in H as (r & Er & H).
  assert (Q : forall h, (match er_hdr r with Some h => Some h | None => last end) = Some h -> forall t q call, epoch_ms day h = Val t -> epoch_step en ell pos tr (er_sats r) (er_out r) (e_sec h) t p = Val (q, call) ->
     history en nav (p_cache q) (p_nav q) (p_errno q) /\ ((er_sats r <= 4)%nat /\ call = None \/ exists u, call = Some u /\ answers en nav ell day pos (saas_correction tr) r u)).
  { intros h Eh t q call Et Hs. destruct (epoch_step_inv en ell pos tr _ _ _ t (history en nav) p q call (fun e _ => history_keeps en nav _) Np Hs) as [(L4 & -> & ->)|(L4 & Nq & u & -> & A)]; [auto|].
    split; [exact Nq|]. right. exists u. split; [reflexivity|]. split; [lia|]. exists h, t. split; [|split; [exact Et|exact A]].
    destruct (er_hdr r) eqn:E; [congruence|]. rewrite (no_header_no_sats _ _ _ _ Er E) in L4. lia. }
  destruct (match er_hdr r with Some h => Some h | None => last end) as [h|] eqn:Eh.
  - apply bind_inv in H as (t & Et & H). apply bind_inv in H as ((q, call) & Hs & H). destruct (Q h eq_refl t q call Et Hs) as (Nq & K).
    destruct (Z.eqb_spec (er_code r) 0) as [Z0|Nz].
    + apply bind_inv in H as ((code', calls') & Hk & H). apply Val_inj in H. cbn [fst snd] in H. injection H as -> <-.
      destruct (IH _ _ _ _ _ _ Nq Hk) as (rs & Rn & C & (pre & z & -> & Cz & Fp) & Sel).
      exists (r :: pre ++ [z]). cbn [length read_n]. rewrite Er. cbn [bind]. rewrite Rn. cbn [bind]. split; [reflexivity|]. split; [exact C|].
      split; [exists (r :: pre), z; split; [reflexivity|split; [exact Cz|constructor; assumption]]|].
      destruct K as [(L4 & ->)|(u & -> & A)]; [apply sel_skip; assumption|apply sel_use; assumption].
    + apply Val_inj in H. injection H as <- <-. exists [r]. cbn [length read_n]. rewrite Er. cbn [bind]. split; [reflexivity|]. split; [exact Nz|].
      split; [exists [], r; split; [reflexivity|split; [reflexivity|constructor]]|].
      destruct K as [(L4 & ->)|(u & -> & A)]; [apply sel_skip; [assumption|constructor]|apply sel_use; [assumption|constructor]].
  - destruct ((er_code r =? 24) || (er_code r =? 25))%Z eqn:C; [|discriminate]. apply Val_inj in H. injection H as <- <-.
    exists [r]. cbn [length read_n]. rewrite Er. cbn [bind]. split; [reflexivity|]. split; [apply orb_true_iff in C as [C|C]; apply Z.eqb_eq in C; lia|].
    split; [exists [], r; split; [reflexivity|split; [reflexivity|constructor]]|]. apply sel_skip; [|constructor].
    destruct (er_hdr r) eqn:E; [discriminate|]. rewrite (no_header_no_sats _ _ _ _ Er E). lia.
Qed.
