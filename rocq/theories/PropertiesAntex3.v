(** PropertiesAntex3: C34 again (dates that cannot be read) *)
From Verif Require Import Base BaseLemmas CNum CNumLemmas Stream ModelSatsys ModelObs ModelNvarstr ModelSatellite ModelAntenna
  ModelAntex SpecText SpecNum SpecObs SpecHeader SpecAntex SpecAntexObj ProofText ProofAntenna ProofNum ProofStream ProofObsTypes ProofObsRec ProofHeader ProofAntex
  ProofAntexFind ProofAntexSkip ProofAntexPco ProofAntexSat ProofAntexHeader ProofAntexApi ProofAntexTerm PropertiesAntex.

Section Bad.
  Variable strp : list ascii -> option Z.
  Lemma valid_bad_date : forall pre fuel st f bad more t buf from to,
    Forall (fun l => body_line l /\ labelled "START OF FREQUENCY" l = false) pre -> length buf = 512 -> length pre < fuel -> (from = None \/ to = None) ->
    (from_lines pre = [] /\ from = None \/ until_lines pre = [] /\ to = None) ->
    Forall (fun l => strp l <> None) (from_lines pre) -> Forall (fun l => strp l <> None) (until_lines pre) ->
    body_line bad -> (labelled "VALID FROM" bad = true \/ labelled "VALID UNTIL" bad = true) -> strp bad = None ->
    on st f (text_of (pre ++ bad :: more) ++ t) ->
    exists st', valid_loop strp fuel st buf from to = Val (inl ((if labelled "VALID FROM" bad then 11 else 12)%Z, st')).
  Proof.
    induction pre as [|l pre IH]; intros fuel st f bad more t buf from to F B Hf Ne Nd Rf Ru (Cb & Lb) Eb Db H; (destruct fuel as [|fuel]; [cbn in Hf; lia|]); cbn [app] in H; cbn [valid_loop]; change ATX_GRID_CHARS with 512.
    - destruct (on_text st f _ _ _ buf 512 H Cb ltac:(lia) ltac:(lia)) as (st1 & E & H1). rewrite E. cbn [bind]. exists st1.
      assert (CS : cstr (overlay bad buf) 0 = Val bad) by (apply cstr_overlay, clean_nul, Cb). rewrite CS.
      rewrite label_other by (first [reflexivity|nonul_lit|lia]). destruct (labelled "VALID FROM" bad) eqn:LF; cbn [bind]; [rewrite Db; reflexivity|].
      destruct Eb as [Eb|Eb]; [congruence|]. rewrite label_other by (first [reflexivity|nonul_lit|lia]). rewrite Eb. cbn [bind]. rewrite Db. reflexivity.
    - inversion F as [|? ? ((C & L) & E0) F']; subst. destruct (on_text st f _ _ _ buf 512 H C ltac:(lia) ltac:(lia)) as (st1 & E & H1). rewrite E. cbn [bind].
      assert (CS : cstr (overlay l buf) 0 = Val l) by (apply cstr_overlay, clean_nul, C). rewrite CS.
      assert (ST : label (overlay l buf) "START OF FREQUENCY" 18 = Val false) by (rewrite label_other by (first [reflexivity|nonul_lit|lia]); rewrite E0; reflexivity).
      assert (B1 : length (overlay l buf) = 512) by (rewrite overlay_length; lia).
      cbn [from_lines until_lines filter] in *. rewrite label_other by (first [reflexivity|nonul_lit|lia]).
      destruct (labelled "VALID FROM" l) eqn:LF.
      + rewrite (labels_exclusive l LF) in *. cbn [bind]. inversion Rf as [|? ? Rl Rf']; subst. destruct (strp l) as [d|] eqn:ED; [|congruence].
        destruct Nd as [(Nd & _)|(Nd & ->)]; [discriminate|]. rewrite ST. cbn [bind].
        refine (IH fuel st1 f bad more t _ (Some d) None F' B1 ltac:(cbn in Hf; lia) (or_intror eq_refl) (or_intror (conj Nd eq_refl)) Rf' Ru (conj Cb Lb) Eb Db H1).
      + rewrite label_other by (first [reflexivity|nonul_lit|lia]). destruct (labelled "VALID UNTIL" l) eqn:LU; cbn [bind].
        * inversion Ru as [|? ? Rl Ru']; subst. destruct (strp l) as [d|] eqn:ED; [|congruence].
          destruct Nd as [(Nd & ->)|(Nd & _)]; [|discriminate]. rewrite ST. cbn [bind].
          refine (IH fuel st1 f bad more t _ None (Some d) F' B1 ltac:(cbn in Hf; lia) (or_introl eq_refl) (or_introl (conj Nd eq_refl)) Rf Ru' (conj Cb Lb) Eb Db H1).
        * rewrite ST. cbn [bind].
          assert (Q : exists st', valid_loop strp fuel st1 (overlay l buf) from to = Val (inl ((if labelled "VALID FROM" bad then 11 else 12)%Z, st')))
            by (refine (IH fuel st1 f bad more t _ from to F' B1 ltac:(cbn in Hf; lia) Ne Nd Rf Ru (conj Cb Lb) Eb Db H1)).
          destruct from, to; [destruct Ne; discriminate|exact Q|exact Q|exact Q].
  Qed.
End Bad.
(** a date that cannot be read, before the interval is complete: codes 11 and 12, and the block does not count
    as valid, whatever the time asked for *)
Theorem C34_bad_date : forall strp meth pre bad more fuel st t at_, body_line meth -> labelled "METH / BY / # / DATE" meth = true ->
  Forall (fun l => body_line l /\ labelled "START OF FREQUENCY" l = false) pre ->
  (from_lines pre = [] \/ until_lines pre = []) -> Forall (fun l => strp l <> None) (from_lines pre) -> Forall (fun l => strp l <> None) (until_lines pre) ->
  body_line bad -> (labelled "VALID FROM" bad = true \/ labelled "VALID UNTIL" bad = true) -> strp bad = None -> (length pre < fuel)%nat ->
  at_line st (text_of (meth :: pre ++ bad :: more) ++ t) ->
  exists st', check_time_interval strp fuel st at_ = Val ((if labelled "VALID FROM" bad then 11 else 12)%Z, st').
Proof.
  intros strp meth pre bad more fuel st t at_ (Cm & Lm) Em F Nd Rf Ru Bb Eb Db Lf (G & R). unfold check_time_interval. change ATX_GRID_CHARS with 512%nat.
  assert (O : on st (sdata st) (text_of (meth :: pre ++ bad :: more) ++ t)) by (split; [exact G|]; split; [reflexivity|exact R]).
  destruct (on_text st (sdata st) _ _ _ (uninit 512) 512 O Cm ltac:(lia) ltac:(rewrite len_uninit; lia)) as (st1 & E & H1). rewrite E. cbn [bind]. rewrite (on_nofail _ _ _ H1).
  rewrite label_other by (first [reflexivity|nonul_lit|lia]). rewrite Em. cbn [bind negb].
  destruct (valid_bad_date strp pre fuel st1 (sdata st) bad more t (overlay meth (uninit 512)) None None) as (st' & ->); auto.
  - rewrite overlay_length; rewrite len_uninit; lia.
  - destruct Nd; auto.
  - exists st'. reflexivity.
Qed.
Print Assumptions C34_bad_date.
Example C34_bad_ex : let strp := fun l => if list_eqb l until_2008 then None else year l in
  body_line (k_meth ks) /\ labelled "METH / BY / # / DATE" (k_meth ks) = true /\ body_line from_2004 /\ strp from_2004 <> None /\ labelled "VALID UNTIL" until_2008 = true /\ strp until_2008 = None /\
  exists st', check_time_interval strp 3 (open_stream (text_of [k_meth ks; from_2004; until_2008])) 2005 = Val (12%Z, st').
Proof.
  cbv zeta. split; [lline|]. split; [reflexivity|]. split; [lline|]. split; [vm_compute; discriminate|]. split; [reflexivity|]. split; [vm_compute; reflexivity|]. eexists. vm_compute. reflexivity.
Qed.
