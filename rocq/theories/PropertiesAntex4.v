(** PropertiesAntex4: C84 again (what a new object is) *)
From Verif Require Import Base BaseLemmas CNum CNumLemmas Stream ModelSatsys ModelAntex ModelAntexObj SpecText SpecNum SpecObs SpecHeader SpecAntex SpecAntexObj
  ProofText ProofNum ProofStream ProofAntexSkip ProofAntexHeader ProofAntexApi PropertiesAntex PropertiesAntex2.
Open Scope string_scope.
Open Scope list_scope.

(** an object made for a file with a conforming header holds the file's system and version, remembers where the
    header ends, and stands there *)
Theorem C84_open : forall (fs : list ascii -> option (list ascii)) name h s t, atxh_ok h s -> fs name = Some (atxh_text h ++ t) ->
  exists o st, new_antex fs name = Val o /\ ax_name o = name /\ ax_sys o = s /\
    ax_version o = (if Qeq_bool (num_dec (x_version h)) (14 # 10) then V14 else V13) /\
    ax_eoh o = Some (length (atxh_text h)) /\ ax_stream o = Some st /\ at_line st t /\ sdata st = atxh_text h ++ t.
Proof.
  intros fs name h s t Hh Hf. destruct (C79_header_partial h s (open_stream (atxh_text h ++ t)) t Hh eq_refl eq_refl) as (st' & E & A & D).
  unfold new_antex, ifs_open. cbn [i_file]. rewrite Hf. unfold ax_finish, ax_read_header. cbn [ax_ifs i_file i_pos i_eof i_fail].
  change (mkStream (atxh_text h ++ t) 0 false false) with (open_stream (atxh_text h ++ t)). rewrite E. cbn [noexcept bind a_code].
  change (0 =? 0)%Z with true. cbv iota. eexists. exists st'. split; [reflexivity|]. cbn [ax_name ax_sys ax_version ax_eoh a_sys a_version a_eoh].
  split; [reflexivity|]. split; [reflexivity|]. split; [reflexivity|]. split; [reflexivity|]. split; [|split; [exact A|exact D]].
  unfold ax_stream, of_stream. cbn [ax_ifs i_file i_pos i_eof i_fail a_stream]. destruct st'. reflexivity.
Qed.
Print Assumptions C84_open.
(** and no object is made for a file that cannot be opened or whose header is refused *)
Theorem C84_refused : forall (fs : list ascii -> option (list ascii)) name,
  (fs name = None -> new_antex fs name = Exn) /\
  (forall d r, fs name = Some d -> atx_read_header (open_stream d) = Val r -> a_code r <> 0%Z -> new_antex fs name = Exn).
Proof.
  intros fs name. split.
  - intro Hf. unfold new_antex, ifs_open. cbn [i_file]. rewrite Hf. unfold ax_finish, ax_read_header. cbn [ax_ifs i_file bind]. reflexivity.
  - intros d r Hf E N. unfold new_antex, ifs_open. cbn [i_file]. rewrite Hf. unfold ax_finish, ax_read_header. cbn [ax_ifs i_file i_pos i_eof i_fail].
    change (mkStream d 0 false false) with (open_stream d). rewrite E. cbn [noexcept bind]. apply Z.eqb_neq in N. rewrite N. reflexivity.
Qed.
Print Assumptions C84_refused.
Example C84_open_ex : atxh_ok h0 Mixed /\ disk (lit "igs14.atx") = Some (atxh_text h0 ++ []) /\ disk (lit "none.atx") = None.
Proof.
  split; [exact h0_ok|]. split; unfold disk; destruct (list_eq_dec _ _ _) as [X|X]; try reflexivity; try contradiction. discriminate X.
Qed.
