(** PropertiesAntex2: C84, one Antex object used for several files *)
From Verif Require Import Base BaseLemmas CNum CNumLemmas Stream ModelSatsys ModelAntex ModelAntexObj SpecText SpecNum SpecObs SpecHeader SpecAntex SpecAntexObj
  ProofText ProofNum ProofStream ProofAntexSkip ProofAntexHeader ProofAntexApi PropertiesAntex.
Open Scope string_scope.
Open Scope list_scope.

Section Files.
Variable strp : list ascii -> option Z.
Variables fuel tfuel : nat.
Variable line0 : mem.
(** what a program may do with one object: switch it to a file (the file system may have changed in the
    meantime; the exception, if any, is caught), or ask it something *)
Inductive action := Switch (fs : list ascii -> option (list ascii)) (name : list ascii) | Ask (q : query).
Inductive run : antex -> list action -> antex -> Prop :=
| run_nil o : run o [] o
| run_switch o fs name thrown o1 l o2 : reset_to_file fs o name = Val (thrown, o1) -> run o1 l o2 -> run o (Switch fs name :: l) o2
| run_ask o q s a s' l o2 : ax_stream o = Some s -> ask strp fuel tfuel line0 (ax_eoh o) s q = Val (a, s') -> run (ax_after o s') l o2 ->
    run o (Ask q :: l) o2.
(** the answers of an object to a sequence of questions *)
Inductive answers : antex -> list query -> list answer -> Prop :=
| ans_nil o : answers o [] []
| ans_cons o q s a s' qs l : ax_stream o = Some s -> ask strp fuel tfuel line0 (ax_eoh o) s q = Val (a, s') -> answers (ax_after o s') qs l ->
    answers o (q :: qs) (a :: l).

(** whatever the object was used for, switching it to a file either throws exactly when constructing a new
    object for the file does, or makes it that new object *)
Theorem C84_switch : forall o0 h o fs name, run o0 h o ->
  match new_antex fs name with
  | Val o' => reset_to_file fs o name = Val (false, o')
  | Exn => exists o', reset_to_file fs o name = Val (true, o') /\ ax_stream o' = None
  | UB => reset_to_file fs o name = UB
  | Term => reset_to_file fs o name = Term
  | Fuel => reset_to_file fs o name = Fuel
  end.
Proof.
  intros o0 h o fs name _. unfold new_antex, reset_to_file.
  assert (C : forall i, i_file i = None -> exists j, ifs_open fs i name = j /\ (fs name = None -> i_file j = None) /\ (forall d, fs name = Some d -> j = mkIfs (Some d) 0 false false)).
  { intros i Hi. eexists. split; [reflexivity|]. unfold ifs_open. rewrite Hi. destruct (fs name); split; intros; congruence || reflexivity. }
  set (i := match i_file (ax_ifs o) with Some _ => _ | None => _ end).
  assert (Hi : i_file i = None) by (unfold i; destruct (i_file (ax_ifs o)) eqn:E; [reflexivity|exact E]).
  destruct (fs name) as [d|] eqn:Ef.
  - destruct (C _ Hi) as (j & -> & _ & K1). rewrite (K1 d eq_refl). destruct (C (mkIfs None 0 false false) eq_refl) as (j2 & -> & _ & K2). rewrite (K2 d eq_refl).
    clear. unfold ax_finish, ax_read_header. cbn [i_file ax_ifs i_pos i_eof i_fail].
    destruct (atx_read_header _) as [r| | | |]; cbn [bind noexcept]; try reflexivity.
    destruct (a_code r =? 0)%Z; cbn [bind i_file of_stream ax_ifs]; [reflexivity|]. eexists. split; reflexivity.
  - destruct (C _ Hi) as (j & -> & K1 & _). destruct (C (mkIfs None 0 false false) eq_refl) as (j2 & -> & K2 & _).
    unfold ax_finish, ax_read_header. cbn [ax_ifs]. rewrite (K1 eq_refl), (K2 eq_refl). cbn [bind ax_ifs]. change (1 =? 0)%Z with false. cbv iota.
    cbn [bind]. eexists. split; [reflexivity|]. rewrite (K1 eq_refl). unfold ax_stream. cbn [ax_ifs]. rewrite (K1 eq_refl). reflexivity.
Qed.
(** so after any history that ends by switching to a file, an open object is a new object for that file, and
    answers every sequence of questions as it would *)
Theorem C84_answers : forall o0 h fs name o, run o0 (h ++ [Switch fs name]) o -> ax_stream o <> None ->
  exists o', new_antex fs name = Val o' /\ forall qs l, answers o qs l <-> answers o' qs l.
Proof.
  intros o0 h fs name o H N.
  assert (X : exists o1 thrown, run o0 h o1 /\ reset_to_file fs o1 name = Val (thrown, o)).
  { revert o0 H. induction h as [|a h IH]; intros o0 H; cbn [app] in H.
    - inversion H as [|? ? ? th ? ? ? E R|]; subst. inversion R; subst. exists o0, th. split; [constructor|exact E].
    - inversion H as [|? ? ? th ? ? ? E R|? ? ? ? ? ? ? E1 E2 R]; subst; destruct (IH _ R) as (o1 & t & R1 & E3); exists o1, t; (split; [|exact E3]); econstructor; eassumption. }
  destruct X as (o1 & th & R & E). pose proof (C84_switch o0 h o1 fs name R) as K. destruct (new_antex fs name) as [o'| | | |].
  - exists o'. rewrite E in K. injection K as _ <-. split; [reflexivity|]. intros; reflexivity.
  - destruct K as (o2 & K1 & K2). rewrite E in K1. injection K1 as _ <-. contradiction.
  - congruence.
  - congruence.
  - congruence.
Qed.
End Files.
Print Assumptions C84_switch.
Print Assumptions C84_answers.
(** an object made for the default file, switched to a missing one and then to a well-formed one *)
Definition disk (name : list ascii) : option (list ascii) := if list_eq_dec ascii_dec name (lit "igs14.atx") then Some (atx_file h0 []) else None.
Example C84_example : exists o, run (fun _ => None) 10 100 [] (empty_antex Gps V13 None) [Switch disk (lit "none.atx"); Switch disk (lit "igs14.atx")] o /\ ax_stream o <> None.
Proof.
  destruct (C79_header_partial h0 Mixed (open_stream (atx_file h0 [])) [] h0_ok eq_refl) as (st & E & _).
  { reflexivity. }
  assert (D1 : disk (lit "igs14.atx") = Some (atx_file h0 [])) by (unfold disk; destruct (list_eq_dec _ _ _); [reflexivity|contradiction]).
  assert (D2 : disk (lit "none.atx") = None) by (unfold disk; destruct (list_eq_dec _ _ _) as [X|]; [discriminate X|reflexivity]).
  eexists. split.
  - eapply run_switch; [unfold reset_to_file, ifs_open; cbn [empty_antex ax_ifs i_file]; rewrite D2; reflexivity|]. eapply run_switch; [|apply run_nil].
    unfold reset_to_file, ifs_open. cbn [ax_ifs i_file i_pos i_eof i_fail]. rewrite D1. unfold ax_finish, ax_read_header. cbn [ax_ifs i_file i_pos i_eof i_fail].
    unfold open_stream in E. rewrite E. cbn [noexcept bind a_code]. reflexivity.
  - discriminate.
Qed.
