(** ProofAntexFind: skipping blocks and searching receiver antennas (C31, C32, C33). *)
From Verif Require Import Base BaseLemmas CNum CNumLemmas Stream ModelSatsys ModelObs ModelNvarstr ModelSatellite ModelAntenna
  ModelAntex SpecText SpecNum SpecObs SpecHeader SpecAntex ProofText ProofAntenna ProofNum ProofStream ProofObsTypes ProofObsRec ProofHeader ProofAntex.

Definition inner (l : list ascii) : Prop := body_line l /\ labelled "END OF ANTENNA" l = false.
Lemma skip_lines : forall b n r st f t buf, Forall inner b -> r_pad r <= 8 -> length b + 2 <= n -> length buf = 512 ->
  on st f (text_of (b ++ [stop_line r]) ++ t) ->
  exists st', skip_loop n st buf = Val (0%Z, st') /\ on st' f t.
Proof.
  induction b as [|l b IH]; intros n r st f t buf F P N B H; (destruct n as [|[|n]]; [cbn in N; lia|cbn in N; lia|]);
    cbn [app] in H; cbn [skip_loop]; change ATX_GRID_CHARS with 512.
  - destruct (on_text st f _ _ _ buf 512 H (stop_clean r) ltac:(rewrite stop_len; lia) ltac:(lia)) as (st1 & E & H1).
    rewrite E. cbn [bind]. rewrite label_other by (first [reflexivity|nonul_lit|rewrite stop_len; lia]). rewrite stop_lab. cbn [bind].
    exists st1. split; [reflexivity|exact H1].
  - inversion F as [|? ? ((C & L) & E0) F']; subst.
    destruct (on_text st f _ _ _ buf 512 H C ltac:(lia) ltac:(lia)) as (st1 & E & H1).
    rewrite E. cbn [bind]. rewrite label_other by (first [reflexivity|nonul_lit|lia]). rewrite E0. cbn [bind].
    apply (IH (S n) r); auto; [cbn in N; lia|rewrite overlay_length; lia].
Qed.
Lemma skip_tail r st f t b : Forall inner b -> r_pad r <= 8 -> length b <= 4998 -> on st f (text_of (b ++ [stop_line r]) ++ t) ->
  exists st', skip_rest_of_antenna st = Val (0%Z, st') /\ on st' f t.
Proof.
  intros F P L H. apply (skip_lines b ATX_ANTENNA_LINES r); auto.
  - change ATX_ANTENNA_LINES with 5000. apply (Nat.add_le_mono _ _ 2 2) in L; [exact L|lia].
Qed.

Lemma on_tellg st f d : on st f d -> tellg st = (st, Some (spos st)).
Proof. intros (G & _). unfold tellg. rewrite G. reflexivity. Qed.

Lemma ants_cons r rs t : ants_text (r :: rs) ++ t = text_of (ant_lines r) ++ (ants_text rs ++ t).
Proof. unfold ants_text. cbn [flat_map]. rewrite text_of_app, <- app_assoc. reflexivity. Qed.
Lemma ant_lines_tail r t : text_of (ant_lines r) ++ t = start_line r ++ NL :: type_line r ++ NL :: ant_tail r ++ t.
Proof. unfold ant_lines. rewrite text_of_one. f_equal. f_equal. rewrite text_of_one. reflexivity. Qed.

(** the search as a function of the blocks: first exact match, else last same-type block *)
Definition exactb (a : mem) (r : ant_src) : bool :=
  match ant_is_same (rec_antenna r) a with Val b => b | _ => false end.
Definition plainb (a : mem) (r : ant_src) : bool :=
  match compare_model (rec_antenna r) a with Val b => b && blankb (r_serial r) | _ => false end.

Lemma rec_reach r a : ant_ok r -> reach_ant a ->
  ant_is_same (rec_antenna r) a = Val (exactb a r) /\
  exists cm, compare_model (rec_antenna r) a = Val cm /\ has_serial (rec_antenna r) = Val (negb (blankb (r_serial r))) /\
    plainb a r = cm && blankb (r_serial r).
Proof.
  intros Hr Ha. apply reach_shape in Ha as (g & p & Sa). pose proof (rec_shape r Hr) as Sr.
  unfold exactb, plainb. rewrite (ant_is_same_spec _ _ _ _ _ _ Sr Sa), (compare_model_spec _ _ _ _ _ _ Sr Sa), (has_serial_spec _ _ _ Sr).
  split; [reflexivity|]. eexists. split; [reflexivity|]. split; [|reflexivity].
  destruct (blankb (r_serial r)) eqn:B; [reflexivity|]. rewrite B. reflexivity.
Qed.

Lemma end_of_file st f c : on st f [] ->
  exists st', read_next_antenna_type st c = Val ((-1)%Z, None, c, st') /\ on st' f [].
Proof.
  intro H. unfold read_next_antenna_type. destruct (on_end st f (uninit 85) 85 H ltac:(lia) ltac:(rewrite len_uninit; lia)) as (st1 & E & F & Eo & D & Ps).
  change ATX_HEADER_CHARS with 85. rewrite E. cbn [bind]. rewrite F. cbn [bind negb]. rewrite Eo.
  eexists. split; [reflexivity|]. pose proof H as (G & D0 & R). split; [reflexivity|]. split; [exact D|]. cbn [spos sclear clear_bits].
  rewrite Ps. exact R.
Qed.

(** positions right after the TYPE / SERIAL NO line of the i-th block *)
Definition pos_of (base : nat) (rs1 : list ant_src) (r : ant_src) : nat :=
  base + length (ants_text rs1) + length (start_line r) + 1 + length (type_line r) + 1.

(** the last element satisfying [p], with the prefix before it *)
Fixpoint last_split {A} (p : A -> bool) (l : list A) : option (list A * A) :=
  match l with
  | [] => None
  | x :: r => match last_split p r with
              | Some (a, y) => Some (x :: a, y)
              | None => if p x then Some ([], x) else None
              end
  end.
Fixpoint first_split {A} (p : A -> bool) (l : list A) : option (list A * A * list A) :=
  match l with
  | [] => None
  | x :: r => if p x then Some ([], x, r)
              else match first_split p r with Some (a, y, b) => Some (x :: a, y, b) | None => None end
  end.

(** position bookkeeping: a good stream whose rest is not empty is at a determined position *)
Lemma on_pos st f d : on st f d -> d <> [] -> spos st + length d = length f.
Proof.
  intros (_ & _ & R) N. assert (A : length (skipn (spos st) f) = length f - spos st) by apply skipn_length. rewrite R in A.
  destruct d; [congruence|]. cbn in A |- *. lia.
Qed.
Lemma tail_nonempty r t : ant_tail r ++ t <> [].
Proof. unfold ant_tail. rewrite text_of_app. destruct (text_of (r_body r)); discriminate. Qed.

Theorem closest_exact : forall rs fuel st f a best bpos s2, Forall ant_ok rs -> reach_ant a -> length rs < fuel ->
  on st f (ants_text rs) -> (rs = [] -> s2 = Some 0%Z) -> (s2 = None \/ s2 = Some 0%Z) ->
  exists st',
  closest_loop fuel st a best bpos s2 =
    match first_split (exactb a) rs with
    | Some (rs1, r, rs2) => Val ((-1)%Z, Some (rec_antenna r, Some (length f - length (ant_tail r ++ ants_text rs2))), st')
    | None => match last_split (plainb a) rs with
              | Some (rs1, r) => Val (0%Z, Some (rec_antenna r,
                  Some (length f - length (ant_tail r ++ ants_text (skipn (S (length rs1)) rs)))), st')
              | None => Val (0%Z, Some (best, bpos), st')
              end
    end /\ sdata st' = f /\ sfail st' = false.
Proof.
  induction rs as [|r rs IH]; intros fuel st f a best bpos s2 F Ha Hf H Hs0 Hs; (destruct fuel as [|fuel]; [lia|]).
  - change (ants_text []) with (@nil ascii) in H.
    destruct (end_of_file st f None H) as (st1 & E & H1). exists st1. split; [|split; [apply H1|exact (on_nofail _ _ _ H1)]].
    cbn [closest_loop first_split last_split]. rewrite E. cbn [bind]. rewrite (Hs0 eq_refl). reflexivity.
  - inversion F as [|? ? Hr F']; subst.
    rewrite <- (app_nil_r (ants_text (r :: rs))), ants_cons, app_nil_r in H.
    destruct (read_type r st f _ None Hr H ltac:(discriminate)) as (st1 & E & H1).
    destruct (rec_reach r a Hr Ha) as (ES & cm & EC & EH & EP).
    assert (P1 : spos st1 = length f - length (ant_tail r ++ ants_text rs)) by (pose proof (on_pos _ _ _ H1 (tail_nonempty _ _)); lia).
    cbn [first_split].
    destruct (exactb a r) eqn:X.
    + exists st1. split; [|split; [apply H1|exact (on_nofail _ _ _ H1)]].
      cbn [closest_loop]. rewrite E. cbn [bind]. rewrite ES. cbn [bind]. rewrite (on_tellg _ _ _ H1), P1. reflexivity.
    + assert (K : (if cm then do hs <- has_serial (rec_antenna r); Val (negb hs) else Val false) = Val (plainb a r)).
      { rewrite EP. destruct cm; [|reflexivity]. rewrite EH. cbn [bind]. rewrite negb_involutive. reflexivity. }
      assert (Sk : exists st3, skip_rest_of_antenna st1 = Val (0%Z, st3) /\ on st3 f (ants_text rs)).
      { destruct Hr as (_ & _ & _ & P & Fb & Lb). eapply skip_tail; [exact Fb|exact P|exact Lb|exact H1]. }
      destruct Sk as (st3 & Es & H3).
      destruct (IH fuel st3 f a (if plainb a r then rec_antenna r else best) (if plainb a r then Some (spos st1) else bpos) (Some 0%Z) F' Ha
        ltac:(cbn in Hf; lia) H3 (fun _ => eq_refl) (or_intror eq_refl)) as (st' & EQ & D & Nf).
      exists st'. split; [|auto].
      cbn [closest_loop]. rewrite E. cbn [bind]. rewrite ES. cbn [bind]. rewrite EC. cbn [bind]. rewrite K. cbn [bind]. rewrite (on_tellg _ _ _ H1).
      destruct (plainb a r) eqn:PB; rewrite Es; cbn [bind]; change (0 =? 0)%Z with true; cbn iota; rewrite EQ; clear EQ;
        destruct (first_split (exactb a) rs) as [[[rs1 r1] rs2]|]; try reflexivity;
        cbn [last_split]; rewrite ?PB; destruct (last_split (plainb a) rs) as [[rs1 r1]|]; try reflexivity.
      cbn [length skipn]. rewrite P1. reflexivity.
Qed.
