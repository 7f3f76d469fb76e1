(** ProofNav: fields and lines of navigation blocks *)
From Verif Require Import Base BaseLemmas CNum CNumLemmas Stream ModelSatsys ModelNvarstr ModelNav SpecText SpecNum SpecObs SpecNav
  ProofText ProofNum ProofStream ProofEpoch.

(** ** Fields *)
Definition d2n (n : numlit) : numlit :=
  mkNum (nsign n) (nint n) (ndot n) (nfrac n)
        (match nexp n with Some (e, sg, ds) => Some (d2e e, sg, ds) | None => None end).
Lemma d2e_digit c : digit c -> d2e c = c.
Proof.
  intro H. unfold d2e. destruct (ceqb c "D"%char || ceqb c "d"%char) eqn:E; [|reflexivity].
  apply orb_true_iff in E as [E|E]; apply ceqb_eq in E; subst; unfold digit in H; vm_compute in H; lia.
Qed.
Lemma d2e_digits s : digits s -> map d2e s = s.
Proof. induction 1 as [|c s H _ IH]; [reflexivity|]. cbn [map]. rewrite d2e_digit, IH; auto. Qed.
Lemma d2e_sign s : sign_ok s -> map d2e (sign_text s) = sign_text s.
Proof. destruct s as [c|]; [|reflexivity]. intros [->| ->]; reflexivity. Qed.
Lemma d2e_blanks k : map d2e (blanks k) = blanks k.
Proof. unfold blanks. induction k; [reflexivity|]. cbn [repeat map]. rewrite IHk. reflexivity. Qed.
Lemma d2n_text n : num_ok (toE n) -> map d2e (num_text n) = num_text (d2n n).
Proof.
  intros (S & I & F & _ & _ & _ & X). unfold num_text, mant_text, exp_text. cbn [d2n nsign nint ndot nfrac nexp] in *.
  cbn [toE nsign nint ndot nfrac nexp] in S, I, F, X.
  rewrite !map_app, d2e_sign, d2e_digits by assumption. f_equal. f_equal.
  - destruct (ndot n); [|reflexivity]. cbn [map]. rewrite d2e_digits by assumption. reflexivity.
  - destruct (nexp n) as [[[e sg] ds]|]; [|reflexivity]. destruct X as (_ & Hs & Hd & _). cbn [map]. rewrite map_app, d2e_sign, d2e_digits by assumption.
    reflexivity.
Qed.
Lemma d2n_ok n : nav_field n -> num_ok (d2n n).
Proof.
  intros ((S & I & F & N & D & L & X) & E & _). repeat (split; [assumption|]). cbn [d2n nexp toE] in *.
  unfold exp_letter_ok in E. destruct (nexp n) as [[[e sg] ds]|]; [|exact Logic.I]. destruct X as (_ & X). split; [|exact X].
  destruct E as [->|[->|[->| ->]]]; vm_compute; auto.
Qed.
Lemma d2n_val n : num_val (d2n n) = num_val n.
Proof. unfold num_val. f_equal. unfold num_dec, exp_val, d2n. cbn [nsign nint nfrac nexp]. destruct (nexp n) as [[[e sg] ds]|]; reflexivity. Qed.
Lemma km_nav n : nav_field n -> dmul (DFin (num_val n)) (DFin 1000) = DFin (b64 (num_val n * 1000)).
Proof. intro H. rewrite <- (d2n_val n). apply km_val, d2n_ok, H. Qed.
Lemma d2n_len n : length (num_text (d2n n)) = length (num_text n).
Proof. unfold num_text, mant_text, exp_text, d2n. cbn [nsign nint ndot nfrac nexp]. rewrite !app_length. f_equal. f_equal.
  destruct (nexp n) as [[[e sg] ds]|]; reflexivity. Qed.

Definition ftext (fs : list (option numlit)) (pad : nat) : list ascii := map d2e (flat_map field_text fs ++ blanks pad).

(** what can be the first character of a field *)
Definition soft (r : list ascii) : Prop :=
  match r with [] => True | c :: _ => c = " "%char \/ c = "-"%char \/ c = "+"%char end.
Lemma soft_blanks k r : soft r -> soft (blanks k ++ r).
Proof. destruct k; [trivial|]. intros _. left. reflexivity. Qed.
Lemma soft_field n r : nav_field n -> soft (rjust 19 (num_text n) ++ r).
Proof.
  intros (Ok & _ & L & S). unfold rjust. destruct (19 - length (num_text n)) as [|k] eqn:E; [|left; reflexivity].
  destruct S as [S|S]; [lia|]. cbn [blanks repeat app]. unfold num_text. destruct (nsign n) as [c|] eqn:En; [|congruence].
  cbn [sign_text app]. destruct Ok as (Sg & _). cbn [toE nsign] in Sg. rewrite En in Sg. destruct Sg as [->| ->]; [right; left|right; right]; reflexivity.
Qed.
Lemma soft_d2e r : soft r -> soft (map d2e r).
Proof. destruct r as [|c r]; [trivial|]. intros [->|[->| ->]]; [left|right; left|right; right]; reflexivity. Qed.
Lemma soft_fields fs pad : Forall opt_field fs -> soft (flat_map field_text fs ++ blanks pad).
Proof.
  induction 1 as [|o fs H F IH]; [cbn [flat_map app]; destruct pad; [exact I|left; reflexivity]|].
  cbn [flat_map]. rewrite <- app_assoc. destruct o as [n|]; [apply soft_field; exact H|left; reflexivity].
Qed.
Lemma soft_stop n r : num_ok n -> nexp n <> None \/ True -> soft r -> num_stop n r.
Proof.
  intros Ok _ S. destruct r as [|c r]; [exact I|]. assert (D : ~ digit c) by (destruct S as [->|[->| ->]]; unfold digit; vm_compute; lia).
  split; [exact D|]. split; intros; destruct S as [->|[->| ->]]; repeat split; discriminate.
Qed.
Lemma blanks_app a b : blanks a ++ blanks b = blanks (a + b).
Proof. unfold blanks. rewrite repeat_app. reflexivity. Qed.
Lemma strtod_blanks k : strtod (blanks k) = (DFin 0, 0, false).
Proof.
  assert (W : skip_ws (blanks k) = (k, [])).
  { unfold blanks. induction k; [reflexivity|]. cbn [repeat skip_ws]. change (is_space " ") with true. rewrite IHk. reflexivity. }
  unfold strtod, strtonum. rewrite W. reflexivity.
Qed.

(** the value seen in each field: a blank field shows the next number *)
Fixpoint fill (fs : list (option numlit)) : option numlit :=
  match fs with
  | [] => None
  | Some n :: _ => Some n
  | None :: r => fill r
  end.
Lemma strtod_fields : forall fs k pad, Forall opt_field fs ->
  match fill fs with
  | Some n => exists m, strtod (blanks k ++ ftext fs pad) = (DFin (num_val n), S m, false)
  | None => strtod (blanks k ++ ftext fs pad) = (DFin 0, 0, false)
  end.
Proof.
  induction fs as [|[n|] fs IH]; intros k pad F; cbn [fill].
  - unfold ftext. cbn [flat_map app]. rewrite d2e_blanks, blanks_app. apply strtod_blanks.
  - inversion F as [|? ? Hn F']; subst. unfold ftext. cbn [flat_map field_text]. rewrite <- app_assoc. unfold rjust. rewrite <- app_assoc, !map_app.
    rewrite d2e_blanks, app_assoc, blanks_app. rewrite (d2n_text n) by apply Hn.
    rewrite <- map_app. rewrite strtod_text.
    + rewrite d2n_val. pose proof (d2n_ok n Hn) as (_ & _ & _ & Ne & _).
      destruct (k + (19 - length (num_text n)) + length (num_text (d2n n))) as [|m] eqn:E; [|exists m; reflexivity].
      exfalso. assert (length (num_text (d2n n)) = 0) as Z by lia. apply length_zero_iff_nil in Z. unfold num_text, mant_text in Z.
      apply app_eq_nil in Z as [_ Z]. apply app_eq_nil in Z as [Z _]. apply app_eq_nil in Z as [Z1 Z2]. apply Ne.
      destruct (ndot (d2n n)) eqn:Dn; [discriminate|]. rewrite Z1.
      pose proof (d2n_ok n Hn) as (_ & _ & _ & _ & Df & _). rewrite (Df Dn). reflexivity.
    + apply d2n_ok, Hn.
    + apply soft_stop; [apply d2n_ok, Hn|auto|]. apply soft_d2e, soft_fields, F'.
  - inversion F as [|? ? Hn F']; subst. unfold ftext. cbn [flat_map field_text]. rewrite <- app_assoc, map_app, d2e_blanks, app_assoc, blanks_app.
    exact (IH (k + 19) pad F').
Qed.

(** the first [N] numbers read *)
Fixpoint reads (fs : list (option numlit)) (N : nat) : option (list numlit) :=
  match N with
  | O => Some []
  | S N' => match fill fs with Some n => option_map (cons n) (reads (tl fs) N') | None => None end
  end.
Definition vals (ns : list numlit) : list cdbl := map (fun n => DFin (num_val n)) ns.
Lemma reads_length : forall N fs ns, reads fs N = Some ns -> length ns = N.
Proof.
  induction N; cbn [reads]; intros fs ns H; [injection H as <-; reflexivity|].
  destruct (fill fs); [|discriminate]. destruct (reads (tl fs) N) eqn:E; [|discriminate]. injection H as <-. cbn. erewrite IHN; eauto.
Qed.
Lemma c2d_ok : forall N fs ns pad m off, Forall opt_field fs -> reads fs N = Some ns ->
  (forall j, j <= length fs -> cstr m (off + 19 * j) = Val (ftext (skipn j fs) pad)) ->
  char2double m off N 19 false = Val (true, vals ns, false).
Proof.
  induction N; cbn [reads char2double]; intros fs ns pad m off F R C.
  - injection R as <-. reflexivity.
  - pose proof (C 0 (Nat.le_0_l _)) as C0. rewrite Nat.mul_0_r, Nat.add_0_r, skipn_O in C0. rewrite C0. cbn [bind].
    pose proof (strtod_fields fs 0 pad F) as S. cbn [blanks repeat app] in S.
    destruct (fill fs) as [n|] eqn:E; [|discriminate]. destruct S as (p & S). rewrite S. cbn [Nat.eqb orb].
    destruct (reads (tl fs) N) as [ns'|] eqn:E'; [|discriminate]. injection R as <-.
    destruct fs as [|o fs]; [discriminate|]. cbn [tl] in E'.
    rewrite (IHN fs ns' pad m (off + 19)).
    + cbn [bind vals map]. reflexivity.
    + inversion F; assumption.
    + exact E'.
    + intros j Hj. specialize (C (Datatypes.S j)). cbn [skipn length] in C. rewrite <- C by lia. f_equal. lia.
Qed.
Lemma c2d_bad : forall N fs pad m off, Forall opt_field fs -> reads fs N = None -> N <= S (length fs) ->
  (forall j, j <= length fs -> cstr m (off + 19 * j) = Val (ftext (skipn j fs) pad)) ->
  exists vs, char2double m off N 19 false = Val (false, vs, false) /\ length vs <= N.
Proof.
  induction N; cbn [reads char2double]; intros fs pad m off F R L C; [discriminate|].
  pose proof (C 0 (Nat.le_0_l _)) as C0. rewrite Nat.mul_0_r, Nat.add_0_r, skipn_O in C0. rewrite C0. cbn [bind].
  pose proof (strtod_fields fs 0 pad F) as S. cbn [blanks repeat app] in S.
  destruct (fill fs) as [n|] eqn:E.
  - destruct S as (p & S). rewrite S. cbn [Nat.eqb orb]. destruct (reads (tl fs) N) as [ns'|] eqn:E'; [discriminate|].
    destruct fs as [|o fs]; [discriminate|]. cbn [tl length] in *.
    destruct (IHN fs pad m (off + 19)) as (vs & H & Lv); [inversion F; assumption|exact E'|lia| |].
    + intros j Hj. specialize (C (Datatypes.S j)). cbn [skipn length] in C. rewrite <- C by lia. f_equal. lia.
    + rewrite H. cbn [bind]. eexists. split; [reflexivity|cbn; lia].
  - rewrite S. cbn. eexists. split; [reflexivity|cbn; lia].
Qed.
Lemma reads_need : forall fl fs extra, Forall2 (fun o (num : bool) => opt_field o /\ (num = true -> o <> None)) fs fl ->
  last fl true = true ->
  exists ns, reads (fs ++ extra) (length fl) = Some ns /\
    forall j n, nth_error fl j = Some true -> nth_error (fs ++ extra) j = Some (Some n) -> nth_error ns j = Some n.
Proof.
  induction fl as [|b fl IH]; intros fs extra F L; inversion F as [|o ? fs' ? Ho F']; subst.
  - exists []. split; [reflexivity|]. intros [|j] n H; discriminate.
  - assert (L' : last fl true = true) by (destruct fl; [reflexivity|exact L]).
    destruct (IH fs' extra F' L') as (ns & R & A). cbn [app length reads tl].
    assert (Fi : exists n, fill (o :: fs' ++ extra) = Some n /\ (forall n', o = Some n' -> n' = n)).
    { destruct o as [n|]; [exists n; split; [reflexivity|congruence]|]. cbn [fill].
      destruct fl as [|b2 fl]; [cbn in L; subst b; destruct Ho as [_ Ho]; exfalso; apply Ho; reflexivity|].
      cbn [length reads] in R. destruct (fill (fs' ++ extra)) as [n|]; [|discriminate]. exists n. split; [reflexivity|discriminate]. }
    destruct Fi as (n & Fi & Fo). rewrite Fi, R. cbn [option_map]. eexists. split; [reflexivity|].
    intros [|j] m Hj Hm; cbn [nth_error] in *; [|apply (A j m Hj Hm)]. injection Hm as Hm. rewrite (Fo _ Hm). reflexivity.
Qed.

(** ** Lines *)
Lemma for2cpp_overlay l buf : ~ In NUL l -> for2cpp (overlay l buf) = Val (overlay (map d2e l) buf).
Proof. intro H. unfold overlay. rewrite for2cpp_spec by exact H. rewrite map_length. reflexivity. Qed.
Lemma d2e_not_nul l : ~ In NUL l -> ~ In NUL (map d2e l).
Proof.
  intros H I. apply in_map_iff in I as (c & E & I). unfold d2e in E. destruct (ceqb c "D"%char || ceqb c "d"%char); [discriminate|].
  subst. contradiction.
Qed.
Lemma field_length o : opt_field o -> length (field_text o) = 19.
Proof. destruct o as [n|]; intro H; [|reflexivity]. unfold field_text, rjust, blanks. rewrite app_length, repeat_length. destruct H as (_ & _ & L & _). lia. Qed.
Lemma fields_length fs : Forall opt_field fs -> length (flat_map field_text fs) = 19 * length fs.
Proof. induction 1 as [|o fs H F IH]; [reflexivity|]. cbn [flat_map length]. rewrite app_length, field_length, IH by exact H. lia. Qed.
Lemma skip_fields : forall j fs r, Forall opt_field fs -> j <= length fs ->
  skipn (19 * j) (flat_map field_text fs ++ r) = flat_map field_text (skipn j fs) ++ r.
Proof.
  induction j; intros fs r F H; [rewrite Nat.mul_0_r, !skipn_O; reflexivity|].
  destruct fs as [|o fs]; [cbn in H; lia|]. inversion F as [|? ? Ho F']; subst. cbn [flat_map skipn length] in *. rewrite <- app_assoc.
  replace (19 * S j) with (19 * j + 19) by lia. rewrite <- skipn_skipn. rewrite skipn_app, (field_length o Ho).
  rewrite (skipn_all2 (field_text o)) by (rewrite field_length; auto). cbn [app Nat.sub]. rewrite skipn_O. apply IHj; [exact F'|lia].
Qed.
Lemma clean_digits s : digits s -> clean s.
Proof. apply Forall_impl. intros c H. unfold digit in H. split; intros ->; vm_compute in H; lia. Qed.
Lemma clean_blanks k : clean (blanks k).
Proof. apply Forall_forall. intros c H. apply repeat_spec in H. subst. split; discriminate. Qed.
Lemma clean_app2 a b : clean a -> clean b -> clean (a ++ b).
Proof. intros. apply Forall_app. auto. Qed.
Lemma clean_sign s : sign_ok s -> clean (sign_text s).
Proof. destruct s as [c|]; [|constructor]. intros [->| ->]; repeat constructor; discriminate. Qed.
Lemma clean_num n : nav_field n -> clean (num_text n).
Proof.
  intros ((S & I & F & _ & _ & _ & X) & E & _). cbn [toE nsign nint ndot nfrac nexp] in *. unfold num_text, mant_text, exp_text.
  apply clean_app2; [apply clean_sign, S|]. apply clean_app2.
  - apply clean_app2; [apply clean_digits, I|]. destruct (ndot n); [|constructor]. constructor; [split; discriminate|apply clean_digits, F].
  - unfold exp_letter_ok in E. destruct (nexp n) as [[[e sg] ds]|]; [|constructor]. destruct X as (_ & Hs & Hd & _).
    constructor; [destruct E as [->|[->|[->| ->]]]; split; discriminate|]. apply clean_app2; [apply clean_sign, Hs|apply clean_digits, Hd].
Qed.
Lemma clean_field o : opt_field o -> clean (field_text o).
Proof. destruct o as [n|]; intro H; [|apply clean_blanks]. cbn. unfold rjust. apply clean_app2; [apply clean_blanks|apply clean_num, H]. Qed.
Lemma clean_fields fs : Forall opt_field fs -> clean (flat_map field_text fs).
Proof. induction 1; [constructor|]. cbn. apply clean_app2; [apply clean_field; assumption|assumption]. Qed.
Definition orbit_wf (l : orbit) : Prop := Forall opt_field (fst l) /\ length (fst l) <= 4 /\ snd l <= 40.
Lemma orbit_ok_wf l fl : orbit_ok l fl -> orbit_wf l.
Proof.
  intros ((req & extra & E & F & X) & L & P). split; [|split; assumption]. rewrite E. apply Forall_app. split; [|exact X].
  clear - F. induction F as [|o b ? ? (H & _)]; constructor; assumption.
Qed.
Lemma orbit_clean l : orbit_wf l -> clean (orbit_text l).
Proof. intros (F & _). unfold orbit_text. apply clean_app2; [apply clean_blanks|]. apply clean_app2; [apply clean_fields, F|apply clean_blanks]. Qed.
Lemma orbit_length l : orbit_wf l -> length (orbit_text l) <= 120.
Proof.
  intros (F & L & P). unfold orbit_text. rewrite !app_length. rewrite fields_length by exact F. unfold blanks. rewrite !repeat_length. lia.
Qed.
Lemma clean_nul l : clean l -> ~ In NUL l.
Proof. intros C I. unfold clean in C. rewrite Forall_forall in C. destruct (C NUL I) as [A _]; apply A; reflexivity. Qed.
Lemma clean_nl l : clean l -> ~ In NL l.
Proof. intros C I. unfold clean in C. rewrite Forall_forall in C. destruct (C NL I) as [_ A]; apply A; reflexivity. Qed.
Lemma orbit_fields_at l buf j : orbit_wf l -> j <= length (fst l) ->
  cstr (overlay (map d2e (orbit_text l)) buf) (4 + 19 * j) = Val (ftext (skipn j (fst l)) (snd l)).
Proof.
  intros W Hj. pose proof W as (F & L & P). pose proof (orbit_clean l W) as C. rewrite cstr_overlay_off.
  - f_equal. unfold ftext. rewrite <- skip_fields by assumption. rewrite skipn_map. f_equal.
  - apply d2e_not_nul, clean_nul, C.
  - rewrite map_length. unfold orbit_text. rewrite !app_length, fields_length by exact F. change (length (blanks 4)) with 4. lia.
Qed.
