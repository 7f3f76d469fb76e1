(** Properties C16-C26: observation RINEX files.
    The texts are those of SpecObs/SpecHeader; [at_rest st t] says that the stream is good and that [t]
    is what is left to read; [overlay line buf] is the buffer after getline put [line] in it. *)
From Verif Require Import Base BaseLemmas CNum CNumLemmas Stream ModelSatsys ModelObs ModelNvarstr
  ModelSatellite ModelAntenna ModelObsRnx ModelMove SpecText SpecNum SpecObs SpecHeader ProofText ProofAntenna
  ProofNum ProofStream ProofObsTypes ProofObsRec ProofCollect ProofEpoch ProofPlan ProofHeader ProofMove
  ProofObsMisc.

Definition c1c := mkCode Pseudorange 1 "C"%char.
Definition l1c := mkCode CarrierPhase 1 "C"%char.
Definition c2w := mkCode Pseudorange 2 "W"%char.
Lemma c1c_ok : code_ok c1c.
Proof. repeat split; cbn; try discriminate; lia. Qed.
Lemma l1c_ok : code_ok l1c.
Proof. repeat split; cbn; try discriminate; lia. Qed.
Lemma digits_b l : forallb ch_digit l = true -> digits l.
Proof.
  intro H. apply Forall_forall. intros c Hc. rewrite forallb_forall in H. specialize (H c Hc).
  unfold ch_digit in H. apply andb_true_iff in H as [H1 H2]. apply Nat.leb_le in H1, H2. split; assumption.
Qed.
Ltac concrete := repeat match goal with
  | |- digits _ => apply digits_b; vm_compute; reflexivity
  | |- Forall digit _ => apply digits_b; vm_compute; reflexivity
  | |- digit _ => unfold digit; vm_compute; lia
  | |- _ /\ _ => split
  end; try (vm_compute; try lia; try discriminate; auto; fail).
Definition no_time : list ascii -> option Z := fun _ => Some 0%Z.
Definition text (l : list string) : list ascii := text_of (map lit l).

(** ** C16 *)
Definition C16_full : Prop := forall t st buf letter sys count cs first conts j tail,
  In (letter, sys) satsys_letters -> digits count -> count <> [] -> length count <= 3 ->
  layout cs (first :: conts) -> Forall code_ok cs ->
  dec_val count = Z.of_nat (length cs) -> j <= 5 -> length buf = 85 -> t sys = None ->
  at_rest st (cont_text conts j ++ tail) ->
  exists st' t',
    resolve_obstypes t st (overlay (block_first sys letter count first j) buf) = Val (0%Z, t', st') /\
    at_rest st' tail /\ t' sys = Some cs /\ (forall s, s <> sys -> t' s = t s).

Theorem C16_full_refuted : ~ C16_full.
Proof.
  intro F.
  set (tail := header_line [] (lit "END OF HEADER") 0 ++ [NL]).
  set (st := open_stream tail).
  assert (A : at_rest st (cont_text [] 0 ++ tail)) by (split; reflexivity).
  assert (D : digits (lit "13")) by (concrete).
  assert (L : layout (repeat c1c 13) [repeat c1c 13]) by (apply layout_last; [discriminate|cbn; lia]).
  assert (K : Forall code_ok (repeat c1c 13)).
  { apply Forall_forall. intros x Hx. apply repeat_spec in Hx. subst x. exact c1c_ok. }
  specialize (F smap_empty st (uninit 85) "G"%char Gps (lit "13") (repeat c1c 13) (repeat c1c 13) [] 0 tail
    (or_introl eq_refl) D ltac:(discriminate) ltac:(cbn; lia) L K eq_refl ltac:(lia) eq_refl eq_refl A).
  destruct F as (st' & t' & E & _). vm_compute in E. discriminate.
Qed.

Theorem C16_table_exact_partial : forall t st buf letter sys count cs first conts j tail,
  In (letter, sys) satsys_letters -> digits count -> count <> [] -> length count <= 3 ->
  layout cs (first :: conts) -> Forall code_ok cs ->
  dec_val count = Z.of_nat (length cs) -> j <= 5 -> length buf = 85 -> t sys = None ->
  at_rest st (cont_text conts j ++ tail) ->
  length cs mod 13 <> 0 ->
  exists st' t',
    resolve_obstypes t st (overlay (block_first sys letter count first j) buf) = Val (0%Z, t', st') /\
    at_rest st' tail /\ t' sys = Some cs /\ (forall s, s <> sys -> t' s = t s).
Proof. exact table_exact. Qed.
Print Assumptions C16_table_exact_partial.

(** the missing cases, multiples of 13: the line after the block is swallowed; unless it carries the
    OBS TYPES label too the whole block is refused *)
Theorem C16_multiple_of_13 : forall t st buf letter sys count cs first conts j l tail,
  In (letter, sys) satsys_letters -> digits count -> count <> [] -> length count <= 3 ->
  layout cs (first :: conts) -> Forall code_ok cs ->
  dec_val count = Z.of_nat (length cs) -> j <= 5 -> length buf = 85 -> t sys = None ->
  at_rest st (cont_text conts j ++ l ++ NL :: tail) -> clean l -> 60 <= length l <= 84 ->
  length cs mod 13 = 0 ->
  exists st' t',
    resolve_obstypes t st (overlay (block_first sys letter count first j) buf)
      = Val ((if list_eqb (firstn 19 (skipn 60 l)) LABEL_OBSTYPES then 0 else 4)%Z, t', st') /\
    at_rest st' tail /\
    (firstn 19 (skipn 60 l) = LABEL_OBSTYPES ->
       t' sys = Some cs /\ (forall s, s <> sys -> t' s = t s)) /\
    (firstn 19 (skipn 60 l) <> LABEL_OBSTYPES -> t' = t).
Proof. exact table_thirteen. Qed.
Print Assumptions C16_multiple_of_13.

(** the hypotheses are met by a block of 15 codes on two lines *)
Example C16_example :
  let cs := repeat c1c 13 ++ [l1c; c1c] in
  In ("E"%char, Galileo) satsys_letters /\ digits (lit "15") /\ layout cs [repeat c1c 13; [l1c; c1c]] /\
  Forall code_ok cs /\ dec_val (lit "15") = Z.of_nat (length cs) /\ length cs mod 13 <> 0.
Proof.
  cbn zeta. split; [cbn; tauto|]. split; [concrete|].
  split; [apply layout_more; [reflexivity|apply layout_last; [discriminate|cbn; lia]]|].
  split; [|split; [reflexivity|discriminate]].
  apply Forall_app. split.
  - apply Forall_forall. intros x Hx. apply repeat_spec in Hx. subst x. exact c1c_ok.
  - repeat constructor; try discriminate; cbn; lia.
Qed.

(** ** C17 *)
Theorem C17_success : forall t st cline t' st',
  length cline = 85 ->
  resolve_obstypes t st cline = Val (0%Z, t', st') ->
  exists c sys s n k codes,
    rd cline 0 = Val c /\ In (c, sys) satsys_letters /\ t sys = None /\
    cstr cline 3 = Val s /\ strtol s = (n, S k, false) /\
    t' sys = Some codes /\ Z.of_nat (length codes) = to_i32 n /\ (1 <= to_i32 n)%Z /\
    (forall x, x <> sys -> t' x = t x).
Proof. exact table_success. Qed.
Print Assumptions C17_success.
Theorem C17_failure : forall t st cline code t' st',
  resolve_obstypes t st cline = Val (code, t', st') -> code <> 0%Z -> t' = t.
Proof. exact table_failure. Qed.
Print Assumptions C17_failure.
Theorem C17_duplicate : forall t st cline c sys v,
  length cline = 85 -> rd cline 0 = Val c -> In (c, sys) satsys_letters -> t sys = Some v ->
  resolve_obstypes t st cline = Val (1%Z, t, st).
Proof. exact table_duplicate. Qed.
Print Assumptions C17_duplicate.
Example C17_example :
  let line := overlay (block_first Gps "G"%char (lit "2") [c1c; l1c] 0) (uninit 85) in
  length line = 85 /\ (exists t' st', resolve_obstypes smap_empty (open_stream []) line = Val (0%Z, t', st')) /\
  exists t' st', resolve_obstypes smap_empty (open_stream [])
    (overlay (block_first Gps "G"%char (lit "0") [c1c] 0) (uninit 85)) = Val (9%Z, t', st').
Proof. split; [vm_compute; reflexivity|]. split; eexists _, _; vm_compute; reflexivity. Qed.

(** ** C18 *)
Definition C18_full : Prop :=
  (forall line n, ~ In NUL line -> length line < n -> resolve_epoch (overlay line (uninit n)) <> UB) /\
  (forall line n j h, ~ In NUL line -> length line < n -> resolve_epoch (overlay line (uninit n)) = Val (j, h) -> j <> 1%Z ->
     nth_error line 0 = Some ">"%char /\ 35 <= length line) /\
  (forall e buf, epoch_src_ok e -> exists coff,
    resolve_epoch (overlay (epoch_line e) buf) =
      Val (0%Z, Some (mkEpoch (spec_ints e) (DFin (spec_sec e)) (indicator (s_flag e)) (dec_val (s_nsat e)) coff)) /\
      match s_off e with Some n => coff = Some (DFin (num_val n)) | None => coff = Some (DFin 0) end) /\
  (forall e ns buf, epoch_src_ok e -> clean ns -> length ns = 3 -> (forall c, In c ns -> ~ digit c) ->
    exists j, j <> 0%Z /\ resolve_epoch (overlay (epoch_base e ns) buf) = Val (j, None)).

(** reading outside the line: a number that ends the line *)
Theorem C18_reads_outside : let line := ">"%char :: blanks 30 ++ lit "2020" in
  length line = 35 /\ resolve_epoch (overlay line (uninit 36)) = UB.
Proof. split; vm_compute; reflexivity. Qed.
Theorem C18_full_refuted : ~ C18_full.
Proof.
  intros (F & _). apply (F (">"%char :: blanks 30 ++ lit "2020") 36).
  - vm_compute. intuition discriminate.
  - cbn. lia.
  - vm_compute. reflexivity.
Qed.

Theorem C18_epoch_line_partial : forall e buf,
  epoch_src_ok e ->
  exists coff,
  resolve_epoch (overlay (epoch_line e) buf) =
    Val (0%Z, Some (mkEpoch (spec_ints e) (DFin (spec_sec e)) (indicator (s_flag e)) (dec_val (s_nsat e)) coff)) /\
  match s_off e with
  | Some n => coff = Some (DFin (num_val n))
  | None => coff = if s_pad e <=? 6 then None else Some (DFin 0)
  end.
Proof. exact epoch_line_exact. Qed.
Print Assumptions C18_epoch_line_partial.
Theorem C18_reject_partial : forall line buf,
  ~ In NUL line -> (nth_error line 0 <> Some ">"%char \/ length line < 35) ->
  resolve_epoch (overlay line buf) = Val (1%Z, None).
Proof. exact epoch_line_reject. Qed.
Theorem C18_accept_partial : forall line buf j h,
  ~ In NUL line -> resolve_epoch (overlay line buf) = Val (j, h) -> j <> 1%Z ->
  nth_error line 0 = Some ">"%char /\ 35 <= length line.
Proof. exact epoch_line_accept_shape. Qed.
(** the satellite count is not validated: no digit at all is read as 0 satellites, with success *)
Theorem C18_count_unchecked : forall e ns buf,
  epoch_src_ok e -> clean ns -> length ns = 3 ->
  (forall c, In c ns -> ~ digit c) ->
  exists coff,
  resolve_epoch (overlay (epoch_base e ns) buf) =
    Val (0%Z, Some (mkEpoch (spec_ints e) (DFin (spec_sec e)) (indicator (s_flag e)) 0%Z coff)).
Proof. exact epoch_count_unchecked. Qed.
Print Assumptions C18_count_unchecked.

Definition ep1 : epoch_src := mkSrc (lit "2020") (lit "01") (lit "01") (lit "00") (lit "30")
  (mkNum None (lit "30") true (lit "0000000") None) "0"%char (lit "2") None 0.
Lemma ep1_ok : epoch_src_ok ep1.
Proof. unfold epoch_src_ok, obs_num_ok, num_ok, field_ok; concrete. Qed.
Example C18_example : epoch_src_ok ep1 /\ epoch_line ep1 = lit "> 2020 01 01 00 30 30.0000000  0  2".
Proof. split; [exact ep1_ok|vm_compute; reflexivity]. Qed.

(** ** C19 *)
Definition C19_full : Prop := forall raw n l s,
  obs_num_ok n -> ind_char l -> ind_char s ->
  raw_resolve raw (cbuf (obs_field n l s)) =
    Val (0%Z, mkRawRnx (Some (DFin (num_val n))) (Some (indicator l)) (Some (indicator s))).
Definition n23 : numlit := mkNum None (lit "23629347") true (lit "915") None.
Lemma n23_ok : obs_num_ok n23.
Proof. unfold epoch_src_ok, obs_num_ok, num_ok, field_ok; concrete. Qed.
Theorem C19_full_refuted : ~ C19_full.
Proof.
  assert (D3 : digit "3"%char) by concrete. assert (D7 : digit "7"%char) by concrete.
  intro F. specialize (F raw_new n23 "3"%char "7"%char n23_ok (or_intror D3) (or_intror D7)).
  vm_compute in F. discriminate.
Qed.
Theorem C19_blank_lli_partial : forall raw n s,
  obs_num_ok n -> ind_char s ->
  raw_resolve raw (cbuf (obs_field n " "%char s)) =
    Val (0%Z, mkRawRnx (Some (DFin (num_val n))) (Some 0%Z) (Some (indicator s))).
Proof. exact obs_field_exact. Qed.
Print Assumptions C19_blank_lli_partial.
(** a digit in the loss-of-lock column is appended to the number, and so is a following digit *)
Theorem C19_contaminated : forall raw n l s,
  obs_num_ok n -> digit l -> ind_char s ->
  exists q, raw_resolve raw (cbuf (obs_field n l s)) =
    Val (0%Z, mkRawRnx (Some (DFin (b64 q))) (Some (indicator l)) (Some (indicator s))) /\
  let xs := if ceqb s " "%char then [l] else [l; s] in
  (q == num_dec n + inject_Z (if is_neg (nsign n) then - dec_val xs else dec_val xs)
        * pow10 (0 - Z.of_nat (length (nfrac n) + length xs)))%Q.
Proof. exact obs_field_contaminated. Qed.
Print Assumptions C19_contaminated.
Theorem C19_blank : forall raw f,
  length f = 16 -> ~ In NUL f -> all_blank (firstn 14 f) ->
  raw_resolve raw (cbuf f) = Val (0%Z, mkRawRnx (Some MISSING) (rlli raw) (rssi raw)).
Proof. exact obs_field_blank. Qed.
Print Assumptions C19_blank.
Example C19_example : obs_field n23 " "%char "7"%char = lit "  23629347.915 7".
Proof. vm_compute. reflexivity. Qed.

(** ** C20 *)
Theorem C20_plan_columns : forall header inmap skip plan inmap', nonempty_requests inmap ->
  set_read_map header inmap skip = Val (plan, inmap') ->
  forall s vs, plan s = Some vs ->
  exists reqs, inmap' s = Some reqs /\ length vs = length reqs /\ Forall2 (request_columns header s) reqs vs /\
    (skip = false -> inmap s = Some reqs) /\
    exists codes, header s = Some codes /\ forall v i c, In v vs -> In (i, c) v -> i < length codes.
Proof.
  intros header inmap skip plan inmap' NE E s vs Hs.
  destruct (plan_cases header inmap skip NE) as (p & i' & E' & Q). rewrite E in E'. injection E' as <- <-.
  destruct Q as [(N & _)|(_ & Q)]; [rewrite N in Hs; discriminate|]. specialize (Q s).
  destruct (inmap s) as [rq|]; [|destruct Q; congruence].
  destruct Q as (ks & ws & Hi & Hp & F & _ & K). rewrite Hs in Hp.
  assert (vs = ws /\ ws <> []) as [<- NEv] by (destruct ws; [discriminate|split; [congruence|discriminate]]).
  exists ks. split; [exact Hi|]. split; [clear -F; induction F; cbn; congruence|]. split; [exact F|].
  split; [intro H; rewrite (K H); reflexivity|].
  destruct F as [|o v ks vs (codes & Hc & F0) F]; [congruence|].
  exists codes. split; [exact Hc|]. intros w i c Hw Hi'.
  assert (G : exists o', request_columns header s o' w).
  { destruct Hw as [<-|Hw]; [exists o, codes; auto|]. clear -F Hw. induction F as [|x y l m R F IH]; [destruct Hw|].
    destruct Hw as [<-|Hw]; eauto. }
  destruct G as (o' & codes' & Hc' & G). assert (codes' = codes) by congruence. subst codes'. clear -G Hi'.
  induction G as [|p ic l m R G IH]; [destruct Hi'|]. destruct Hi' as [->|Hi']; [|auto].
  destruct R as (_ & (H & _) & _). cbn in H. apply nth_error_Some. congruence.
Qed.
Print Assumptions C20_plan_columns.

Definition hdr2 : smap (list obscode) := smap_set smap_empty Gps [l1c; c1c].
Definition req_c1c : observable := [mkPart (mkRaw Gps c1c) (DFin 1)].
Definition req_l1c_c1c : observable := [mkPart (mkRaw Gps l1c) (DFin (1 # 2)); mkPart (mkRaw Gps c1c) (DFin (- (1 # 2)))].
Example C20_example : let inmap := smap_set smap_empty Gps [req_c1c; req_l1c_c1c] in
  nonempty_requests inmap /\
  exists plan i, set_read_map hdr2 inmap false = Val (plan, i) /\
    plan Gps = Some [[(1, DFin 1)]; [(0, DFin (1 # 2)); (1, DFin (- (1 # 2)))]].
Proof.
  cbn zeta. split.
  - intros s reqs H. unfold smap_set, smap_empty in H. destruct (satsys_eqb s Gps); [|discriminate]. injection H as <-.
    repeat constructor; discriminate.
  - eexists _, _. split; vm_compute; reflexivity.
Qed.

(** ** C21 *)
(** parts of two systems, or of a system other than the one it is filed under *)
Definition mixed_request (s : satsys) (o : observable) : Prop := exists p, In p o /\ rsys (ptype p) <> s.
Definition C21_full : Prop := forall header inmap skip plan inmap', nonempty_requests inmap ->
  set_read_map header inmap skip = Val (plan, inmap') ->
  (skip = false -> (exists s reqs o, inmap s = Some reqs /\ In o reqs /\ ~ formable header s o) ->
     (forall s, plan s = None) /\ (forall s, inmap' s = inmap s)) /\
  (skip = true -> (forall s reqs o, inmap s = Some reqs -> In o reqs -> ~ mixed_request s o) ->
     forall s reqs, inmap s = Some reqs -> exists ks, inmap' s = Some ks /\ sub (formable header s) reqs ks) /\
  ((exists s reqs o, inmap s = Some reqs /\ In o reqs /\ mixed_request s o) -> forall s, plan s = None).

(** C1W is not in the header and comes before the GLONASS part *)
Definition bad_mix : observable := [mkPart (mkRaw Gps c2w) (DFin 1); mkPart (mkRaw Glonass c1c) (DFin 1)].
Theorem C21_full_refuted : ~ C21_full.
Proof.
  intro F.
  assert (NE : nonempty_requests (smap_set smap_empty Gps [req_c1c; bad_mix])).
  { intros s reqs H. unfold smap_set, smap_empty in H. destruct (satsys_eqb s Gps); [|discriminate]. injection H as <-.
    repeat constructor; discriminate. }
  destruct (set_read_map hdr2 (smap_set smap_empty Gps [req_c1c; bad_mix]) true) as [[plan i]| | | |] eqn:E; try (vm_compute in E; discriminate).
  destruct (F hdr2 _ true plan i NE E) as (_ & _ & G).
  specialize (G ltac:(exists Gps, [req_c1c; bad_mix], bad_mix; split; [reflexivity|]; split; [cbn; tauto|];
    exists (mkPart (mkRaw Glonass c1c) (DFin 1)); split; [cbn; tauto|discriminate]) Gps).
  vm_compute in E. injection E as <- <-. discriminate.
Qed.

(** everything else; a mixed request empties the plan when its first part that
    cannot be read is the part of the other system ([clashing]) *)
Theorem C21_requests_partial : forall header inmap skip plan inmap', nonempty_requests inmap ->
  set_read_map header inmap skip = Val (plan, inmap') ->
  (skip = false -> (exists s reqs o, inmap s = Some reqs /\ In o reqs /\ ~ formable header s o) ->
     (forall s, plan s = None) /\ (forall s, inmap' s = inmap s)) /\
  (skip = true -> (forall s reqs o, inmap s = Some reqs -> In o reqs -> ~ clashing header s o) ->
     forall s reqs, inmap s = Some reqs -> exists ks, inmap' s = Some ks /\ sub (formable header s) reqs ks) /\
  ((exists s reqs o, inmap s = Some reqs /\ In o reqs /\ clashing header s o) -> forall s, plan s = None).
Proof.
  intros header inmap skip plan inmap' NE E.
  destruct (plan_cases header inmap skip NE) as (p & i' & E' & Q). rewrite E in E'. injection E' as <- <-.
  destruct Q as [(N & (s & rq & o & Hi & Ho & C) & K)|(NC & Q)].
  - split; [intros Hs _; split; [exact N|exact (K Hs)]|]. split; [|intros _; exact N].
    intros Hs H. exfalso. destruct C as [C|[C _]]; [exact (H _ _ _ Hi Ho C)|congruence].
  - split; [|split].
    + intros Hs (s & rq & o & Hi & Ho & NF). exfalso. specialize (Q s). rewrite Hi in Q.
      destruct Q as (ks & vs & _ & _ & _ & SB & K). rewrite (K Hs) in SB.
      apply NF. clear -SB Ho.
      assert (L : forall (P : observable -> Prop) l m, sub P l m -> length m <= length l /\ (length m = length l -> forall x, In x l -> P x)).
      { intros P l m H. induction H as [|x l m Hx H [IH1 IH2]|x l m Hx H [IH1 IH2]]; cbn.
        - split; [lia|intros _ ? []].
        - split; [lia|]. intros E y [<-|Hy]; [exact Hx|apply IH2; [lia|exact Hy]].
        - split; [lia|]. intro E. lia. }
      exact (proj2 (L _ _ _ SB) eq_refl o Ho).
    + intros Hs _ s rq Hi. specialize (Q s). rewrite Hi in Q. destruct Q as (ks & vs & Hk & _ & _ & SB & _). eauto.
    + intros (s & rq & o & Hi & Ho & C). exfalso. exact (NC _ _ _ Hi Ho C).
Qed.
Print Assumptions C21_requests_partial.
(** with a request that can only be answered from the right system, mixed means clashing *)
Theorem C21_mixed_means_clashing : forall header s o, mixed_request s o ->
  (forall p, In p o -> rsys (ptype p) = s -> exists codes, header s = Some codes /\ In (rcode (ptype p)) codes) ->
  clashing header s o.
Proof.
  intros header s o (p & Hp & Hs) H. destruct o as [|p0 o]; [destruct Hp|].
  destruct (satsys_eqb (rsys (ptype p0)) s) eqn:E.
  2:{ left. exists p0, o. split; [reflexivity|]. intro F. rewrite F in E. destruct s; discriminate. }
  assert (E0 : rsys (ptype p0) = s) by (destruct (rsys (ptype p0)), s; try discriminate; reflexivity).
  right. destruct (H p0 (or_introl eq_refl) E0) as (codes & Hc & _). exists codes.
  assert (G : forall l, (forall q, In q l -> rsys (ptype q) = s -> exists codes, header s = Some codes /\ In (rcode (ptype q)) codes) ->
    In p l -> exists pre q post, l = pre ++ q :: post /\ rsys (ptype q) <> s /\
      forall x, In x pre -> rsys (ptype x) = s /\ In (rcode (ptype x)) codes).
  { induction l as [|x l IH]; intros Hl Hin; [destruct Hin|].
    destruct (satsys_eqb (rsys (ptype x)) s) eqn:Ex.
    - assert (Ex0 : rsys (ptype x) = s) by (destruct (rsys (ptype x)), s; try discriminate; reflexivity).
      destruct Hin as [->|Hin]; [contradiction|].
      destruct IH as (pre & q & post & -> & Hq & Hpre); auto; [intros y Hy; apply Hl; right; exact Hy|].
      exists (x :: pre), q, post. split; [reflexivity|]. split; [exact Hq|]. intros y [<-|Hy]; [|auto].
      split; [exact Ex0|]. destruct (Hl x (or_introl eq_refl) Ex0) as (c' & Hc' & Hin'). congruence.
    - exists [], x, l. split; [reflexivity|]. split; [intro F; rewrite F in Ex; destruct s; discriminate|intros ? []]. }
  destruct (G (p0 :: o) H Hp) as (pre & q & post & E1 & E2 & E3). exists pre, q, post. auto.
Qed.
Print Assumptions C21_mixed_means_clashing.
Theorem C21_no_parts : forall header, obs_getter header [] = UB.
Proof. reflexivity. Qed.
Example C21_example : let inmap := smap_set smap_empty Gps [req_c1c; [mkPart (mkRaw Gps c2w) (DFin 1)]; req_l1c_c1c] in
  (exists plan i, set_read_map hdr2 inmap true = Val (plan, i) /\ i Gps = Some [req_c1c; req_l1c_c1c]) /\
  (exists plan i, set_read_map hdr2 inmap false = Val (plan, i) /\ plan Gps = None).
Proof. split; eexists _, _; split; vm_compute; reflexivity. Qed.

(** ** C22 *)
Definition hfirst : string := "     3.04           OBSERVATION DATA    M                   RINEX VERSION / TYPE".
Definition hpgm : string := "pgm                 run by              date                PGM / RUN BY / DATE".
Definition hobs1 : string := "G    1 C1C                                                  SYS / # / OBS TYPES".
Definition hobs4 : string := "G    4 C1C L1C C2W L2W                                      SYS / # / OBS TYPES".
Definition hend : string := "                                                            END OF HEADER".
Definition e1 : string := "> 2020 01 01 00 30 30.0000000  0  2".
Definition r1 : string := "G05  23629347.915 7       999.250".
Definition r2 : string := "G06  20000000.000 7       123.125".

Definition C22_full : Prop := forall strp d o, obs_open strp d = Val o ->
  (forall sys codes (line : list ascii), h_tbl (o_hdr o) sys = Some codes -> length line <= 3 + 16 * length codes -> length line < o_bufsz o) /\
  (forall e, epoch_src_ok e -> s_pad e = 0 -> length (epoch_line e) < o_bufsz o).
Theorem C22_full_refuted : ~ C22_full.
Proof.
  intro F. destruct (obs_open no_time (text [hfirst; hpgm; hobs1; hend; e1])) as [o| | | |] eqn:E; try (vm_compute in E; discriminate).
  destruct (F _ _ _ E) as [_ G]. specialize (G ep1 ep1_ok eq_refl).
  assert (B : o_bufsz o = 20) by (vm_compute in E; injection E as <-; reflexivity). rewrite B in G. vm_compute in G. lia.
Qed.
Theorem C22_records_fit_partial : forall strp d o sys codes line st tail,
  obs_open strp d = Val o -> h_tbl (o_hdr o) sys = Some codes -> clean line ->
  length line <= 3 + 16 * length codes -> at_rest st (line ++ NL :: tail) ->
  exists st', getline st (o_buf o) (o_bufsz o) = Val (st', overlay line (o_buf o)) /\ at_rest st' tail.
Proof. exact record_fits. Qed.
Print Assumptions C22_records_fit_partial.
Theorem C22_epochs_fit_partial : forall strp d o e st tail,
  obs_open strp d = Val o -> epoch_src_ok e -> s_pad e = 0 ->
  (match s_off e with Some _ => 4 | None => 2 end <= max_obs (h_tbl (o_hdr o))) ->
  at_rest st (epoch_line e ++ NL :: tail) ->
  exists st', getline st (o_buf o) (o_bufsz o) = Val (st', overlay (epoch_line e) (o_buf o)) /\ at_rest st' tail.
Proof. exact epoch_fits. Qed.
Print Assumptions C22_epochs_fit_partial.
(** with at most one observation type no epoch of any file can be read *)
Theorem C22_one_type_unreadable : forall strp d o e tail plan out,
  obs_open strp d = Val o -> max_obs (h_tbl (o_hdr o)) <= 1 ->
  at_rest (o_stream o) (epoch_line e ++ NL :: tail) -> epoch_src_ok e ->
  exists r, read_next_epoch o plan out = Val r /\ er_code r = 21%Z /\ sfail (o_stream (er_obj r)) = true.
Proof.
  intros strp d o e tail plan out Ho Hm Hs He. apply open_facts in Ho as (_ & B & L & _).
  eapply epoch_too_long; eauto. lia.
Qed.
Print Assumptions C22_one_type_unreadable.
Example C22_example : exists o, obs_open no_time (text [hfirst; hpgm; hobs4; hend; e1; r1; r2]) = Val o /\
  o_bufsz o = 68 /\ h_tbl (o_hdr o) Gps = Some [c1c; l1c; c2w; mkCode CarrierPhase 2 "W"%char].
Proof. eexists. split; [vm_compute; reflexivity|]. split; vm_compute; reflexivity. Qed.

(** ** C23 *)
Definition C23_full : Prop := forall buf line reqs vals prn,
  holds buf line -> line <> [] -> 3 <= length buf -> length reqs <= length vals ->
  prn_of line = Some prn -> (forall r, In r reqs -> bad_request line r = false) ->
  exists code, sat_epoch_collect buf reqs vals =
    Val (code, prn, map (intended_value line) reqs ++ skipn (length reqs) vals) /\ (code <= 0)%Z.
(** first field blank, second present, C1 - L1 requested *)
Definition gap_line := lit "G05" ++ blanks 16 ++ lit "       999.250".
Theorem C23_full_refuted : ~ C23_full.
Proof.
  intro F. specialize (F (cbuf (gap_line ++ blanks 2)) (gap_line ++ blanks 2) [[(0, DFin 1); (1, DFin (-1))]] [DFin 0] 5%Z).
  destruct F as (code & E & _).
  - exists []. split; [reflexivity|]. vm_compute. intuition discriminate.
  - discriminate.
  - vm_compute. lia.
  - cbn. lia.
  - reflexivity.
  - intros r [<-|[]]. vm_compute. reflexivity.
  - vm_compute in E. discriminate.
Qed.
(** exactly what is returned, for every line and plan *)
Theorem C23_values_exact_partial : forall buf line reqs vals,
  holds buf line -> line <> [] -> 3 <= length buf -> length reqs <= length vals ->
  match prn_of line with
  | None => exists n, sat_epoch_collect buf reqs vals = Val (1%Z, n, vals)
  | Some prn =>
      if existsb (bad_request line) reqs
      then exists vals', length vals' = length vals /\ sat_epoch_collect buf reqs vals = Val (2%Z, prn, vals')
      else sat_epoch_collect buf reqs vals =
           Val ((- blank_total line reqs)%Z, prn,
                map (fun r => actual_value line r (DFin 0)) reqs ++ skipn (length reqs) vals)
  end.
Proof. exact sat_collect_spec. Qed.
Print Assumptions C23_values_exact_partial.
(** and that is the intended value unless a present field follows a missing one *)
Theorem C23_intended_partial : forall line req,
  missing_last line req -> bad_request line req = false ->
  actual_value line req (DFin 0) = intended_value line req.
Proof. exact actual_intended. Qed.
Print Assumptions C23_intended_partial.
(** in particular for single-field requests and when nothing is missing *)
Theorem C23_single : forall line col coef, bad_request line [(col, coef)] = false ->
  actual_value line [(col, coef)] (DFin 0) = intended_value line [(col, coef)].
Proof. intros. apply actual_intended; [|assumption]. cbn. split; [intros _ q []|exact I]. Qed.
Theorem C23_all_present : forall line req, bad_request line req = false ->
  (forall p, In p req -> cell_missing (cell_of line (fst p)) = false) ->
  actual_value line req (DFin 0) = intended_value line req.
Proof.
  intros line req Hb H. apply actual_intended; [|assumption]. clear Hb. induction req as [|p r IH]; cbn; [exact I|].
  split; [intro F; rewrite (H p (or_introl eq_refl)) in F; discriminate|]. apply IH. intros q Hq. apply H. right. exact Hq.
Qed.
Example C23_example :
  let line := lit r1 in
  prn_of line = Some 5%Z /\ cell_of line 0 = CValue (fst (fst (strtod (lit "  23629347.915 7")))) /\
  cell_missing (cell_of line 3) = true /\ bad_request line [(0, DFin 1); (3, DFin 1)] = false.
Proof. split; [reflexivity|]. split; [vm_compute; reflexivity|]. split; vm_compute; reflexivity. Qed.

(** ** C24 *)
(** columns 2-3 hold a decimal number: two digits, or a blank and a digit *)
Definition two_column_number (line : list ascii) (n : Z) : Prop :=
  exists c a b r, line = c :: a :: b :: r /\
    ((digit a /\ digit b /\ n = ((ch_val a) * 10 + ch_val b)%Z) \/ (a = " "%char /\ digit b /\ n = ch_val b)).
Definition C24_full : Prop := forall buf line reqs vals code prn vals',
  holds buf line -> line <> [] -> 3 <= length buf -> length reqs <= length vals ->
  sat_epoch_collect buf reqs vals = Val (code, prn, vals') -> (code <= 0)%Z ->
  (1 <= prn <= 99)%Z /\ two_column_number line prn.
Theorem C24_full_refuted : ~ C24_full.
Proof.
  intro F. destruct (F (cbuf (lit "G5x")) (lit "G5x") [] [] 0%Z 5%Z []) as [_ G].
  - exists []. split; [reflexivity|]. vm_compute. intuition discriminate.
  - discriminate.
  - cbn. lia.
  - cbn. lia.
  - vm_compute. reflexivity.
  - lia.
  - destruct G as (c & a & b & r & E & [(D1 & D2 & _)|(H & _)]); injection E as <- <- <- <-; [|discriminate].
    unfold digit in D2. cbn in D2. lia.
Qed.
(** every accepted line has a number in 1..99 in columns 2-3, read as [prn_of] says (a digit or two, or
    white space or '+' before a digit; a digit may be followed by any other character) *)
Theorem C24_prn_partial : forall buf line reqs vals code prn vals',
  holds buf line -> line <> [] -> 3 <= length buf -> length reqs <= length vals ->
  sat_epoch_collect buf reqs vals = Val (code, prn, vals') -> code <> 1%Z ->
  prn_of line = Some prn /\ (1 <= prn <= 99)%Z.
Proof.
  intros buf line reqs vals code prn vals' Hh Hl Hb Hr E Hc. pose proof (sat_collect_spec buf line reqs vals Hh Hl Hb Hr) as Q.
  destruct (prn_of line) as [p|] eqn:P.
  - assert (p = prn).
    { destruct (existsb (bad_request line) reqs); [destruct Q as (v & _ & Q)|]; rewrite Q in E; congruence. }
    subst p. split; [reflexivity|]. unfold prn_of in P.
    assert (V : forall c, ch_digit c = true -> (0 <= ch_val c <= 9)%Z).
    { intros c H. unfold ch_digit in H. apply andb_true_iff in H as [H1 H2]. apply Nat.leb_le in H1, H2. unfold ch_val. lia. }
    destruct (firstn 2 (skipn 1 line)) as [|a [|b [|? ?]]]; cbn [Z.leb Z.compare] in P; try discriminate.
    + destruct (ch_digit a) eqn:Da; [apply V in Da|discriminate].
      destruct (Z.leb_spec 1 (ch_val a)); [injection P as <-; lia|discriminate].
    + destruct (ch_digit a) eqn:Da.
      * apply V in Da. destruct (ch_digit b) eqn:Db.
        -- apply V in Db. destruct (Z.leb_spec 1 (ch_val a * 10 + ch_val b)); [injection P as <-; lia|discriminate].
        -- destruct (Z.leb_spec 1 (ch_val a)); [injection P as <-; lia|discriminate].
      * destruct (ch_lead a && ch_digit b) eqn:Db; [|discriminate]. apply andb_true_iff in Db as [_ Db]. apply V in Db.
        destruct (Z.leb_spec 1 (ch_val b)); [injection P as <-; lia|discriminate].
  - destruct Q as (n & Q). rewrite Q in E. congruence.
Qed.
Print Assumptions C24_prn_partial.
(** a conforming line is accepted with its number *)
Theorem C24_conforming : forall line n, two_column_number line n -> (1 <= n)%Z -> prn_of line = Some n.
Proof.
  intros line n (c & a & b & r & -> & H) Hn. unfold prn_of. cbn [skipn firstn].
  assert (D : forall x, digit x -> ch_digit x = true).
  { intros x [H1 H2]. unfold ch_digit. apply andb_true_iff. split; apply Nat.leb_le; assumption. }
  destruct H as [(Da & Db & ->)|(-> & Db & ->)].
  - rewrite (D _ Da), (D _ Db). destruct (Z.leb_spec 1 (ch_val a * 10 + ch_val b)); [reflexivity|lia].
  - rewrite (D _ Db). change (ch_digit " ") with false. change (ch_lead " ") with true. cbn [andb].
    destruct (Z.leb_spec 1 (ch_val b)); [reflexivity|lia].
Qed.
Print Assumptions C24_conforming.
Example C24_example : two_column_number (lit r1) 5 /\ two_column_number (lit "G 7") 7.
Proof.
  split; eexists _, _, _, _; (split; [reflexivity|]); [left|right]; concrete.
Qed.

(** ** C25 *)
Definition C25_full : Prop := forall numsats plan st buf bufsz out,
  good st = true -> 4 <= bufsz -> length buf = bufsz -> wide plan out ->
  collect_epoch numsats plan st buf bufsz out <> UB /\
  forall n out' st' buf', collect_epoch numsats plan st buf bufsz out = Val (0%Z, n, out', st', buf') ->
  exists lines, length lines = Z.to_nat numsats /\ consumed bufsz (rest st) lines (rest st') /\
    Forall (fun l => record_of plan (cut_nul l) <> RBad) lines /\
    n = length (taken plan (map cut_nul lines)) /\ n <= Z.to_nat numsats /\ n <= length out /\
    delivers out' (taken plan (map cut_nul lines)) /\
    forall i, n <= i -> nth_error out' i = nth_error out i.
Definition plan1 : plan_t := smap_set smap_empty Gps [[(0, DFin 1)]].
Theorem C25_full_refuted : ~ C25_full.
Proof.
  intro F. destruct (F 1%Z plan1 (open_stream (text [r1])) (uninit 68) 68 [] eq_refl ltac:(lia) eq_refl) as [G _].
  - intros e s reqs [].
  - apply G. vm_compute. reflexivity.
Qed.

Lemma taken_length plan lines : length (taken plan lines) <= length lines.
Proof.
  induction lines as [|l lines IH]; [cbn; lia|]. rewrite taken_cons. destruct (record_of plan l); cbn [length]; lia.
Qed.

(** success: exactly [numsats] lines consumed, satellites of the plan's systems stored in file order,
    the rest of the vector unchanged *)
Theorem C25_success_partial : forall numsats plan st buf bufsz out n out' st' buf',
  good st = true -> 4 <= bufsz -> length buf = bufsz -> wide plan out ->
  collect_epoch numsats plan st buf bufsz out = Val (0%Z, n, out', st', buf') ->
  exists lines, length lines = Z.to_nat numsats /\ consumed bufsz (rest st) lines (rest st') /\
    Forall (fun l => record_of plan (cut_nul l) <> RBad) lines /\
    n = length (taken plan (map cut_nul lines)) /\ n <= Z.to_nat numsats /\ n <= length out /\
    delivers out' (taken plan (map cut_nul lines)) /\
    forall i, n <= i -> nth_error out' i = nth_error out i.
Proof.
  intros numsats plan st buf bufsz out n out' st' buf' G H4 Lb W E. unfold collect_epoch in E.
  destruct (loop_inverse plan bufsz _ st buf [] out n out' st' buf' G H4 Lb W E) as (lines & L & C & NB & N & T & ->).
  exists lines. cbn [length app] in *. rewrite Nat.add_0_l in N. subst n.
  split; [exact L|]. split; [exact C|]. split; [exact NB|]. split; [reflexivity|].
  split; [rewrite <- L, <- (map_length cut_nul lines); apply taken_length|]. split; [exact T|].
  split; [apply fill_delivers; exact T|]. intros i Hi. apply fill_rest. exact Hi.
Qed.
Print Assumptions C25_success_partial.

(** complete fitting lines: everything is as expected when the vector is long enough, and undefined
    behaviour (a write past its end) when it is not *)
Theorem C25_forward_partial : forall plan bufsz lines st buf out tail,
  at_rest st (text_of lines ++ tail) -> Forall clean lines -> Forall (fun l => length l < bufsz) lines ->
  Forall (fun l => record_of plan l <> RBad) lines ->
  4 <= bufsz -> length buf = bufsz -> wide plan out ->
  if length (taken plan lines) <=? length out then
    exists out' st' buf',
      collect_epoch (Z.of_nat (length lines)) plan st buf bufsz out
      = Val (0%Z, length (taken plan lines), out', st', buf') /\ at_rest st' tail /\
      delivers out' (taken plan lines) /\
      forall i, length (taken plan lines) <= i -> nth_error out' i = nth_error out i
  else collect_epoch (Z.of_nat (length lines)) plan st buf bufsz out = UB.
Proof.
  intros plan bufsz lines st buf out tail A C F NB H4 Lb W. unfold collect_epoch. rewrite Nat2Z.id.
  pose proof (loop_forward plan bufsz lines st buf [] out tail A C F NB H4 Lb W) as Q. cbn [length app] in Q.
  destruct (Nat.leb_spec (length (taken plan lines)) (length out)) as [T|T]; [|exact Q].
  destruct Q as (st' & buf' & E & R & _). rewrite Nat.add_0_l in E. eexists _, st', buf'. split; [exact E|]. split; [exact R|].
  split; [apply fill_delivers; exact T|]. intros i Hi. apply fill_rest. exact Hi.
Qed.
Print Assumptions C25_forward_partial.

(** the vector made by initialize_epoch_vector has 80 entries wide enough for the plan *)
Theorem C25_initial_vector : forall plan,
  length (initialize_epoch_vector plan) = 80 /\ wide plan (initialize_epoch_vector plan).
Proof.
  intro plan. split; [apply repeat_length|]. intros e s reqs Hin Hp. apply repeat_spec in Hin. subst e. cbn [snd].
  rewrite repeat_length. unfold plan_width.
  set (f := fun mx k => match plan k with Some v => if mx <? length v then length v else mx | None => mx end).
  assert (M : forall m k, m <= f m k).
  { intros m k. unfold f. destruct (plan k) as [w|]; [destruct (Nat.ltb_spec m (length w))|]; lia. }
  assert (Ms : forall m, length reqs <= f m s).
  { intro m. unfold f. rewrite Hp. destruct (Nat.ltb_spec m (length reqs)); lia. }
  assert (G : forall l m, m <= fold_left f l m /\ (In s l -> length reqs <= fold_left f l m)).
  { induction l as [|k l IH]; intro m; cbn [fold_left In]; [split; [auto|tauto]|].
    destruct (IH (f m k)) as [I1 I2]. split; [specialize (M m k); lia|]. intros [->|Hi]; [|auto].
    specialize (Ms m). lia. }
  apply G. destruct s; cbn; tauto.
Qed.
Print Assumptions C25_initial_vector.
Example C25_example : let lines := map lit [r1; "R12 no plan"; r2]%string in
  Forall (fun l => record_of plan1 l <> RBad) lines /\ Forall (fun l => length l < 68) lines /\
  map (fun x => fst x) (taken plan1 lines) = [(Gps, 5%Z); (Gps, 6%Z)].
Proof. split; [|split; [repeat constructor|vm_compute; reflexivity]]. repeat constructor; vm_compute; discriminate. Qed.

(** ** C26 *)
Definition C26_full : Prop := forall plan o out r, good (o_stream o) = true -> length (o_buf o) = o_bufsz o ->
  4 <= o_bufsz o -> wide plan out -> read_next_epoch o plan out = Val r ->
  (er_code r = 0 \/ er_code r = -1 \/ (21 <= er_code r <= 25) \/ er_code r = 31)%Z /\
  (er_code r = (-1)%Z -> rest (o_stream (er_obj r)) = [] /\ er_sats r = 0 /\ er_hdr r = None) /\
  (forall e recs tail, rest (o_stream o) = epoch_text e recs ++ tail \/
      (exists last, last <> [] /\ rest (o_stream o) = epoch_text e (removelast recs) ++ last /\ recs = removelast recs ++ [last]) ->
     epoch_ok plan (o_bufsz o) e recs -> length (taken plan recs) <= length out -> er_code r = 0%Z).
Definition obj (d : list ascii) : obsfile :=
  mkObsFile (open_stream d) (mkHdr (DFin 3) Mixed [] [] [] [] [] [] [] false None hdr2) (Some 0) (uninit 68) 68.
(** the last line of the file has no newline: the epoch is delivered, with return code -1 *)
Theorem C26_full_refuted : ~ C26_full.
Proof.
  intro F. set (d := text [e1; r1] ++ lit r2).
  destruct (read_next_epoch (obj d) plan1 (initialize_epoch_vector plan1)) as [r| | | |] eqn:E; try (vm_compute in E; discriminate).
  destruct (F plan1 (obj d) (initialize_epoch_vector plan1) r) as (_ & G & _); auto.
  - cbn. lia.
  - apply C25_initial_vector.
  - assert (Q : er_code r = (-1)%Z /\ er_sats r = 2) by (vm_compute in E; injection E as <-; split; reflexivity).
    destruct Q as [Q1 Q2]. destruct (G Q1) as (_ & G2 & _). rewrite Q2 in G2. discriminate.
Qed.
Theorem C26_codes_partial : forall o plan out r, read_next_epoch o plan out = Val r ->
  (er_code r = 0 \/ er_code r = -1 \/ (21 <= er_code r <= 25) \/ er_code r = 31)%Z.
Proof. exact epoch_codes. Qed.
Print Assumptions C26_codes_partial.
(** -1 is returned only at the end of the file (and the stream is usable again) *)
Theorem C26_minus_one_partial : forall o plan out r, (seof (o_stream o) = true -> rest (o_stream o) = []) ->
  read_next_epoch o plan out = Val r -> er_code r = (-1)%Z ->
  rest (o_stream (er_obj r)) = [] /\ good (o_stream (er_obj r)) = true.
Proof. exact epoch_minus_one. Qed.
Print Assumptions C26_minus_one_partial.
(** 0 on a good stream means that an epoch header was read *)
Theorem C26_zero_partial : forall o plan out r,
  read_next_epoch o plan out = Val r -> er_code r = 0%Z -> good (o_stream o) = true -> exists h, er_hdr r = Some h.
Proof. exact epoch_zero. Qed.
Print Assumptions C26_zero_partial.
(** a complete epoch, every line ended by a newline *)
Theorem C26_epoch_partial : forall plan o e recs tail out,
  ready o (epoch_text e recs ++ tail) -> epoch_ok plan (o_bufsz o) e recs -> wide plan out ->
  length (taken plan recs) <= length out ->
  exists r h, read_next_epoch o plan out = Val r /\
    er_code r = 0%Z /\ er_hdr r = Some h /\ header_of h e /\
    er_sats r = length (taken plan recs) /\ er_out r = fill (taken plan recs) out /\
    ready (er_obj r) tail /\ o_bufsz (er_obj r) = o_bufsz o /\ o_hdr (er_obj r) = o_hdr o /\
    o_eoh (er_obj r) = o_eoh o /\ sdata (o_stream (er_obj r)) = sdata (o_stream o).
Proof. exact epoch_read. Qed.
Print Assumptions C26_epoch_partial.
Theorem C26_bad_record_partial : forall plan o e recs bad tail out,
  ready o (epoch_line e ++ NL :: text_of recs ++ bad ++ NL :: tail) ->
  epoch_src_ok e -> length (epoch_line e) < o_bufsz o -> (Z.of_nat (length recs) < dec_val (s_nsat e))%Z ->
  Forall clean (recs ++ [bad]) -> Forall (fun l => length l < o_bufsz o) (recs ++ [bad]) ->
  Forall (fun l => record_of plan l <> RBad) recs -> record_of plan bad = RBad -> wide plan out ->
  length (taken plan recs) < length out ->
  exists r, read_next_epoch o plan out = Val r /\ er_code r = 31%Z.
Proof. exact epoch_bad_record. Qed.
Print Assumptions C26_bad_record_partial.
Theorem C26_end_of_file : forall plan o out,
  ready o [] ->
  exists r, read_next_epoch o plan out = Val r /\ er_code r = (-1)%Z /\ er_sats r = 0 /\ er_out r = out /\
    er_hdr r = None /\ ready (er_obj r) [] /\ o_bufsz (er_obj r) = o_bufsz o /\
    o_eoh (er_obj r) = o_eoh o /\ sdata (o_stream (er_obj r)) = sdata (o_stream o).
Proof. exact epoch_eof. Qed.
Print Assumptions C26_end_of_file.
(** the two failures of the full statement, in general *)
Theorem C26_unterminated : forall plan o e recs last out,
  ready o (epoch_text e recs ++ last) -> epoch_ok plan (o_bufsz o) e (recs ++ [last]) -> wide plan out ->
  length (taken plan (recs ++ [last])) <= length out ->
  exists r h, read_next_epoch o plan out = Val r /\
    er_code r = (-1)%Z /\ er_hdr r = Some h /\ header_of h e /\
    er_sats r = length (taken plan (recs ++ [last])) /\ er_out r = fill (taken plan (recs ++ [last])) out.
Proof. exact epoch_read_unterminated. Qed.
Print Assumptions C26_unterminated.
Theorem C26_failed_stream_returns_zero : forall plan o out,
  sfail (o_stream o) = true -> seof (o_stream o) = false ->
  read_next_epoch o plan out = Val (mkRes 0%Z o out 0 None).
Proof. intros plan [st h p b n] out F E. cbn in F, E. exact (epoch_failed plan (mkObsFile st h p b n) out F E). Qed.
Print Assumptions C26_failed_stream_returns_zero.
Example C26_example : ready (obj (text [e1; r1; r2; e1; r1; r2])) (epoch_text ep1 (map lit [r1; r2]) ++ text [e1; r1; r2]) /\
  epoch_ok plan1 68 ep1 (map lit [r1; r2]).
Proof.
  split; [split; [split; [reflexivity|vm_compute; reflexivity]|split; [reflexivity|cbn; lia]]|].
  split; [exact ep1_ok|]. split; [vm_compute; lia|]. split; [reflexivity|].
  split; [repeat constructor; vm_compute; intuition discriminate|]. split; [repeat constructor|].
  repeat constructor; vm_compute; discriminate.
Qed.

