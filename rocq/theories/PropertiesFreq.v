(** Property C06: the frequency of a linear combination, in doubles. *)
From Coq Require Import Qabs Qpower Lqa.
From Verif Require Import SpecB64.
From Verif Require Import Base BaseLemmas CNum CNumLemmas ModelSatsys ModelObs SpecText ProofText SpecNum ProofNum.
From Verif Require ProofB64.
Local Open Scope Q_scope.

Lemma b64_gen x : Qabs (b64 x - x) <= 2 ^ (-53) * Qabs x + 2 ^ (-1075).
Proof.
  destruct (Qlt_le_dec (Qabs x) (2 ^ (-1022))) as [L|L].
  - assert (A : Qabs (b64 x - x) <= 2 ^ (-1021 - 54)).
    { apply ProofB64.b64_abs; [discriminate|]. eapply Qlt_le_trans; [exact L|]. apply ProofB64.pow_le. discriminate. }
    change (-1021 - 54)%Z with (-1075)%Z in A. pose proof (Qabs_nonneg x) as N.
    assert (P : 0 <= 2 ^ (-53) * Qabs x) by (apply Qmult_le_0_compat; [apply Qlt_le_weak, ProofB64.pow_pos|exact N]). lra.
  - pose proof (ProofB64.b64_rel x L). pose proof (ProofB64.pow_pos (-1075)). lra.
Qed.
Lemma tiny : 2 ^ (-1075) <= 2 ^ (-53). Proof. apply ProofB64.pow_le. discriminate. Qed.
Lemma p53v : 2 ^ (-53) == 1 # 9007199254740992. Proof. reflexivity. Qed.

Lemma nominal_range s b f : nominal s b = Some f -> 1 <= f /\ f <= 4096.
Proof.
  unfold nominal. intro H.
  destruct s, b as [|b|b]; try discriminate H;
  repeat (match type of H with context[match ?p with xI _ => _ | xO _ => _ | xH => _ end] => destruct p end; try discriminate H);
  injection H as <-; split; vm_compute; discriminate.
Qed.
Lemma band2frequency_val s b : s <> Glonass -> s <> Mixed ->
  match nominal s b with
  | Some f => exists f', band2frequency s b = Val f' /\ b64 f' = b64 f
  | None => band2frequency s b = Exn
  end.
Proof.
  intros G M. pose proof (band2frequency_nominal s b G) as H. destruct (nominal s b); [|exact H].
  destruct H as (f' & -> & E). exists f'. split; [reflexivity|]. apply ProofB64.b64_wd. exact E.
Qed.

(** one part: the size of its rounding error, [T] at least its absolute contribution *)
Lemma part_double p q c : pcoef p = DFin q -> contribution (rsys (ptype p)) (cband (rcode (ptype p))) q = Some c ->
  Qabs c <= 2 ^ 990 ->
  exists x, part_frequency p = Val (DFin x) /\ contribution_double (rsys (ptype p)) (cband (rcode (ptype p))) q x /\
            Qabs (x - c) <= 3 * 2 ^ (-53) * Qabs c + 2 ^ (-1075).
Proof.
  intros Hq Hc L. unfold part_frequency.
  assert (Z : exists x, Val (DFin 0) = Val (DFin x) /\ x == 0 /\ (c == 0 -> Qabs (x - c) <= 3 * 2 ^ (-53) * Qabs c + 2 ^ (-1075))).
  { exists 0. split; [reflexivity|split; [reflexivity|]]. intro E. rewrite E. vm_compute. discriminate. }
  assert (G : rsys (ptype p) <> Glonass -> rsys (ptype p) <> Mixed ->
     forall f, nominal (rsys (ptype p)) (cband (rcode (ptype p))) = Some f -> c = f * q ->
     exists x, (do f <- band2frequency (rsys (ptype p)) (cband (rcode (ptype p))); Val (dmul (DFin (b64 f)) (pcoef p))) = Val (DFin x) /\
       (exists g g', nominal (rsys (ptype p)) (cband (rcode (ptype p))) = Some g /\ nearest_double g g' /\ nearest_double (g' * q) x) /\
       Qabs (x - c) <= 3 * 2 ^ (-53) * Qabs c + 2 ^ (-1075)).
  { intros N1 N2 f Hf ->. pose proof (band2frequency_val _ (cband (rcode (ptype p))) N1 N2) as B. rewrite Hf in B.
    destruct B as (f' & -> & Ef). cbn [bind]. rewrite Ef, Hq. destruct (nominal_range _ _ _ Hf) as (R1 & R2).
    assert (Bf : Qabs (b64 f - f) <= 2 ^ (-53) * Qabs f).
    { apply ProofB64.b64_rel. rewrite Qabs_pos by lra. apply Qle_trans with 1; [|exact R1]. change 1 with (2 ^ 0). apply ProofB64.pow_le. discriminate. }
    pose proof (ProofB64.b64_nearest f) as Ng. set (g := b64 f) in *. clearbody g.
    assert (D : Qabs (g * q - f * q) <= 2 ^ (-53) * Qabs (f * q)).
    { setoid_replace (g * q - f * q) with ((g - f) * q) by ring. rewrite !Qabs_Qmult, Qmult_assoc. apply Qmult_le_compat_r; [exact Bf|apply Qabs_nonneg]. }
    assert (S : Qabs (g * q) <= Qabs (f * q) + 2 ^ (-53) * Qabs (f * q)).
    { setoid_replace (g * q) with (f * q + (g * q - f * q)) by ring. eapply Qle_trans; [apply Qabs_triangle|]. lra. }
    pose proof (Qabs_nonneg (f * q)) as N.
    assert (S2 : Qabs (g * q) <= 2 * Qabs (f * q)) by (rewrite p53v in S; lra).
    assert (F : dfin (g * q) = DFin (b64 (g * q))).
    { apply dfin_fin. apply Qle_trans with (2 * 2 ^ 990); [lra|]. vm_compute. discriminate. }
    exists (b64 (g * q)). cbn [dmul]. rewrite F. split; [reflexivity|]. split.
    - exists f, g. split; [exact Hf|]. split; [exact Ng|apply ProofB64.b64_nearest].
    - pose proof (b64_gen (g * q)) as E. set (x := b64 (g * q)) in *. clearbody x.
      setoid_replace (x - f * q) with ((x - g * q) + (g * q - f * q)) by ring. eapply Qle_trans; [apply Qabs_triangle|].
      assert (M : 2 ^ (-53) * Qabs (g * q) <= 2 ^ (-53) * (2 * Qabs (f * q))) by (apply Qmult_le_l; [apply ProofB64.pow_pos|exact S2]).
      set (u := 2 ^ (-53)) in *. set (eta := 2 ^ (-1075)) in *. lra. }
  unfold contribution in Hc. destruct (rsys (ptype p)) eqn:Es; cbn [contribution_double];
  (* GLONASS and mixed *)
  try (destruct Z as (x & Ex & Ez & Eb); injection Hc as <-; exists x; split; [exact Ex|split; [exact Ez|apply Eb; reflexivity]]; fail);
  (destruct (nominal _ _) as [f|] eqn:Ef; [|discriminate Hc]; cbn [option_map] in Hc; injection Hc as Hc;
   apply (G ltac:(discriminate) ltac:(discriminate) f eq_refl); symmetry; exact Hc).
Qed.

Lemma size_nonneg l T : size_contributions l = Some T -> 0 <= T.
Proof.
  revert T. induction l as [|[[s b] q] l IH]; intros T H; cbn in H; [injection H as <-; lra|].
  change (sum_contributions (map _ l)) with (size_contributions l) in H.
  destruct (contribution s b (Qabs q)) as [c|] eqn:Ec; [|discriminate H]. destruct (size_contributions l) as [T'|]; [|discriminate H].
  injection H as <-. specialize (IH T' eq_refl).
  assert (0 <= c); [|lra]. unfold contribution in Ec.
  destruct s; try (injection Ec as <-; lra); (destruct (nominal _ _) as [f|] eqn:Ef; [|discriminate Ec]; cbn in Ec; injection Ec as <-;
    apply Qmult_le_0_compat; [destruct (nominal_range _ _ _ Ef); lra|apply Qabs_nonneg]).
Qed.
Lemma contribution_size s b q : match contribution s b q with
  | Some c => exists d, contribution s b (Qabs q) = Some d /\ d == Qabs c | None => contribution s b (Qabs q) = None end.
Proof.
  unfold contribution. destruct s; try (exists 0; split; reflexivity);
  (destruct (nominal _ _) as [f|] eqn:Ef; cbn [option_map]; [|reflexivity]; eexists; split; [reflexivity|]; rewrite Qabs_Qmult, (Qabs_pos f); [reflexivity|];
   destruct (nominal_range _ _ _ Ef); lra).
Qed.
Lemma size_sum l : match sum_contributions l with
  | Some x => exists T, size_contributions l = Some T /\ Qabs x <= T | None => size_contributions l = None end.
Proof.
  induction l as [|[[s b] q] l IH]; [exists 0; split; [reflexivity|vm_compute; discriminate]|].
  cbn [sum_contributions]. unfold size_contributions. cbn [map fst snd sum_contributions]. fold (size_contributions l).
  pose proof (contribution_size s b q) as C. destruct (contribution s b q) as [c|].
  - destruct C as (d & -> & Ed). destruct (sum_contributions l) as [y|].
    + destruct IH as (T & -> & HT). eexists. split; [reflexivity|]. eapply Qle_trans; [apply Qabs_triangle|]. lra.
    + rewrite IH. reflexivity.
  - rewrite C. reflexivity.
Qed.

(** the loop: [a] is the sum so far, [e] what it should be, [k] the parts done, [T] the size of all *)
Lemma loop_double T : 0 <= T -> T <= 2 ^ 990 -> forall o a e k x S,
  Forall finite_coef o -> sum_contributions (as_terms o) = Some x -> size_contributions (as_terms o) = Some S ->
  (0 <= k)%Z -> (k + Z.of_nat (length o) <= 2 ^ 50)%Z -> Qabs e + S <= T -> Qabs (a - e) <= inject_Z k * (2 ^ (-50) * (1 + T)) ->
  exists x', frequency_loop o (DFin a) = Val (DFin x') /\ adds_up a (as_terms o) x' /\
    Qabs (x' - (e + x)) <= inject_Z (k + Z.of_nat (length o)) * (2 ^ (-50) * (1 + T)).
Proof.
  intros T0 T1. induction o as [|p o IH]; intros a e k x S Fo Hx HS K0 K1 B E; cbn [as_terms map length frequency_loop].
  - injection Hx as <-. exists a. split; [reflexivity|]. split; [constructor|]. rewrite Z.add_0_r.
    setoid_replace (a - (e + 0)) with (a - e) by ring. exact E.
  - inversion Fo as [|? ? [q Hq] Fo']; subst. fold (as_terms o).
    cbn [as_terms map] in Hx, HS. fold (as_terms o) in Hx, HS. unfold coefQ in *. rewrite Hq in *.
    cbn [sum_contributions] in Hx. unfold size_contributions in HS. cbn [map fst snd sum_contributions] in HS. fold (size_contributions (as_terms o)) in HS.
    pose proof (contribution_size (rsys (ptype p)) (cband (rcode (ptype p))) q) as C.
    destruct (contribution (rsys (ptype p)) (cband (rcode (ptype p))) q) as [c|] eqn:Ec; [|discriminate Hx].
    destruct C as (d & Ed & Dc). rewrite Ed in HS. destruct (sum_contributions (as_terms o)) as [y|]; [|discriminate Hx].
    destruct (size_contributions (as_terms o)) as [S'|] eqn:ES; [|discriminate HS].
    injection Hx as <-. injection HS as <-. pose proof (size_nonneg _ _ ES) as N'. pose proof (Qabs_nonneg c) as Nc. pose proof (Qabs_nonneg e) as Ne.
    destruct (part_double p q c Hq Ec) as (v & -> & Cd & Ev); [lra|]. cbn [bind].
    assert (Ka : Qabs (a - e) <= 1 + T).
    { eapply Qle_trans; [exact E|]. apply Qle_trans with (inject_Z (2 ^ 50) * (2 ^ (-50) * (1 + T))).
      - apply Qmult_le_compat_r; [rewrite <- Zle_Qle; lia|]. apply Qmult_le_0_compat; [apply Qlt_le_weak, ProofB64.pow_pos|lra].
      - change (inject_Z (2 ^ 50)) with (1125899906842624 # 1). change (2 ^ (-50)) with (1 # 1125899906842624). lra. }
    assert (Ts : Qabs (a + v - (e + c)) <= Qabs (a - e) + Qabs (v - c)).
    { setoid_replace (a + v - (e + c)) with ((a - e) + (v - c)) by ring. apply Qabs_triangle. }
    assert (M : Qabs (a + v) <= 2 + 3 * T).
    { setoid_replace (a + v) with ((a + v - (e + c)) + (e + c)) by ring. eapply Qle_trans; [apply Qabs_triangle|].
      pose proof (Qabs_triangle e c) as Tc. pose proof tiny. rewrite p53v in *. lra. }
    assert (F : dadd (DFin a) (DFin v) = DFin (b64 (a + v))).
    { cbn [dadd]. apply dfin_fin. apply Qle_trans with (2 + 3 * 2 ^ 990); [lra|]. vm_compute. discriminate. }
    rewrite F. pose proof (b64_gen (a + v)) as R. pose proof (ProofB64.b64_nearest (a + v)) as Nn. set (a' := b64 (a + v)) in *. clearbody a'.
    destruct (IH a' (e + c) (k + 1)%Z y S' Fo' eq_refl eq_refl) as (x' & L & A & Ex); [lia|cbn [length] in K1; lia| | |].
    + pose proof (Qabs_triangle e c). lra.
    + rewrite inject_Z_plus. change (inject_Z 1) with 1.
      assert (Q1 : Qabs (a' - (e + c)) <= Qabs (a' - (a + v)) + Qabs (a + v - (e + c))).
      { setoid_replace (a' - (e + c)) with ((a' - (a + v)) + (a + v - (e + c))) by ring. apply Qabs_triangle. }
      change (2 ^ (-50)) with (1 # 1125899906842624) in *. pose proof tiny as Ti. rewrite p53v in *. lra.
    + exists x'. split; [exact L|]. split; [econstructor; [exact Cd|exact Nn|exact A]|].
      setoid_replace (x' - (e + (c + y))) with (x' - (e + c + y)) by ring.
      replace (k + Z.of_nat (S (length o)))%Z with (k + 1 + Z.of_nat (length o))%Z by lia. exact Ex.
Qed.

(** C06, for coefficients whose combination stays far below the largest double (2^1024) and up to 2^50 parts: the value is the
    left-to-right sum in doubles, and it differs from the exact sum by at most n 2^-50 (1 + sum of absolute contributions)
    MHz; a band that is not listed ends the program *)
Theorem C06_frequency : forall o, Forall finite_coef o -> (Z.of_nat (length o) <= 2 ^ 50)%Z ->
  (forall T, size_contributions (as_terms o) = Some T -> T <= 2 ^ 990) ->
  match sum_contributions (as_terms o), size_contributions (as_terms o) with
  | Some x, Some T => exists x', observable_frequency o = Val (DFin x') /\ adds_up 0 (as_terms o) x' /\
      Qabs (x' - x) <= inject_Z (Z.of_nat (length o)) * (2 ^ (-50) * (1 + T))
  | _, _ => observable_frequency o = Term
  end.
Proof.
  intros o F L B. pose proof (size_sum (as_terms o)) as HS. destruct (sum_contributions (as_terms o)) as [x|] eqn:Ex.
  - destruct HS as (T & ET & Hx). rewrite ET. pose proof (size_nonneg _ _ ET) as T0.
    destruct (loop_double T T0 (B T ET) o 0 0 0 x T F Ex ET) as (x' & Lo & A & E); [discriminate|lia|cbn; lra|cbn; rewrite Qmult_0_l; discriminate|].
    exists x'. unfold observable_frequency. rewrite Lo. split; [reflexivity|]. split; [exact A|].
    setoid_replace (x' - x) with (x' - (0 + x)) by ring. exact E.
  - assert (N : ~ Forall band_listed o).
    { clear -Ex. intro Hb. induction o as [|p o IH]; [discriminate Ex|]. inversion Hb as [|? ? Hp Ho]; subst. cbn in Ex. fold (as_terms o) in Ex.
      destruct (contribution _ _ _) eqn:Ec.
      - destruct (sum_contributions (as_terms o)); [discriminate Ex|]. exact (IH eq_refl Ho).
      - unfold contribution, band_listed in *. destruct (rsys (ptype p)); try discriminate Ec;
          destruct Hp as [Hp|[Hp|Hp]]; try discriminate Hp; destruct (nominal _ _); try discriminate Ec; congruence. }
    apply (proj2 (observable_frequency_total o)). exact N.
Qed.
Print Assumptions C06_frequency.

(** adding a part adds its contribution, rounded *)
Theorem C06_frequency_add : forall o p x q c, observable_frequency o = Val (DFin x) -> Qabs x <= 2 ^ 990 -> pcoef p = DFin q ->
  contribution (rsys (ptype p)) (cband (rcode (ptype p))) q = Some c -> Qabs c <= 2 ^ 990 ->
  exists v z, contribution_double (rsys (ptype p)) (cband (rcode (ptype p))) q v /\ nearest_double (x + v) z /\
              observable_frequency (o ++ [p]) = Val (DFin z).
Proof.
  intros o p x q c H Hx Hq Hc L. destruct (part_double p q c Hq Hc L) as (v & Ev & Cd & E).
  exists v, (b64 (x + v)). split; [exact Cd|]. split; [apply ProofB64.b64_nearest|].
  unfold observable_frequency in *.
  assert (G : forall acc, frequency_loop (o ++ [p]) acc = do w <- frequency_loop o acc; frequency_loop [p] w).
  { clear. induction o as [|r o IH]; intro acc; [reflexivity|]. cbn. destruct (part_frequency r); cbn; auto. }
  rewrite G. destruct (frequency_loop o (DFin 0)) as [w| | | |]; try discriminate H. cbn [noexcept] in H. assert (w = DFin x) by (injection H; auto). subst w.
  cbn [bind frequency_loop]. rewrite Ev. cbn [bind].
  assert (F : dadd (DFin x) (DFin v) = DFin (b64 (x + v))).
  { cbn [dadd]. apply dfin_fin. eapply Qle_trans; [apply Qabs_triangle|]. pose proof tiny as Ti.
    assert (Qabs v <= 2 * 2 ^ 990 + 1).
    { setoid_replace v with (v - c + c) by ring. eapply Qle_trans; [apply Qabs_triangle|]. rewrite p53v in *. set (P := 2 ^ 990) in *. pose proof (Qabs_nonneg c). lra. }
    apply Qle_trans with (2 ^ 990 + (2 * 2 ^ 990 + 1)); [lra|]. vm_compute. discriminate. }
  rewrite F. reflexivity.
Qed.
Print Assumptions C06_frequency_add.

(** for all coefficients, finite or not: returns iff every band is listed, else terminates *)
Theorem C06_frequency_terminates_iff : forall o,
  (Forall band_listed o <-> exists v, observable_frequency o = Val v) /\
  (~ Forall band_listed o <-> observable_frequency o = Term).
Proof. exact observable_frequency_total. Qed.
Print Assumptions C06_frequency_terminates_iff.

Example C06_example :
  let l1 := mkPart (mkRaw Gps (mkCode CarrierPhase 1 "C"%char)) (DFin 1) in
  let l2 := mkPart (mkRaw Gps (mkCode CarrierPhase 2 "W"%char)) (DFin (-1)) in
  let bad := mkPart (mkRaw Gps (mkCode CarrierPhase 3 "X"%char)) (DFin 1) in
  Forall finite_coef [l1; l2] /\ size_contributions (as_terms [l1; l2]) = Some ((157542 # 100) * 1 + ((12276 # 10) * 1 + 0)) /\
  (exists x, observable_frequency [l1; l2] = Val (DFin x) /\ Qabs (x - (34782 # 100)) <= 1 # 1000000000000 /\ ~ x == 34782 # 100)
  /\ observable_frequency [l1; bad] = Term.
Proof.
  split; [repeat constructor; eexists; reflexivity|]. split; [reflexivity|]. split; [|reflexivity].
  eexists. split; [vm_compute; reflexivity|]. split; [vm_compute; discriminate|intro H; vm_compute in H; discriminate H].
Qed.
