(** ProofPlan: set_read_map (C20, C21). *)
From Verif Require Import Base BaseLemmas CNum ModelSatsys ModelObs ModelObsRnx SpecText SpecNum SpecObs
  ProofText ProofObsTypes.

Lemma find_code_some l c i : find_code l c = Some i <-> column_of l c i.
Proof.
  unfold column_of. revert i. induction l as [|x l IH]; intro i; cbn.
  - split; [discriminate|]. intros [H _]. destruct i; discriminate.
  - destruct (obscode_eqb x c) eqn:E.
    + apply obscode_eqb_eq in E. subst x. split.
      * intro H. injection H as <-. split; [reflexivity|]. intros j Hj. lia.
      * intros [H1 H2]. destruct i as [|i]; [reflexivity|]. exfalso. apply (H2 0); [lia|reflexivity].
    + assert (N : x <> c) by (intros ->; rewrite (proj2 (obscode_eqb_eq c c) eq_refl) in E; discriminate).
      destruct i as [|i].
      * split; [destruct (find_code l c); discriminate|]. intros [H _]. cbn in H. congruence.
      * split.
        -- destruct (find_code l c) as [k|] eqn:F; [|discriminate]. intro H. injection H as ->.
           destruct (proj1 (IH i) eq_refl) as [F1 F2]. split; [exact F1|]. intros [|j] Hj; cbn; [congruence|]. apply F2. lia.
        -- intros [H1 H2]. cbn in H1.
           assert (find_code l c = Some i).
           { apply IH. split; [exact H1|]. intros j Hj. apply (H2 (S j)). lia. }
           rewrite H. reflexivity.
Qed.
Lemma find_code_none l c : find_code l c = None <-> ~ In c l.
Proof.
  induction l as [|x l IH]; cbn; [tauto|]. destruct (obscode_eqb x c) eqn:E.
  - apply obscode_eqb_eq in E. split; [discriminate|]. intro H. exfalso. auto.
  - assert (N : x <> c) by (intros ->; rewrite (proj2 (obscode_eqb_eq c c) eq_refl) in E; discriminate).
    destruct (find_code l c); cbn.
    + split; [discriminate|]. intro H. exfalso. assert (X : Some n = None) by (apply IH; intro; auto). discriminate.
    + split; auto. intros _ [H|H]; [auto|]. apply IH in H; auto.
Qed.

Lemma satsys_eqb_neq a b : satsys_eqb a b = false <-> a <> b.
Proof. rewrite <- (satsys_eqb_eq a b). destruct (satsys_eqb a b); split; congruence. Qed.

Lemma Forall2_in_l {A B} (R : A -> B -> Prop) l m x : Forall2 R l m -> In x l -> exists y, R x y.
Proof. intro F. induction F; intros []; subst; eauto. Qed.

(** the loop over the parts *)
Lemma getter_spec codes s : forall o acc,
  match getter_loop codes s o acc with
  | (v, 0%Z) => exists w, v = acc ++ w /\
      Forall2 (fun p ic => rsys (ptype p) = s /\ column_of codes (rcode (ptype p)) (fst ic) /\ snd ic = pcoef p) o w
  | (_, st) => (st = 1%Z /\ exists pre p post, o = pre ++ p :: post /\ rsys (ptype p) <> s /\
                 forall q, In q pre -> rsys (ptype q) = s /\ In (rcode (ptype q)) codes) \/
               (st = (-2)%Z /\ exists pre p post, o = pre ++ p :: post /\ rsys (ptype p) = s /\ ~ In (rcode (ptype p)) codes /\
                 forall q, In q pre -> rsys (ptype q) = s /\ In (rcode (ptype q)) codes)
  end.
Proof.
  induction o as [|p o IH]; intro acc; cbn.
  - exists []. split; [rewrite app_nil_r; reflexivity|constructor].
  - destruct (satsys_eqb (rsys (ptype p)) s) eqn:E; cbn.
    + apply satsys_eqb_eq in E. destruct (find_code codes (rcode (ptype p))) as [i|] eqn:F.
      * specialize (IH (acc ++ [(i, pcoef p)])).
        assert (Hin : In (rcode (ptype p)) codes) by (apply find_code_some in F as [F _]; eapply nth_error_In; eauto).
        destruct (getter_loop codes s o (acc ++ [(i, pcoef p)])) as [v [|st|st]].
        -- destruct IH as (w & -> & W). exists ((i, pcoef p) :: w). split; [rewrite <- app_assoc; reflexivity|].
           constructor; [|exact W]. cbn. split; [exact E|]. split; [apply find_code_some; exact F|reflexivity].
        -- destruct IH as [(Hs & pre & q & post & -> & Hq & Hp)|(Hs & _)]; [|discriminate].
           left. split; [exact Hs|]. exists (p :: pre), q, post. split; [reflexivity|]. split; [exact Hq|].
           intros x [<-|Hx]; auto.
        -- destruct IH as [(Hs & _)|(Hs & pre & q & post & -> & Hq & Hn & Hp)]; [discriminate|].
           right. split; [exact Hs|]. exists (p :: pre), q, post. split; [reflexivity|]. split; [exact Hq|]. split; [exact Hn|].
           intros x [<-|Hx]; auto.
      * right. split; [reflexivity|]. exists [], p, o. apply find_code_none in F. split; [reflexivity|]. split; [exact E|].
        split; [exact F|]. intros q [].
    + left. split; [reflexivity|]. exists [], p, o. apply satsys_eqb_neq in E. split; [reflexivity|]. split; [exact E|]. intros q [].
Qed.

Section Plan.
  Variable t : smap (list obscode).

  (** the three fates of a non-empty request under key [k] *)
  Lemma request_fate k o : o <> [] ->
    exists v s st, obs_getter t o = Val (v, s, st) /\
      ((negb (satsys_eqb s k) || (0 <? st)%Z = true /\ clashing t k o) \/
       (negb (satsys_eqb s k) || (0 <? st)%Z = false /\ st = 0%Z /\ request_columns t k o v /\ formable t k o) \/
       (negb (satsys_eqb s k) || (0 <? st)%Z = false /\ st <> 0%Z /\ ~ formable t k o /\ ~ clashing t k o)).
  Proof.
    intro Hne. destruct o as [|p0 o]; [congruence|]. unfold obs_getter.
    destruct (satsys_eqb (rsys (ptype p0)) k) eqn:E.
    2:{ assert (E' : rsys (ptype p0) <> k) by (apply satsys_eqb_neq; exact E).
        destruct (t (rsys (ptype p0))) as [codes|].
        - destruct (getter_loop codes (rsys (ptype p0)) (p0 :: o) []) as [v st].
          eexists _, _, _. split; [reflexivity|]. left. rewrite E. split; [reflexivity|]. left. eauto.
        - eexists _, _, _. split; [reflexivity|]. left. rewrite E. split; [reflexivity|]. left. eauto. }
    apply satsys_eqb_eq in E. rewrite E. 
    destruct (t k) as [codes|] eqn:Tk.
    2:{ eexists _, _, _. split; [reflexivity|]. right. right.
        rewrite (proj2 (satsys_eqb_eq k k) eq_refl). split; [reflexivity|]. split; [discriminate|].
        split.
        - intros (c & Hc & _). congruence.
        - intros [(p & r & Ho & Hp)|(c & pre & p & post & Hc & _)]; congruence. }
    pose proof (getter_spec codes k (p0 :: o) []) as G.
    destruct (getter_loop codes k (p0 :: o) []) as [v st] eqn:EG.
    exists v, k, st. split; [reflexivity|]. rewrite (proj2 (satsys_eqb_eq k k) eq_refl). cbn [negb orb].
    destruct st as [|st|st].
    - destruct G as (w & -> & W). right. left. split; [reflexivity|]. split; [reflexivity|]. split.
      + exists codes. auto.
      + exists codes. split; [auto|]. intros p Hp. destruct (Forall2_in_l _ _ _ p W Hp) as (ic & H1 & (H2 & _) & _).
        split; auto. eapply nth_error_In; eauto.
    - destruct G as [(Hs & pre & q & post & Ho & Hq & Hp)|(Hs & _)]; [|discriminate].
      left. split; [reflexivity|]. right. exists codes, pre, q, post. auto.
    - destruct G as [(Hs & _)|(Hs & pre & q & post & Ho & Hq & Hn & Hp)]; [discriminate|].
      right. right. split; [reflexivity|]. split; [discriminate|]. split.
      + intros (c & Hc & HF). assert (c = codes) by congruence. subst c.
        apply Hn. apply HF. rewrite Ho. apply in_or_app. right. left. reflexivity.
      + intros [(p & r & Ho' & Hp')|(c & pre' & p' & post' & Hc & Ho' & Hp' & HF)].
        * injection Ho' as -> ->. congruence.
        * assert (c = codes) by congruence. subst c. rewrite Ho in Ho'.
          (* the two first offending parts cannot coexist *)
          clear - Ho' Hq Hn Hp Hp' HF. revert pre' Ho' HF Hp. induction pre as [|x pre IH]; intros pre' Ho' HF Hp.
          -- destruct pre' as [|y pre']; cbn in Ho'; injection Ho' as -> Ho'; [congruence|].
             destruct (HF y (or_introl eq_refl)). contradiction.
          -- destruct pre' as [|y pre']; cbn in Ho'; injection Ho' as -> Ho'.
             ++ destruct (Hp p' (or_introl eq_refl)). contradiction.
             ++ apply (IH pre' Ho').
                ** intros q0 Hq0. apply HF. right. exact Hq0.
                ** intros q0 Hq0. apply Hp. right. exact Hq0.
  Qed.

  Lemma clash_not_formable k o : clashing t k o -> ~ formable t k o.
  Proof.
    intros C (c & Hc & HF). destruct C as [(p & r & -> & Hp)|(c' & pre & p & post & _ & -> & Hp & _)].
    - apply Hp. apply HF. left. reflexivity.
    - apply Hp. apply HF. apply in_or_app. right. left. reflexivity.
  Qed.

  (** [sub P l m]: m keeps exactly the elements of l satisfying P, in order *)
  Inductive sub {A} (P : A -> Prop) : list A -> list A -> Prop :=
  | sub_nil : sub P [] []
  | sub_keep x l m : P x -> sub P l m -> sub P (x :: l) (x :: m)
  | sub_drop x l m : ~ P x -> sub P l m -> sub P (x :: l) m.

  Lemma requests_spec k skip : forall todo kept plan,
    Forall (fun o => o <> []) todo ->
    exists ab reqs' plan', plan_requests t k skip todo kept plan = Val (ab, reqs', plan') /\
      (if ab then (exists o, In o todo /\ (clashing t k o \/ (skip = false /\ ~ formable t k o))) /\
                  (skip = false -> reqs' = kept ++ todo)
       else exists ks vs, reqs' = kept ++ ks /\ plan' = plan ++ vs /\ Forall2 (request_columns t k) ks vs /\
            sub (formable t k) todo ks /\ (forall o, In o todo -> ~ clashing t k o) /\
            (skip = false -> ks = todo)).
  Proof.
    induction todo as [|o todo IH]; intros kept plan Hne; cbn [plan_requests].
    - eexists _, _, _. split; [reflexivity|]. cbn. exists [], []. rewrite !app_nil_r. repeat split; auto; constructor.
    - inversion Hne as [|? ? Ho Hne']; subst.
      destruct (request_fate k o Ho) as (v & s & st & E & F). rewrite E. cbn [bind].
      destruct F as [(F & C)|[(F & -> & RC & FM)|(F & N0 & NF & NC)]]; rewrite F.
      + eexists _, _, _. split; [reflexivity|]. cbn. split; [|auto]. exists o. split; [left; auto|left; exact C].
      + cbn [Z.eqb]. destruct (IH (kept ++ [o]) (plan ++ [v]) Hne') as (ab & r' & p' & E1 & Q).
        eexists ab, r', p'. split; [exact E1|]. destruct ab.
        * destruct Q as ((x & Hx & Cx) & Q2). split; [exists x; split; [right; exact Hx|exact Cx]|].
          intro Hs. rewrite (Q2 Hs), <- app_assoc. reflexivity.
        * destruct Q as (ks & vs & -> & -> & F2 & S2 & C2 & K2). exists (o :: ks), (v :: vs).
          rewrite <- !app_assoc. split; [reflexivity|]. split; [reflexivity|]. split; [constructor; auto|].
          split; [apply sub_keep; auto|]. split; [|intro Hs; rewrite (K2 Hs); reflexivity].
          intros x [<-|Hx]; [|auto]. intro Cx. exact (clash_not_formable _ _ Cx FM).
      + destruct (Z.eqb_spec st 0); [contradiction|]. destruct skip.
        * destruct (IH kept plan Hne') as (ab & r' & p' & E1 & Q).
          eexists ab, r', p'. split; [exact E1|]. destruct ab.
          -- destruct Q as ((x & Hx & Cx) & Q2). split; [exists x; split; [right; exact Hx|exact Cx]|]. discriminate.
          -- destruct Q as (ks & vs & -> & -> & F2 & S2 & C2 & K2). exists ks, vs.
             split; [reflexivity|]. split; [reflexivity|]. split; [exact F2|]. split; [apply sub_drop; auto|].
             split; [|discriminate]. intros x [<-|Hx]; auto.
        * eexists _, _, _. split; [reflexivity|]. cbn. split; [|auto]. exists o. split; [left; auto|right; auto].
  Qed.

  (** ** the loop over the systems *)
  Definition nonempty_requests (inmap : smap (list observable)) : Prop :=
    forall s reqs, inmap s = Some reqs -> Forall (fun o => o <> []) reqs.

  Lemma keys_spec skip : forall keys inmap res, NoDup keys -> nonempty_requests inmap ->
    exists ab inmap' res', plan_keys t skip keys inmap res = Val (ab, inmap', res') /\
      (if ab then
         (exists s reqs o, In s keys /\ inmap s = Some reqs /\ In o reqs /\
             (clashing t s o \/ (skip = false /\ ~ formable t s o))) /\
         (skip = false -> forall s, inmap' s = inmap s)
       else forall s,
         (In s keys ->
           match inmap s with
           | None => inmap' s = None /\ res' s = res s
           | Some reqs => exists ks vs, inmap' s = Some ks /\
               res' s = (match vs with [] => res s | _ => Some vs end) /\
               Forall2 (request_columns t s) ks vs /\ sub (formable t s) reqs ks /\
               (forall o, In o reqs -> ~ clashing t s o) /\ (skip = false -> ks = reqs)
           end) /\
         (~ In s keys -> inmap' s = inmap s /\ res' s = res s)).
  Proof.
    induction keys as [|k keys IH]; intros inmap res ND NE; cbn [plan_keys].
    - eexists _, _, _. split; [reflexivity|]. cbn. intro s. split; [tauto|auto].
    - inversion ND as [|? ? Nk ND']; subst. destruct (inmap k) as [reqs|] eqn:Ek.
      + destruct (requests_spec k skip reqs [] [] (NE k reqs Ek)) as (ab & r' & p' & E & Q). rewrite E. cbn [bind].
        destruct ab.
        * eexists _, _, _. split; [reflexivity|]. cbn. destruct Q as ((o & Ho & Co) & Q2). split.
          -- exists k, reqs, o. repeat split; auto.
          -- intros Hs s. unfold smap_set. destruct (satsys_eqb s k) eqn:Es; [|reflexivity].
             apply satsys_eqb_eq in Es. subst s. rewrite (Q2 Hs). cbn. auto.
        * destruct Q as (ks & vs & -> & -> & F2 & S2 & C2 & K2). cbn [app].
          set (in1 := smap_set inmap k ks). set (res1 := match vs with [] => res | _ => smap_set res k vs end).
          assert (NE1 : nonempty_requests in1).
          { intros s rq. unfold in1, smap_set. destruct (satsys_eqb s k) eqn:Es; [|apply NE].
            intro H. injection H as <-. pose proof (NE k reqs Ek) as N. clear -S2 N.
            induction S2; auto; inversion N; subst; auto. }
          assert (O1 : forall s, s <> k -> in1 s = inmap s /\ res1 s = res s).
          { intros s Hs. unfold in1, res1. rewrite smap_set_other by auto. split; [reflexivity|].
            destruct vs; [reflexivity|]. apply smap_set_other. auto. }
          destruct (IH in1 res1 ND' NE1) as (ab & i' & rs' & E1 & Q).
          exists ab, i', rs'. split; [exact E1|]. destruct ab.
          -- destruct Q as ((s & rq & o & Hs & Hi & Ho & Co) & Q2).
             assert (Nsk : s <> k) by congruence. destruct (O1 s Nsk) as [Oi _]. rewrite Oi in Hi. split.
             ++ exists s, rq, o. repeat split; auto. right. auto.
             ++ intros Hsk x. rewrite (Q2 Hsk x). destruct (satsys_eqb x k) eqn:Ex.
                ** apply satsys_eqb_eq in Ex. subst x. unfold in1. rewrite smap_set_same. rewrite (K2 Hsk). auto.
                ** apply satsys_eqb_neq in Ex. apply (proj1 (O1 x Ex)).
          -- intro s. destruct (Q s) as [Q1 Q2]. split.
             ++ intros [<-|Hs].
                ** rewrite Ek. destruct (Q2 Nk) as [A B]. exists ks, vs. rewrite A, B.
                   unfold in1, res1. rewrite smap_set_same. split; [reflexivity|]. split; [|auto].
                   destruct vs; [reflexivity|apply smap_set_same].
                ** assert (Nsk : s <> k) by congruence. destruct (O1 s Nsk) as [Oi Or]. specialize (Q1 Hs).
                   rewrite Oi, Or in Q1. exact Q1.
             ++ intro Hs. assert (Nsk : s <> k) by (intros ->; apply Hs; left; auto).
                destruct (O1 s Nsk) as [Oi Or]. rewrite <- Oi, <- Or. apply Q2. intro; apply Hs; right; auto.
      + destruct (IH inmap res ND' NE) as (ab & i' & rs' & E1 & Q).
        exists ab, i', rs'. split; [exact E1|]. destruct ab.
        * destruct Q as ((s & rq & o & Hs & Hi & Ho & Co) & Q2). split; [|exact Q2].
          exists s, rq, o. repeat split; auto. right. auto.
        * intro s. destruct (Q s) as [Q1 Q2]. split.
          -- intros [<-|Hs]; [rewrite Ek|exact (Q1 Hs)]. destruct (Q2 Nk) as [A B]. rewrite A, B, Ek. auto.
          -- intro Hs. apply Q2. intro; apply Hs; right; auto.
  Qed.

  Lemma all_nodup : NoDup all_satsys.
  Proof. repeat constructor; cbn; intuition discriminate. Qed.
  Lemma all_in s : In s all_satsys.
  Proof. destruct s; cbn; tauto. Qed.

  (** the outcome of set_read_map *)
  Theorem plan_cases inmap skip : nonempty_requests inmap ->
    exists plan inmap', set_read_map t inmap skip = Val (plan, inmap') /\
      (((forall s, plan s = None) /\
        (exists s reqs o, inmap s = Some reqs /\ In o reqs /\ (clashing t s o \/ (skip = false /\ ~ formable t s o))) /\
        (skip = false -> forall s, inmap' s = inmap s)) \/
       ((forall s reqs o, inmap s = Some reqs -> In o reqs -> ~ clashing t s o) /\
        forall s, match inmap s with
         | None => inmap' s = None /\ plan s = None
         | Some reqs => exists ks vs, inmap' s = Some ks /\ plan s = (match vs with [] => None | _ => Some vs end) /\
             Forall2 (request_columns t s) ks vs /\ sub (formable t s) reqs ks /\ (skip = false -> ks = reqs)
         end)).
  Proof.
    intro NE. unfold set_read_map.
    destruct (keys_spec skip all_satsys inmap smap_empty all_nodup NE) as (ab & i' & r' & E & Q). rewrite E. cbn [bind].
    destruct ab.
    - eexists _, _. split; [reflexivity|]. left. split; [reflexivity|].
      destruct Q as ((s & rq & o & Hs & Hi & Ho & Co) & Q2). split; [|exact Q2]. exists s, rq, o. auto.
    - eexists _, _. split; [reflexivity|]. right. split.
      + intros s rq o Hi Ho. destruct (Q s) as [Q1 _]. specialize (Q1 (all_in s)). rewrite Hi in Q1.
        destruct Q1 as (ks & vs & _ & _ & _ & _ & C & _). auto.
      + intro s. destruct (Q s) as [Q1 _]. specialize (Q1 (all_in s)). destruct (inmap s) as [rq|].
        * destruct Q1 as (ks & vs & A & B & C & D & F & G). exists ks, vs. auto.
        * exact Q1.
  Qed.
End Plan.
