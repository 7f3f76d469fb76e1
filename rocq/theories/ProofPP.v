(** ProofPP: proofs about test/pp_rnx.cpp *)
From Coq Require Import Reals Lra Lia ZArith List QArith Qreals Qabs.
From Verif Require Import Base BaseLemmas CNum CNumLemmas Stream ModelSatsys ModelSatellite ModelObsRnx ModelNav ModelOrbit ModelApp ModelPP
  SpecText SpecNum SpecNav ProofText ProofNum ProofStream ProofNav ProofNavBlock ProofNavFile ProofNavFind ProofNavList ProofApp ProofNavList SpecPP PropertiesOrbit.
Import ListNotations.
Local Open Scope R_scope.

(** ** geometry *)
Lemma unit_sq a : sin a * sin a + cos a * cos a = 1.
Proof. pose proof (sin2_cos2 a) as H. unfold Rsqr in H. exact H. Qed.
Lemma norm_vertical f l : norm (vertical f l) = 1.
Proof.
  unfold norm, vertical, dot. pose proof (unit_sq f). pose proof (unit_sq l).
  replace (cos f * cos l * (cos f * cos l) + cos f * sin l * (cos f * sin l) + sin f * sin f) with 1; [apply sqrt_1|].
  replace (cos f * cos l * (cos f * cos l) + cos f * sin l * (cos f * sin l)) with (cos f * cos f * (sin l * sin l + cos l * cos l)) by ring.
  rewrite H0. lra.
Qed.
Lemma rotation sf cf sl cl dx dy dz : sf * sf + cf * cf = 1 -> sl * sl + cl * cl = 1 ->
  let n := - sf * cl * dx - sf * sl * dy + cf * dz in
  let e := - sl * dx + cl * dy in
  let u := cf * cl * dx + cf * sl * dy + sf * dz in
  n * n + e * e + u * u = dx * dx + dy * dy + dz * dz.
Proof.
  intros F L n e u. subst n e u.
  replace (_ + _ + _) with ((sf * sf + cf * cf) * ((cl * cl) * (dx * dx) + (sl * sl) * (dy * dy) + 2 * cl * sl * dx * dy + dz * dz)
    + (sl * sl) * (dx * dx) + (cl * cl) * (dy * dy) - 2 * sl * cl * dx * dy) by ring.
  rewrite F. transitivity ((sl * sl + cl * cl) * (dx * dx + dy * dy) + dz * dz); [ring|]. rewrite L. ring.
Qed.
Lemma acos_range x : 0 <= acos x <= PI. Proof. apply acos_bound. Qed.
Lemma zenith_ok ell pos p : p <> pos -> zenith_angle ell pos p (zenith (site_of ell pos) p).
Proof.
  intro N. unfold zenith_angle, site_of, zenith. destruct (ell pos) as ((f, l), h). destruct pos as ((x, y), z), p as ((xs, ys), zs).
  cbn [si_sf si_cf si_sl si_cl si_x si_y si_z]. rewrite rotation by apply unit_sq.
  set (dx := xs - x). set (dy := ys - y). set (dz := zs - z).
  assert (P : 0 < dx * dx + dy * dy + dz * dz).
  { destruct (Req_EM_T dx 0) as [X|X]; [destruct (Req_EM_T dy 0) as [Y|Y]; [destruct (Req_EM_T dz 0) as [Z|Z]|]|]; try nra.
    exfalso. apply N. subst dx dy dz. f_equal; [f_equal|]; lra. }
  set (u := cos f * cos l * dx + cos f * sin l * dy + sin f * dz).
  assert (U : u * u <= dx * dx + dy * dy + dz * dz).
  { rewrite <- (rotation (sin f) (cos f) (sin l) (cos l) dx dy dz (unit_sq f) (unit_sq l)). fold u.
    set (n := - sin f * cos l * dx - _ + _). set (e := - sin l * dx + _). nra. }
  split; [apply acos_range|]. rewrite norm_vertical. unfold norm, vsub, dot, vertical. fold dx dy dz. set (r2 := dx * dx + dy * dy + dz * dz) in *.
  pose proof (sqrt_lt_R0 _ P) as Q. pose proof (sqrt_sqrt r2 ltac:(lra)) as Sq.
  rewrite cos_acos.
  - unfold u. field. lra.
  - assert (- sqrt r2 <= u <= sqrt r2) by (split; nra).
    split; apply (Rmult_le_reg_r (sqrt r2)); try lra; unfold Rdiv; rewrite Rmult_assoc, Rinv_l by lra; lra.
Qed.
Lemma angle_unique u v a b : 0 < norm u * norm v -> angle_between u v a -> angle_between u v b -> a = b.
Proof.
  intros P (A & Ca) (B & Cb). assert (E : cos a = cos b) by (apply (Rmult_eq_reg_r (norm u * norm v)); lra).
  rewrite <- (acos_cos a A), <- (acos_cos b B), E. reflexivity.
Qed.
Lemma zenith_range s p : 0 <= zenith s p <= PI.
Proof. unfold zenith. destruct p as ((x, y), z). apply acos_range. Qed.

Lemma angles_inl s : forall ps i acc, (forall p, In p ps -> zenith s p < PI / 2) -> compute_zenith_angles s ps i acc = inl (acc ++ map (zenith s) ps).
Proof.
  induction ps as [|p ps IH]; intros i acc H; cbn [compute_zenith_angles map]; [rewrite app_nil_r; reflexivity|].
  destruct (Rlt_dec (zenith s p) 0) as [X|_]; [pose proof (zenith_range s p); lra|].
  destruct (Rle_dec (PI / 2) (zenith s p)) as [X|_]; [specialize (H p (or_introl eq_refl)); lra|].
  rewrite IH by (intros; apply H; right; assumption). rewrite <- app_assoc. reflexivity.
Qed.

(** ** observations *)
Lemma rabs_inv a b : Rabs a <= b -> - b <= a <= b.
Proof. intro H. pose proof (Rle_abs a). pose proof (Rle_abs (- a)) as K. rewrite Rabs_Ropp in K. lra. Qed.
Lemma present_iff e v : nth_error (snd e) 0 = Some v -> (present v = true <-> observed e v).
Proof.
  intro N. unfold observed, present. destruct v as [q|b|].
  - rewrite negb_true_iff. split.
    + intro H. split; [exact N|]. apply Qnot_le_lt. intro L. apply Qle_bool_iff in L. congruence.
    + intros (_ & H). apply not_true_iff_false. intro L. apply Qle_bool_iff in L. apply (Qlt_not_le _ _ H L).
  - tauto.
  - split; [discriminate|tauto].
Qed.

(** ** messages that were accepted evaluate *)
Lemma rframe_reals g : reals_of g (rframe_of g).
Proof. split; [|split; reflexivity]. intros i q H. cbn [rframe_of r_data]. rewrite H. reflexivity. Qed.
Lemma instant_ms t : instant (t / 86400000) (t mod 86400000) 1000 = IZR t / 1000.
Proof.
  unfold instant. pose proof (Z.div_mod t 86400000 ltac:(lia)) as E. apply (f_equal IZR) in E. rewrite plus_IZR, mult_IZR in E. lra.
Qed.
Lemma glonass_evaluates g t : f_sys g = Glonass -> covers t g -> exists x y z m b, sv_eval g t = Some (Runs 0 (Some (x :: y :: z :: m)) (Some b)).
Proof.
  intros S C. unfold covers in C. rewrite S in C. unfold sv_eval. rewrite S.
  assert (D : (-2147483648 <= t / 86400000 - f_toe g / 86400 <= 2147483647)%Z).
  { pose proof (Z.div_mod t 86400000 ltac:(lia)). pose proof (Z.mod_pos_bound t 86400000 ltac:(lia)).
    pose proof (Z.div_mod (f_toe g) 86400 ltac:(lia)). pose proof (Z.mod_pos_bound (f_toe g) 86400 ltac:(lia)). lia. }
  set (te := Q2R (ref2toe g (t / 86400000) (t mod 86400000) 1000)). cbn [stateNclock]. unfold glo_stateNclock.
  assert (L : (720 < 1000)%nat) by (apply Nat.ltb_lt; reflexivity).
  destruct (C50_bounded (rframe_of g) te 1000 L) as (q & v & Q & Sv & _ & St). rewrite Q, Sv.
  assert (A : te - r_toe (rframe_of g) = IZR t / 1000 - IZR (f_toe g)).
  { unfold te. rewrite (toe_elapsed g _ _ _ 1000 (rframe_reals g) D), instant_ms. reflexivity. }
  rewrite A in St. rewrite St. destruct (Rle_dec _ 900) as [_|N].
  2:{ exfalso. apply N. destruct C as (C1 & C2). apply IZR_le in C1. apply IZR_lt in C2. rewrite minus_IZR, mult_IZR in C1. rewrite plus_IZR, mult_IZR in C2. apply Rabs_le. lra. }
  change (0 =? 0)%Z with true. cbv iota. cbn [option_map six]. do 5 eexists. reflexivity.
Qed.
Lemma kepler_evaluates g t q : In (f_sys g) [Gps; Galileo; Beidou] -> nth_error (f_data g) 8 = Some (DFin q) -> 0 <= Q2R q <= 96 / 100 ->
  exists x y z m b, sv_eval g t = Some (Runs 0 (Some (x :: y :: z :: m)) (Some b)).
Proof.
  intros S N E. unfold sv_eval. set (te := Q2R (ref2toe _ _ _ _)). set (tc := Q2R (ref2toc _ _ _ _)).
  destruct (kep_sys _ S) as (s & _ & St). rewrite St. unfold kep_result, kep_stateNclock.
  assert (He : 0 <= r_data (rframe_of g) 8 <= 96 / 100) by (cbn [rframe_of r_data]; rewrite N; exact E).
  destruct (C47_defined s _ te He) as (k & ->). destruct (C48_defined s _ tc He) as (c & ->). cbn [option_map xyz]. do 5 eexists. reflexivity.
Qed.
Lemma accepted_evaluates g t : covers t g \/ wild_hours g -> plausible g -> exists x y z m b, sv_eval g t = Some (Runs 0 (Some (x :: y :: z :: m)) (Some b)).
Proof.
  intros C P. destruct (satsys_eqb (f_sys g) Glonass) eqn:E.
  - apply satsys_eqb_eq in E. destruct C as [C|(W & _)]; [|congruence]. apply glonass_evaluates; assumption.
  - destruct P as [P|(q & N & P)]; [apply satsys_eqb_eq in P; congruence|]. apply (kepler_evaluates g t q); [|exact N|exact P].
    destruct C as [C|(W & _)]; [|rewrite W; cbn; tauto]. unfold covers in C. destruct (f_sys g); cbn; try tauto; discriminate.
Qed.

(** ** one satellite *)
(** the three ways a pass of the loop ends normally *)
Lemma sat_step_inv en ell pos t e p p' : sat_step en (site_of ell pos) t e p = Val p' ->
  (not_observed e /\ p' = p) \/
  (exists v g, observed e v /\ get_valid_msg (v_fuel en) (v_strp en) (v_eoh en) (v_new en) (p_nav p) (p_errno p) (sat_sys (fst e)) (sat_prn (fst e)) t (p_cache p) = Val g /\
     g_status g <> 0%Z /\ p' = mkPP (g_cache g) (g_stream g) (g_errno g) (p_state p) (p_clock p) (p_obs p) (p_sv p)) \/
  (exists v g m x y z, observed e v /\ get_valid_msg (v_fuel en) (v_strp en) (v_eoh en) (v_new en) (p_nav p) (p_errno p) (sat_sys (fst e)) (sat_prn (fst e)) t (p_cache p) = Val g /\
     g_status g = 0%Z /\ (forall src : frame -> Prop, src m -> message_for src t e m) /\ (covers t m \/ wild_hours m) /\ In m (g_cache g) /\
     p_cache p' = g_cache g /\ p_nav p' = g_stream g /\ p_errno p' = g_errno g /\ p_state p' = Some (x, y, z) /\
     ((zenith (site_of ell pos) (x, y, z) * 180 / PI < 80 /\ exists b, (plausible m -> gives m t (x, y, z, b)) /\ (length (p_obs p) < 30)%nat /\
         p_obs p' = p_obs p ++ [v] /\ p_sv p' = p_sv p ++ [(x, y, z, b)]) \/
      (80 <= zenith (site_of ell pos) (x, y, z) * 180 / PI /\ (plausible m -> exists b, gives m t (x, y, z, b)) /\ p_obs p' = p_obs p /\ p_sv p' = p_sv p))).
Proof.
  unfold sat_step. destruct (nth_error (snd e) 0) as [v|] eqn:N; [|discriminate]. destruct (present v) eqn:Pv.
  2:{ intro H. apply Val_inj in H. left. split; [|auto]. exists v. split; [exact N|]. rewrite <- (present_iff e v N). congruence. }
  intro H. apply bind_inv in H as (g & Hg & H). right. apply (present_iff e v N) in Pv.
  destruct (Z.eqb_spec (g_status g) 0) as [Z0|Nz]; cbn [negb] in H; [|left; apply Val_inj in H; exists v, g; auto]. right.
  destruct (get_inv _ _ _ _ _ _ _ _ _ _ _ Hg) as (_ & [(_ & k & m & It & Nk & Sm & Pm & He & Cv & _)|(Nz & _)]); [|contradiction].
  rewrite It, Nk in H. destruct (negb _); [discriminate|].
  assert (M : forall src : frame -> Prop, src m -> message_for src t e m).
  { intros src X. split; [exact X|]. split; [exact Sm|]. split; [exact Pm|]. split; [exact He|]. intro Nw. destruct Cv; [assumption|contradiction]. }
  destruct (sv_eval m t) as [[|s w c]|] eqn:Ev; try discriminate.
  destruct (new_state w (p_state p)) as [((x, y), z)|] eqn:Ns; [|discriminate].
  apply bind_inv in H as (a & Ha & H). unfold sv_zen_angle in Ha. destruct (Rlt_dec _ _) in Ha; [discriminate|]. destruct (Rlt_dec _ _) in Ha; [discriminate|].
  apply Val_inj in Ha. subst a.
  assert (G : plausible m -> exists b, c = Some b /\ gives m t (x, y, z, b)).
  { intro P. destruct (accepted_evaluates m t Cv P) as (x' & y' & z' & more & b & E). rewrite Ev in E. injection E as -> -> ->. cbn in Ns. injection Ns as -> -> ->.
    exists b. split; [reflexivity|]. exists more. exact Ev. }
  exists v, g, m, x, y, z. split; [exact Pv|]. split; [exact Hg|]. split; [exact Z0|]. split; [exact M|]. split; [exact Cv|]. split; [apply (nth_error_In _ _ Nk)|].
  change MAX_ZENITH with (90 - 10) in H. destruct (Rlt_dec _ _) as [L|L] in H.
  - destruct (new_clock c (p_clock p)) as [b|] eqn:Nc; [|discriminate]. destruct (Nat.ltb_spec (length (p_obs p)) MAX_SATS) as [Ll|]; [|discriminate].
    apply Val_inj in H. subst p'. cbn [p_cache p_nav p_errno p_state p_obs p_sv]. repeat (split; [reflexivity|]). left. split; [lra|]. exists b.
    split; [|split; [exact Ll|split; reflexivity]]. intro P. destruct (G P) as (b' & -> & Gb). cbn in Nc. injection Nc as ->. exact Gb.
  - apply Val_inj in H. subst p'. cbn [p_cache p_nav p_errno p_state p_obs p_sv]. repeat (split; [reflexivity|]). right. split; [lra|].
    split; [|split; reflexivity]. intro P. destruct (G P) as (b & _ & Gb). eauto.
Qed.

Lemma zenith_ok' ell pos p : first3 p <> pos -> zenith_angle ell pos (first3 p) (zenith (site_of ell pos) (first3 p)).
Proof. apply zenith_ok. Qed.

Lemma zenith_self ell pos : zenith (site_of ell pos) pos = PI / 2.
Proof.
  unfold zenith, site_of. destruct (ell pos) as ((f, l), h). destruct pos as ((x, y), z). cbn [si_sf si_cf si_sl si_cl si_x si_y si_z].
  replace (x - x) with 0 by ring. replace (y - y) with 0 by ring. replace (z - z) with 0 by ring.
  replace (_ / _) with 0; [apply acos_0|]. unfold Rdiv. rewrite !Rmult_0_r, !Rplus_0_r, Rmult_0_l. reflexivity.
Qed.
Lemma right_angle : PI / 2 * 180 / PI = 90. Proof. pose proof PI_RGT_0. field. lra. Qed.
Lemma low_not_self ell pos p : zenith (site_of ell pos) p * 180 / PI < 80 -> p <> pos.
Proof. intros H ->. rewrite zenith_self, right_angle in H. lra. Qed.
Lemma pos_dec (p q : R * R * R) : p = q \/ p <> q.
Proof.
  destruct p as ((a, b), c), q as ((x, y), z). destruct (Req_EM_T a x), (Req_EM_T b y), (Req_EM_T c z); subst; auto; right; congruence.
Qed.

(** what the lookups keep up: [I] of cache, stream and errno *)
Definition keeps (en : navenv) (I : list frame -> stream -> Z -> Prop) (sys : satsys) : Prop := forall cache st e prn t r, I cache st e ->
  get_valid_msg (v_fuel en) (v_strp en) (v_eoh en) (v_new en) st e sys prn t cache = Val r -> I (g_cache r) (g_stream r) (g_errno r).
Definition known (I : list frame -> stream -> Z -> Prop) (g : frame) : Prop := exists cache st e, I cache st e /\ In g cache.
Definition unknown (en : navenv) (I : list frame -> stream -> Z -> Prop) (t : Z) (ent : satentry) : Prop :=
  exists cache st e r, I cache st e /\
    get_valid_msg (v_fuel en) (v_strp en) (v_eoh en) (v_new en) st e (sat_sys (fst ent)) (sat_prn (fst ent)) t cache = Val r /\ g_status r <> 0%Z.

Lemma low_gives src ell pos t e m x y z : message_for src t e m -> 80 <= zenith (site_of ell pos) (x, y, z) * 180 / PI -> (plausible m -> exists b, gives m t (x, y, z, b)) ->
  exists g sv, message_for src t e g /\ gives_if_plausible g t sv /\ (first3 sv = pos \/ exists a, zenith_angle ell pos (first3 sv) a /\ 80 <= a * 180 / PI).
Proof.
  intros M Hi Gb. assert (X : exists b, plausible m -> gives m t (x, y, z, b)).
  { destruct (sv_eval m t) as [[|s w c]|] eqn:Ev.
    - exists 0. intro P. destruct (Gb P) as (b & more & E). congruence.
    - destruct c as [b|]; [exists b|exists 0]; intro P; destruct (Gb P) as (b' & more & E); rewrite Ev in E; injection E as -> -> E; [subst b'|discriminate E]; exists more; exact Ev.
    - exists 0. intro P. destruct (Gb P) as (b & more & E). congruence. }
  destruct X as (b & Xb). exists m, (x, y, z, b). split; [exact M|]. split; [exact Xb|]. cbn [first3].
  destruct (pos_dec (x, y, z) pos) as [E|N]; [left; exact E|right]. exists (zenith (site_of ell pos) (x, y, z)). split; [apply zenith_ok, N|exact Hi].
Qed.

(** ** the loop over the satellites *)
Lemma sat_loop_inv en ell pos t delay I : forall ents p q, (forall e, In e ents -> keeps en I (sat_sys (fst e))) -> I (p_cache p) (p_nav p) (p_errno p) ->
  length (p_obs p) = length (p_sv p) -> (length (p_obs p) <= 30)%nat ->
  sat_loop en (site_of ell pos) t ents p = Val q ->
  I (p_cache q) (p_nav q) (p_errno q) /\ (length (p_obs q) <= 30)%nat /\ exists vs svs, p_obs q = p_obs p ++ vs /\ p_sv q = p_sv p ++ svs /\ length vs = length svs /\
    Forall (fun sv => zenith (site_of ell pos) (first3 sv) * 180 / PI < 80) svs /\
    selection (supplies gives_if_plausible (known I) ell pos delay t) (supplies_nothing gives_if_plausible (known I) ell pos (unknown en I t) t) ents
      (combine (map (fun vd => obs_minus (fst vd) (delay (zenith (site_of ell pos) (first3 (snd vd))))) (combine vs svs)) svs).
Proof.
  induction ents as [|e ents IH]; intros p q Kp G L B H; cbn [sat_loop] in H.
  { apply Val_inj in H. subst q. split; [exact G|]. split; [exact B|]. exists [], []. rewrite !app_nil_r. repeat (split; [constructor|]). constructor. }
  assert (Kp' : forall e', In e' ents -> keeps en I (sat_sys (fst e'))) by (intros e' He; apply Kp; right; exact He).
  specialize (IH). apply bind_inv in H as (p1 & H1 & H). destruct (sat_step_inv _ _ _ _ _ _ _ H1) as [(No & ->)|[(v & g & Ov & Hg & Nz & ->)|(v & g & m & x & y & z & Ov & Hg & Z0 & M & Cv & Im & Pc & Pn & Pe & Ps & K)]].
  - destruct (IH p q Kp' G L B H) as (A1 & A2 & vs & svs & A3 & A4 & A5 & A6 & A7). split; [exact A1|]. split; [exact A2|]. exists vs, svs. repeat (split; [assumption|]).
    apply sel_skip; [left; exact No|exact A7].
  - pose proof (Kp e (or_introl eq_refl) _ _ _ _ _ _ G Hg) as G1.
    specialize (IH (mkPP (g_cache g) (g_stream g) (g_errno g) (p_state p) (p_clock p) (p_obs p) (p_sv p)) q Kp' G1 L B H). cbn [p_obs p_sv] in IH.
    destruct IH as (A1 & A2 & vs & svs & A3 & A4 & A5 & A6 & A7). split; [exact A1|]. split; [exact A2|]. exists vs, svs. repeat (split; [assumption|]).
    apply sel_skip; [|exact A7]. right. left. exists (p_cache p), (p_nav p), (p_errno p), g. auto.
  - pose proof (Kp e (or_introl eq_refl) _ _ _ _ _ _ G Hg) as G1. 
    assert (Km : known I m) by (exists (g_cache g), (g_stream g), (g_errno g); auto).
    rewrite <- Pc, <- Pn, <- Pe in G1. 
    destruct K as [(Lo & b & Gb & Ll & Po & Pv)|(Hi & Gb & Po & Pv)].
    + specialize (IH p1 q Kp' G1 ltac:(rewrite Po, Pv, !app_length; cbn; lia) ltac:(rewrite Po, app_length; cbn; lia) H).
      destruct IH as (A1 & A2 & vs & svs & A3 & A4 & A5 & A6 & A7). split; [exact A1|]. split; [exact A2|].
      exists (v :: vs), ((x, y, z, b) :: svs). rewrite A3, A4, Po, Pv, <- !app_assoc. cbn [app length]. repeat (split; [reflexivity|]). split; [lia|].
      split; [constructor; [exact Lo|exact A6]|]. cbn [combine map fst snd]. apply sel_use; [|exact A7].
      exists v, m, (zenith (site_of ell pos) (x, y, z)). cbn [fst snd first3]. split; [exact Ov|]. split; [apply M, Km|]. split; [exact Gb|].
      pose proof (low_not_self _ _ _ Lo) as Ns. split; [exact Ns|]. split; [apply zenith_ok, Ns|]. split; [exact Lo|]. destruct v; reflexivity.
    + specialize (IH p1 q Kp' G1 ltac:(rewrite Po, Pv; exact L) ltac:(rewrite Po; exact B) H). rewrite Po, Pv in IH.
      destruct IH as (A1 & A2 & vs & svs & A3 & A4 & A5 & A6 & A7). split; [exact A1|]. split; [exact A2|]. exists vs, svs. repeat (split; [assumption|]).
      apply sel_skip; [|exact A7]. right. right. apply (low_gives _ ell pos t e m x y z (M _ Km) Hi Gb).
Qed.

(** ** one epoch *)
Lemma weight_one a : 0 <= a -> a * 180 / PI < 80 -> 1 / cos a * cos a = 1.
Proof.
  intros A B. pose proof PI_RGT_0 as P. assert (C : 0 < cos a).
  { apply cos_gt_0; [lra|]. apply (Rmult_lt_reg_r (180 / PI)); [apply Rdiv_lt_0_compat; lra|]. replace (PI / 2 * (180 / PI)) with 90 by (field; lra). unfold Rdiv in *. lra. }
  field. lra.
Qed.
Lemma below80 a : a * 180 / PI < 80 -> a < PI / 2.
Proof. intro B. pose proof PI_RGT_0 as P. apply (Rmult_lt_reg_r (180 / PI)); [apply Rdiv_lt_0_compat; lra|]. replace (PI / 2 * (180 / PI)) with 90 by (field; lra). unfold Rdiv in *. lra. Qed.
Lemma epoch_step_inv en ell pos tr n (ents : list satentry) sec t I p q call : (forall e, In e (firstn n ents) -> keeps en I (sat_sys (fst e))) -> I (p_cache p) (p_nav p) (p_errno p) ->
  epoch_step en ell pos tr n ents sec t p = Val (q, call) ->
  ((n <= 4)%nat /\ q = p /\ call = None) \/
  (4 < n <= length ents)%nat /\ I (p_cache q) (p_nav q) (p_errno q) /\ exists u, call = Some u /\ (0 < u_n u <= 30)%nat /\ length (u_obs u) = u_n u /\ length (u_sv u) = u_n u /\
    u_w u = repeat 1 (u_n u) /\ u_dt u = sec /\
    selection (supplies gives_if_plausible (known I) ell pos (saas_correction tr) t) (supplies_nothing gives_if_plausible (known I) ell pos (unknown en I t) t)
      (firstn n ents) (combine (u_obs u) (u_sv u)).
Proof.
  intros Kp G H. unfold epoch_step in H. destruct (Nat.ltb_spec 4 n) as [L4|L4]; [|left; apply Val_inj in H; injection H as <- <-; auto].
  right. destruct (Nat.ltb_spec (length ents) n) as [|Ln]; [discriminate H|]. split; [lia|].
  apply bind_inv in H as (r & Hr & H).
  destruct (sat_loop_inv en ell pos t (saas_correction tr) I _ (mkPP (p_cache p) (p_nav p) (p_errno p) (p_state p) (p_clock p) [] []) _ Kp G eq_refl (Nat.le_0_l _) Hr) as (A1 & A2 & vs & svs & A3 & A4 & A5 & A6 & A7).
  cbn [p_obs p_sv app] in A3, A4. rewrite A3, A4 in H. destruct (Nat.eqb_spec (length vs) 0) as [|N0]; [discriminate|].
  assert (Z80 : forall x, In x (map first3 svs) -> zenith (site_of ell pos) x < PI / 2).
  { intros x Hx. apply in_map_iff in Hx as (sv & <- & Hs). rewrite Forall_forall in A6. apply below80, A6, Hs. }
  rewrite (angles_inl _ _ 0 [] Z80) in H. cbn [app] in H.
  assert (Nz : map (zenith (site_of ell pos)) (map first3 svs) <> []) by (destruct svs; [cbn in A5; congruence|discriminate]).
  set (zs := map (zenith (site_of ell pos)) (map first3 svs)) in *.
  assert (H' : Val (r, Some (mkUp (length vs) (map (fun vd => obs_minus (fst vd) (snd vd)) (combine vs (map (saas_correction tr) zs))) svs sec (weighting_fun zs))) = Val (q, call)).
  { destruct zs; [congruence|exact H]. }
  clear H. apply Val_inj in H'. injection H' as <- <-. split; [exact A1|].
  assert (Lz : length zs = length vs) by (unfold zs; rewrite !map_length; auto).
  assert (Eo : map (fun vd => obs_minus (fst vd) (snd vd)) (combine vs (map (saas_correction tr) zs)) =
               map (fun vd => obs_minus (fst vd) (saas_correction tr (zenith (site_of ell pos) (first3 (snd vd))))) (combine vs svs)).
  { unfold zs. clear. revert vs. induction svs as [|sv svs IH]; intros [|v vs]; cbn; try reflexivity. f_equal. apply IH. }
  rewrite Eo. eexists. split; [reflexivity|]. cbn [u_n u_obs u_sv u_w u_dt]. rewrite A3 in A2.
  split; [lia|]. split; [rewrite map_length, combine_length; lia|]. split; [auto|]. split; [|split; [reflexivity|exact A7]].
  rewrite <- Lz. unfold zs, weighting_fun. clear - A6. induction A6 as [|sv svs B _ IH]; [reflexivity|]. cbn [map length repeat]. f_equal; [|exact IH].
  apply weight_one; [apply zenith_range|exact B].
Qed.

Lemma valid_total strp cal t sys prn : reads_dates strp cal -> has_toe sys = true ->
  forall bs st f k, Forall block_ok bs -> Forall int_fits bs ->
  length (f_data f) = 31%nat -> at_rest st (blocks_text bs) -> (length bs < k)%nat ->
  exists r, valid_loop k strp t st f 0 sys prn = Val r.
Proof.
  intros RD T. induction bs as [|b bs IH]; intros st f k Ok W L At Hk; (destruct k as [|k]; [inversion Hk|]).
  - cbn [valid_loop]. destruct At as (G & R). rewrite (peak_good _ G), R. cbn. eexists. reflexivity.
  - inversion Ok as [|? ? O1 O2]; subst. inversion W as [|? ? W1 W2]; subst. unfold blocks_text in At. cbn [flat_map length] in At, Hk.
    destruct (serves_dec sys prn b) as [Sb|Nb].
    + destruct (valid_turn strp cal t sys prn b st f _ k RD O1 Sb T L At) as (g & st' & Fg & A & _ & E0 & E1 & E2).
      assert (DL : too_late cal t b \/ ~ too_late cal t b) by (unfold too_late; lia).
      destruct DL as [DL|DL]; [rewrite (E0 DL); eexists; reflexivity|].
      assert (D : usable t g \/ ~ usable t g).
      { pose proof Fg as (Bg & _). pose proof Sb as (Es & _). assert (T' : has_toe (b_sys b) = true) by (rewrite Es; exact T).
        destruct (verdict cal g b t Bg O1 T' W1) as (h & fit & _ & _ & Hh & Hw). unfold usable.
        destruct (Z.eq_dec h 0); [|right; intros (X1 & _); apply Hh in X1; contradiction].
        destruct (in_window t g fit); [left; split; [apply Hh; auto|apply Hw; auto]|right; intros (_ & X1); apply Hw in X1; discriminate]. }
      destruct D as [D|D]; [rewrite E1 by auto; eexists; reflexivity|]. rewrite E2 by auto.
      apply IH; [exact O2|exact W2|apply (is_block_data _ _ _ (proj1 Fg))|exact A|lia].
    + destruct (valid_other strp cal t sys prn b st f _ k RD O1 Nb ltac:(intros ->; discriminate) L At) as (g & st' & E1 & Lg & A & _).
      rewrite E1. apply IH; [exact O2|exact W2|exact Lg|exact A|lia].
Qed.
Lemma toe_sys sys : In sys [Gps; Glonass; Galileo; Beidou] -> has_toe sys = true.
Proof. cbn. intros [<-|[<-|[<-|[<-|[]]]]]; reflexivity. Qed.
Lemma check_total cal b g t : frame_of cal b g -> block_ok b -> int_fits b -> has_toe (f_sys g) = true -> exists c, check_nav_msg g t = Val c.
Proof.
  intros (B & _) Ok Fi T. pose proof B as (Es & _). rewrite Es in T. destruct (verdict cal g b t B Ok T Fi) as (h & fit & H1 & H2 & _).
  unfold check_nav_msg. rewrite H1. cbn [bind]. destruct (negb _); [eexists; reflexivity|]. rewrite H2. cbn [bind].
  destruct (satsys_eqb _ _); repeat match goal with |- context [if ?b then _ else _] => destruct b end; eexists; reflexivity.
Qed.
(** every lookup in a conforming file returns; the answer is usable, and without one the file has none
    (unless a message of that satellite is far ahead) *)
Lemma lookup_conforming en cal bs nav cache sys prn t : nav_conforms en cal bs nav -> cache_from cal bs cache -> In sys [Gps; Glonass; Galileo; Beidou] ->
  exists r, get_valid_msg (v_fuel en) (v_strp en) (v_eoh en) (v_new en) nav 0 sys prn t cache = Val r /\ g_stream r = nav /\ g_errno r = 0%Z /\ cache_from cal bs (g_cache r) /\
    (g_status r <> 0%Z -> forall b, In b bs -> serves sys prn b -> (forall g, frame_of cal b g -> usable t g) -> exists b', In b' bs /\ serves sys prn b' /\ too_late cal t b').
Proof.
  intros (RD & Ok & Fi & L & At & Hk) HC Hs. pose proof (toe_sys sys Hs) as T.
  assert (HT : forall p, In p cache -> same_sv sys prn p = true -> exists c, check_nav_msg p t = Val c).
  { intros p Ip Sp. destruct (HC p Ip) as (b & Ib & Fb). apply same_sv_iff in Sp as (Sp & _). rewrite Forall_forall in Ok, Fi.
    apply (check_total cal b); auto. rewrite Sp. exact T. }
  assert (X : exists r, get_valid_msg (v_fuel en) (v_strp en) (v_eoh en) (v_new en) nav 0 sys prn t cache = Val r).
  { unfold get_valid_msg. destruct (search_total sys prn t cache 0 (-200) HT) as ([i s] & Es). pose proof (cache_search_spec _ _ _ _ _ _ _ Es) as (_ & B).
    rewrite Es. cbn [bind]. cbn [fst snd] in B. destruct (Z.eqb_spec s 0) as [->|Ns]; [eexists; reflexivity|].
    unfold update_msg. cbn [set_prn set_sys f_sys f_prn]. unfold find_next_valid, tellg. rewrite (proj1 At).
    destruct (valid_total (v_strp en) cal t sys prn RD T bs nav (v_new en) (v_fuel en) Ok Fi L At Hk) as (r & ->). cbn [bind noexcept].
    destruct (negb _); [eexists; reflexivity|]. destruct (Z.leb_spec 0 s) as [Ls|Ls]; [|eexists; reflexivity].
    pose proof (first_sv_spec sys prn cache 0) as F. destruct (first_sv sys prn cache 0) as [k|]; [eexists; reflexivity|].
    destruct (B Ns) as [(-> & _)|(q & Iq & Sq & _)]; [lia|]. rewrite Forall_forall in F. rewrite (F q Iq) in Sq. discriminate. }
  destruct X as (r & Er). exists r. split; [exact Er|].
  destruct (get_inv _ _ _ _ _ _ _ _ _ _ _ Er) as (Gs & _). split; [apply Gs, At|].
  assert (Fi' : Forall (fun b => serves sys prn b -> int_fits b) bs) by (revert Fi; apply Forall_impl; auto).
  destruct (get_from _ _ _ cal _ _ _ _ _ _ bs r RD T Ok Fi' L At Hk HC Er) as (E0 & C0 & _). split; [exact E0|]. split; [exact C0|].
  intros Nz b Ib Sb Ub. 
  assert (D : (exists b', In b' bs /\ serves sys prn b' /\ too_late cal t b') \/ Forall (fun b => serves sys prn b -> ~ too_late cal t b) bs).
  { clear. induction bs as [|b bs IH]; [right; constructor|]. destruct IH as [(b' & I' & R)|F]; [left; exists b'; cbn; auto|].
    assert (DL : too_late cal t b \/ ~ too_late cal t b) by (unfold too_late; lia). destruct (serves_dec sys prn b) as [Sb|Nb].
    - destruct DL as [DL|DL]; [left; exists b; cbn; auto|right; constructor; auto].
    - right. constructor; [intro; contradiction|exact F]. }
  destruct D as [D|D]; [exact D|]. exfalso. apply Nz.
  assert (W : Forall (fun b => serves sys prn b -> ~ too_late cal t b /\ int_fits b) bs).
  { rewrite Forall_forall in *. intros b' I' S'. split; [apply D; assumption|apply Fi, I']. }
  rewrite <- (app_nil_r (blocks_text bs)) in At.
  destruct (get_complete (v_fuel en) (v_strp en) (v_eoh en) cal (v_new en) nav sys prn t cache bs [] RD T HT Ok W L At Hk (ex_intro _ b (conj Ib (conj Sb Ub)))) as (r' & Er' & Z').
  rewrite Er in Er'. injection Er' as <-. exact Z'.
Qed.
Lemma in_order_keeps en cal bs sys : In sys [Gps; Glonass; Galileo; Beidou] -> keeps en (in_order en cal bs) sys.
Proof.
  intros Hs cache st e prn t r (Nc & -> & Cf) H. destruct (lookup_conforming en cal bs st cache sys prn t Nc Cf Hs) as (r' & Er & Gs & Ge & Gc & _).
  rewrite H in Er. injection Er as <-. unfold in_order. rewrite Gs. auto.
Qed.
Lemma sat_step_total en cal bs ell pos t e p : in_order en cal bs (p_cache p) (p_nav p) (p_errno p) -> serviced cal bs e -> (length (p_obs p) < 30)%nat ->
  (exists p', sat_step en (site_of ell pos) t e p = Val p' /\ in_order en cal bs (p_cache p') (p_nav p') (p_errno p') /\ (length (p_obs p') <= S (length (p_obs p)))%nat) \/
  (sat_step en (site_of ell pos) t e p = Exn /\ far_below (read_from cal bs) ell pos t e).
Proof.
  intros (Nc & E0 & Cf) (Hs & Ne & Pl) Ll. destruct (nth_error (snd e) 0) as [v|] eqn:Nv; [|destruct (snd e); [congruence|discriminate]].
  destruct (lookup_conforming en cal bs (p_nav p) (p_cache p) (sat_sys (fst e)) (sat_prn (fst e)) t Nc Cf Hs) as (r & Er & Gs & Ge & Gc & _).
  assert (Io : in_order en cal bs (g_cache r) (g_stream r) (g_errno r)) by (split; [rewrite Gs; exact Nc|split; assumption]).
  unfold sat_step. rewrite Nv. destruct (present v) eqn:Pv; [|left; exists p; split; [reflexivity|]; split; [exact (conj Nc (conj E0 Cf))|lia]].
  rewrite E0, Er. cbn [bind]. destruct (Z.eqb_spec (g_status r) 0) as [Z0|Nz]; cbn [negb].
  2:{ left. eexists. split; [reflexivity|]. cbn [p_nav p_errno p_cache p_obs]. split; [exact Io|lia]. }
  destruct (get_inv _ _ _ _ _ _ _ _ _ _ _ Er) as (_ & [(_ & k & m & It & Nk & Sm & Pm & He & Cv & _)|(Nz & _)]); [|contradiction].
  rewrite It, Nk, Sm, Pm, (proj2 (satsys_eqb_eq _ _) eq_refl), Z.eqb_refl. cbn [andb negb].
  destruct (Gc m (nth_error_In _ _ Nk)) as (b & Ib & Fb). pose proof Fb as ((Sb & _) & _).
  pose proof (Pl b m Ib ltac:(congruence) Fb) as P.
  destruct (accepted_evaluates m t Cv P) as (x & y & z & more & c & Ev). rewrite Ev. cbn [new_state new_clock].
  assert (M : message_for (read_from cal bs) t e m).
  { split; [exists b; auto|]. split; [exact Sm|]. split; [exact Pm|]. split; [exact He|]. intro Nw. destruct Cv; [assumption|contradiction]. }
  unfold sv_zen_angle. destruct (Rlt_dec _ _) as [L|_]; [pose proof (zenith_range (site_of ell pos) (x, y, z)); lra|].
  destruct (Rlt_dec _ _) as [L|L]; cbn [bind].
  { right. split; [reflexivity|]. exists m, (x, y, z, c), (zenith (site_of ell pos) (x, y, z)). split; [exact M|]. split; [exists more; exact Ev|]. split; [|exact L].
    apply zenith_ok. cbn [first3]. intros E. rewrite E, zenith_self in L. lra. }
  left. destruct (Rlt_dec _ _).
  - change MAX_SATS with 30%nat. rewrite (proj2 (Nat.ltb_lt _ _) Ll). eexists. split; [reflexivity|]. cbn [p_nav p_errno p_cache p_obs]. split; [exact Io|]. rewrite app_length. cbn. lia.
  - eexists. split; [reflexivity|]. cbn [p_nav p_errno p_cache p_obs]. split; [exact Io|lia].
Qed.
Lemma sat_loop_total en cal bs ell pos t : forall ents p, in_order en cal bs (p_cache p) (p_nav p) (p_errno p) -> Forall (serviced cal bs) ents ->
  (length (p_obs p) + length ents <= 30)%nat ->
  (exists q, sat_loop en (site_of ell pos) t ents p = Val q) \/
  (sat_loop en (site_of ell pos) t ents p = Exn /\ Exists (far_below (read_from cal bs) ell pos t) ents).
Proof.
  induction ents as [|e ents IH]; intros p Io Sv B; cbn [sat_loop length] in *; [left; eexists; reflexivity|].
  inversion Sv as [|? ? S1 S2]; subst.
  destruct (sat_step_total en cal bs ell pos t e p Io S1 ltac:(lia)) as [(p1 & -> & I1 & L1)|(-> & F)]; [|right; split; [reflexivity|left; exact F]]. cbn [bind].
  destruct (IH p1 I1 S2 ltac:(lia)) as [(q & ->)|(-> & F)]; [left; eexists; reflexivity|right; split; [reflexivity|right; exact F]].
Qed.
Lemma selection_impl {A B} (u u' : A -> B -> Prop) (s s' : A -> Prop) l m : (forall a b, In a l -> u a b -> u' a b) -> (forall a, In a l -> s a -> s' a) -> selection u s l m -> selection u' s' l m.
Proof. intros U S H. revert U S. induction H; intros U S; [constructor|apply sel_use|apply sel_skip]; cbn in U, S; auto. Qed.
Lemma sel_none {A B} (u : A -> B -> Prop) s l : selection u s l [] -> Forall s l.
Proof. intro H. remember [] as m eqn:E. induction H; try discriminate; constructor; auto. Qed.
Lemma known_read en cal bs g : known (in_order en cal bs) g -> read_from cal bs g.
Proof. intros (cache & st & e & (_ & _ & Cf) & Ig). apply Cf, Ig. Qed.
Lemma serviced_supplies en cal bs ell pos d t e m : serviced cal bs e -> supplies gives_if_plausible (known (in_order en cal bs)) ell pos d t e m -> supplies gives (read_from cal bs) ell pos d t e m.
Proof.
  intros (_ & _ & Pl) (v & g & a & Ov & (K & M) & G & R). exists v, g, a. split; [exact Ov|]. apply known_read in K. split; [split; [exact K|exact M]|]. split; [|exact R].
  destruct K as (b & Ib & Fb). apply G. apply (Pl b); [exact Ib| |exact Fb]. pose proof Fb as ((Sb & _) & _). destruct M as (M & _). congruence.
Qed.
Lemma serviced_nothing en cal bs ell pos t e : serviced cal bs e -> supplies_nothing gives_if_plausible (known (in_order en cal bs)) ell pos (unknown en (in_order en cal bs) t) t e ->
  supplies_nothing gives (read_from cal bs) ell pos (none_usable cal bs t) t e.
Proof.
  intros (Hs & _ & Pl) [No|[(cache & st & er & r & (Nc & -> & Cf) & H & Nz)|(g & sv & (K & M) & G & R)]]; [left; exact No|right; left|right; right].
  - destruct (lookup_conforming en cal bs st cache (sat_sys (fst e)) (sat_prn (fst e)) t Nc Cf Hs) as (r' & Er & _ & _ & _ & X). rewrite H in Er. injection Er as <-. exact (X Nz).
  - exists g, sv. apply known_read in K. split; [split; [exact K|exact M]|]. split; [|exact R].
    destruct K as (b & Ib & Fb). apply G. apply (Pl b); [exact Ib| |exact Fb]. pose proof Fb as ((Sb & _) & _). destruct M as (M & _). congruence.
Qed.

(** one epoch, conforming navigation file: the three outcomes *)
Lemma epoch_total en cal bs ell pos tr n (ents : list satentry) sec t p : in_order en cal bs (p_cache p) (p_nav p) (p_errno p) -> (n <= length ents)%nat -> (n <= 30)%nat -> Forall (serviced cal bs) (firstn n ents) ->
  (exists q call, epoch_step en ell pos tr n ents sec t p = Val (q, call) /\ in_order en cal bs (p_cache q) (p_nav q) (p_errno q) /\
     ((n <= 4)%nat /\ call = None \/
      (4 < n)%nat /\ exists u, call = Some u /\ (0 < u_n u <= 30)%nat /\ length (u_obs u) = u_n u /\ length (u_sv u) = u_n u /\ u_w u = repeat 1 (u_n u) /\ u_dt u = sec /\
       selection (supplies gives (read_from cal bs) ell pos (saas_correction tr) t) (supplies_nothing gives (read_from cal bs) ell pos (none_usable cal bs t) t) (firstn n ents) (combine (u_obs u) (u_sv u)))) \/
  (epoch_step en ell pos tr n ents sec t p = Term /\ (4 < n)%nat /\ Forall (supplies_nothing gives (read_from cal bs) ell pos (none_usable cal bs t) t) (firstn n ents)) \/
  (epoch_step en ell pos tr n ents sec t p = Exn /\ (4 < n)%nat /\ Exists (far_below (read_from cal bs) ell pos t) (firstn n ents)).
Proof.
  intros Io Ln L30 Sv. set (p0 := mkPP (p_cache p) (p_nav p) (p_errno p) (p_state p) (p_clock p) [] []).
  destruct (Nat.ltb_spec 4 n) as [L4|L4].
  2:{ left. exists p, None. unfold epoch_step. rewrite (proj2 (Nat.ltb_ge _ _) L4). split; [reflexivity|]. split; [exact Io|]. left. auto. }
  assert (Kp : forall e, In e (firstn n ents) -> keeps en (in_order en cal bs) (sat_sys (fst e))).
  { intros e He. apply in_order_keeps. rewrite Forall_forall in Sv. apply Sv, He. }
  assert (SU : forall e m, In e (firstn n ents) -> supplies gives_if_plausible (known (in_order en cal bs)) ell pos (saas_correction tr) t e m -> supplies gives (read_from cal bs) ell pos (saas_correction tr) t e m).
  { intros e m He. apply serviced_supplies. rewrite Forall_forall in Sv. apply Sv, He. }
  assert (SN : forall e, In e (firstn n ents) -> supplies_nothing gives_if_plausible (known (in_order en cal bs)) ell pos (unknown en (in_order en cal bs) t) t e ->
     supplies_nothing gives (read_from cal bs) ell pos (none_usable cal bs t) t e).
  { intros e He. apply serviced_nothing. rewrite Forall_forall in Sv. apply Sv, He. }
  destruct (sat_loop_total en cal bs ell pos t (firstn n ents) p0 Io Sv) as [(q & Hq)|(Hq & F)].
  { cbn [p0 p_obs length]. rewrite firstn_length. lia. }
  2:{ right. right. split; [|auto]. unfold epoch_step. rewrite (proj2 (Nat.ltb_lt _ _) L4), (proj2 (Nat.ltb_ge _ _) Ln). fold p0. rewrite Hq. reflexivity. }
  destruct (sat_loop_inv en ell pos t (saas_correction tr) (in_order en cal bs) (firstn n ents) p0 q Kp Io eq_refl (Nat.le_0_l _) Hq) as (Iq & _ & vs & svs & Po & _ & Lv & _ & Sel).
  cbn [p0 p_obs app] in Po. destruct vs as [|v vs].
  - right. left. destruct svs; [|discriminate]. cbn in Sel. split; [|split; [exact L4|]].
    + unfold epoch_step. rewrite (proj2 (Nat.ltb_lt _ _) L4), (proj2 (Nat.ltb_ge _ _) Ln). fold p0. rewrite Hq. cbn [bind]. rewrite Po. reflexivity.
    + apply sel_none in Sel. rewrite Forall_forall in Sel |- *. intros e He. apply SN; auto.
  - left. assert (X : exists c, epoch_step en ell pos tr n ents sec t p = Val (q, c)).
    { unfold epoch_step. rewrite (proj2 (Nat.ltb_lt _ _) L4), (proj2 (Nat.ltb_ge _ _) Ln). fold p0. rewrite Hq. cbn [bind]. rewrite Po. cbn [length Nat.eqb].
      destruct (compute_zenith_angles _ _ _ _) as [[|z zs]|i]; eexists; reflexivity. }
    destruct X as (c & Ec). exists q, c. split; [exact Ec|]. split; [exact Iq|]. right. split; [exact L4|].
    destruct (epoch_step_inv en ell pos tr n ents sec t (in_order en cal bs) p q c Kp Io Ec) as [(N4 & _)|(_ & _ & u & -> & A1 & A2 & A3 & A4 & A5 & A6)]; [lia|].
    exists u. repeat (split; [assumption || reflexivity|]). exact (selection_impl _ _ _ _ _ _ SU SN A6).
Qed.
