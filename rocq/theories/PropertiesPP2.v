(** PropertiesPP2: C91-C93 (angles, weights and tropospheric delays of test/pp_rnx.cpp) *)
From Coq Require Import Reals Lra Lia ZArith List QArith Qreals.
From Verif Require Import Base ModelPP SpecPP SpecTropo ProofPP.
Import ListNotations.
Open Scope list_scope.
Local Open Scope R_scope.

(** ** C91: zenith angles *)
Lemma vertical_unit f l : norm (vertical f l) = 1.
Proof.
  unfold norm, vertical, dot. pose proof (sin2_cos2 f) as F. pose proof (sin2_cos2 l) as L. unfold Rsqr in *.
  replace (_ + _ + _) with 1 by nra. apply sqrt_1.
Qed.
Lemma norm_pos p q : p <> q -> 0 < norm (vsub p q).
Proof.
  destruct p as ((a, b), c), q as ((x, y), z). intro N. unfold norm, vsub, dot. apply sqrt_lt_R0.
  assert (Sq : forall d, 0 <= d * d) by (intro; nra). assert (Sp : forall u v, u <> v -> 0 < (u - v) * (u - v)) by (intros; apply Rsqr_pos_lt; lra).
  pose proof (Sq (a - x)). pose proof (Sq (b - y)). pose proof (Sq (c - z)).
  destruct (Req_EM_T a x) as [E1|E1]; [|specialize (Sp a x E1); lra]. destruct (Req_EM_T b y) as [E2|E2]; [|specialize (Sp b y E2); lra].
  destruct (Req_EM_T c z) as [E3|E3]; [congruence|specialize (Sp c z E3); lra].
Qed.
(** the angle computed is the angle between the vertical of the station and the direction to the satellite *)
Theorem C91_angle : forall ell pos p a, p <> pos -> (zenith_angle ell pos p a <-> a = zenith (site_of ell pos) p).
Proof.
  intros ell pos p a N. pose proof (zenith_ok ell pos p N) as Z. split; [|intros ->; exact Z]. unfold zenith_angle in *. destruct (ell pos) as ((f, l), h) eqn:E.
  intro A. apply (angle_unique (vertical f l) (vsub p pos)); [|exact A|exact Z]. rewrite vertical_unit, Rmult_1_l. apply norm_pos, N.
Qed.
Print Assumptions C91_angle.
(** sv_zen_angle: degrees, or an exception for satellites more than 0.2 rad below the horizon *)
Theorem C91_sv_zen_angle : forall ell pos p a, p <> pos -> zenith_angle ell pos p a ->
  sv_zen_angle (site_of ell pos) p = if Rlt_dec (PI / 2 + 0.2) a then Exn else Val (a * 180 / PI).
Proof.
  intros ell pos p a N A. pose proof A as A'. apply (C91_angle ell pos p a N) in A. unfold sv_zen_angle. rewrite <- A.
  assert (0 <= a) by (rewrite A; apply zenith_range). destruct (Rlt_dec a (- 0.2)); [lra|]. destruct (Rlt_dec _ _); reflexivity.
Qed.
Print Assumptions C91_sv_zen_angle.
(** compute_zenith_angles: all the angles, or the number of the first satellite at or below the horizon *)
Lemma angles_gen s : forall ps i acc, match compute_zenith_angles s ps i acc with
  | inl zs => zs = acc ++ map (zenith s) ps /\ Forall (fun p => zenith s p < PI / 2) ps
  | inr k => exists a p b, ps = a ++ p :: b /\ k = (i + length a)%nat /\ Forall (fun p => zenith s p < PI / 2) a /\ PI / 2 <= zenith s p
  end.
Proof.
  induction ps as [|p ps IH]; intros i acc; cbn [compute_zenith_angles map]; [rewrite app_nil_r; split; [reflexivity|constructor]|].
  destruct (Rlt_dec (zenith s p) 0) as [X|_]; [pose proof (zenith_range s p); lra|].
  destruct (Rle_dec (PI / 2) (zenith s p)) as [X|X].
  - exists [], p, ps. cbn [length app]. split; [reflexivity|]. split; [lia|]. split; [constructor|exact X].
  - specialize (IH (S i) (acc ++ [zenith s p])). destruct (compute_zenith_angles _ _ _ _) as [zs|k].
    + destruct IH as (-> & F). rewrite <- app_assoc. split; [reflexivity|]. constructor; [lra|exact F].
    + destruct IH as (a & q & b & -> & -> & F & G). exists (p :: a), q, b. cbn [length app]. split; [reflexivity|]. split; [lia|]. split; [constructor; [lra|exact F]|exact G].
Qed.
Theorem C91_angles : forall ell pos ps, Forall (fun p => p <> pos) ps ->
  match compute_zenith_angles (site_of ell pos) ps 0 [] with
  | inl zs => Forall2 (zenith_angle ell pos) ps zs /\ Forall (fun a => a < PI / 2) zs
  | inr k => exists a p b z, ps = a ++ p :: b /\ k = length a /\ zenith_angle ell pos p z /\ PI / 2 <= z /\
               Forall (fun q => exists y, zenith_angle ell pos q y /\ y < PI / 2) a
  end.
Proof.
  intros ell pos ps N. pose proof (angles_gen (site_of ell pos) ps 0 []) as H. destruct (compute_zenith_angles _ _ _ _) as [zs|k].
  - destruct H as (-> & F). cbn [app]. clear - N F. induction ps as [|p ps IH]; [split; constructor|]. inversion N; subst. inversion F; subst. destruct IH as (A & B); [assumption|assumption|].
    cbn [map]. split; constructor; auto. apply zenith_ok. assumption.
  - destruct H as (a & p & b & -> & -> & F & G). exists a, p, b, (zenith (site_of ell pos) p). apply Forall_app in N as (Na & Np). inversion Np; subst.
    split; [reflexivity|]. split; [reflexivity|]. split; [apply zenith_ok; assumption|]. split; [exact G|].
    rewrite Forall_forall in *. intros q Hq. exists (zenith (site_of ell pos) q). split; [apply zenith_ok, Na, Hq|apply F, Hq].
Qed.
Print Assumptions C91_angles.
(** a satellite east of a station on the equator, on its horizon *)
Example C91_ex : (6378137, 20000000, 0) <> (6378137, 0, 0) :> R * R * R /\ zenith_angle (fun _ => (0, 0, 0)) (6378137, 0, 0) (6378137, 20000000, 0) (PI / 2) /\
  sv_zen_angle (site_of (fun _ => (0, 0, 0)) (6378137, 0, 0)) (6378137, 20000000, 0) = Val (PI / 2 * 180 / PI).
Proof.
  assert (N : (6378137, 20000000, 0) <> (6378137, 0, 0) :> R * R * R) by (intro X; injection X; lra).
  assert (Z : zenith_angle (fun _ => (0, 0, 0)) (6378137, 0, 0) (6378137, 20000000, 0) (PI / 2)).
  { unfold zenith_angle, angle_between, vertical, vsub, dot. pose proof PI_RGT_0. split; [lra|]. rewrite cos_PI2, sin_0, cos_0. ring. }
  split; [exact N|]. split; [exact Z|]. rewrite (C91_sv_zen_angle _ _ _ _ N Z). destruct (Rlt_dec _ _); [pose proof PI_RGT_0; lra|reflexivity].
Qed.

(** ** C92: weights *)
(** test/pp_rnx.cpp:126 "cos(z)^2" *)
Definition C92_full : Prop := forall zs, Forall (fun z => 0 <= z < PI / 2) zs -> weighting_fun zs = map (fun z => cos z * cos z) zs.
Theorem C92_full_refuted : ~ C92_full.
Proof.
  intro F. pose proof PI_RGT_0 as P. specialize (F [PI / 3] ltac:(constructor; [lra|constructor])). cbn in F. injection F as F. rewrite cos_PI3 in F. lra.
Qed.
Print Assumptions C92_full_refuted.
(** all weights are 1 *)
Theorem C92_partial : forall zs, Forall (fun z => 0 <= z < PI / 2) zs -> weighting_fun zs = map (fun _ => 1) zs.
Proof.
  intros zs F. unfold weighting_fun. apply map_ext_in. intros a Ha. rewrite Forall_forall in F. specialize (F a Ha). pose proof PI_RGT_0.
  assert (0 < cos a) by (apply cos_gt_0; lra). field. lra.
Qed.
Print Assumptions C92_partial.
Example C92_ex : Forall (fun z => 0 <= z < PI / 2) [0; PI / 3].
Proof. pose proof PI_RGT_0. repeat constructor; lra. Qed.

(** ** C93: the tropospheric delay *)
Lemma exp_nat n : exp (INR n) = exp 1 ^ n.
Proof. induction n as [|n IH]; [apply exp_0|]. rewrite S_INR, exp_plus, IH. cbn. ring. Qed.
Lemma exp1_2 : 2 <= exp 1.
Proof. pose proof (exp_ineq1 1 ltac:(lra)). lra. Qed.
Lemma exp_2pow n x : INR n <= x -> 2 ^ n <= exp x.
Proof.
  intro H. apply Rle_trans with (exp (INR n)); [rewrite exp_nat; apply pow_incr; pose proof exp1_2; lra|].
  destruct (Req_EM_T (INR n) x) as [->|]; [lra|left; apply exp_increasing; lra].
Qed.
Lemma exp_small n x : x <= - INR n -> 0 < exp x <= / 2 ^ n.
Proof.
  intro H. split; [apply exp_pos|]. rewrite <- (Ropp_involutive x), exp_Ropp. apply Rinv_le_contravar; [apply pow_lt; lra|apply exp_2pow; lra].
Qed.
Lemma cos_mask z : 0 <= z <= mask_angle -> 16 / 100 <= cos z <= 1.
Proof.
  intros (L & U). unfold mask_angle in U. split; [|apply COS_bound]. pose proof PI2_3_2 as P. pose proof PI_4 as P4.
  apply Rle_trans with (cos (80 * PI / 180)); [|apply cos_decr_1; lra].
  replace (80 * PI / 180) with (PI / 2 - PI / 18) by field. rewrite cos_shift.
  apply Rle_trans with (sin (1 / 6)); [|apply sin_incr_1; lra].
  destruct (sin_bound (1 / 6) 0 ltac:(lra) ltac:(lra)) as (B & _). unfold sin_approx, sin_term in B. cbn in B. lra.
Qed.
Lemma tan_sq z : 0 < cos z -> tan z * tan z = / cos z * / cos z - 1.
Proof. intro C. unfold tan. pose proof (sin2_cos2 z) as E. unfold Rsqr in E. field_simplify; [|lra|lra]. replace (sin z ^ 2) with (1 - cos z ^ 2) by (cbn; lra). field. lra. Qed.
(** the water vapour part of the delay *)
Definition vapour_part (h : R) : R := let s := saas_init h in (0.05 + 1255 / sa_T s) * sa_e s.
Lemma correction_parts h z : saas_correction (saas_init h) z = 0.002277 / cos z * (std_pressure h + vapour_part h - tan z * tan z).
Proof. unfold saas_correction, vapour_part, saas_init, std_pressure. cbn [sa_T sa_P sa_e]. rewrite !Rminus_0_r. reflexivity. Qed.
Lemma vapour_small h : 0 <= h <= 2000 -> 0 < vapour_part h <= 5 / 10 ^ 6.
Proof.
  intro H. unfold vapour_part, saas_init. cbn [sa_T sa_e]. rewrite !Rminus_0_r. set (T := 18 - 0.0065 * h). assert (HT : 5 <= T <= 18) by (unfold T; lra).
  assert (F : 0 < 0.05 + 1255 / T <= 252).
  { assert (0 < / T <= / 5) by (split; [apply Rinv_0_lt_compat; lra|apply Rinv_le_contravar; lra]). unfold Rdiv. lra. }
  assert (E1 : 0 < exp (- 0.0006396 * h) <= 1).
  { split; [apply exp_pos|]. rewrite <- exp_0. destruct (Req_EM_T (- 0.0006396 * h) 0) as [->|]; [lra|left; apply exp_increasing; lra]. }
  assert (E2 : 0 < exp (- 37.2465 + 0.213166 * T - Rpower 0.000256908 2) <= / 2 ^ 33).
  { apply exp_small. assert (0 < Rpower 0.000256908 2) by (unfold Rpower; apply exp_pos). rewrite (INR_IZR_INZ 33). cbn [Z.of_nat Pos.of_succ_nat]. cbn. lra. }
  set (a := 0.05 + 1255 / T) in *. set (b := exp (- 0.0006396 * h)) in *. set (c := exp (- 37.2465 + 0.213166 * T - Rpower 0.000256908 2)) in *.
  assert (C : c <= / 8 / 10 ^ 9) by (destruct E2 as (_ & E2); replace (2 ^ 33) with 8589934592 in E2 by ring; replace (10 ^ 9) with 1000000000 by ring; lra).
  assert (X : 0 < b * c <= / 8 / 10 ^ 9) by nra. set (d := b * c) in *. replace (a * (50 * b * c)) with (a * (50 * d)) by (unfold d; ring). split; [nra|].
  apply Rle_trans with (252 * (50 * (/ 8 / 10 ^ 9))); [|replace (10 ^ 9) with 1000000000 by ring; replace (10 ^ 6) with 1000000 by ring; lra]. apply Rmult_le_compat; lra.
Qed.

Lemma pressure_bounds h : 0 <= h <= 2000 -> 700 <= std_pressure h <= 1013.25.
Proof.
  intro H. unfold std_pressure. set (b := 1 - 0.0000226 * h). assert (B : 0.9548 <= b <= 1) by (unfold b; lra).
  assert (L : ln b <= 0) by (rewrite <- ln_1; destruct (Req_EM_T b 1) as [->|]; [lra|left; apply ln_increasing; lra]).
  assert (U : Rpower b 5.225 <= 1).
  { unfold Rpower. rewrite <- exp_0. destruct (Req_EM_T (5.225 * ln b) 0) as [->|]; [lra|left; apply exp_increasing; lra]. }
  assert (D : b ^ 6 <= Rpower b 5.225).
  { rewrite <- Rpower_pow by lra. unfold Rpower. replace (INR 6) with 6 by (cbn; lra). destruct (Req_EM_T (6 * ln b) (5.225 * ln b)) as [->|]; [lra|left; apply exp_increasing; lra]. }
  assert (P : 0.9548 ^ 6 <= b ^ 6) by (apply pow_incr; lra). assert (N : 0.75 <= 0.9548 ^ 6) by (cbn; lra). split; nra.
Qed.
(** the published formula *)
Definition C93_full : Prop := forall h z, 0 <= h <= 2000 -> 0 <= z <= mask_angle -> saas_correction (saas_init h) z = saastamoinen h z.
(** the temperature stays in degrees Celsius, and the last term of the vapour pressure lost its T: next to
    nothing is left of the wet part; a station at sea level gets at least 3 cm too little *)
Theorem C93_too_dry : forall z, 0 <= z <= mask_angle -> saas_correction (saas_init 0) z + 0.03 <= saastamoinen 0 z.
Proof.
  intros z Hz. destruct (cos_mask z Hz) as (C1 & C2). rewrite correction_parts. unfold saastamoinen. pose proof (vapour_small 0 ltac:(lra)) as V.
  assert (W : 17 <= (1255 / std_temperature 0 + 0.05) * std_vapour 0).
  { unfold std_vapour, std_temperature, std_humidity. rewrite !Rmult_0_r, !Rminus_0_r, exp_0.
    assert (E : 2 ^ 3 <= exp (- 37.2465 + 0.213166 * (273.15 + 18) - 0.000256908 * ((273.15 + 18) * (273.15 + 18)))) by (apply exp_2pow; cbn; lra).
    set (x := exp (- 37.2465 + 0.213166 * (273.15 + 18) - 0.000256908 * ((273.15 + 18) * (273.15 + 18)))) in *.
    assert (8 <= x) by (cbn in E; lra).
    assert (4.3 <= 1255 / (273.15 + 18) + 0.05) by lra.
    set (u := 1255 / (273.15 + 18) + 0.05) in *.
    replace (u * (50 * 1 / 100 * x)) with (u * x / 2) by field.
    nra. }
  assert (S : 1 <= / cos z) by (rewrite <- Rinv_1; apply Rinv_le_contravar; lra). unfold Rdiv in *. set (s := / cos z) in *. set (P := std_pressure 0). set (w := (1255 */ std_temperature 0 + 0.05) * std_vapour 0) in *.
  assert (V5 : vapour_part 0 <= 1) by (destruct V as (_ & V); replace (10 ^ 6) with 1000000 in V by ring; lra).
  assert (X : 0.03 <= 0.002277 * s * (w - vapour_part 0)) by nra. nra.
Qed.
Print Assumptions C93_too_dry.
Theorem C93_full_refuted : ~ C93_full.
Proof. intro F. assert (Z : 0 <= 0 <= mask_angle) by (unfold mask_angle; pose proof PI_RGT_0; lra). pose proof (C93_too_dry 0 Z) as D. rewrite F in D; lra. Qed.
Print Assumptions C93_full_refuted.
(** the rest is right: the delay is the dry part of the formula, to a ten-thousandth of a millimetre *)
Theorem C93_dry_partial : forall h z, 0 <= h <= 2000 -> 0 <= z <= mask_angle -> saastamoinen_dry h z <= saas_correction (saas_init h) z <= saastamoinen_dry h z + / 10 ^ 7.
Proof.
  intros h z Hh Hz. destruct (cos_mask z Hz) as (C1 & C2). rewrite correction_parts. unfold saastamoinen_dry. pose proof (vapour_small h Hh) as (V1 & V2).
  assert (S : 1 <= / cos z <= 6.25) by (split; [rewrite <- Rinv_1; apply Rinv_le_contravar; lra|apply Rle_trans with (/ (16 / 100)); [apply Rinv_le_contravar; lra|lra]]).
  unfold Rdiv. set (s := / cos z) in *. replace (10 ^ 7) with 10000000 by ring. replace (10 ^ 6) with 1000000 in V2 by ring.
  assert (0 <= 0.002277 * s * vapour_part h) by nra. assert (0.002277 * s * vapour_part h <= / 10000000) by nra. split; nra.
Qed.
Print Assumptions C93_dry_partial.
(** positive, and larger for lower satellites *)
Theorem C93_monotone : forall h z z', 0 <= h <= 2000 -> 0 <= z -> z < z' -> z' <= mask_angle -> 0 < saas_correction (saas_init h) z < saas_correction (saas_init h) z'.
Proof.
  intros h z z' Hh Z0 L U. destruct (cos_mask z ltac:(lra)) as (C1 & C2). destruct (cos_mask z' ltac:(lra)) as (D1 & D2). rewrite !correction_parts, !tan_sq by lra.
  pose proof (vapour_small h Hh) as (V1 & _). pose proof (pressure_bounds h Hh) as (P1 & _).
  assert (S1 : 1 <= / cos z <= 6.25) by (split; [rewrite <- Rinv_1; apply Rinv_le_contravar; lra|apply Rle_trans with (/ (16 / 100)); [apply Rinv_le_contravar; lra|lra]]).
  assert (S2 : 1 <= / cos z' <= 6.25) by (split; [rewrite <- Rinv_1; apply Rinv_le_contravar; lra|apply Rle_trans with (/ (16 / 100)); [apply Rinv_le_contravar; lra|lra]]).
  assert (S12 : / cos z < / cos z').
  { apply Rinv_lt_contravar; [nra|]. unfold mask_angle in U. pose proof PI_RGT_0. apply cos_decreasing_1; lra. }
  unfold Rdiv. set (s := / cos z) in *. set (s' := / cos z') in *. set (K := std_pressure h + vapour_part h) in *. assert (HK : 700 <= K) by (unfold K; lra).
  replace (K - (s * s - 1)) with (K + 1 - s * s) by ring. replace (K - (s' * s' - 1)) with (K + 1 - s' * s') by ring.
  assert (s * s <= 40) by nra. assert (s' * s' <= 40) by nra. assert (s * s' <= 40) by nra.
  assert (X : 0 < (s' - s) * (K + 1 - (s * s + s * s' + s' * s'))) by (apply Rmult_lt_0_compat; lra). split; [apply Rmult_lt_0_compat; nra|nra].
Qed.
Print Assumptions C93_monotone.
(** the temperature passes through zero at 2769 m: the delay has a pole there *)
Theorem C93_pole : forall B, exists h, 2769 < h < 2770 /\ B < saas_correction (saas_init h) 0.
Proof.
  intro B. set (e0 := 50 * (exp (-2) * exp (-40))). assert (He : 0 < e0) by (unfold e0; pose proof (exp_pos (-2)); pose proof (exp_pos (-40)); nra).
  set (T := / (1000 + Rabs B / (0.002277 * 1255 * e0))). assert (Q : 0 <= Rabs B / (0.002277 * 1255 * e0)) by (apply Rmult_le_pos; [apply Rabs_pos|left; apply Rinv_0_lt_compat; nra]).
  assert (HT : 0 < T <= / 1000) by (unfold T; split; [apply Rinv_0_lt_compat; lra|apply Rinv_le_contravar; lra]).
  exists ((18 - T) / 0.0065). assert (Hh : 2769 < (18 - T) / 0.0065 < 2770) by lra. split; [exact Hh|]. set (h := (18 - T) / 0.0065) in *.
  rewrite correction_parts. rewrite cos_0, tan_0, Rmult_0_l, Rminus_0_r. unfold vapour_part, saas_init. cbn [sa_T sa_e]. rewrite !Rminus_0_r.
  replace (18 - 0.0065 * h) with T by (unfold h; lra).
  assert (E1 : exp (-2) <= exp (- 0.0006396 * h)) by (left; apply exp_increasing; lra).
  assert (E2 : exp (-40) <= exp (- 37.2465 + 0.213166 * T - Rpower 0.000256908 2)).
  { left. apply exp_increasing. assert (Rpower 0.000256908 2 <= 1); [|lra]. replace 2 with (INR 2) by (cbn; lra). rewrite Rpower_pow by lra. cbn. lra. }
  assert (E : e0 <= 50 * exp (- 0.0006396 * h) * exp (- 37.2465 + 0.213166 * T - Rpower 0.000256908 2)).
  { unfold e0. pose proof (exp_pos (-2)). pose proof (exp_pos (-40)). rewrite Rmult_assoc. apply Rmult_le_compat_l; [lra|]. apply Rmult_le_compat; lra. }
  set (e := 50 * _ * _) in *.
  assert (P : 0 < std_pressure h) by (unfold std_pressure, Rpower; apply Rmult_lt_0_compat; [lra|apply exp_pos]).
  assert (I : 1255 / T = 1255 * (1000 + Rabs B / (0.002277 * 1255 * e0))) by (unfold T, Rdiv; rewrite Rinv_inv; reflexivity).
  apply Rle_lt_trans with (0.002277 * (1255 * (1000 + Rabs B / (0.002277 * 1255 * e0))) * e0).
  - replace (0.002277 * _ * e0) with (0.002277 * 1255 * 1000 * e0 + Rabs B) by (field; nra). pose proof (Rle_abs B). nra.
  - rewrite I. set (w := 1255 * _) in *. assert (0 < w) by (unfold w; lra). unfold Rdiv. rewrite Rinv_1, Rmult_1_r.
    assert (w * e0 <= w * e) by (apply Rmult_le_compat_l; lra). nra.
Qed.
Print Assumptions C93_pole.
Example C93_ex : 0 <= 100 <= 2000 /\ 0 <= PI / 3 <= mask_angle /\ saas_correction (saas_init 100) 0 < saas_correction (saas_init 100) (PI / 3).
Proof.
  pose proof PI_RGT_0. assert (0 <= PI / 3 <= mask_angle) by (unfold mask_angle; lra). split; [lra|]. split; [assumption|].
  apply (C93_monotone 100 0 (PI / 3)); lra.
Qed.
