(** PropertiesGloD2: C109 from the date, as C69 *)
From Coq Require Import Qabs Reals Qreals Lra Lia ZArith QArith List.
From Verif Require Import B64 SpecB64 ModelOrbit ModelFloat ModelFloat2 SpecFloat SpecOrbit SpecGloD ProofFloat PropertiesFloat PropertiesFloat2 PropertiesGloD.
From Verif Require ProofB64 PropertiesOrbit.
Import ListNotations.
Local Open Scope R_scope.

Lemma ref2_double ref mjd tk fac : double (ref2_d ref mjd tk fac).
Proof. unfold ref2_d. cbv zeta. destruct (_ =? 0)%Z; apply ProofB64.b64_double. Qed.
(** ref2toe is off by less than a tenth of a nanosecond *)
Lemma ref2_elapsed ref mjd tk fac : (0 <= tk < 86400 * Zpos fac)%Z -> (Zpos fac <= 10 ^ 9)%Z ->
  let D := PropertiesOrbit.instant mjd tk fac - IZR ref in Rabs D <= 899 ->
  Rabs (Q2R (ref2_d ref mjd tk fac) - IZR (ref mod 86400) - D) <= / 10 ^ 10.
Proof.
  intros Tk F9 D H. pose proof (Z.mod_pos_bound ref 86400 ltac:(lia)) as KB.
  assert (SE : (sec_d ref == inject_Z (ref mod 86400))%Q) by (apply ProofB64.b64_int; lia). apply Qeq_eqR in SE. rewrite Q2R_inj in SE.
  destruct (ref2_near ref mjd tk fac Tk F9 ltac:(fold D; lra)) as (_ & _ & E). fold D in E. unfold i_tk in E. cbn [er] in E. rewrite Q2R_frac in E.
  unfold fsub in E. pose proof (b64_R (ref2_d ref mjd tk fac - sec_d ref)) as R. rewrite !Q2R_minus, SE in R.
  set (q := Q2R (ref2_d ref mjd tk fac) - IZR (ref mod 86400)) in *. set (b := Q2R (b64 (ref2_d ref mjd tk fac - sec_d ref))) in *. clearbody q b D.
  assert (HH : Q2R hQ <= / 10 ^ 13).
  { apply Rle_trans with (Q2R (1 # 10000000000000)); [apply Qle_Rle; discriminate|rewrite Q2R_frac; lra]. }
  pose proof h_pos as h0. rewrite u_val in R. set (eps := Q2R hQ) in *. clearbody eps.
  assert (B : Rabs b <= 900) by (apply Rabs_le; apply Rabs_le_inv in E, H; lra).
  assert (Q9 : Rabs q <= 901).
  { replace q with (b - (b - q)) by ring. eapply Rle_trans; [apply Rabs_triang|]. rewrite Rabs_Ropp. pose proof (Rabs_pos q).
    assert (Rabs q <= Rabs b + (/ 2 ^ 53 * Rabs q + eps)). { replace q with (b - (b - q)) at 1 by ring. eapply Rle_trans; [apply Rabs_triang|]. rewrite Rabs_Ropp. lra. }
    assert (/ 2 ^ 53 <= / 10000) by lra. assert (/ 2 ^ 53 * Rabs q <= / 10000 * Rabs q) by (apply Rmult_le_compat_r; assumption). lra. }
  assert (/ 2 ^ 53 * Rabs q <= / 2 ^ 53 * 901) by (apply Rmult_le_compat_l; lra).
  replace (q - D) with ((b - D) - (b - q)) by ring. eapply Rle_trans; [apply Rabs_triang|]. rewrite Rabs_Ropp. lra.
Qed.
Theorem C109_date_partial : boxes_hold -> forall m d toe mjd tk fac fuel, accurate m -> glonass_broadcast d -> glonass_clock d ->
  (0 <= tk < 86400 * Zpos fac)%Z -> (Zpos fac <= 10 ^ 9)%Z ->
  let D := PropertiesOrbit.instant mjd tk fac - IZR toe in Rabs D <= 899 -> (15 < fuel)%nat ->
  exists n h F v vh c,
    glo_stateNclock_d fuel m d (sec_d toe) (ref2_d toe mjd tk fac) = Some (0%Z, Some vh, Some c) /\
    (/ 10 ^ 10 < D -> h = 60) /\ (D < - / 10 ^ 10 -> h = -60) /\ Rabs D - / 10 ^ 10 <= 60 * INR n < Rabs D + 60 + / 10 ^ 10 /\
    glo_motion (Q2R (d 5%nat)) (Q2R (d 9%nat)) (Q2R (d 13%nat)) F /\
    six v = rk4_steps F h n (map (fun i => Q2R (d i)) [3; 7; 11; 4; 8; 12]%nat) /\
    Rabs (Q2R (d0 vh) - s0 v) <= / 10 ^ 7 /\ Rabs (Q2R (d1 vh) - s1 v) <= / 10 ^ 7 /\ Rabs (Q2R (d2 vh) - s2 v) <= / 10 ^ 7 /\
    Rabs (Q2R (d3 vh) - s3 v) <= / 10 ^ 10 /\ Rabs (Q2R (d4 vh) - s4 v) <= / 10 ^ 10 /\ Rabs (Q2R (d5 vh) - s5 v) <= / 10 ^ 10 /\
    Rabs (Q2R c - (Q2R (d 0%nat) + Q2R (d 1%nat) * D)) <= 2 / 10 ^ 17.
Proof.
  intros boxes_good. pose proof (C109_orbit_partial boxes_good) as O. clear boxes_good. intros m d toe mjd tk fac fuel Hm Hd Hc Tk F9 D HD Fu. pose proof (ref2_elapsed toe mjd tk fac Tk F9 HD) as E. fold D in E.
  set (t := ref2_d toe mjd tk fac) in *. assert (Dt : double t) by apply ref2_double. set (s := IZR (toe mod 86400)) in *.
  assert (E2 : - / 10 ^ 10 <= Q2R t - s - D <= / 10 ^ 10) by (apply Rabs_le_inv, E).
  assert (AD : Rabs D - / 10 ^ 10 <= Rabs (Q2R t - s) <= Rabs D + / 10 ^ 10).
  { unfold Rabs. destruct (Rcase_abs D), (Rcase_abs (Q2R t - s)); lra. }
  assert (H9 : Rabs (Q2R t - s) <= 900) by lra.
  destruct (O m d toe t fuel Hm Hd Dt H9 Fu) as (n & h & F & v & vh & A & Up & Down & Cov & Mo & St & B0 & B1 & B2 & B3 & B4 & B5). fold s in Up, Down, Cov.
  exists n, h, F, v, vh, (glo_clock_d d (sec_d toe) t).
  split; [unfold glo_stateNclock_d; rewrite A; reflexivity|]. split; [intro; apply Up; lra|]. split; [intro; apply Down; lra|]. split; [lra|].
  split; [exact Mo|]. split; [exact St|]. do 6 (split; [assumption|]).
  pose proof (C109_clock d toe t Hc Dt ltac:(fold s; lra)) as Ck. fold s in Ck.
  pose proof (abs_le _ _ (gc_drift d Hc)) as G. rewrite Q2R_frac in G.
  assert (P : Rabs (Q2R (d 1%nat) * (Q2R t - s - D)) <= 1 / 100000000 * / 10 ^ 10) by (rewrite Rabs_mult; apply Rmult_le_compat; try apply Rabs_pos; assumption).
  set (x := Q2R (d 1%nat)) in *. set (c := Q2R (glo_clock_d d (sec_d toe) t)) in *. set (bias := Q2R (d 0%nat)) in *. clearbody x c bias.
  replace (c - (bias + x * D)) with ((c - (bias + x * (Q2R t - s))) + x * (Q2R t - s - D)) by ring.
  eapply Rle_trans; [apply Rabs_triang|]. lra.
Qed.
Print Assumptions C109_date_partial.
(** eight minutes before ToE, across midnight *)
Example C109_date_ex : boxes_hold -> exists vh c, glo_stateNclock_d 721 some_libm glo_some (sec_d (59129 * 86400 + 300)) (ref2_d (59129 * 86400 + 300) 59128 (86220 * 1000) 1000) = Some (0%Z, Some vh, Some c).
Proof.
  intro boxes_good. pose proof (C109_date_partial boxes_good) as O. clear boxes_good. destruct (O some_libm glo_some (59129 * 86400 + 300)%Z 59128%Z (86220 * 1000)%Z 1000%positive 721%nat some_libm_accurate (proj1 glo_some_broadcast) (proj2 glo_some_broadcast)) as (n & h & F & v & vh & c & E & _).
  - lia.
  - lia.
  - unfold PropertiesOrbit.instant. apply Rabs_le. cbn. lra.
  - lia.
  - exists vh, c. exact E.
Qed.

(** Later than 15 minutes (and a millisecond, for rounding): whatever the ephemeris holds, the status is not 0 and no clock is written. *)
Theorem C109_late : forall m d toe t fuel, double t -> 900 + / 1000 <= Rabs (Q2R t - IZR (toe mod 86400)) ->
  forall s v c, glo_stateNclock_d fuel m d (sec_d toe) t = Some (s, v, c) -> s <> 0%Z /\ c = None.
Proof.
  intros m d toe t fuel Ht H s v c E. pose proof (Z.mod_pos_bound toe 86400 ltac:(lia)) as KB.
  assert (SE : (sec_d toe == inject_Z (toe mod 86400))%Q) by (apply ProofB64.b64_int; lia). apply Qeq_eqR in SE. rewrite Q2R_inj in SE.
  assert (F : flt (fmul 15 60) (Qabs (fsub t (sec_d toe))) = true).
  { assert (Db : double (921601 # 1024)%Q) by (exists 921601%Z, (-10)%Z; split; [reflexivity|split; [discriminate|reflexivity]]).
    set (b := (921601 # 1024)%Q) in *. apply flt_true. unfold fmul. rewrite (ProofB64.b64_wd _ (inject_Z 900)) by reflexivity.
    rewrite (Qeq_eqR _ _ (ProofB64.b64_int 900 ltac:(discriminate))), Q2R_inj. rewrite Q2R_abs. unfold fsub.
    assert (B : 900 < Q2R b) by (unfold b; rewrite Q2R_frac; lra). assert (B2 : Q2R b <= 900 + / 1000) by (unfold b; rewrite Q2R_frac; lra).
    rewrite <- SE, <- Q2R_minus in H. apply Rlt_le_trans with (Q2R b); [exact B|]. unfold Rabs in H. destruct (Rcase_abs _) in H.
    - assert (L : (b64 (t - sec_d toe) <= b64 (- b))%Q) by (apply b64_mono, Rle_Qle; rewrite Q2R_opp; lra). assert (Nb : double (- b)) by (exists (-921601)%Z, (-10)%Z; split; [reflexivity|split; [discriminate|reflexivity]]).
      rewrite (ProofB64.b64_fix _ Nb) in L. apply Qle_Rle in L. rewrite Q2R_opp in L. rewrite Rabs_left1 by lra. lra.
    - assert (L : (b64 b <= b64 (t - sec_d toe))%Q) by (apply b64_mono, Rle_Qle; lra). rewrite (ProofB64.b64_fix _ Db) in L. apply Qle_Rle in L. rewrite Rabs_pos_eq by lra. exact L. }
  unfold glo_stateNclock_d, glo_ecef_d in E. rewrite F in E. cbv zeta in E.
  destruct (Qeq_bool (sec_d toe) t); [injection E as <- _ <-; split; [discriminate|reflexivity]|].
  destruct (glo_loop_d fuel m _ _ _ _) as [g|]; [|discriminate]. destruct (1500 <=? gd_it g)%nat; injection E as <- _ <-; (split; [discriminate|reflexivity]).
Qed.
Print Assumptions C109_late.
(** twenty minutes after ToE nothing is delivered with a clock *)
Example C109_late_ex : forall s v c, glo_stateNclock_d 721 some_libm glo_some (sec_d 300) (inject_Z 1500) = Some (s, v, c) -> s <> 0%Z /\ c = None.
Proof.
  apply C109_late; [apply ProofB64.double_int; discriminate|]. rewrite Q2R_inj. change (300 mod 86400)%Z with 300%Z. rewrite Rabs_pos_eq; lra.
Qed.
