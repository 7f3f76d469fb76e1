(** SpecPPRun: what the point-positioning program is to do with a whole observation file *)
From Coq Require Import Reals ZArith List QArith Qreals Qround.
From Verif Require Import B64 Base CNum Stream ModelSatsys ModelSatellite ModelObs ModelObsRnx ModelNav ModelOrbit ModelApp ModelPP
  SpecText SpecNum SpecObs SpecNav ProofObsRec ProofCollect ProofEpoch SpecPP.
Import ListNotations.
Local Open Scope R_scope.

(** the satellites of an epoch as entries *)
Definition entry_of (x : satsys * Z * list cdbl) : satentry := let '(s, p, v) := x in (new_satellite s p, v).
(** time of the epoch *)
Definition epoch_time (day : list Z -> Z) (e : epoch_src) : Z := (day (firstn 3 (spec_ints e)) * 86400000 + Qfloor (b64 (spec_sec e * 1000)))%Z.
(** what an epoch of the file contributes *)
Definition contributes (ell : R * R * R -> R * R * R) (day : list Z -> Z) (pos : R * R * R) (delay : R -> R) (cal : list Z -> Z) (bs : list nav_src) (plan : plan_t)
    (ep : epoch_src * list (list ascii)) (u : upcall) : Prop :=
  let sats := map entry_of (taken plan (snd ep)) in let t := epoch_time day (fst ep) in
  (4 < length sats)%nat /\ (0 < u_n u <= 30)%nat /\ length (u_obs u) = u_n u /\ length (u_sv u) = u_n u /\ u_w u = repeat 1 (u_n u) /\ u_dt u = DFin (spec_sec (fst ep)) /\
  selection (supplies gives (read_from cal bs) ell pos delay t) (supplies_nothing gives (read_from cal bs) ell pos (none_usable cal bs t) t) sats (combine (u_obs u) (u_sv u)).
Definition few plan (ep : epoch_src * list (list ascii)) : Prop := (length (taken plan (snd ep)) <= 4)%nat.
Definition epoch_fine (day : list Z -> Z) (cal : list Z -> Z) (bs : list nav_src) (plan : plan_t) (ep : epoch_src * list (list ascii)) : Prop :=
  (0 <= spec_sec (fst ep) < 100000)%Q /\ (length (taken plan (snd ep)) <= 30)%nat /\ Forall (serviced cal bs) (map entry_of (taken plan (snd ep))).
Definition idle (ell : R * R * R -> R * R * R) (day : list Z -> Z) (pos : R * R * R) (cal : list Z -> Z) (bs : list nav_src) (plan : plan_t) (ep : epoch_src * list (list ascii)) : Prop :=
  let t := epoch_time day (fst ep) in (4 < length (taken plan (snd ep)))%nat /\ Forall (supplies_nothing gives (read_from cal bs) ell pos (none_usable cal bs t) t) (map entry_of (taken plan (snd ep))).
Definition sunken (ell : R * R * R -> R * R * R) (day : list Z -> Z) (pos : R * R * R) (cal : list Z -> Z) (bs : list nav_src) (plan : plan_t) (ep : epoch_src * list (list ascii)) : Prop :=
  (4 < length (taken plan (snd ep)))%nat /\ Exists (far_below (read_from cal bs) ell pos (epoch_time day (fst ep))) (map entry_of (taken plan (snd ep))).

(** the call [u] follows from the epoch [r] that was read *)
Definition answers (en : navenv) (nav : stream) (ell : R * R * R -> R * R * R) (day : list Z -> Z) (pos : R * R * R) (delay : R -> R) (r : epochres) (u : upcall) : Prop :=
  (4 < er_sats r)%nat /\ exists h t, er_hdr r = Some h /\ epoch_ms day h = Val t /\
  (0 < u_n u <= 30)%nat /\ length (u_obs u) = u_n u /\ length (u_sv u) = u_n u /\ u_w u = repeat 1 (u_n u) /\ u_dt u = e_sec h /\
  selection (supplies gives_if_plausible (cached en nav) ell pos delay t) (supplies_nothing gives_if_plausible (cached en nav) ell pos (lookup_failed en nav t) t) (firstn (er_sats r) (er_out r)) (combine (u_obs u) (u_sv u)).
