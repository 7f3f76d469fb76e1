(** SpecPP: what the point-positioning program is to do with an epoch *)
From Coq Require Import Reals ZArith List QArith Qabs Qreals.
From Verif Require Import B64 Base CNum Stream ModelSatsys ModelSatellite ModelObsRnx ModelNav ModelOrbit ModelApp ModelPP SpecText SpecNum SpecNav ProofStream SpecApp.
Import ListNotations.
Local Open Scope R_scope.

(** ** geometry *)
Definition dot (u v : R * R * R) : R := let '(a, b, c) := u in let '(x, y, z) := v in a * x + b * y + c * z.
Definition norm (u : R * R * R) : R := sqrt (dot u u).
Definition vsub (u v : R * R * R) : R * R * R := let '(a, b, c) := u in let '(x, y, z) := v in (a - x, b - y, c - z).
(** the angle between two directions, in radians *)
Definition angle_between (u v : R * R * R) (a : R) : Prop := 0 <= a <= PI /\ cos a * (norm u * norm v) = dot u v.
(** the local vertical at geodetic latitude and longitude *)
Definition vertical (lat lon : R) : R * R * R := (cos lat * cos lon, cos lat * sin lon, sin lat).
(** [a]: the zenith angle of [p] seen from [pos] *)
Definition zenith_angle (ell : R * R * R -> R * R * R) (pos p : R * R * R) (a : R) : Prop :=
  let '(lat, lon, _) := ell pos in angle_between (vertical lat lon) (vsub p pos) a.

(** ** selection of a sublist: each element is used (and says what for) or skipped *)
Inductive selection {A B : Type} (use : A -> B -> Prop) (skip : A -> Prop) : list A -> list B -> Prop :=
| sel_nil : selection use skip [] []
| sel_use a b l m : use a b -> selection use skip l m -> selection use skip (a :: l) (b :: m)
| sel_skip a l m : skip a -> selection use skip l m -> selection use skip (a :: l) m.

(** the observation of a satellite: a number that differs from the missing-value mark by more than 1/1000, the mark, the
    difference and the bound being the nearest doubles (PropertiesPP4.C88_observed_text: which printed numbers these are) *)
Definition observed (e : satentry) (v : cdbl) : Prop := nth_error (snd e) 0 = Some v /\
  match v with DFin q => (b64 (1 # 1000) < Qabs (b64 (q - b64 (-99999 # 100))))%Q | DInf _ => True | DNan => False end.
Definition not_observed (e : satentry) : Prop := exists v, nth_error (snd e) 0 = Some v /\ ~ observed e v.
(** [g] is a message out of [src] of that satellite, healthy and for time [t] *)
Definition message_for (src : frame -> Prop) (t : Z) (e : satentry) (g : frame) : Prop :=
  src g /\ f_sys g = sat_sys (fst e) /\ f_prn g = sat_prn (fst e) /\ healthy g /\ (~ wild_hours g -> covers t g).
(** messages that stateNclock evaluates: GLONASS, or an ellipse that is not extreme *)
Definition plausible (g : frame) : Prop :=
  f_sys g = Glonass \/ exists q, nth_error (f_data g) 8 = Some (DFin q) /\ 0 <= Q2R q <= 96 / 100.
(** [sv] is the position and clock that message [g] gives at [t] *)
Definition gives (g : frame) (t : Z) (sv : R * R * R * R) : Prop :=
  let '(x, y, z, b) := sv in exists more, sv_eval g t = Some (Runs 0 (Some (x :: y :: z :: more)) (Some b)).
Definition gives_if_plausible (g : frame) (t : Z) (sv : R * R * R * R) : Prop := plausible g -> gives g t sv.
(** entry [e] supplies the measurement [fst m], with the tropospheric delay [delay] of the zenith angle taken
    off, and the satellite state [snd m], which [gv] says a message out of [src] gives *)
Definition supplies (gv : frame -> Z -> R * R * R * R -> Prop) (src : frame -> Prop) (ell : R * R * R -> R * R * R) (pos : R * R * R) (delay : R -> R) (t : Z)
    (e : satentry) (m : option R * (R * R * R * R)) : Prop :=
  exists v g a, observed e v /\ message_for src t e g /\ gv g t (snd m) /\
    first3 (snd m) <> pos /\ zenith_angle ell pos (first3 (snd m)) a /\ a * 180 / PI < 80 /\
    fst m = match v with DFin q => Some (Q2R q - delay a) | _ => None end.
(** entry [e] supplies nothing: no observation, no message, or the satellite is low (or at the station) *)
Definition supplies_nothing (gv : frame -> Z -> R * R * R * R -> Prop) (src : frame -> Prop) (ell : R * R * R -> R * R * R) (pos : R * R * R) (no_message : satentry -> Prop) (t : Z)
    (e : satentry) : Prop :=
  not_observed e \/ no_message e \/
  exists g sv, message_for src t e g /\ gv g t sv /\ (first3 sv = pos \/ exists a, zenith_angle ell pos (first3 sv) a /\ 80 <= a * 180 / PI).
(** [g] is what a block of the file says *)
Definition read_from (cal : list Z -> Z) (bs : list nav_src) (g : frame) : Prop := exists b, In b bs /\ frame_of cal b g.
(** the file has no usable message for the satellite of [e], or one that is more than four hours ahead *)
Definition none_usable (cal : list Z -> Z) (bs : list nav_src) (t : Z) (e : satentry) : Prop :=
  forall b, In b bs -> serves (sat_sys (fst e)) (sat_prn (fst e)) b -> (forall g, frame_of cal b g -> usable t g) ->
    exists b', In b' bs /\ serves (sat_sys (fst e)) (sat_prn (fst e)) b' /\ too_late cal t b'.
(** the satellite of [e] is far below the horizon *)
Definition far_below (src : frame -> Prop) (ell : R * R * R -> R * R * R) (pos : R * R * R) (t : Z) (e : satentry) : Prop :=
  exists g sv a, message_for src t e g /\ gives g t sv /\ zenith_angle ell pos (first3 sv) a /\ PI / 2 + 0.2 < a.

(** the lookups of a run that starts with an empty cache in the file [nav] *)
Definition history (en : navenv) (nav : stream) (cache : list frame) (st : stream) (e : Z) : Prop :=
  exists reqs, lookups (v_strp en) (v_eoh en) (v_new en) nav reqs cache st e.
(** a message the run had in its cache; a lookup of the run that found none *)
Definition cached (en : navenv) (nav : stream) (g : frame) : Prop := exists cache st e, history en nav cache st e /\ In g cache.
Definition lookup_failed (en : navenv) (nav : stream) (t : Z) (ent : satentry) : Prop :=
  exists cache st e r, history en nav cache st e /\
    get_valid_msg (v_fuel en) (v_strp en) (v_eoh en) (v_new en) st e (sat_sys (fst ent)) (sat_prn (fst ent)) t cache = Val r /\ g_status r <> 0%Z.
(** ** conforming navigation files *)
Definition nav_conforms (en : navenv) (cal : list Z -> Z) (bs : list nav_src) (nav : stream) : Prop :=
  reads_dates (v_strp en) cal /\ Forall block_ok bs /\ Forall int_fits bs /\ length (f_data (v_new en)) = 31%nat /\
  at_rest nav (blocks_text bs) /\ (length bs < v_fuel en)%nat.
Definition cache_from (cal : list Z -> Z) (bs : list nav_src) (cache : list frame) : Prop := forall p, In p cache -> exists b, In b bs /\ frame_of cal b p.
(** the satellite of [e] can be looked up: its system has messages, and those of the file are plausible *)
Definition serviced (cal : list Z -> Z) (bs : list nav_src) (e : satentry) : Prop :=
  In (sat_sys (fst e)) [Gps; Glonass; Galileo; Beidou] /\ snd e <> [] /\
  forall b g, In b bs -> b_sys b = sat_sys (fst e) -> frame_of cal b g -> plausible g.
(** cache, stream and errno of a run over a conforming file *)
Definition in_order (en : navenv) (cal : list Z -> Z) (bs : list nav_src) (cache : list frame) (st : stream) (e : Z) : Prop :=
  nav_conforms en cal bs st /\ e = 0%Z /\ cache_from cal bs cache.
