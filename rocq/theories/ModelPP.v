(** ModelPP: /repo/test/pp_rnx.cpp, the numerical functions and the main loop of the point-positioning
    program (the message cache is in ModelApp, the filter in ModelKalman).
    Simplifications: doubles in computations are real numbers (no rounding, no NaN, no infinities; a datum of
    a message that is not a finite number counts as 0); ngpt::DPI is pi; ngpt::car2ell (ggeodesy, not in
    /repo) is an arbitrary function [ell] of the three coordinates giving latitude, longitude and height;
    output to std::cout and std::cerr is not modelled; the program is compiled with assertions. *)
From Coq Require Import Reals Lra Lia ZArith List Qreals Qabs Qround.
From Verif Require Import B64 Base CNum Stream ModelSatsys ModelSatellite ModelObsRnx ModelNav ModelOrbit ModelApp.
Import ListNotations.
Local Open Scope R_scope.

(** test/pp_rnx.cpp:27-29 *)
Definition MAX_SATS : nat := 30.
Definition MAX_ZENITH : R := 90 - 10.

(** ** class Saastamoinen *)
(** test/pp_rnx.cpp:52-64 the members after initialize *)
Record saas := mkSaas { sa_T : R; sa_R : R; sa_P : R; sa_e : R }.
(** std::pow with a positive base *)
Definition saas_init (h : R) : saas :=
  let T := 18 - 0.0065 * (h - 0) in
  let R := 50 * exp (- 0.0006396 * (h - 0)) in
  let P := 1013.25 * Rpower (1 - 0.0000226 * (h - 0)) 5.225 in
  let e := R * exp (- 37.2465 + 0.213166 * T - Rpower 0.000256908 2) in
  mkSaas T R P e.
(** test/pp_rnx.cpp:36-42 correction *)
Definition saas_correction (s : saas) (z : R) : R :=
  let cosz := cos z in
  let tanz2 := tan z * tan z in
  let facT := 0.05 + 1255 / sa_T s in
  let faccz := 0.002277 / cosz in
  faccz * (sa_P s + facT * sa_e s - tanz2).

(** ** zenith angles *)
(** test/pp_rnx.cpp:70-80 and 102-112: position of the satellite relative to the station, in the local
    system, and the angle; (sinf, cosf, sinl, cosl) as in the code *)
Record site := mkSite { si_sf : R; si_cf : R; si_sl : R; si_cl : R; si_x : R; si_y : R; si_z : R }.
Definition zenith (s : site) (p : R * R * R) : R :=
  let '(xs, ys, zs) := p in
  let dx := xs - si_x s in
  let dy := ys - si_y s in
  let dz := zs - si_z s in
  let n := - si_sf s * si_cl s * dx - si_sf s * si_sl s * dy + si_cf s * dz in
  let e := - si_sl s * dx + si_cl s * dy in
  let u := si_cf s * si_cl s * dx + si_cf s * si_sl s * dy + si_sf s * dz in
  let r := sqrt (n * n + e * e + u * u) in
  acos (u / r).
(** test/pp_rnx.cpp:67-86 sv_zen_angle: throw 120, or degrees *)
Definition sv_zen_angle (s : site) (p : R * R * R) : outcome R :=
  let znth := zenith s p in
  if Rlt_dec znth (- 0.2) then Exn
  else if Rlt_dec (PI / 2 + 0.2) znth then Exn
  else Val (znth * 180 / PI).
(** test/pp_rnx.cpp:88-123 compute_zenith_angles on the first numsats states; inr i: throw i.  The assert of
    line 93 is in [epoch_step].  The accumulator holds the angles so far *)
Fixpoint compute_zenith_angles (s : site) (states : list (R * R * R)) (i : nat) (acc : list R) : list R + nat :=
  match states with
  | [] => inl acc
  | p :: r =>
      let znth := zenith s p in
      if Rlt_dec znth 0 then inr i
      else if Rle_dec (PI / 2) znth then inr i
      else compute_zenith_angles s r (S i) (acc ++ [znth])
  end.

(** test/pp_rnx.cpp:126-134 weighting_fun *)
Definition weighting_fun (zs : list R) : list R := map (fun a => 1 / cos a * cos a) zs.

(** test/pp_rnx.cpp:277-286 (sin, cos of latitude and longitude), 96-100 likewise *)
Definition site_of (ell : R * R * R -> R * R * R) (p : R * R * R) : site :=
  let '(lat, lon, hgt) := ell p in
  let '(x, y, z) := p in
  mkSite (sin lat) (cos lat) (sin lon) (cos lon) x y z.
Definition height_of (ell : R * R * R -> R * R * R) (p : R * R * R) : R := let '(_, _, hgt) := ell p in hgt.

(** ** the satellites of one epoch *)
(** navrnx.hpp:236-240: the doubles of a message as real numbers *)
Definition rframe_of (g : frame) : rframe :=
  mkR (fun i => match nth_error (f_data g) i with Some (DFin q) => Q2R q | _ => 0 end)
      (IZR (f_toe g mod 86400)) (IZR (f_toc g mod 86400)).
(** test/pp_rnx.cpp:318 nit->stateNclock(epoch, ...); [t] milliseconds since MJD 0. GLONASS needs at most 720
    passes of its loop (C50) *)
Definition sv_eval (g : frame) (t : Z) : option sn_result :=
  let m := (t / 86400000)%Z in
  let tk := (t mod 86400000)%Z in
  stateNclock 1000 (f_sys g) (rframe_of g) (Q2R (ref2toe g m tk 1000)) (Q2R (ref2toc g m tk 1000)).

(** test/pp_rnx.cpp:310: std::abs(v - RNXOBS_MISSING_VAL) > 1e-3, in doubles: the constants and the difference rounded *)
Definition present (v : cdbl) : bool :=
  match v with
  | DFin q => negb (Qle_bool (Qabs (b64 (q - b64 (-99999 # 100)))) (b64 (1 # 1000)))
  | DNan => false
  | _ => true
  end.

(** what the loop carries from satellite to satellite: cache, navigation file, errno, the variables state
    (first three elements; None: not yet written) and clock, and the elements filled of Obs and States *)
Record ppst := mkPP {
  p_cache : list frame; p_nav : stream; p_errno : Z; p_state : option (R * R * R); p_clock : option R;
  p_obs : list cdbl; p_sv : list (R * R * R * R) }.

(** test/pp_rnx.cpp:318: what state holds after the call *)
Definition new_state (w : option (list R)) (old : option (R * R * R)) : option (R * R * R) :=
  match w with Some (x :: y :: z :: _) => Some (x, y, z) | _ => old end.
Definition new_clock (w : option R) (old : option R) : option R := match w with Some c => Some c | None => old end.

(** the navigation file and what goes with it: fuel, strptime, end of header, the frame a default
    constructor gives *)
Record navenv := mkEnv { v_fuel : nat; v_strp : strp_t; v_eoh : option nat; v_new : frame }.

(** test/pp_rnx.cpp:307-345 the body of the loop over the satellites.  Reading second[0] of an empty vector,
    reading state or clock before anything was stored in them, and writing Obs[30] are UB. *)
Definition sat_step (en : navenv) (s : site) (t : Z) (ent : satentry) (p : ppst) : outcome ppst :=
  match nth_error (snd ent) 0 with
  | None => UB
  | Some v =>
      if present v then
        do g <- get_valid_msg (v_fuel en) (v_strp en) (v_eoh en) (v_new en) (p_nav p) (p_errno p)
                  (sat_sys (fst ent)) (sat_prn (fst ent)) t (p_cache p);
        let p1 := mkPP (g_cache g) (g_stream g) (g_errno g) (p_state p) (p_clock p) (p_obs p) (p_sv p) in
        if negb (g_status g =? 0)%Z then Val p1
        else
          match g_it g with
          | None => Term                                             (* assert, line 316 *)
          | Some k =>
              match nth_error (g_cache g) k with
              | None => UB
              | Some m =>
                  if negb (satsys_eqb (sat_sys (fst ent)) (f_sys m) && (sat_prn (fst ent) =? f_prn m)%Z) then Term
                  else
                    match sv_eval m t with
                    | None => Fuel
                    | Some Throws => Exn
                    | Some (Runs _ w c) =>
                        let st := new_state w (p_state p) in
                        let ck := new_clock c (p_clock p) in
                        match st with
                        | None => UB
                        | Some (x, y, z) =>
                            do a <- sv_zen_angle s (x, y, z);
                            let p2 := mkPP (g_cache g) (g_stream g) (g_errno g) st ck (p_obs p) (p_sv p) in
                            if Rlt_dec a MAX_ZENITH then
                              match ck with
                              | None => UB
                              | Some b =>
                                  if (length (p_obs p) <? MAX_SATS)%nat then
                                    Val (mkPP (g_cache g) (g_stream g) (g_errno g) st ck (p_obs p ++ [v]) (p_sv p ++ [(x, y, z, b)]))
                                  else UB
                              end
                            else Val p2
                        end
                    end
              end
          end
      else Val p
  end.
(** test/pp_rnx.cpp:307 the loop over the first satsnum entries *)
Fixpoint sat_loop (en : navenv) (s : site) (t : Z) (ents : list satentry) (p : ppst) : outcome ppst :=
  match ents with
  | [] => Val p
  | e :: r => do p' <- sat_step en s t e p; sat_loop en s t r p'
  end.

(** test/pp_rnx.cpp:369 the arguments of filter.update: nsats, obs (None: infinite), sv, dt, weights *)
Record upcall := mkUp { u_n : nat; u_obs : list (option R); u_sv : list (R * R * R * R); u_dt : cdbl; u_w : list R }.

Definition first3 (q : R * R * R * R) : R * R * R := let '(x, y, z, _) := q in (x, y, z).
Definition obs_minus (v : cdbl) (d : R) : option R := option_map (fun r => r - d) (real_of (Some v)).

(** test/pp_rnx.cpp:302-381 one pass of the main loop after the epoch was read, index = 0 at the start:
    [satsnum], [ents] the epoch vector, [secday], [t] the epoch in milliseconds.  The result: what is carried
    on and the call of filter.update, if one is made.  The assert of line 93 is Term. *)
Definition epoch_step (en : navenv) (ell : R * R * R -> R * R * R) (pos : R * R * R) (tr : saas) (satsnum : nat) (ents : list satentry)
    (secday : cdbl) (t : Z) (p : ppst) : outcome (ppst * option upcall) :=
  let s := site_of ell pos in
  if (4 <? satsnum)%nat then
    if (length ents <? satsnum)%nat then UB
    else
      do q <- sat_loop en s t (firstn satsnum ents) (mkPP (p_cache p) (p_nav p) (p_errno p) (p_state p) (p_clock p) [] []);
      let index := length (p_obs q) in
      if (index =? 0)%nat then Term
      else
        match compute_zenith_angles s (map first3 (p_sv q)) 0 [] with
        | inr _ => Val (q, None)
        | inl [] => Val (q, None)
        | inl zs =>
            let dT := map (saas_correction tr) zs in
            let obs := map (fun vd => obs_minus (fst vd) (snd vd)) (combine (p_obs q) dT) in
            Val (q, Some (mkUp index obs (p_sv q) secday (weighting_fun zs)))
        end
  else Val (p, None).

(** ** the whole run *)
(** test/pp_rnx.cpp:297-300: the epoch as milliseconds since MJD 0; [day] is what ggdatetime makes of year,
    month, day; static_cast<long> of a value out of range is UB *)
Definition epoch_ms (day : list Z -> Z) (h : epochhdr) : outcome Z :=
  match e_sec h with
  | DFin q => let v := b64 (q * 1000)%Q in
      let z := if Qle_bool 0 v then Qfloor v else Qceiling v in
      if (Z.leb (- 2 ^ 63) z && Z.ltb z (2 ^ 63))%bool then Val (day (firstn 3 (e_ints h)) * 86400000 + z)%Z else UB
  | _ => UB
  end.

(** test/pp_rnx.cpp:295-384 the do-while loop: at most [k] passes; [last] the epoch header values of the
    previous passes (None: mjd and secday not yet assigned, reading secday is UB; on the errors 24 and 25
    resolve_epoch has assigned them, obsrnx.cpp:397-409, and as satsnum is 0 they are only printed.
    Simplification: then their range is not looked at).  Result: status returned by
    main and the calls of filter.update *)
Fixpoint pp_loop (k : nat) (en : navenv) (ell : R * R * R -> R * R * R) (day : list Z -> Z) (pos : R * R * R) (tr : saas)
    (plan : smap (list vecof_idpair)) (o : obsfile) (out : list satentry) (last : option epochhdr) (p : ppst)
  : outcome (Z * list upcall) :=
  match k with
  | O => Fuel
  | S k' =>
      do r <- read_next_epoch o plan out;
      let hdr := match er_hdr r with Some h => Some h | None => last end in
      match hdr with
      | None => if ((er_code r =? 24) || (er_code r =? 25))%Z then Val (er_code r, []) else UB
      | Some h =>
          do t <- epoch_ms day h;
          do q <- epoch_step en ell pos tr (er_sats r) (er_out r) (e_sec h) t p;
          let '(p', call) := q in
          let calls := match call with Some c => [c] | None => [] end in
          if (er_code r =? 0)%Z then
            do x <- pp_loop k' en ell day pos tr plan (er_obj r) (er_out r) hdr p';
            Val (fst x, calls ++ snd x)
          else Val (er_code r, calls)
      end
  end.

(** test/pp_rnx.cpp:240-241, 277-300 main once both files are open and the plan is made: [pos] the
    approximate position of the observation file *)
Definition pp_main (k : nat) (en : navenv) (ell : R * R * R -> R * R * R) (day : list Z -> Z) (pos : R * R * R)
    (plan : smap (list vecof_idpair)) (o : obsfile) (nav : stream) (errno : Z) : outcome (Z * list upcall) :=
  pp_loop k en ell day pos (saas_init (height_of ell pos)) plan o (initialize_epoch_vector plan) None
    (mkPP [] nav errno None None [] []).
