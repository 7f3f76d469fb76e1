(** SpecAntexObj: the objects the ANTEX lookups hand out, in terms of the text they come from.
    Uses the types of ModelAntex (the API's objects), none of its functions. *)
From Verif Require Import Base CNum ModelSatsys ModelObs ModelSatellite ModelAntex SpecText SpecNum SpecObs SpecHeader SpecAntex.

(** the offset record of a frequency block *)
Definition freq_pco (q : freq_src) : pco :=
  mkPco (mkCode AnyType (dec_val (q_band q)) "?"%char) (q_sys q) (DFin (num_val (q_n q))) (DFin (num_val (q_e q))) (DFin (num_val (q_u q))).

(** the satellite object carries what block [r], identified by [id], gives; what the block leaves blank is free *)
Definition sat_of (r : ant_src) (id : sat_id) (x : asat) : Prop :=
  sat_sys (as_sat x) = i_sys id /\ sat_prn (as_sat x) = i_prn id /\
  firstn 20 (as_ant x) = map Some (r_model r) /\ nth_error (as_ant x) 20 = Some (Some NUL) /\
  (forall v, i_svn id = Some v -> sat_svn (as_sat x) = v) /\
  (forall c, i_cospar id = Some c -> sat_cospar (as_sat x) = map Some c ++ [Some NUL]).
