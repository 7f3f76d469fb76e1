(** SpecApp: a run of the point-positioning program's message lookups *)
From Verif Require Import Base CNum Stream ModelSatsys ModelNav ModelApp SpecNav.
Open Scope list_scope.

(** requests made one after the other, starting from an empty cache and the stream [st0]; [fuels] need
    not be the same in each call *)
Inductive lookups (strp : strp_t) (eoh : option nat) (nmsg : frame) (st0 : stream) : list (satsys * Z * Z) -> list frame -> stream -> Z -> Prop :=
| no_lookup e : lookups strp eoh nmsg st0 [] [] st0 e
| one_more reqs cache st e sys prn t fuel r : lookups strp eoh nmsg st0 reqs cache st e ->
    get_valid_msg fuel strp eoh nmsg st e sys prn t cache = Val r ->
    lookups strp eoh nmsg st0 (reqs ++ [(sys, prn, t)]) (g_cache r) (g_stream r) (g_errno r).

Definition sv_of (p : frame) : satsys * Z := (f_sys p, f_prn p).
Definition other_sv (sys : satsys) (prn : Z) (p : frame) : bool := negb (satsys_eqb (f_sys p) sys && (f_prn p =? prn)%Z).
