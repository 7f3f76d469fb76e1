(** SpecDebug: what the debug build checks (for C86) *)
From Verif Require Import Base CNum Stream ModelSatsys ModelNav SpecText SpecNum SpecNav.

(** empty, or ended by a newline *)
Definition ended (d : list ascii) : Prop := d = [] \/ exists a, d = a ++ [NL].
(** the program stops: a failed assertion, or undefined behaviour *)
Definition stops {A} (o : outcome A) : Prop := o = Term \/ o = UB.
(** a whole number of seconds that an int can hold; or off by less than 1e-15, away from zero *)
Definition whole (v : cdbl) : Prop :=
  exists q z, v = DFin q /\ (-2147483648 <= z <= 2147483647)%Z /\
    ((0 <= z)%Z /\ (inject_Z z <= q)%Q /\ (q - inject_Z z < 1 # 1000000000000000)%Q \/
     (z <= 0)%Z /\ (q <= inject_Z z)%Q /\ (inject_Z z - q < 1 # 1000000000000000)%Q).
(** a value an int can hold *)
Definition intable (v : cdbl) : Prop := exists q, v = DFin q /\ (inject_Z (-2147483649) < q)%Q /\ (q < inject_Z 2147483648)%Q.
(** the time of ephemeris of a frame is a whole number of seconds *)
Definition whole_toe (g : frame) : Prop :=
  match f_sys g with
  | Gps | Galileo | Beidou => exists v, nth_error (f_data g) 11 = Some v /\ whole v
  | Glonass => (exists v, nth_error (f_data g) 2 = Some v /\ whole v) /\ exists h, nth_error (f_data g) 6 = Some h /\ intable h
  | _ => True
  end.
(** the same of a block of a file; for GLONASS also: the health fits an int *)
Definition whole_num (o : option numlit) : Prop :=
  match o with Some n => exists z, (-2147483648 <= z <= 2147483647)%Z /\ (num_val n == inject_Z z)%Q | None => True end.
Definition toe_whole (b : nav_src) : Prop :=
  match b_sys b with
  | Gps | Galileo | Beidou => whole_num (number_at b 11)
  | Glonass => whole_num (number_at b 2) /\ fits (-2147483648) 2147483647 (number_at b 6)
  | _ => True
  end.
