(** SpecRound: what SP3 times and positions are in exact arithmetic (for C100-C102). Nothing of the model but its result types. *)
From Coq Require Import Qround Qabs.
From Verif Require Import Base B64 SpecB64 ModelSp3 SpecText SpecNum SpecSp3.
Local Open Scope Q_scope.

(** the whole microseconds of a number of seconds *)
Definition whole_usec (s : Q) : Z := Qfloor (s * 1000000).
Definition integral (q : Q) : Prop := exists z : Z, q == inject_Z z.
(** written like F11.8 and F14.8: at most [w] digits, the point, at most 8 decimals *)
Definition eight_decimals (w : nat) (n : numlit) : Prop := (length (nint n) <= w)%nat /\ (length (nfrac n) <= 8)%nat.

(** ** An ideal calendar library.  [minute] gives the minutes since MJD 0 of year, month, day, hour, minute; what
    the library returns is the double nearest to the exact value *)
Definition of_week (s : Q) : Z := Qfloor ((s - 44244 * 86400) / 604800).       (* MJD 44244: 1980-01-06 *)
Definition sec_of_week (s : Q) : Q := s - 44244 * 86400 - inject_Z (of_week s) * 604800.
Definition day_number (s : Q) : Z := Qfloor (s / 86400).
Definition day_part (s : Q) : Q := s / 86400 - inject_Z (day_number s).
Section Calendar.
  Variable minute : list Z -> Z.
  Definition lib_seconds (t : sp3time) : Q := inject_Z (minute (t_date t)) * 60 + inject_Z (t_usec t) / 1000000.
  Definition lib_wsow (t : sp3time) : Z * Q := (of_week (lib_seconds t), b64 (sec_of_week (lib_seconds t))).
  Definition lib_mjd (t : sp3time) : Q := b64 (lib_seconds t / 86400).

  (** the start epoch of a header, seconds since MJD 0 *)
  Definition start_seconds (h : sp3h_src) : Q :=
    inject_Z (minute (map dec_val [t_year (h_start h); t_month (h_start h); t_day (h_start h); t_hour (h_start h); t_min (h_start h)])) * 60
    + num_dec (t_sec (h_start h)).
  (** the second line gives the same instant: week and seconds of week, MJD and day fraction to 13 decimals *)
  Definition dates_right (h : sp3h_src) : Prop :=
    dec_val (h_week h) = of_week (start_seconds h) /\ num_dec (h_sow h) == sec_of_week (start_seconds h) /\
    dec_val (h_mjd h) = day_number (start_seconds h) /\
    (length (nfrac (h_frac h)) <= 13)%nat /\ Qabs (num_dec (h_frac h) - day_part (start_seconds h)) <= 1 # (2 * 10 ^ 13).
End Calendar.

(** ** Position records in terms of the written decimals *)
Definition dec_flag (mark : ascii) (p : pos_src) (e : sp3event) : Prop :=
  match e with
  | BadPosition => num_dec (s_x p) == 0 \/ num_dec (s_y p) == 0 \/ num_dec (s_z p) == 0
  | BadClock => 999999 <= num_dec (s_clk p)
  | ClockEvent => column_is 75 "E"%char (pos_line p) = true
  | ClockPrediction => column_is 76 "P"%char (pos_line p) = true
  | Maneuver => column_is 79 "M"%char (pos_line p) = true
  | OrbitPrediction => column_is 80 mark (pos_line p) = true
  end.
(** [v] is [q] up to two roundings *)
Definition as_written (v : Q) (q : Q) : Prop := Qabs (v - q) <= 2 ^ (-51) * Qabs q.
