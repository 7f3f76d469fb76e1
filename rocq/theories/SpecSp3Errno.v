(** SpecSp3Errno: a program that reads SP3 files, errno being the only thing the steps share, for C99 *)
From Verif Require Import Base CNum Stream ModelSatsys ModelSp3 ModelSp3Errno SpecText SpecNum SpecObs SpecSp3.
Local Open Scope list_scope.

(** open a file (the exception is caught), read an epoch, or run some other code that leaves errno at [e] *)
Inductive sp3_step := SOpen (d : list ascii) | SEpoch (fuel : nat) (st : stream) (vec : list sp3rec) | SOther (e : Z).
(** the steps run to completion; errno before and after *)
Inductive sp3_history (wsow : sp3time -> Z * Q) (as_mjd : sp3time -> Q) : Z -> list sp3_step -> Z -> Prop :=
| sh_nil e : sp3_history wsow as_mjd e [] e
| sh_open e d r e1 l e2 : sp3_open_e wsow as_mjd d e = Val (r, e1) -> sp3_history wsow as_mjd e1 l e2 ->
    sp3_history wsow as_mjd e (SOpen d :: l) e2
| sh_epoch e k st vec q e1 l e2 : sp3_next_epoch_e k st vec e = Val (q, e1) -> sp3_history wsow as_mjd e1 l e2 ->
    sp3_history wsow as_mjd e (SEpoch k st vec :: l) e2
| sh_other e e1 l e2 : sp3_history wsow as_mjd e1 l e2 -> sp3_history wsow as_mjd e (SOther e1 :: l) e2.
(** nothing but SP3 reading *)
Definition sp3_only (s : sp3_step) : Prop := match s with SOther _ => False | _ => True end.
(** the files opened are accepted by a fresh program, other code does not leave ERANGE *)
Definition sp3_calm (wsow : sp3time -> Z * Q) (as_mjd : sp3time -> Q) (s : sp3_step) : Prop :=
  match s with
  | SOpen d => exists o, sp3_open wsow as_mjd d = Val o
  | SEpoch _ _ _ => True
  | SOther e => e <> SP3_ERANGE
  end.

(** calls of get_next_epoch one after the other, each continuing where the previous one stopped *)
Fixpoint sp3_calls_e (n fuel : nat) (st : stream) (vec : list sp3rec) (e : Z) : outcome (list sp3res * Z) :=
  match n with
  | O => Val ([], e)
  | S n' =>
      do q <- sp3_next_epoch_e fuel st vec e;
      do qs <- sp3_calls_e n' fuel (q_stream (fst q)) (q_vec (fst q)) (snd q);
      Val (fst q :: fst qs, snd qs)
  end.
