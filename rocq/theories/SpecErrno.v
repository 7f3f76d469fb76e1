(** SpecErrno: reading observation files one after the other in the same program, for C96 *)
From Verif Require Import Base CNum Stream ModelSatsys ModelObs ModelObsRnx ModelErrno SpecNum SpecObs SpecHeader.
Local Open Scope list_scope.

(** the text of the first line (84 characters at most, up to a NUL) *)
Definition first_text (d : list ascii) : list ascii := cut_nul (fst (take_line 84 d)).
(** the number at the start of the file is a float *)
Definition version_fits (d : list ascii) : Prop := strtof_range (first_text d) = false.

(** what a program may do with observation files, errno being the only thing shared: try to open a file that does
    not exist, open one that does (in both cases the exception is caught), read an epoch of some open file *)
Inductive step := Missing | Open (d : list ascii) | Epoch (o : obsfile) (plan : smap (list vecof_idpair)) (out : list satentry).
(** [history strp e steps e']: the steps run to completion; [e], [e'] say whether errno is set before and after.
    Opening a file that does not exist sets it (ENOENT) and nothing clears it: obsrnx.cpp:80-94, 168-169. *)
Inductive history (strp : list ascii -> option Z) : bool -> list step -> bool -> Prop :=
| h_nil e : history strp e [] e
| h_missing e l e2 : history strp true l e2 -> history strp e (Missing :: l) e2
| h_open e d r e1 l e2 : obs_open_e strp d e = Val (r, e1) -> history strp e1 l e2 -> history strp e (Open d :: l) e2
| h_epoch e o plan out r e1 l e2 : read_next_epoch_e o plan out e = Val (r, e1) -> history strp e1 l e2 ->
    history strp e (Epoch o plan out :: l) e2.

(** every file that is opened exists, starts with a version number and is accepted when it is opened first thing *)
Definition calm (strp : list ascii -> option Z) (s : step) : Prop :=
  match s with
  | Missing => False
  | Open d => version_fits d /\ exists o, obs_open strp d = Val o
  | Epoch _ _ _ => True
  end.

(** header items without numbers *)
Definition number_free (i : hitem) : Prop :=
  match i with
  | ILine _ lab _ => In lab ["MARKER NAME"; "MARKER NUMBER"; "REC # / TYPE / VERS"; "ANT # / TYPE"]%string
  | IBlock _ _ _ _ _ _ _ => False
  | IOther _ => True
  end.
