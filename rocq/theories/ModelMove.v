(** ModelMove: ownership of the line buffer of ObservationRnx (obsrnx.hpp:42-57, 171; obsrnx.cpp:80-104).
    Only the raw pointer __buf is modelled: the other members own what they hold.  A program is a
    sequence of operations on named variables; the heap is the set of blocks still allocated. *)
From Verif Require Import Base.

(** obsrnx.hpp:171 __buf: a pointer, [None] is nullptr. *)
Definition ptr := option nat.

Record mstate := mkM {
  m_next : nat;                (* address of the next block *)
  m_live : list nat;           (* allocated blocks *)
  m_vars : list (option ptr);  (* variables: None when no object lives there *)
}.
Definition m_init : mstate := mkM 0 [] [].

(** obsrnx.hpp:39-57 the operations *)
Inductive mop :=
| MConstruct                 (* a new variable, constructed from a file name *)
| MMoveConstruct (i : nat)   (* a new variable, move-constructed from variable i *)
| MMoveAssign (i j : nat)    (* variable i is move-assigned from variable j *)
| MDestroy (i : nat).        (* end of life of variable i *)

Definition var (s : mstate) (i : nat) : option ptr :=
  match nth_error (m_vars s) i with Some o => o | None => None end.
Definition set_var (s : mstate) (i : nat) (o : option ptr) : list (option ptr) :=
  firstn i (m_vars s) ++ o :: skipn (S i) (m_vars s).

(** obsrnx.hpp:39-57, obsrnx.cpp:80-104: one operation.  [Exn]: the program is ill-formed (no object in that variable). *)
Definition mstep (s : mstate) (op : mop) : outcome mstate :=
  match op with
  | MConstruct =>                               (* obsrnx.cpp:80-94: __buf = new char[] *)
      Val (mkM (S (m_next s)) (m_next s :: m_live s) (m_vars s ++ [Some (Some (m_next s))]))
  | MMoveConstruct i =>                         (* obsrnx.hpp:52-53 = default: copies the pointer *)
      match var s i with
      | Some p => Val (mkM (m_next s) (m_live s) (m_vars s ++ [Some p]))
      | None => Exn
      end
  | MMoveAssign i j =>                          (* obsrnx.hpp:56-57 = default: copies the pointer *)
      match var s i, var s j with
      | Some _, Some p => Val (mkM (m_next s) (m_live s) (set_var s i (Some p)))
      | _, _ => Exn
      end
  | MDestroy i =>                               (* obsrnx.cpp:97-104: if (__buf) delete[] __buf *)
      match var s i with
      | Some (Some b) =>
          if in_dec Nat.eq_dec b (m_live s)
          then Val (mkM (m_next s) (remove Nat.eq_dec b (m_live s)) (set_var s i None))
          else UB                               (* delete[] of a block already released *)
      | Some None => Val (mkM (m_next s) (m_live s) (set_var s i None))
      | None => Exn
      end
  end.

(** a sequence of operations: a client of obsrnx.hpp:39-57 *)
Fixpoint mrun (s : mstate) (ops : list mop) : outcome mstate :=
  match ops with
  | [] => Val s
  | op :: r => do s' <- mstep s op; mrun s' r
  end.
