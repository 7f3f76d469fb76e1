(** CNumLemmas: facts about CNum (strtol/strtod) and decimal printing. *)
From Verif Require Import Base BaseLemmas CNum.
From Coq Require Import DecimalString DecimalN.
Local Open Scope Z_scope.

(** first character is not a digit *)
Definition nondigit_head (r : list ascii) : Prop :=
  match r with [] => True | c :: _ => is_digit c = false end.

Lemma scan_digits_nondigit r acc : nondigit_head r -> scan_digits r acc = (acc, O, r).
Proof. destruct r as [|c r]; simpl; [reflexivity|]. intros ->. reflexivity. Qed.

Lemma scan_digits_pos u p r :
  nondigit_head r ->
  scan_digits (lit (NilEmpty.string_of_uint u) ++ r) (Zpos p)
  = (Zpos (Pos.of_uint_acc u p), length (lit (NilEmpty.string_of_uint u)), r).
Proof.
  intro Hr. revert p. induction u; intro p; cbn [NilEmpty.string_of_uint lit app length Pos.of_uint_acc];
  [ rewrite scan_digits_nondigit by exact Hr; reflexivity | .. ];
  cbn [scan_digits];
  match goal with |- context[is_digit ?c] => change (is_digit c) with true end; cbn iota;
  match goal with
  | |- context[scan_digits _ ?e] =>
      match goal with
      | |- context[Pos.of_uint_acc _ ?q] =>
        replace e with (Zpos q)
          by (match goal with |- context[digit_val ?c] =>
                let d := eval vm_compute in (digit_val c) in change (digit_val c) with d end; lia)
      end
  end;
  rewrite IHu; reflexivity.
Qed.

Lemma scan_digits_uint u r :
  nondigit_head r ->
  scan_digits (lit (NilEmpty.string_of_uint u) ++ r) 0
  = (Z.of_N (Pos.of_uint u), length (lit (NilEmpty.string_of_uint u)), r).
Proof.
  intro Hr. induction u; cbn [NilEmpty.string_of_uint lit app length Pos.of_uint];
  [ rewrite scan_digits_nondigit by exact Hr; reflexivity | .. ];
  cbn [scan_digits];
  match goal with |- context[is_digit ?c] => change (is_digit c) with true end; cbn iota.
  1: { change (0 * 10 + digit_val "0"%char) with 0. rewrite IHu. reflexivity. }
  all: match goal with
  | |- context[scan_digits _ ?e] => 
      match goal with
      | |- context[Pos.of_uint_acc _ ?q] => change e with (Zpos q)
      end
  end; rewrite scan_digits_pos by exact Hr; reflexivity.
Qed.

Lemma scan_digits_nonneg z r :
  0 <= z -> nondigit_head r ->
  scan_digits (string_of_nonneg z ++ r) 0 = (z, length (string_of_nonneg z), r).
Proof.
  intros Hz Hr. unfold string_of_nonneg.
  assert (E : N.of_uint (N.to_uint (Z.to_N z)) = Z.to_N z) by apply DecimalN.Unsigned.of_to.
  destruct (N.to_uint (Z.to_N z)) eqn:Eu.
  - exfalso. exact (N_to_uint_nnil _ Eu).
  - change (NilZero.string_of_uint (Decimal.D0 u)) with (NilEmpty.string_of_uint (Decimal.D0 u)).
    rewrite scan_digits_uint by exact Hr. change (Pos.of_uint (Decimal.D0 u)) with (N.of_uint (Decimal.D0 u)).
    rewrite E. rewrite Z2N.id by lia. reflexivity.
  - all: change (NilZero.string_of_uint (Decimal.D1 u)) with (NilEmpty.string_of_uint (Decimal.D1 u));
    rewrite scan_digits_uint by exact Hr; change (Pos.of_uint (Decimal.D1 u)) with (N.of_uint (Decimal.D1 u));
    rewrite E; rewrite Z2N.id by lia; reflexivity.
  - all: change (NilZero.string_of_uint (Decimal.D2 u)) with (NilEmpty.string_of_uint (Decimal.D2 u));
    rewrite scan_digits_uint by exact Hr; change (Pos.of_uint (Decimal.D2 u)) with (N.of_uint (Decimal.D2 u));
    rewrite E; rewrite Z2N.id by lia; reflexivity.
  - all: change (NilZero.string_of_uint (Decimal.D3 u)) with (NilEmpty.string_of_uint (Decimal.D3 u));
    rewrite scan_digits_uint by exact Hr; change (Pos.of_uint (Decimal.D3 u)) with (N.of_uint (Decimal.D3 u));
    rewrite E; rewrite Z2N.id by lia; reflexivity.
  - all: change (NilZero.string_of_uint (Decimal.D4 u)) with (NilEmpty.string_of_uint (Decimal.D4 u));
    rewrite scan_digits_uint by exact Hr; change (Pos.of_uint (Decimal.D4 u)) with (N.of_uint (Decimal.D4 u));
    rewrite E; rewrite Z2N.id by lia; reflexivity.
  - all: change (NilZero.string_of_uint (Decimal.D5 u)) with (NilEmpty.string_of_uint (Decimal.D5 u));
    rewrite scan_digits_uint by exact Hr; change (Pos.of_uint (Decimal.D5 u)) with (N.of_uint (Decimal.D5 u));
    rewrite E; rewrite Z2N.id by lia; reflexivity.
  - all: change (NilZero.string_of_uint (Decimal.D6 u)) with (NilEmpty.string_of_uint (Decimal.D6 u));
    rewrite scan_digits_uint by exact Hr; change (Pos.of_uint (Decimal.D6 u)) with (N.of_uint (Decimal.D6 u));
    rewrite E; rewrite Z2N.id by lia; reflexivity.
  - all: change (NilZero.string_of_uint (Decimal.D7 u)) with (NilEmpty.string_of_uint (Decimal.D7 u));
    rewrite scan_digits_uint by exact Hr; change (Pos.of_uint (Decimal.D7 u)) with (N.of_uint (Decimal.D7 u));
    rewrite E; rewrite Z2N.id by lia; reflexivity.
  - all: change (NilZero.string_of_uint (Decimal.D8 u)) with (NilEmpty.string_of_uint (Decimal.D8 u));
    rewrite scan_digits_uint by exact Hr; change (Pos.of_uint (Decimal.D8 u)) with (N.of_uint (Decimal.D8 u));
    rewrite E; rewrite Z2N.id by lia; reflexivity.
  - all: change (NilZero.string_of_uint (Decimal.D9 u)) with (NilEmpty.string_of_uint (Decimal.D9 u));
    rewrite scan_digits_uint by exact Hr; change (Pos.of_uint (Decimal.D9 u)) with (N.of_uint (Decimal.D9 u));
    rewrite E; rewrite Z2N.id by lia; reflexivity.
Qed.

Lemma is_digit_cases c :
  is_digit c = true -> is_space c = false /\ ceqb c "-"%char = false /\ ceqb c "+"%char = false.
Proof. destruct c as [[][][][][][][][]]; vm_compute; intuition congruence. Qed.

Lemma string_of_nonneg_head z : exists c t, string_of_nonneg z = c :: t /\ is_digit c = true.
Proof.
  pose proof (string_of_nonneg_digits z) as D. pose proof (string_of_nonneg_nonempty z) as N.
  destruct (string_of_nonneg z) as [|c t]; [congruence|].
  exists c, t. split; auto. simpl in D. apply andb_true_iff in D as [D _]. exact D.
Qed.

Lemma skip_ws_nonspace c t : is_space c = false -> skip_ws (c :: t) = (O, c :: t).
Proof. intro H. simpl. rewrite H. reflexivity. Qed.

(** blanks then a printed non-negative integer *)
Lemma skip_ws_blanks n s c t :
  s = c :: t -> is_space c = false -> skip_ws (repeat " "%char n ++ s) = (n, s).
Proof.
  intros -> H. induction n as [|n IH].
  - apply skip_ws_nonspace. exact H.
  - simpl repeat. cbn [app skip_ws]. change (is_space " "%char) with true. cbn iota.
    rewrite IH. reflexivity.
Qed.

Lemma strtol_nonneg n z r :
  0 <= z <= LONG_MAX -> nondigit_head r ->
  strtol (repeat " "%char n ++ string_of_nonneg z ++ r)
  = (z, (n + length (string_of_nonneg z))%nat, false).
Proof.
  intros Hz Hr. destruct (string_of_nonneg_head z) as (c & t & E & Hc).
  destruct (is_digit_cases c Hc) as (Hs & Hm & Hp).
  unfold strtol.
  rewrite (skip_ws_blanks n _ c (t ++ r)); [|rewrite E; reflexivity|exact Hs].
  assert (S : scan_sign (string_of_nonneg z ++ r) = (false, O, string_of_nonneg z ++ r)).
  { rewrite E. simpl. rewrite Hm, Hp. reflexivity. }
  rewrite S. rewrite scan_digits_nonneg by (auto; lia).
  rewrite E at 1 2. simpl length. cbn iota.
  unfold LONG_MAX, LONG_MIN in *.
  destruct (z >? _) eqn:E1; [lia|]. destruct (z <? _) eqn:E2; [lia|].
  rewrite E. simpl length. repeat f_equal. lia.
Qed.
