(** PropertiesOrbit2: C69, what the status of stateNclock says *)
From Verif Require Import ModelSatsys ModelOrbit.
From Coq Require Import Reals ZArith.

(** whatever the message and the instant: status 0 means that both the state and the clock were written,
    and any other status that at least the clock was not *)
Theorem C69_status : forall fuel sys f te tc st k c, stateNclock fuel sys f te tc = Some (Runs st k c) ->
  (st = 0%Z -> (exists x, k = Some x) /\ exists b, c = Some b) /\ (st <> 0%Z -> c = None).
Proof.
  intros fuel sys f te tc st k c H.
  assert (K : forall s, Some (kep_result s f te tc) = Some (Runs st k c) -> (st = 0%Z -> (exists x, k = Some x) /\ exists b, c = Some b) /\ (st <> 0%Z -> c = None)).
  { intros s E. unfold kep_result, kep_stateNclock in E. destruct (kepler2state s f te) as [x|]; [|injection E as <- <- <-; split; [discriminate|reflexivity]].
    destruct (sv_clock s f tc None) as [b|]; injection E as <- <- <-; (split; [intro Z0|intro Z0]).
    - split; [exists (xyz x)|exists b]; reflexivity.
    - congruence.
    - discriminate.
    - reflexivity. }
  destruct sys; cbn [stateNclock] in H; try discriminate; try (apply (K _ H)).
  destruct (glo_stateNclock fuel f te) as [((s & v) & b)|] eqn:E; [|discriminate]. injection H as <- <- <-.
  unfold glo_stateNclock in E. 
  destruct (glo_ecef fuel f te) as [g|] eqn:G; [|discriminate].
  destruct (Z.eqb_spec (q_status g) 0) as [Z0|Z0]; injection E as <- <- <-; (split; [intro Z1|intro Z1]); try congruence.
  split; [|eexists; reflexivity]. unfold glo_ecef in G.
  assert (X : exists v, q_state g = Some v).
  { destruct (Req_EM_T _ _); [injection G as <-; eexists; reflexivity|]. destruct (glo_loop _ _ _ _ _) as [w|]; [|discriminate].
    destruct (Nat.leb _ _); injection G as <-; [discriminate Z0|eexists; reflexivity]. }
  destruct X as (w & ->). eexists; reflexivity.
Qed.
Print Assumptions C69_status.
