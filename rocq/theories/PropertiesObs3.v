(** PropertiesObs3: C54, unreadable header lines *)
From Verif Require Import Base BaseLemmas CNum CNumLemmas Stream ModelSatsys ModelObs ModelAntenna ModelObsRnx SpecText SpecNum SpecObs SpecHeader SpecHeaderBad
  ProofText ProofNum ProofStream ProofHeader ProofHeaderBad PropertiesObs PropertiesObs2.
Open Scope string_scope.
Open Scope list_scope.

(** a header with an unreadable position, antenna offset, clock-offset flag or start time is refused,
    whatever was read before it and whatever follows it *)
Theorem C54_bad_line : forall strp v mid letter sys post second items c lab j tail h0 h,
  first_line_ok v mid letter sys post -> clean second -> 60 <= length second <= 84 ->
  labelled "END OF HEADER" second = false -> length items <= 998 ->
  initial_header h0 (num_flt v) sys -> items_mean strp items h0 h -> bad_line strp c lab j ->
  obs_open strp (first_line v mid letter post ++ NL :: second ++ NL :: items_text items ++ header_line c (lit lab) j ++ NL :: tail) = Exn.
Proof. exact bad_header. Qed.
Print Assumptions C54_bad_line.
Example C54_bad_line_ex : bad_line no_time (lit "  4595220.0240  unknown") "APPROX POSITION XYZ" 0 /\ bad_line no_time [] "ANTENNA: DELTA H/E/N" 0 /\
  bad_line no_time (lit "     2") "RCV CLOCK OFFS APPL" 1 /\ bad_line (fun _ => None) [] "TIME OF FIRST OBS" 0.
Proof.
  split; [|split; [|split]].
  - apply bl_approx; [split; [repeat constructor; discriminate|cbn; lia]|]. exists [mkNum None (lit "4595220") true (lit "0240") None], 2, (lit "unknown").
    split; [constructor; [|constructor]|].
    + split; [unfold num_ok; concrete|cbn; lia].
    + split; [cbn; lia|]. split; [right; lia|]. split; [reflexivity|]. cbn. split; [unfold digit; cbn; lia|]. split; [cbn; intuition discriminate|reflexivity].
  - apply bl_delta; [split; [constructor|cbn; lia]|]. exists [], 0, []. split; [constructor|]. split; [cbn; lia|]. split; [left; reflexivity|]. split; [reflexivity|exact I].
  - change (lit "     2") with (rjust 6 (lit "2")). apply bl_clk; [repeat constructor; cbn; lia|discriminate|cbn; lia|split; vm_compute; discriminate|lia].
  - apply bl_time; [|reflexivity]. unfold content_ok. cbn. split; [constructor|lia].
Qed.
