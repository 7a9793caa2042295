(* C27, C28 and the limits of C29: repetition.  DrawSpec.v says what a repetition is; proofs in DrawProofs.v and DrawFinal.v. *)
From Verif Require Import DrawFinal.
Local Open Scope Z_scope.

(* C27: is_draw says what the history says, provided no two different positions it compares share a hash.
   n is the argument ply (plyLimit in Draw.v: absent and 0 mean 2147483647). *)
Theorem C27_is_draw : forall rp rh b0 es line n, let z := initZobrist rp rh in set_up z b0 -> let P0 := abs (bpos b0) in
  game no_double_pass P0 es line -> no_collision z P0 line n ->
  exists b r, calls z b0 es = Some b /\ isDraw (bpos b) n = Some r /\ repetition P0 line n r.
Proof. exact (fun rp rh b0 es line n => draw_exact (initZobrist rp rh) b0 es line n (okZob_init rp rh)). Qed.
Print Assumptions C27_is_draw.
(* the answer is unique *)
Theorem C27_one_answer : forall P0 line n r r', repetition P0 line n r -> repetition P0 line n r' -> r = r'.
Proof. exact repetition_unique. Qed.
Print Assumptions C27_one_answer.
(* whatever the hashes, a repetition is never missed and no state outside the history is read *)
Theorem C27_never_missed : forall rp rh b0 es line n, let z := initZobrist rp rh in set_up z b0 -> let P0 := abs (bpos b0) in
  game no_double_pass P0 es line ->
  exists b r, calls z b0 es = Some b /\ isDraw (bpos b) n = Some r /\ forall i r', candidate line n i -> judgement P0 line i r' -> r <> NotRepetition.
Proof. exact (fun rp rh b0 es line n => draw_never_missed (initZobrist rp rh) b0 es line n (okZob_init rp rh)). Qed.
Print Assumptions C27_never_missed.
Example C27_case : set_up z0 perpBoard /\ game no_double_pass (abs (bpos perpBoard)) (plays twice) twice /\ no_collision z0 (abs (bpos perpBoard)) twice 100 /\
  repetition (abs (bpos perpBoard)) twice 100 RepetitionWin.
Proof. exact (conj perp_set_up (conj twice_game (conj (twice_no_collision 100) twice_repetition))). Qed.
Example C27_case_inferior : set_up z0 pawnBoard /\ game no_double_pass (abs (bpos pawnBoard)) (plays (Some home :: pawnLine)) (Some home :: pawnLine) /\
  no_collision z0 (abs (bpos pawnBoard)) (Some home :: pawnLine) 100 /\ isDraw (bpos (replay z0 pawnBoard (Some home :: pawnLine))) 100 = Some RepetitionInferior.
Proof. exact (conj pawn_set_up (conj pawn_game (conj (pawn_no_collision 100) (proj1 home_runs)))). Qed.

(* C28: move_is_draw before the move and is_draw after it.  They agree when is_draw does not answer
   superior or inferior, the position repeated was itself reached by a move, and not both sides checked with every move.
   Missing for the full property: those three cases, in which the two functions do differ (below). *)
Theorem C28_move_is_draw_partial : forall rp rh b0 es line m n r, let z := initZobrist rp rh in set_up z b0 -> let P0 := abs (bpos b0) in let line' := Some m :: line in
  game no_double_pass P0 es line -> legal_but_drop_mate (after P0 line) m -> no_collision z P0 line' n ->
  repetition P0 line' n r -> r <> RepetitionSuperior -> r <> RepetitionInferior ->
  (forall i, candidate line' n i -> same_position (after P0 line') (ago P0 line' i) ->
     (forall i', candidate line' n i' -> (i' < i)%nat -> ~ same_position (after P0 line') (ago P0 line' i')) ->
     unbroken line i /\ ~ (all_checks P0 line' Sente i /\ all_checks P0 line' Gote i)) ->
  exists b, calls z b0 es = Some b /\ let c := code (bpos b) m in isDraw (bpos (push z b c)) n = Some r /\ moveIsDraw z (bpos b) c n = Some r.
Proof. exact (fun rp rh b0 es line m n r => predict_agrees (initZobrist rp rh) b0 es line m n r (okZob_init rp rh)). Qed.
Print Assumptions C28_move_is_draw_partial.
(* in every case: no repetition after the move means none was announced *)
Theorem C28_no_false_alarm : forall rp rh b0 es line m n, let z := initZobrist rp rh in set_up z b0 -> let P0 := abs (bpos b0) in
  game no_double_pass P0 es line -> legal_but_drop_mate (after P0 line) m ->
  exists b r r', calls z b0 es = Some b /\ let c := code (bpos b) m in isDraw (bpos (push z b c)) n = Some r /\ moveIsDraw z (bpos b) c n = Some r' /\
    (r = NotRepetition -> r' = NotRepetition) /\ r' <> RepetitionSuperior /\ r' <> RepetitionInferior.
Proof. exact (fun rp rh b0 es line m n => predict_detects (initZobrist rp rh) b0 es line m n (okZob_init rp rh)). Qed.
Print Assumptions C28_no_false_alarm.
Example C28_case : let P0 := abs (bpos perpBoard) in let line := tl twice in let line' := Some r2 :: line in
  set_up z0 perpBoard /\ (game no_double_pass P0 (plays line) line /\ legal_but_drop_mate (after P0 line) r2) /\ no_collision z0 P0 line' 100 /\ repetition P0 line' 100 RepetitionWin /\
  (forall i, candidate line' 100 i -> same_position (after P0 line') (ago P0 line' i) ->
     (forall i', candidate line' 100 i' -> (i' < i)%nat -> ~ same_position (after P0 line') (ago P0 line' i')) ->
     unbroken line i /\ ~ (all_checks P0 line' Sente i /\ all_checks P0 line' Gote i)).
Proof. exact (conj perp_set_up (conj twice_tail (conj (twice_no_collision 100) (conj twice_repetition (twice_cond 100))))). Qed.
(* the position repeated is the one the board was set up with: perpetual check is announced as a plain draw *)
Theorem C28_from_the_start_refuted : exists b0 es line m b, set_up z0 b0 /\ game no_double_pass (abs (bpos b0)) es line /\ legal_but_drop_mate (after (abs (bpos b0)) line) m /\ calls z0 b0 es = Some b /\
  let c := code (bpos b) m in isDraw (bpos (push z0 b c)) 100 = Some RepetitionWin /\ moveIsDraw z0 (bpos b) c 100 = Some RepetitionDraw.
Proof. exact predict_start_wrong. Qed.
Print Assumptions C28_from_the_start_refuted.
(* a position that is worse than an earlier one is not announced *)
Theorem C28_inferior_refuted : exists b0 es line m b, set_up z0 b0 /\ game no_double_pass (abs (bpos b0)) es line /\ legal_but_drop_mate (after (abs (bpos b0)) line) m /\ calls z0 b0 es = Some b /\
  let c := code (bpos b) m in isDraw (bpos (push z0 b c)) 100 = Some RepetitionInferior /\ moveIsDraw z0 (bpos b) c 100 = Some NotRepetition.
Proof. exact predict_inferior_wrong. Qed.
Print Assumptions C28_inferior_refuted.

(* C29: a pass on top of a pass, both taken back, does not give the same board back, and is_draw shows it *)
Theorem C29_two_passes_refuted : exists b0 es line m b1 b2, set_up z0 b0 /\ game any_pass (abs (bpos b0)) es line /\ game any_pass (abs (bpos b0)) (es ++ [Pass; Pass; Unpass; Unpass]) line /\
  legal_but_drop_mate (after (abs (bpos b0)) line) m /\ calls z0 b0 es = Some b1 /\ calls z0 b0 (es ++ [Pass; Pass; Unpass; Unpass]) = Some b2 /\ b1 <> b2 /\
  isDraw (bpos (push z0 b1 (code (bpos b1) m))) 100 = Some RepetitionWin /\ isDraw (bpos (push z0 b2 (code (bpos b2) m))) 100 = Some RepetitionDraw.
Proof. exact two_passes_wrong. Qed.
Print Assumptions C29_two_passes_refuted.
