(* C48: the mate-in-one search.  MateSpec.v says what a mating move is; proofs in Mate1Core.v ... Mate1Final.v. *)
From Verif Require Import Mate1Final.
Local Open Scope N_scope.

(* When mate_move_in_1ply() returns a move, the move it names is a legal move of the rules that mates on the spot.
   The number returned is the one in the list of legal moves, except when the piece that moves is a promoted pawn,
   lance, knight or silver. *)
Theorem C48_returned_move_mates : forall rp rh b, let z := initZobrist rp rh in reachable z b -> playable (abs (bpos b)) -> ~ in_check (abs (bpos b)) (side (abs (bpos b))) ->
  mateMoveIn1Ply (bpos b) <> 0 ->
  let m := mateMoveIn1Ply (bpos b) in let mv := moveN m in
  mates (abs (bpos b)) mv /\
  ((m = code (bpos b) mv /\ In m (legalMoves (bpos b))) \/
   exists s t k, mv = Go s t false /\ at_square (abs (bpos b)) s = Some (side (abs (bpos b)), k) /\ (k = TO \/ k = NY \/ k = NK \/ k = NG)).
Proof. exact (fun rp rh b => search_board (initZobrist rp rh) b (okZob_init rp rh)). Qed.
Print Assumptions C48_returned_move_mates.
Example C48_case : (reachable z0 goldBoard /\ playable (abs (bpos goldBoard))) /\ ~ in_check (abs (bpos goldBoard)) (side (abs (bpos goldBoard))) /\ mateMoveIn1Ply (bpos goldBoard) = 11137.
Proof. exact (conj gold_playable (conj gold_quiet gold_runs)). Qed.

(* the exception is real: the search may return a number that is not the code of a legal move *)
Theorem C48_code_refuted : ~ (forall rp rh b, let z := initZobrist rp rh in reachable z b -> playable (abs (bpos b)) -> ~ in_check (abs (bpos b)) (side (abs (bpos b))) ->
  mateMoveIn1Ply (bpos b) <> 0 -> In (mateMoveIn1Ply (bpos b)) (legalMoves (bpos b))).
Proof. exact code_refuted. Qed.
Print Assumptions C48_code_refuted.
(* and playing that number does not play the move it names *)
Theorem C48_push_refuted : ~ (forall rp rh b, let z := initZobrist rp rh in reachable z b -> playable (abs (bpos b)) -> ~ in_check (abs (bpos b)) (side (abs (bpos b))) ->
  mateMoveIn1Ply (bpos b) <> 0 -> same_position (abs (bpos (push z b (mateMoveIn1Ply (bpos b))))) (play (abs (bpos b)) (moveN (mateMoveIn1Ply (bpos b))))).
Proof. exact push_refuted. Qed.
Print Assumptions C48_push_refuted.
