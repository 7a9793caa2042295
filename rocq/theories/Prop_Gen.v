(* C09-C12, C40: the list of legal moves, the legality test and the end of the game.
   Spec.v has the rules ("legal", "pawn_drop_mate"), ClaimsGen.v has "playable" (both kings stand, no dead
   pawn) and "fits" (the shape of a move); proofs in GenClaims.v. *)
From Verif Require Import GenExamples.
Local Open Scope N_scope.

(* C09: every listed move is a legal move of the rules *)
Theorem C09_moves_sound : forall rp rh b, let z := initZobrist rp rh in reachable z b -> playable (abs (bpos b)) ->
  forall m, In m (legalMoves (bpos b)) -> exists mv, legal (abs (bpos b)) mv /\ m = code (bpos b) mv.
Proof. exact (fun rp rh b => moves_sound (initZobrist rp rh) b (okZob_init rp rh)). Qed.
Print Assumptions C09_moves_sound.
Example C09_case : reachable z0 demo2 /\ playable (abs (bpos openBoard)) /\ reachable z0 openBoard.
Proof. exact (conj demo2_reachable (conj (proj2 open_playable) (proj1 open_playable))). Qed.

(* C10: every legal move is listed, no entry twice, and different moves have different codes *)
Theorem C10_moves_complete : forall rp rh b, let z := initZobrist rp rh in reachable z b -> playable (abs (bpos b)) ->
  NoDup (legalMoves (bpos b)) /\ (forall mv, legal (abs (bpos b)) mv -> In (code (bpos b) mv) (legalMoves (bpos b))) /\
  forall m m', legal (abs (bpos b)) m -> legal (abs (bpos b)) m' -> code (bpos b) m = code (bpos b) m' -> m = m'.
Proof. exact (fun rp rh b => moves_complete (initZobrist rp rh) b (okZob_init rp rh)). Qed.
Print Assumptions C10_moves_complete.
(* after any game from a well-formed position the list is that of the position the rules give *)
Theorem C10_moves_after_history : forall rp rh b0 es line, let z := initZobrist rp rh in set_up z b0 -> well_formed (abs (bpos b0)) -> game any_pass (abs (bpos b0)) es line ->
  exists b, calls z b0 es = Some b /\ NoDup (legalMoves (bpos b)) /\
    forall m, In m (legalMoves (bpos b)) <-> exists mv, legal (after (abs (bpos b0)) line) mv /\ m = code (bpos b) mv.
Proof. exact moves_history. Qed.
Print Assumptions C10_moves_after_history.
Example C10_case : (set_up z0 (startBoard z0) /\ well_formed (abs (bpos (startBoard z0)))) /\ game any_pass (abs (bpos (startBoard z0))) demoGame demoLine.
Proof. exact (conj (start_well_formed z0) demo_game_any). Qed.

(* C11: a pawn drop that checks is listed exactly if the opponent has a legal reply *)
Theorem C11_pawn_drop_mate : forall rp rh b t, let z := initZobrist rp rh in reachable z b -> playable (abs (bpos b)) -> let P := abs (bpos b) in let d := Drop FU t in
  legal_but_drop_mate P d -> in_check (play P d) (other (side P)) -> (In (code (bpos b) d) (legalMoves (bpos b)) <-> exists reply, legal (play P d) reply).
Proof. exact (fun rp rh b t => pawn_drop_exact (initZobrist rp rh) b t (okZob_init rp rh)). Qed.
Print Assumptions C11_pawn_drop_mate.
Example C11_case_mate : (reachable z0 mateBoard /\ playable (abs (bpos mateBoard))) /\
  (legal_but_drop_mate (abs (bpos mateBoard)) pawnDrop /\ in_check (play (abs (bpos mateBoard)) pawnDrop) (other (side (abs (bpos mateBoard))))) /\
  memB (code (bpos mateBoard) pawnDrop) (legalMoves (bpos mateBoard)) = false.
Proof. exact (conj mate_playable (conj (drop_checks mateBoard (proj1 mate_playable) mate_drop_run) (proj1 drop_runs))). Qed.
Example C11_case_reply : (reachable z0 openBoard /\ playable (abs (bpos openBoard))) /\
  (legal_but_drop_mate (abs (bpos openBoard)) pawnDrop /\ in_check (play (abs (bpos openBoard)) pawnDrop) (other (side (abs (bpos openBoard))))) /\
  memB (code (bpos openBoard) pawnDrop) (legalMoves (bpos openBoard)) = true.
Proof. exact (conj open_playable (conj (drop_checks openBoard (proj1 open_playable) open_drop_run) (proj2 drop_runs))). Qed.

(* C12: is_legal and legal_moves agree on every move whose shape fits the rules; for integers that fit no
   rule (a promotion outside the zone, say) they do not *)
Theorem C12_is_legal_partial : forall rp rh b m, let z := initZobrist rp rh in reachable z b -> playable (abs (bpos b)) -> fits (abs (bpos b)) m ->
  (boardMoveIsLegal (bpos b) (code (bpos b) m) = true <-> legal (abs (bpos b)) m) /\
  (boardMoveIsLegal (bpos b) (code (bpos b) m) = true <-> In (code (bpos b) m) (legalMoves (bpos b))).
Proof. exact (fun rp rh b m => legal_test (initZobrist rp rh) b m (okZob_init rp rh)). Qed.
Print Assumptions C12_is_legal_partial.
Theorem C12_listed_moves_are_legal : forall rp rh b m, let z := initZobrist rp rh in reachable z b -> playable (abs (bpos b)) ->
  In m (legalMoves (bpos b)) -> boardMoveIsLegal (bpos b) m = true.
Proof. exact (fun rp rh b m => listed_is_legal (initZobrist rp rh) b m (okZob_init rp rh)). Qed.
Print Assumptions C12_listed_moves_are_legal.
Theorem C12_every_integer_refuted : exists b m, reachable z0 b /\ playable (abs (bpos b)) /\ boardMoveIsLegal (bpos b) m = true /\ ~ In m (legalMoves (bpos b)).
Proof. exact is_legal_accepts. Qed.
Print Assumptions C12_every_integer_refuted.
Example C12_case : reachable z0 (startBoard z0) /\ playable (abs (bpos (startBoard z0))). Proof. exact start_playable. Qed.

(* C40: the game is over exactly if there is no legal move *)
Theorem C40_game_over : forall rp rh b, let z := initZobrist rp rh in reachable z b -> playable (abs (bpos b)) ->
  (isGameOver (bpos b) = true <-> forall m, ~ legal (abs (bpos b)) m).
Proof. exact (fun rp rh b => game_over (initZobrist rp rh) b (okZob_init rp rh)). Qed.
Print Assumptions C40_game_over.
Example C40_case : (reachable z0 matedBoard /\ playable (abs (bpos matedBoard))) /\ isGameOver (bpos matedBoard) = true /\ isGameOver (bpos (startBoard z0)) = false.
Proof. exact (conj mated_playable (conj mated_over start_goes_on)). Qed.
