(* C49: the list of pseudo-legal moves and its two tests.  Spec.v has the rules; proofs in PseudoListProofs.v. *)
From Verif Require Import PseudoListProofs.
Local Open Scope N_scope.

(* Every entry of pseudo_legal_moves moves or drops a piece as the rules let it, none is listed twice, every legal move is
   listed, and pseudo_legal_move_is_legal tells the legal entries from the others. *)
Theorem C49_pseudo_list : forall rp rh b, let z := initZobrist rp rh in reachable z b -> playable (abs (bpos b)) -> let p := bpos b in
  NoDup (pseudoLegalMoves p) /\ (forall m, In m (pseudoLegalMoves p) -> exists mv, pseudo_legal (abs p) mv /\ m = code p mv) /\
  (forall mv, pseudo_legal (abs p) mv -> In (code p mv) (pseudoLegalMoves p) -> (boardPseudoLegalMoveIsLegal p (code p mv) = true <-> legal (abs p) mv)) /\
  (forall mv, legal (abs p) mv -> In (code p mv) (pseudoLegalMoves p)).
Proof. exact (fun rp rh b => pseudo_facts (initZobrist rp rh) b (okZob_init rp rh)). Qed.
Print Assumptions C49_pseudo_list.
(* legal_moves is what the test leaves of pseudo_legal_moves, up to the order. *)
Theorem C49_filter : forall p, Permutation.Permutation (legalMoves p) (filter (boardPseudoLegalMoveIsLegal p) (pseudoLegalMoves p)).
Proof. exact legal_list_filter. Qed.
Print Assumptions C49_filter.
Example C49_case : (reachable z0 matedBoard /\ playable (abs (bpos matedBoard))) /\ In 7864321 (pseudoLegalMoves (bpos matedBoard)).
Proof. exact (conj mated_playable mated_entry). Qed.

(* A side that is not in check has exactly the moves of the pieces and the drops, a mating pawn drop excepted, and
   is_pseudo_legal accepts the same moves. *)
Theorem C49_outside_check : forall rp rh b, let z := initZobrist rp rh in reachable z b -> playable (abs (bpos b)) -> let p := bpos b in ~ in_check (abs p) (side (abs p)) ->
  (forall m, In m (pseudoLegalMoves p) <-> exists mv, pseudo_legal (abs p) mv /\ ~ pawn_drop_mate (abs p) mv /\ m = code p mv) /\
  (forall mv, fits (abs p) mv -> (boardMoveIsPseudoLegal p (code p mv) = true <-> In (code p mv) (pseudoLegalMoves p))).
Proof. exact (fun rp rh b => pseudo_outside_check (initZobrist rp rh) b (okZob_init rp rh)). Qed.
Print Assumptions C49_outside_check.
Example C49_case_outside : (reachable z0 mateBoard /\ playable (abs (bpos mateBoard))) /\ ~ in_check (abs (bpos mateBoard)) (side (abs (bpos mateBoard))).
Proof. exact (conj mate_playable mate_quiet). Qed.
(* In check the list and is_pseudo_legal differ: this entry is a step of the king into an attack. *)
Theorem C49_in_check_refuted : exists rp rh b m, let z := initZobrist rp rh in reachable z b /\ playable (abs (bpos b)) /\ In m (pseudoLegalMoves (bpos b)) /\ boardMoveIsPseudoLegal (bpos b) m = false.
Proof. exact (ex_intro _ _ (ex_intro _ _ (ex_intro _ matedBoard (ex_intro _ 7864321 (conj (proj1 mated_playable) (conj (proj2 mated_playable) (conj mated_entry (proj2 mated_pseudo)))))))). Qed.
Print Assumptions C49_in_check_refuted.
