(* Board.pseudo_legal_moves, is_pseudo_legal and pseudo_legal_move_is_legal.  No proofs. *)
From Verif Require Export Gen.
Local Open Scope N_scope.

(* __PseudoLegalMoveList, cshogi.h:715-730; PseudoLegalMoveList, _cshogi.pyx:1226-1246: the iteration yields the
   entries of MoveList<PseudoLegal> in order *)
Definition pseudoLegalMoves (p : Position) : list N := genPseudoLegal p.
(* __Board::moveIsPseudoLegal, cshogi.h:253 *)
Definition boardMoveIsPseudoLegal (p : Position) (m : N) : bool := moveIsPseudoLegal p m.
(* __Board::pseudoLegalMoveIsLegal, cshogi.h:254-257 *)
Definition boardPseudoLegalMoveIsLegal (p : Position) (m : N) : bool := pseudoLegalMoveIsLegal false p m (pinnedBB p).
