(* What the theorems about move lists assume of a position, and the shape of a move. *)
From Verif Require Export Claims.
Local Open Scope N_scope.

(* Both kings stand, and the side to move has no pawn on its last rank (the generator reads tables at
   the king squares, and shifts pawns one rank ahead without looking). *)
Definition playable (P : position) : Prop :=
  (forall c, exists s, at_square P s = Some (c, OU)) /\
  (forall s, at_square P s = Some (side P, FU) -> ~ dead_end (side P) FU s).
(* The move is written as the rules want it, legal or not: squares of the board, a piece a hand can
   hold, and the promotion flag set or cleared as the piece and the ranks allow. *)
Definition fits (P : position) (m : move) : Prop :=
  let c := side P in
  match m with
  | Drop k t => on_board t /\ In k hand_kinds /\ ~ dead_end c k t
  | Go s t promoting => on_board s /\ on_board t /\
      forall k, at_square P s = Some (c, k) ->
        (promoting = true -> promote k <> None /\ (in_zone c s \/ in_zone c t)) /\ (promoting = false -> ~ dead_end c k t)
  end.
