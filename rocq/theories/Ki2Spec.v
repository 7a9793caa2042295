(* What the theorems on KI2 move texts say, apart from the model. *)
From Verif Require Export Ki2 Abs ClaimsGen.

(* A piece of the side to move, of kind k on s, can go to t (its own king may be left attacked). *)
Definition reaches (P : position) (k : kind) (t s : square) : Prop := at_square P s = Some (side P, k) /\ exists pr, pseudo_legal P (Go s t pr).
(* The cases in which the text of a move of a piece of kind k from s to t is read back as that move: no other piece of the
   kind can go to t, or one other can and none can be dropped there. *)
Definition told_apart (P : position) (k : kind) (s t : square) : Prop :=
  (forall s', reaches P k t s' -> s' = s) \/ ((exists s2, forall s', reaches P k t s' -> s' = s \/ s' = s2) /\ ~ legal P (Drop k t)).
Definition clear_move (P : position) (mv : move) : Prop :=
  match mv with Drop _ _ => True | Go s t _ => forall k, at_square P s = Some (side P, k) -> told_apart P k s t end.
(* the codes ms are of legal moves played one after the other from b, each of them clear *)
Inductive clear_game (z : Zob) : Board -> list N -> Prop :=
  | clear_nil : forall b, clear_game z b []
  | clear_cons : forall b mv ms, legal (abs (bpos b)) mv -> clear_move (abs (bpos b)) mv -> clear_game z (push z b (code (bpos b) mv)) ms ->
      clear_game z b (code (bpos b) mv :: ms).
Fixpoint ki2_board (z : Zob) (b : Board) (ms : list N) : Board := match ms with [] => b | m :: ms => ki2_board z (push z b m) ms end.
(* the kind of piece a move moves or drops, and where to *)
Definition piece_to (P : position) (mv : move) : option (kind * square) :=
  match mv with Drop k t => Some (k, t) | Go s t _ => match at_square P s with Some (_, k) => Some (k, t) | None => None end end.
