(* Forced mate, stated for the positions of Spec.v.  No proofs. *)
From Verif Require Export Spec Draw.

(* the position after the given moves, latest first *)
Definition now (P : position) (ms : list move) : position := after P (map Some ms).
(* the move refuses a promotion that would be legal: a pawn, a bishop or a rook, or a lance on the last two ranks *)
Definition held_back (P : position) (m : move) : Prop :=
  exists s t k, m = Go s t false /\ legal P (Go s t true) /\ at_square P s = Some (side P, k) /\
    (k = FU \/ k = KA \/ k = HI \/ k = KY /\ dead_end (side P) KE t).

Section Forced.
(* P: the position where the search starts.  V ms r: after the moves ms the repetition rule says r to the side to move *)
Variable V : list move -> Rep -> Prop.
Variable P : position.
(* the side to move can force mate, with checks only, in at most n plies against every defence that does not refuse
   a promotion; or the rule of repetition makes it win *)
Inductive wins : nat -> list move -> Prop :=
  | w_move n ms m : legal (now P ms) m -> in_check (play (now P ms) m) (other (side (now P ms))) -> lost n (m :: ms) -> wins (S n) ms
  | w_rule n ms : V ms RepetitionWin -> wins n ms
(* the side to move, being in check, cannot avoid being mated in at most n plies *)
with lost : nat -> list move -> Prop :=
  | l_mated n ms : in_check (now P ms) (side (now P ms)) -> (forall r, ~ legal (now P ms) r) -> lost n ms
  | l_replies n ms : in_check (now P ms) (side (now P ms)) -> (forall r, legal (now P ms) r -> held_back (now P ms) r \/ wins n (r :: ms)) -> lost (S n) ms
  | l_rule n ms : V ms RepetitionLose -> lost n ms.
End Forced.

(* no verdict of the repetition rule is used *)
Definition no_rule (ms : list move) (r : Rep) : Prop := False.
(* what is_draw(16) answers after the moves ms, played from the board b *)
Definition is_draw_says (z : Zob) (b : Board) (ms : list move) (r : Rep) : Prop :=
  isDraw (bpos (replay z b (map Some ms))) 16 = Some r.

(* Forced mate with checks only, in at most n plies, against every defence whatsoever: the side to move mates, ... *)
Inductive wins_by_force (P : position) : nat -> list move -> Prop :=
  | m_move n ms m : legal (now P ms) m -> in_check (play (now P ms) m) (other (side (now P ms))) -> lost_by_force P n (m :: ms) -> wins_by_force P (S n) ms
(* ... or is mated *)
with lost_by_force (P : position) : nat -> list move -> Prop :=
  | d_mated n ms : in_check (now P ms) (side (now P ms)) -> (forall r, ~ legal (now P ms) r) -> lost_by_force P n ms
  | d_replies n ms : in_check (now P ms) (side (now P ms)) -> (forall r, legal (now P ms) r -> wins_by_force P n (r :: ms)) -> lost_by_force P (S n) ms.
