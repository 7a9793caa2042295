(* Repetition of positions along a line of play, stated for the positions of Spec.v.  A line is a list of moves
   and passes, latest first.  No proofs. *)
From Verif Require Export Spec Draw Claims.
Local Open Scope Z_scope.

(* the position i plies ago *)
Definition ago (P0 : position) (line : list (option move)) (i : nat) : position := after P0 (skipn i line).
(* the last i plies were moves, not passes *)
Definition unbroken (line : list (option move)) (i : nat) : Prop := (i <= length line)%nat /\ Forall (fun x => x <> None) (firstn i line).
(* every move c made in the last i plies gave check *)
Definition all_checks (P0 : position) (line : list (option move)) (c : color) (i : nat) : Prop :=
  forall j, (j < i)%nat -> side (ago P0 line j) = other c -> in_check (ago P0 line j) (other c).
Definition same_board (P Q : position) : Prop := (forall s, at_square P s = at_square Q s) /\ side P = side Q.
(* c has at least as many pieces of every kind in hand in P as in Q *)
Definition hand_covers (P Q : position) (c : color) : Prop := forall k, in_hand Q c k <= in_hand P c k.

(* what the position i plies ago means for the side to move now *)
Inductive judgement (P0 : position) (line : list (option move)) (i : nat) : Rep -> Prop :=
  | j_lose : same_position (after P0 line) (ago P0 line i) -> all_checks P0 line (side (after P0 line)) i -> judgement P0 line i RepetitionLose
  | j_win : same_position (after P0 line) (ago P0 line i) -> ~ all_checks P0 line (side (after P0 line)) i -> all_checks P0 line (other (side (after P0 line))) i ->
      judgement P0 line i RepetitionWin
  | j_draw : same_position (after P0 line) (ago P0 line i) -> ~ all_checks P0 line (side (after P0 line)) i -> ~ all_checks P0 line (other (side (after P0 line))) i ->
      judgement P0 line i RepetitionDraw
  | j_superior : same_board (after P0 line) (ago P0 line i) -> ~ same_position (after P0 line) (ago P0 line i) ->
      hand_covers (after P0 line) (ago P0 line i) (side (after P0 line)) -> judgement P0 line i RepetitionSuperior
  | j_inferior : same_board (after P0 line) (ago P0 line i) -> ~ same_position (after P0 line) (ago P0 line i) ->
      ~ hand_covers (after P0 line) (ago P0 line i) (side (after P0 line)) -> hand_covers (ago P0 line i) (after P0 line) (side (after P0 line)) ->
      judgement P0 line i RepetitionInferior.
(* the plies that count: an even number, at least four, at most n, without a pass *)
Definition candidate (line : list (option move)) (n : Z) (i : nat) : Prop := Nat.even i = true /\ (4 <= i)%nat /\ Z.of_nat i <= n /\ unbroken line i.
(* the nearest candidate with a judgement decides *)
Inductive repetition (P0 : position) (line : list (option move)) (n : Z) : Rep -> Prop :=
  | r_found i r : candidate line n i -> judgement P0 line i r -> (forall i' r', candidate line n i' -> (i' < i)%nat -> ~ judgement P0 line i' r') -> repetition P0 line n r
  | r_none : (forall i r, candidate line n i -> ~ judgement P0 line i r) -> repetition P0 line n NotRepetition.

(* the part of the hash that belongs to the board and the side to move *)
Definition scratch_board_hash (z : Zob) (P : position) : Z :=
  sum (square_value z P) all_squares mod 2 ^ 64 + (match side P with Sente => 0 | Gote => 1 end).
(* among the positions compared, different positions have different hashes *)
Definition no_collision (z : Zob) (P0 : position) (line : list (option move)) (n : Z) : Prop :=
  forall i, candidate line n i ->
    (scratch_hash z (after P0 line) = scratch_hash z (ago P0 line i) -> same_position (after P0 line) (ago P0 line i)) /\
    (scratch_board_hash z (after P0 line) = scratch_board_hash z (ago P0 line i) -> same_board (after P0 line) (ago P0 line i)).
