(* What the theorems on KIF move lines say, apart from the model. *)
From Verif Require Export Kif Abs ClaimsGen.

(* legal moves played one after the other from b, each with the seconds spent on it and the seconds spent so far *)
Inductive kif_game (z : Zob) : Board -> list timed -> Prop :=
  | kif_nil : forall b, kif_game z b []
  | kif_cons : forall b mv sec sum ms, legal (abs (bpos b)) mv -> kif_game z (push z b (code (bpos b) mv)) ms ->
      kif_game z b (mkTimed (code (bpos b) mv) sec sum :: ms).
Fixpoint kif_board (z : Zob) (b : Board) (ms : list timed) : Board := match ms with [] => b | m :: ms => kif_board z (push z b (tMove m)) ms end.
Definition winner (c : color) : N := match c with Sente => 1%N | Gote => 2%N end.
(* what is to be read for the end of a game: by resignation the side to move loses; by illegal_win the side that played last
   wins, by illegal_lose it loses (as Exporter.end writes them) *)
Definition end_win (r : reason) (P : position) : option N :=
  match r with
  | Resign | IllegalWin => Some (winner (other (side P)))
  | IllegalLose => Some (winner (side P))
  | Jishogi | Sennichite => Some 0%N
  | Win => Some (winner (side P))
  end.
Definition end_code (r : reason) (P : position) : string :=
  match r with
  | Resign => "%TORYO" | Sennichite => "%SENNICHITE" | Jishogi => "%JISHOGI" | Win => "%KACHI"
  | IllegalWin => match side P with Sente => "%+ILLEGAL_ACTION" | Gote => "%-ILLEGAL_ACTION" end (* the sign is of the offender *)
  | IllegalLose => "%ILLEGAL_MOVE"
  end.
(* the lines a new exporter writes for the moves of a game and its end *)
Definition with_end (ms : list timed) (r : reason) (sec sum : N) : list Text := exportKif 1%N 0%N ms ++ exportEnd r (1 + N.of_nat (List.length ms))%N sec sum.
