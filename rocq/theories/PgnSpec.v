(* What the theorems on PGN texts say, apart from the model. *)
From Verif Require Export Pgn SfenSpec Abs ClaimsGen.
Local Open Scope Z_scope.

(* square names as chess has them: files a to i from the left, ranks 1 to 9 from the bottom, for Black's view of the board *)
Definition pgn_square (s : square) : list ascii := [ascii_of_nat (97 + Z.to_nat (9 - fst s)); digit (10 - snd s)].
(* nk: what is written for a promoted knight, which ought to be "+N" *)
Definition pgn_kind (nk : string) (k : kind) : string :=
  match k with
  | FU => "P" | KY => "L" | KE => "N" | GI => "S" | KI => "G" | KA => "B" | HI => "R" | OU => "K"
  | TO => "+P" | NY => "+L" | NK => nk | NG => "+S" | UM => "+B" | RY => "+R"
  end.
(* the text of a move: the piece, "@" for a drop or the square it comes from, the square it goes to, "+" if it promotes *)
Definition san_text (nk : string) (P : position) (mv : move) : list ascii :=
  match mv with
  | Drop k t => chars (pgn_kind nk k) ++ "@"%char :: pgn_square t
  | Go s t pr => match at_square P s with Some (_, k) => chars (pgn_kind nk k) | None => [] end ++ pgn_square s ++ pgn_square t ++ (if pr then ["+"%char] else [])
  end.
(* the words of a text: what stands between spaces and line feeds *)
Fixpoint words_from (w : list ascii) (t : list ascii) : list (list ascii) :=
  match t with
  | [] => match w with [] => [] | _ => [w] end
  | c :: t => if Ascii.eqb c sp || Ascii.eqb c lf then match w with [] => words_from [] t | _ => w :: words_from [] t end else words_from (w ++ [c]) t
  end.
Definition words_of (t : list ascii) : list (list ascii) := words_from [] t.
(* the words that are to be found for the moves from the i-th on: a number before every first move of two, the moves, the result *)
Inductive game_words (result : list ascii) : Z -> list (list ascii) -> list (list ascii) -> Prop :=
  | gw_end : forall i, game_words result i [] [result]
  | gw_first : forall i d san sans ws, i mod 2 = 0 -> numeral (string_of_list_ascii d) (i / 2 + 1) -> game_words result (i + 1) sans ws ->
      game_words result i (san :: sans) ((d ++ ["."%char]) :: san :: ws)
  | gw_second : forall i san sans ws, i mod 2 = 1 -> game_words result (i + 1) sans ws -> game_words result i (san :: sans) (san :: ws).
(* the lines of a text *)
Fixpoint line_lengths (n : nat) (t : list ascii) : list nat :=
  match t with [] => [n] | c :: t => if Ascii.eqb c lf then n :: line_lengths 0 t else line_lengths (S n) t end.
(* codes of legal moves played one after the other, with their texts *)
Inductive pgn_game (z : Zob) : Board -> list N -> list (list ascii) -> Prop :=
  | pgn_nil : forall b, pgn_game z b [] []
  | pgn_cons : forall b mv ms ts, legal (abs (bpos b)) mv -> pgn_game z (push z b (code (bpos b) mv)) ms ts ->
      pgn_game z b (code (bpos b) mv :: ms) (san_text "+K" (abs (bpos b)) mv :: ts).
(* the mark for the result: cshogi.BLACK_WIN is 1, cshogi.WHITE_WIN 2, cshogi.DRAW 0; a game with any other code has no result *)
Definition result_mark (code : N) : list ascii := list_ascii_of_string (match code with 1%N => "1-0" | 2%N => "0-1" | 0%N => "1/2-1/2" | _ => "*" end)%string.
