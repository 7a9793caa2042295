(* Model of PGN.move_to_san and PGN.Exporter.movetext (cshogi/PGN.py).  A text is the list of its characters.  No proofs. *)
From Verif Require Export MoveText Sfen Packed.
Local Open Scope N_scope.

Definition chars (s : string) : list ascii := list_ascii_of_string s.
(* PGN_SQUARE_NAMES, PGN.py:5-15: the files run from i to a, the ranks from 9 to 1; IndexError past the end *)
Definition sanSquare (sq : N) : outcome (list ascii) :=
  if sq <? 81 then Done [ascii_of_N (105 - sq / 9); ascii_of_N (57 - sq mod 9)] else Thrown.
(* PGN_HAND_PIECES, PGN.py:17-19 *)
Definition sanHand : list string := ["P"; "L"; "N"; "S"; "G"; "B"; "R"]%string.
(* PGN_PIECE_TYPES, PGN.py:21-25; the first entry is None, and None + str raises TypeError: no text *)
Definition sanPiece : list string := [""; "P"; "L"; "N"; "S"; "B"; "R"; "G"; "K"; "+P"; "+L"; "+K"; "+S"; "+B"; "+R"]%string.
Definition lookup (l : list string) (i : N) : outcome (list ascii) :=
  match nthN ""%string l i with ""%string => Thrown | s => Done (chars s) end.
(* move_to_san, PGN.py:27-35 *)
Definition moveToSan (m : N) : outcome (list ascii) :=
  obind (sanSquare (mvTo m)) (fun to =>
  if mvDrop m then obind (lookup sanHand (moveDropHandPiece m)) (fun h => Done (h ++ "@"%char :: to))
  else obind (sanSquare (mvFrom m)) (fun from => obind (lookup sanPiece (mvPtFrom m)) (fun pc =>
       Done (pc ++ from ++ to ++ (if mvPromo m then ["+"%char] else []))))).
(* self.result_str, PGN.py:79-86: BLACK_WIN is 1, WHITE_WIN 2, DRAW 0 *)
Definition resultText (result : N) : list ascii := chars (if result =? 1 then "1-0" else if result =? 2 then "0-1" else if result =? 0 then "1/2-1/2" else "*").
Definition sp : ascii := " "%char.
Definition lf : ascii := ascii_of_N 10.
(* the part for move number i, PGN.py:96-102 *)
Definition part (i : N) (san : list ascii) (last : bool) (result : list ascii) : list ascii :=
  (if i mod 2 =? 0 then printN (i / 2 + 1) ++ ["."%char; sp] else []) ++ san ++ (if last then sp :: result else []).
(* Exporter.movetext, PGN.py:90-113: what is written from the i-th move on, with line not yet written.  When move_to_san
   raises, what has been written before is left out. *)
Fixpoint movetextFrom (i : N) (ms : list N) (line result : list ascii) : outcome (list ascii) :=
  match ms with
  | [] => Done (line ++ [lf; lf])
  | m :: rest =>
      obind (moveToSan m) (fun san =>
      let p := part i san (match rest with [] => true | _ => false end) result in
      if (List.length line + List.length p <=? 80)%nat then movetextFrom (i + 1) rest (match line with [] => p | _ => line ++ sp :: p end) result
      else obind (movetextFrom (i + 1) rest p result) (fun t => Done (line ++ lf :: t)))
  end.
Definition movetext (result : N) (ms : list N) : outcome (list ascii) := movetextFrom 0 ms [] (resultText result).
