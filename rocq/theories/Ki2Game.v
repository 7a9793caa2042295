(* Model of whole games in KI2.py: Exporter.move with its comments, Exporter.end, and the loop of Parser.parse_str over the
   lines.  Lines are taken without their line feed; a comment is one line.  No proofs. *)
From Verif Require Export Kif.
Local Open Scope N_scope.

(* ---- writing ---- *)
(* a move and the argument comment of Exporter.move *)
Record noted := mkNoted { nMove : N; nComment : option Text }.
(* "if comment:", KI2.py:582-583 *)
Definition commentLines (c : option Text) : list Text := match c with Some (a :: t) => [42 :: 42 :: a :: t] | _ => [] end.
(* Exporter.move, KI2.py:572-583, for every move: the board is pushed before the line is written, which cannot be seen *)
Fixpoint exportNotes (z : Zob) (b : Board) (ms : list noted) : outcome (list Text) :=
  match ms with
  | [] => Done []
  | m :: ms => obind (moveToKi2 b (nMove m)) (fun t => obind (exportNotes z (push z b (nMove m)) ms) (fun ts => Done (t :: commentLines (nComment m) ++ ts)))
  end.
(* Exporter.end, KI2.py:585-602; b is self.board.  self.move_number stays 1. *)
Definition numZ (n : Z) : Text := map N_of_ascii (printZ n).
Definition blackIf (c : bool) : Text := u (if c then "先手" else "後手").
Definition ki2End (r : reason) (b : Board) : Text :=
  let white := turn (bpos b) =? White in
  let n := (gamePly (bpos b) - 1)%Z in
  u "まで" ++
  match r with
  | Resign => numZ n ++ u "手で" ++ blackIf white ++ u "の勝ち"
  | Jishogi => numZ (n + 2) ++ u "手で" ++ u "持将棋"
  | Win => numZ n ++ u "手で" ++ blackIf (negb white) ++ u "の入玉勝ち"
  | Sennichite => numZ n ++ u "手で" ++ u "千日手"
  | IllegalWin => numZ n ++ u "手で" ++ blackIf white ++ u "の反則勝ち"
  | IllegalLose => numZ 0 ++ u "手で" ++ blackIf white ++ u "の反則負け"
  end.

(* ---- reading ---- *)
(* RESULT_RE.match and what follows from it, KI2.py:31 and 219-246; \d is taken to be 0 to 9.  The winner is BLACK_WIN 1,
   WHITE_WIN 2, DRAW 0 or None. *)
Definition ki2Outcome (t : Text) : option (option N * string) :=
  match oneOf sideWords t with
  | Some (s, t) =>
      match stripWord (u "手の") t with
      | Some t => match oneOf howWords t with Some (h, _) => Some (decide (textEqb s (u "先") || textEqb s (u "下")) h) | None => None end
      | None => None
      end
  | None =>
      match oneOf drawWords t with
      | Some (w, _) => Some (if textEqb w (u "持将棋") then (Some 0, "%JISHOGI"%string) else if textEqb w (u "中断") then (None, "%CHUDAN"%string) else (Some 0, "%SENNICHITE"%string))
      | None => None
      end
  end.
Definition ki2Result (t : Text) : option (option N * string) :=
  match stripWord (u "まで") t with
  | Some t => match span isDig t with (_ :: _, t) => match stripWord (u "手で") t with Some t => ki2Outcome t | None => None end | _ => None end
  | None => None
  end.
(* the loop of Parser.parse_str, KI2.py:180-254, on a board that stands.  Lines with a full-width colon (headers) and comments
   before the first move are passed over here: what they set is not modelled. *)
Record ki2Read := mkKi2Read { kMoves : list N; kComments : list (option Text); kWin : option N; kEndgame : string; kBoard : Board }.
Definition padTo (n : nat) (cs : list (option Text)) : list (option Text) := cs ++ repeat None (n - List.length cs).
Fixpoint parseKi2 (fuel : nat) (z : Zob) (b : Board) (ms : list N) (cs : list (option Text)) (ls : list Text) : outcome ki2Read :=
  match ls with
  | [] => Done (mkKi2Read ms (padTo (List.length ms) cs) None "" b)
  | [] :: ls => parseKi2 fuel z b ms cs ls
  | (c :: r) :: ls =>
      if c =? 42 then
        match ms with
        | [] => parseKi2 fuel z b ms cs ls
        | _ => parseKi2 fuel z b ms (padTo (List.length ms - 1) cs ++ [Some (match r with d :: r' => if d =? 42 then r' else r | [] => [] end)]) ls
        end
      else if existsb (N.eqb (ch "：")) (c :: r) then parseKi2 fuel z b ms cs ls
      else match ki2Result (c :: r) with
           | Some (w, e) => Done (mkKi2Read ms (padTo (List.length ms) cs) w e b)
           | None => obind (parseMoveStr fuel z b (c :: r)) (fun q => parseKi2 fuel z (snd q) (ms ++ fst q) cs ls)
           end
  end.
