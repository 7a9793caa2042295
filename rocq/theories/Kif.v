(* Model of the move lines of KIF.py: move_to_kif, Exporter.move, Exporter.end, Parser.parse_move_str, and the loop of
   Parser.parse_str over such lines.  A text is the list of its characters (Ki2.v).  No proofs. *)
From Verif Require Export Ki2 Sfen.
Local Open Scope N_scope.

Definition num (n : N) : Text := map N_of_ascii (printN n).
(* format specifications {:>w} and {:0w} *)
Definition padLeft (c : N) (w : nat) (t : Text) : Text := repeat c (w - List.length t) ++ t.
Definition open_ : N := 40. Definition close_ : N := 41. Definition colon : N := 58. Definition slash : N := 47. Definition blank : N := 32.

(* ---- writing ---- *)
(* KIFU_FROM_SQUARE_NAMES, KIF.py:39-49 *)
Definition fromName (sq : N) : Text := [49 + sq / 9; 49 + sq mod 9].
(* move_to_kif, KIF.py:311-345; prev is prev_move, 0 for None.  The piece type is at least 1 (index 0 is the empty text). *)
Definition kifTo (m prev : N) : Text := if negb (prev =? 0) && (mvTo prev =? mvTo m) then [uSame; uSpace] else squareName (mvTo m).
Definition moveToKif (m prev : N) : Text :=
  if mvDrop m then kifTo m prev ++ [nthN 0 handSymbols (moveDropHandPiece m); uDrop]
  else kifTo m prev ++ [nthN 0 pieceSymbols (mvPtFrom m - 1)] ++ (if mvPromo m then [uPro] else []) ++ open_ :: fromName (mvFrom m) ++ [close_].
(* the line written by Exporter.move and Exporter.end, without its line feed, KIF.py:462-466 and 496-500.  Times are whole
   seconds, not negative: math.ceil gives them back. *)
Definition stamp (sec sum : N) : Text :=
  open_ :: padLeft blank 2 (num (sec / 60)) ++ colon :: padLeft 48 2 (num (sec mod 60)) ++ slash ::
  padLeft 48 2 (num (sum / 3600)) ++ colon :: padLeft 48 2 (num (sum mod 3600 / 60)) ++ colon :: padLeft 48 2 (num (sum mod 3600 mod 60)) ++ [close_].
Definition kifLine (number : N) (t : Text) (sec sum : N) : Text := padLeft blank 4 (num number) ++ blank :: t ++ repeat blank 6 ++ stamp sec sum.
(* padding, KIF.py:454-459 *)
Definition padding (m : N) : Text := repeat blank (if mvDrop m then 4 else if mvPromo m then 0 else 2)%nat.
Definition moveLine (number m prev sec sum : N) : Text := kifLine number (moveToKif m prev ++ padding m) sec sum.
(* Exporter.move for a list of moves with their times; prev and number are self.prev_move and self.move_number *)
Record timed := mkTimed { tMove : N; tSec : N; tSum : N }.
Fixpoint exportKif (number prev : N) (ms : list timed) : list Text :=
  match ms with [] => [] | m :: ms => moveLine number (tMove m) prev (tSec m) (tSum m) :: exportKif (number + 1) (tMove m) ms end.
(* Exporter.end, KIF.py:471-512; number is self.move_number *)
Inductive reason := Resign | Win | Jishogi | Sennichite | IllegalWin | IllegalLose.
Definition endWord (r : reason) : Text :=
  u match r with Resign => "投了        " | Win => "入玉宣言    " | Jishogi => "持将棋      " | Sennichite => "千日手      " | IllegalWin => "反則勝ち    " | IllegalLose => "反則負け    " end.
Definition lastPlayer (number : N) : Text := u (if number mod 2 =? 0 then "先手" else "後手").
Definition resultLine (r : reason) (number : N) : Text :=
  u "まで" ++
  match r with
  | Resign => num (number - 1) ++ u "手で" ++ lastPlayer number ++ u "の勝ち"
  | Jishogi => num (number + 1) ++ u "手で持将棋"
  | Win => num (number - 1) ++ u "手で入玉宣言"
  | Sennichite => num (number - 1) ++ u "手で千日手"
  | IllegalWin => num (number - 1) ++ u "手で" ++ lastPlayer number ++ u "の反則勝ち"
  | IllegalLose => num (number - 1) ++ u "手で" ++ lastPlayer number ++ u "の反則負け"
  end.
Definition exportEnd (r : reason) (number sec sum : N) : list Text := [kifLine number (endWord r) sec sum; resultLine r number].

(* ---- reading ---- *)
Definition isDig (c : N) : bool := (48 <=? c) && (c <=? 57).
Fixpoint span (f : N -> bool) (t : Text) : Text * Text :=
  match t with c :: r => if f c then (c :: fst (span f r), snd (span f r)) else ([], t) | [] => ([], []) end.
Fixpoint stripWord (w t : Text) : option Text :=
  match w, t with [], _ => Some t | a :: w, c :: t => if a =? c then stripWord w t else None | _, [] => None end.
(* the first of the alternatives that fits *)
Fixpoint oneOf (ws : list Text) (t : Text) : option (Text * Text) :=
  match ws with [] => None | w :: ws => match stripWord w t with Some r => Some (w, r) | None => oneOf ws t end end.
(* the words of MOVE_RE, KIF.py:65 *)
Definition endWords : list Text := Eval vm_compute in map u ["中断"; "投了"; "持将棋"; "千日手"; "詰み"; "切れ負け"; "反則勝ち"; "反則負け"]%string.
(* groups 2 to 5 *)
Definition kifDest (t : Text) : option (option (N * N) * Text) :=
  match t with
  | a :: c :: r =>
      if (a =? uSame) && (c =? uSpace) then Some (None, r)
      else match indexOf a numberSymbols with
           | Some _ => if (c =? uZero) || match indexOf c kanjiSymbols with Some _ => true | None => false end then Some (Some (a, c), r) else None
           | None => None
           end
  | _ => None
  end.
(* group 6: a drop, or promotion and the two digits *)
Definition kifOrigin (t : Text) : option (option (bool * N * N) * Text) :=
  match t with
  | a :: r =>
      if a =? uDrop then Some (None, r)
      else let '(pr, t) := if a =? uPro then (true, r) else (false, t) in
           match t with
           | o :: x :: y :: c :: r => if (o =? open_) && isDig x && isDig y && (c =? close_) then Some (Some (pr, x, y), r) else None
           | _ => None
           end
  | [] => None
  end.
(* group 1 *)
Inductive said := SaidEnd (w : Text) | SaidMove (dest : option (N * N)) (piece : N) (origin : option (bool * N * N)).
Definition kifBody (t : Text) : option (said * Text) :=
  match oneOf endWords t with
  | Some (w, r) => Some (SaidEnd w, r)
  | None =>
      match kifDest t with
      | Some (dest, pc :: t) =>
          match indexOf pc pieceSymbols with
          | Some _ => match kifOrigin t with Some (o, t) => Some (SaidMove dest pc o, t) | None => None end
          | None => None
          end
      | _ => None
      end
  end.
(* groups 10 to 12: the part before the slash, if the brackets are there *)
Definition timeChar (c : N) : bool := (c =? colon) || isDig c.
Definition kifTime (t : Text) : option (Text * Text) :=
  match t with
  | o :: t =>
      if o =? open_ then
        let '(a, t) := span timeChar (snd (span (N.eqb blank) t)) in
        match a, t with
        | _ :: _, s :: t =>
            if s =? slash then let '(c, t) := span timeChar t in match c, t with _ :: _, e :: t => if e =? close_ then Some (a, t) else None | _, _ => None end
            else None
        | _, _ => None
        end
      else None
  | [] => None
  end.
(* MOVE_RE.match, KIF.py:65: group 1 and group 11.  Neighbouring parts of the pattern begin with different characters, so
   that there is nothing to gain by backtracking; ".*" then takes the rest unless there is a line feed in it. *)
Definition matchKif (t : Text) : option (said * option Text) :=
  match span isDig (snd (span (N.eqb blank) t)) with
  | (_ :: _, t) =>
      match span isSpaceU t with
      | (_ :: _, t) =>
          match kifBody t with
          | Some (s, t) =>
              let t := dropSpaces t in
              let '(tm, rest) := match kifTime t with Some (a, r) => (Some a, r) | None => (None, t) end in
              if existsb (N.eqb 10) rest then None else Some (s, tm)
          | None => None
          end
      | _ => None
      end
  | _ => None
  end.
(* int() of digits; ValueError without any *)
Definition intOf (t : Text) : outcome N := match t with [] => Thrown | _ => Done (fold_left (fun a c => a * 10 + (c - 48)) t 0) end.
(* the sum of the parts of group 11, KIF.py:141-146: the parts are read from the left here, acc * 60 + next being the same sum *)
Fixpoint timeOf (part t : Text) (acc : N) : outcome N :=
  match t with
  | [] => obind (intOf part) (fun n => Done (acc * 60 + n))
  | c :: t => if c =? colon then obind (intOf part) (fun n => timeOf [] t (acc * 60 + n)) else timeOf (part ++ [c]) t acc
  end.
Definition kifToSquare (b : Board) (dest : option (N * N)) : outcome N :=
  match dest with
  | None => Done (mvTo (peek b))
  | Some (a, k) => match indexOf a numberSymbols, indexOf k kanjiSymbols with Some x, Some y => Done (y + x * 9) | _, _ => Thrown end
  end.
(* Parser.parse_move_str, KIF.py:125-179: the move, the time and the word.  A square of origin below 0 is handed to
   Position::piece, which reads before the array: Undefined. *)
Record read := mkRead { rMove : option N; rTime : option N; rWord : option Text }.
Definition parseKifMove (b : Board) (line : Text) : outcome read :=
  match matchKif (normalize line) with
  | None => Done (mkRead None None None)
  | Some (s, tm) =>
      obind (match tm with Some t => obind (timeOf [] t 0) (fun n => Done (Some n)) | None => Done None end) (fun time =>
      match s with
      | SaidEnd w => Done (mkRead None time (Some w))
      | SaidMove dest pc o =>
          match indexOf pc pieceSymbols with
          | None => Thrown
          | Some i =>
              obind (kifToSquare b dest) (fun to =>
              match o with
              | None => Done (mkRead (Some (boardDropMove to (i + 1))) time None)
              | Some (pr, x, y) =>
                  if (x =? 48) && (y =? 48) then Done (mkRead (Some (boardDropMove to (i + 1))) time None)
                  else if (x - 48) * 9 + (y - 48) <? 10 then Undefined
                  else Done (mkRead (Some (boardMove (bpos b) ((x - 48) * 9 + (y - 48) - 10) to pr)) time None)
              end)
          end
      end)
  end.
(* RESULT_RE.match and what follows from it, KIF.py:85 and 264-289; \d is taken to be 0 to 9.  The winner is BLACK_WIN 1,
   WHITE_WIN 2, DRAW 0 or None. *)
Definition sideWords : list Text := Eval vm_compute in map u ["先"; "下"; "後"; "上"]%string.
Definition howWords : list Text := Eval vm_compute in map u ["勝ち"; "入玉勝ち"; "反則勝ち"; "反則負け"]%string.
Definition drawWords : list Text := Eval vm_compute in map u ["千日手"; "持将棋"; "中断"]%string.
Definition decide (black : bool) (how : Text) : option N * string :=
  if textEqb how (u "反則負け") then (Some (if black then 2 else 1), "%ILLEGAL_MOVE"%string)
  else (Some (if black then 1 else 2),
        if textEqb how (u "反則勝ち") then (if black then "%+ILLEGAL_ACTION" else "%-ILLEGAL_ACTION")%string
        else if textEqb how (u "入玉勝ち") then "%KACHI"%string else "%TORYO"%string).
Definition matchResult (t : Text) : option (option N * string) :=
  match stripWord (u "まで") (snd (span (N.eqb uSpace) t)) with
  | Some t =>
      let t := match stripWord (u "、") t with Some r => r | None => t end in
      match span isDig t with
      | (_ :: _, t) =>
          match stripWord (u "手で") t with
          | Some t =>
              match oneOf sideWords t with
              | Some (s, t) =>
                  match stripWord (u "手の") t with
                  | Some t => match oneOf howWords t with Some (h, _) => Some (decide (textEqb s (u "先") || textEqb s (u "下")) h) | None => None end
                  | None => None
                  end
              | None => match oneOf drawWords t with
                        | Some (w, _) => Some (if textEqb w (u "中断") then (None, "%CHUDAN"%string) else (Some 0, "%SENNICHITE"%string))
                        | None => None
                        end
              end
          | None => None
          end
      | _ => None
      end
  | None => None
  end.
(* the loop of Parser.parse_str, KIF.py:204-290, on a board that stands.  Comments and lines with a full-width colon
   (headers) are passed over here: what they set is not modelled. *)
Record parsed := mkParsed { pMoves : list N; pTimes : list N; pWin : option N; pEndgame : option string; pBoard : Board }.
Definition passedOver (l : Text) : bool := match l with [] => true | c :: _ => (c =? 42) || existsb (N.eqb (ch "：")) l end.
Definition addTime (t : option N) (l : list N) : list N := match t with Some n => n :: l | None => l end.
Fixpoint parseKif (z : Zob) (b : Board) (ls : list Text) : outcome parsed :=
  match ls with
  | [] => Done (mkParsed [] [] None None b)
  | l :: ls =>
      if passedOver l then parseKif z b ls
      else obind (parseKifMove b l) (fun r =>
        match rMove r, rTime r with
        | Some m, t =>
            obind (parseKif z (if boardMoveIsLegal (bpos b) m then push z b m else b) ls) (fun q => Done (mkParsed (m :: pMoves q) (addTime t (pTimes q)) (pWin q) (pEndgame q) (pBoard q)))
        | None, Some t => obind (parseKif z b ls) (fun q => Done (mkParsed (pMoves q) (t :: pTimes q) (pWin q) (pEndgame q) (pBoard q)))
        | None, None => match matchResult l with Some (w, e) => Done (mkParsed [] [] w (Some e) b) | None => parseKif z b ls end
        end)
  end.
