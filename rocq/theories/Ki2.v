(* Model of KI2 move texts: move_to_ki2 (cshogi/KI2.py:273-531) and Parser.parse_move_str (KI2.py:69-157).  A text is
   the list of its characters (Unicode code points).  No proofs. *)
From Verif Require Export PseudoList MoveText Csa.
Local Open Scope N_scope.

Definition Text := list N.
(* the characters of a literal in this file: UTF-8 sequences of one and three bytes *)
Fixpoint utf8 (l : list N) : Text :=
  match l with
  | a :: ((b :: c :: r) as l') => if a <? 128 then a :: utf8 l' else (a - 224) * 4096 + (b - 128) * 64 + (c - 128) :: utf8 r
  | a :: l => a :: utf8 l
  | [] => []
  end.
Definition u (s : string) : Text := utf8 (map N_of_ascii (list_ascii_of_string s)).
Definition ch (s : string) : N := nth 0 (u s) 0.
Definition textEqb (a b : Text) : bool := if list_eq_dec N.eq_dec a b then true else false.

(* NUMBER_JAPANESE_NUMBER_SYMBOLS, NUMBER_JAPANESE_KANJI_SYMBOLS, _cshogi.pyx:180-181, from index 1 to 9 *)
Definition numberSymbols : Text := Eval vm_compute in u "１２３４５６７８９".
Definition kanjiSymbols : Text := Eval vm_compute in u "一二三四五六七八九".
(* KIFU_TO_SQUARE_NAMES, KIF.py:27-37, whose entry 9 * file + rank is the number and the kanji *)
Definition squareName (sq : N) : Text := [nthN 0 numberSymbols (sq / 9); nthN 0 kanjiSymbols (sq mod 9)].
(* PIECE_JAPANESE_SYMBOLS, _cshogi.pyx:188-191, from index 1 *)
Definition pieceSymbols : Text := Eval vm_compute in u "歩香桂銀角飛金玉と杏圭全馬龍".
(* PIECE_JAPANESE_SYMBOLS2, KI2.py:268-271 *)
Definition pieceSymbols2 : list Text := Eval vm_compute in
  map u [""; "歩"; "香"; "桂"; "銀"; "角"; "飛"; "金"; "玉"; "と"; "成香"; "成桂"; "成銀"; "馬"; "龍"]%string.
(* HAND_PIECE_JAPANESE_SYMBOLS, _cshogi.pyx:195-199 *)
Definition handSymbols : Text := Eval vm_compute in u "歩香桂銀金角飛".
Definition uBlack : N := Eval vm_compute in ch "▲".
Definition uWhite : N := Eval vm_compute in ch "△".
Definition uSame : N := Eval vm_compute in ch "同".
Definition uSpace : N := Eval vm_compute in ch "　".
Definition uLeft : N := Eval vm_compute in ch "左".
Definition uStraight : N := Eval vm_compute in ch "直".
Definition uRight : N := Eval vm_compute in ch "右".
Definition uUp : N := Eval vm_compute in ch "上".
Definition uSide : N := Eval vm_compute in ch "寄".
Definition uDown : N := Eval vm_compute in ch "引".
Definition uDrop : N := Eval vm_compute in ch "打".
Definition uPro : N := Eval vm_compute in ch "成".
Definition uNot : N := Eval vm_compute in ch "不".
Definition uZero : N := Eval vm_compute in ch "零".

(* ---- move_to_ki2, KI2.py:273-531 ---- *)
(* where a piece stands, seen from the square it goes to (rel and direction, KI2.py:302-330); 180 degrees for white *)
Inductive relSide := SLeft | SRight | SSame.
Inductive relDir := DUp | DDown | DSide.
Definition seen (us sq : N) : N := if us =? Black then sq else 80 - sq.
Definition relSeen (us from to : N) : relSide :=
  if seen us to / 9 <? seen us from / 9 then SLeft else if seen us from / 9 <? seen us to / 9 then SRight else SSame.
Definition dirSeen (us from to : N) : relDir :=
  if seen us to mod 9 <? seen us from mod 9 then DUp else if seen us from mod 9 <? seen us to mod 9 then DDown else DSide.
Definition sideEqb (a b : relSide) : bool := match a, b with SLeft, SLeft | SRight, SRight | SSame, SSame => true | _, _ => false end.
Definition dirEqb (a b : relDir) : bool := match a, b with DUp, DUp | DDown, DDown | DSide, DSide => true | _, _ => false end.
(* the words: relative and motion *)
Inductive relWord := NoRel | RelLeft | RelRight | RelStraight.
Inductive motionWord := NoMotion | MotionUp | MotionDown | MotionSide.
(* one of the pieces that can go to the square: where it stands, and whether it is the piece that moves *)
Record cand := mkCand { cSideOf : relSide; cDirOf : relDir; cSelf : bool }.
Definition count {A} (f : A -> bool) (l : list A) : N := N.of_nat (List.length (filter f l)).
(* KI2.py:297-503 for more than one piece; big is piece_type in (PROM_BISHOP, PROM_ROOK) *)
Definition words (cs : list cand) (s : relSide) (d : relDir) (big : bool) : relWord * motionWord :=
  let nSide x := count (fun c => sideEqb (cSideOf c) x) cs in
  let nDir x := count (fun c => dirEqb (cDirOf c) x) cs in
  let n x y := count (fun c => sideEqb (cSideOf c) x && dirEqb (cDirOf c) y) cs in
  let otherLeft := existsb (fun c => sideEqb (cSideOf c) SLeft && negb (cSelf c)) cs in
  let otherRight := existsb (fun c => sideEqb (cSideOf c) SRight && negb (cSelf c)) cs in
  let some_ x y := (0 <? n x y) && (1 <? nDir y) in
  match d with
  | DUp =>
      if nDir DUp =? 1 then (NoRel, MotionUp)
      else
        let '(rel, total, inDir) :=
          match s with
          | SSame => if negb big then (RelStraight, nSide SSame, n SSame DUp)
                     else if otherRight && negb otherLeft then (RelLeft, nSide SLeft, n SLeft DUp)
                     else if otherLeft && negb otherRight then (RelRight, nSide SRight, n SRight DUp)
                     else (NoRel, 0, 0)
          | SLeft => (RelLeft, nSide SLeft, n SLeft DUp)
          | SRight => (RelRight, nSide SRight, n SRight DUp)
          end in
        let need := match rel with
                    | NoRel => true
                    | RelLeft | RelRight => (1 <? inDir) || (inDir <? total)
                    | RelStraight => (1 <? inDir) || (inDir <? total) && (some_ SSame DDown || some_ SSame DSide)
                    end in
        let enter := match rel with NoRel => true | _ => 0 <? total end in
        (rel, if enter && need then MotionUp else NoMotion)
  | DDown =>
      if nDir DDown =? 1 then (NoRel, MotionDown)
      else
        let '(rel, total, inDir) :=
          match s with
          | SSame => if negb big then (RelStraight, nSide SSame, n SSame DDown)
                     else if otherRight && negb otherLeft then (RelLeft, nSide SLeft, n SLeft DDown)
                     else if otherLeft && negb otherRight then (RelRight, nSide SRight, n SRight DDown)
                     else (NoRel, 0, 0)
          | SLeft => (RelLeft, nSide SLeft, n SLeft DDown)
          | SRight => (RelRight, nSide SRight, n SRight DDown)
          end in
        let need := match rel with
                    | NoRel => true
                    | RelLeft => (1 <? inDir) || (inDir <? total) && (some_ SLeft DUp || some_ SLeft DSide)
                    | RelRight => (1 <? inDir) || (inDir <? total) && (some_ SRight DUp || some_ SRight DSide)
                    | RelStraight => (1 <? inDir) || (inDir <? total) && (some_ SSame DUp || some_ SSame DSide)
                    end in
        let enter := match rel with NoRel => true | _ => 0 <? total end in
        (rel, if enter && need then MotionDown else NoMotion)
  | DSide =>
      if nDir DSide =? 1 then (NoRel, MotionSide)
      else
        let '(rel, total, inDir) :=
          match s with
          | SLeft => (RelLeft, nSide SLeft, n SLeft DSide)
          | SRight => (RelRight, nSide SRight, n SRight DSide)
          | SSame => (NoRel, nSide SSame, n SSame DSide)
          end in
        let need := match rel with
                    | NoRel => true
                    | RelLeft => (1 <? inDir) || (inDir <? total) && (some_ SLeft DUp || some_ SLeft DDown)
                    | RelRight => (1 <? inDir) || (inDir <? total) && (some_ SRight DUp || some_ SRight DDown)
                    | RelStraight => (1 <? inDir) || (inDir <? total) && (some_ SSame DUp || some_ SSame DDown)
                    end in
        let enter := match rel with NoRel => true | _ => 0 <? total end in
        (rel, if enter && need then MotionSide else NoMotion)
  end.
Definition relText (r : relWord) : Text := match r with NoRel => [] | RelLeft => [uLeft] | RelRight => [uRight] | RelStraight => [uStraight] end.
Definition motionText (m : motionWord) : Text := match m with NoMotion => [] | MotionUp => [uUp] | MotionDown => [uDown] | MotionSide => [uSide] end.
(* moves of pieces of the type to the square, KI2.py:289-296 *)
Definition sameMoves (p : Position) (to pt : N) : list N :=
  filter (fun m => (mvTo m =? to) && negb (mvDrop m) && (mvPtFrom m =? pt)) (pseudoLegalMoves p).
(* candidates: the first move from each square; here the squares, in the order of their first move *)
Definition addFirst (acc : list N) (x : N) : list N := if existsb (N.eqb x) acc then acc else acc ++ [x].
Definition origins (ms : list N) : list N := fold_left addFirst (map mvFrom ms) [].
(* the destination, KI2.py:280-285 *)
Definition ki2To (b : Board) (to : N) : Text :=
  if negb (peek b =? 0) && (mvTo (peek b) =? to) then [uSame] else squareName to.
(* "同" and one more character get a full-width space between them, KI2.py:529-530 *)
Definition ki2Space (t : Text) : Text :=
  match t with
  | [a; b; c] => if b =? uSame then [a; b; uSpace; c] else t
  | _ => t
  end.
(* KeyError (promotion[from_square]) when the move is not in the list of pseudo-legal moves *)
Definition moveToKi2 (b : Board) (m : N) : outcome Text :=
  let p := bpos b in
  let us := turn p in
  let to := mvTo m in
  let head := (if us =? Black then uBlack else uWhite) :: ki2To b to in
  if mvDrop m then
    let hp := moveDropHandPiece m in
    let others := filter (fun m2 => (mvTo m2 =? to) && negb (mvDrop m2) && (mvPtFrom m2 =? handToPt hp)) (legalMoves p) in
    Done (ki2Space (head ++ [nthN 0 handSymbols hp] ++ (if (0 <? N.of_nat (List.length others)) then [uDrop] else [])))
  else
    let from := mvFrom m in
    let pt := mvPtFrom m in
    let ms := sameMoves p to pt in
    let cs := origins ms in
    let '(rel, motion) :=
      if (1 <? N.of_nat (List.length cs)) then
        words (map (fun s => mkCand (relSeen us s to) (dirSeen us s to) (s =? from)) cs) (relSeen us from to) (dirSeen us from to) ((pt =? 13) || (pt =? 14))
      else (NoRel, NoMotion) in
    let times := count (fun m2 => mvFrom m2 =? from) ms in
    if mvPromo m then Done (ki2Space (head ++ nthN [] pieceSymbols2 pt ++ relText rel ++ motionText motion ++ [uPro]))
    else if times =? 0 then Thrown
    else Done (ki2Space (head ++ nthN [] pieceSymbols2 pt ++ relText rel ++ motionText motion ++ (if times =? 2 then [uNot; uPro] else []))).

(* ---- Parser.parse_move_str, KI2.py:69-157 ---- *)
(* str.replace for one and two characters *)
Definition replace1 (a b : N) (t : Text) : Text := map (fun c => if c =? a then b else c) t.
Fixpoint replace2 (a1 a2 b : N) (t : Text) : Text :=
  match t with
  | x :: r => match r with
              | y :: r' => if (x =? a1) && (y =? a2) then b :: replace2 a1 a2 b r' else x :: replace2 a1 a2 b r
              | [] => [x]
              end
  | [] => []
  end.
Definition normalize (t : Text) : Text :=
  let t := replace1 (ch "王") (ch "玉") t in
  let t := replace1 (ch "竜") (ch "龍") t in
  let t := replace2 (ch "成") (ch "銀") (ch "全") t in
  let t := replace2 (ch "成") (ch "桂") (ch "圭") t in
  replace2 (ch "成") (ch "香") (ch "杏") t.
(* list.index *)
Fixpoint indexOf (c : N) (l : Text) : option N :=
  match l with
  | [] => None
  | x :: l => if x =? c then Some 0 else option_map N.succ (indexOf c l)
  end.
(* \s of Python's re for str *)
Definition isSpaceU (c : N) : bool :=
  (9 <=? c) && (c <=? 13) || (28 <=? c) && (c <=? 32) || (c =? 133) || (c =? 160) || (c =? 5760) || (8192 <=? c) && (c <=? 8202) ||
  (c =? 8232) || (c =? 8233) || (c =? 8239) || (c =? 8287) || (c =? 12288).
Fixpoint dropSpaces (t : Text) : Text := match t with c :: r => if isSpaceU c then dropSpaces r else t | [] => [] end.
(* what MOVE_RE finds: the destination (None for "同", otherwise the two characters), the piece, groups 6, 7 and 8, and
   the text that is left.  The alternatives begin with different characters: no backtracking. *)
Record found := mkFound { fTo : option (N * N); fPiece : N; fRel : relWord; fMotion : motionWord; fEnd : Text; fRest : Text }.
Definition matchTo (t : Text) : option (option (N * N) * Text) :=
  match t with
  | a :: r =>
      if a =? uSame then Some (None, match r with s :: r' => if s =? uSpace then r' else r | [] => r end)
      else match indexOf a numberSymbols, r with
           | Some _, k :: r => if (k =? uZero) || match indexOf k kanjiSymbols with Some _ => true | None => false end then Some (Some (a, k), r) else None
           | _, _ => None
           end
  | [] => None
  end.
Definition matchRel (t : Text) : relWord * Text :=
  match t with
  | c :: r => if c =? uLeft then (RelLeft, r) else if c =? uStraight then (RelStraight, r) else if c =? uRight then (RelRight, r) else (NoRel, t)
  | [] => (NoRel, t)
  end.
Definition matchMotion (t : Text) : motionWord * Text :=
  match t with
  | c :: r => if c =? uUp then (MotionUp, r) else if c =? uSide then (MotionSide, r) else if c =? uDown then (MotionDown, r) else (NoMotion, t)
  | [] => (NoMotion, t)
  end.
Definition matchEnd (t : Text) : Text * Text :=
  match t with
  | c :: r => if (c =? uDrop) || (c =? uPro) then ([c], r)
              else match r with d :: r' => if (c =? uNot) && (d =? uPro) then ([c; d], r') else ([], t) | [] => ([], t) end
  | [] => ([], t)
  end.
Definition matchMove (t : Text) : option found :=
  match t with
  | a :: t =>
      if (a =? uBlack) || (a =? uWhite) then
        match matchTo t with
        | Some (to, pc :: t) =>
            match indexOf pc pieceSymbols with
            | Some _ => let '(rel, t) := matchRel t in let '(mo, t) := matchMotion t in let '(en, t) := matchEnd t in
                        Some (mkFound to pc rel mo en (dropSpaces t))
            | None => None
            end
        | _ => None
        end
      else None
  | [] => None
  end.
(* the least and greatest file and rank, KI2.py:101-112 *)
Definition leastOf (f : N -> N) (ms : list N) : N := fold_left (fun a m => if f m <? a then f m else a) ms 9.
Definition greatestOf (f : N -> N) (ms : list N) : N := fold_left (fun a m => if a <? f m then f m else a) ms 0.
Definition fileFrom (m : N) : N := mvFrom m / 9.
Definition rankFrom (m : N) : N := mvFrom m mod 9.
(* the moves left by group 6 and group 7, KI2.py:100-136 *)
Definition byRel (us : N) (r : relWord) (all cs : list N) : list N :=
  match r with
  | RelLeft => filter (fun m => fileFrom m =? (if us =? Black then greatestOf fileFrom all else leastOf fileFrom all)) cs
  | RelRight => filter (fun m => fileFrom m =? (if us =? Black then leastOf fileFrom all else greatestOf fileFrom all)) cs
  | RelStraight => filter (fun m => mvTo m / 9 =? fileFrom m) cs
  | NoRel => cs
  end.
Definition byMotion (us : N) (w : motionWord) (all cs : list N) : list N :=
  match w with
  | MotionUp => filter (fun m => rankFrom m =? (if us =? Black then greatestOf rankFrom all else leastOf rankFrom all)) cs
  | MotionDown => filter (fun m => rankFrom m =? (if us =? Black then leastOf rankFrom all else greatestOf rankFrom all)) cs
  | MotionSide => filter (fun m => mvTo m mod 9 =? rankFrom m) cs
  | NoMotion => cs
  end.
(* group 8, KI2.py:138-143 *)
Definition byEnd (e : Text) (cs : list N) : list N :=
  match e with
  | [c] => if c =? uDrop then filter mvDrop cs else if c =? uPro then filter mvPromo cs else cs
  | [_; _] => filter (fun m => negb (mvPromo m)) cs
  | _ => cs
  end.
(* a move of the type to the square, dropped or not, KI2.py:98 *)
Definition ofPiece (to pt m : N) : bool :=
  (mvTo m =? to) && (if mvDrop m then handToPt (moveDropHandPiece m) =? pt else mvPtFrom m =? pt).
(* the destination; "零" makes list.index raise *)
Definition foundTo (b : Board) (f : found) : outcome N :=
  match fTo f with
  | None => Done (mvTo (peek b))
  | Some (a, k) => match indexOf a numberSymbols, indexOf k kanjiSymbols with Some x, Some y => Done (y + x * 9) | _, _ => Thrown end
  end.
(* the move meant, KI2.py:88-148; AssertionError or IndexError unless exactly one is left *)
Definition chooseMove (b : Board) (f : found) : outcome N :=
  match indexOf (fPiece f) pieceSymbols with
  | None => Thrown
  | Some i =>
      obind (foundTo b f) (fun to =>
      let us := turn (bpos b) in
      let all := filter (ofPiece to (i + 1)) (legalMoves (bpos b)) in
      let cs := byEnd (fEnd f) (byMotion us (fMotion f) all (byRel us (fRel f) all all)) in
      match cs with
      | [] => Thrown
      | [m] => Done m
      | _ => match filter (fun m => negb (mvDrop m)) cs with [m] => Done m | _ => Thrown end
      end)
  end.
(* the loop, KI2.py:84-157.  pos = m.end() is an index into line[pos:], not into line, and is used as such in the next
   round.  The loop need not end; Undefined stands for running out of fuel. *)
Fixpoint moveLoop (fuel : nat) (z : Zob) (line : Text) (pos : nat) (b : Board) : outcome (list N * Board) :=
  match fuel with
  | O => Undefined
  | S fuel =>
      let rest := skipn pos line in
      match matchMove rest with
      | None => Done ([], b)
      | Some f =>
          obind (chooseMove b f) (fun m =>
          let b' := if boardMoveIsLegal (bpos b) m then push z b m else b in
          obind (moveLoop fuel z line (List.length rest - List.length (fRest f)) b') (fun r => Done (m :: fst r, snd r)))
      end
  end.
Definition parseMoveStr (fuel : nat) (z : Zob) (b : Board) (line : Text) : outcome (list N * Board) := moveLoop fuel z (normalize line) 0 b.
(* Parser.parse_str hands every move line to parse_move_str, on the board as it stands, KI2.py:248-249 *)
Fixpoint parseMoveLines (fuel : nat) (z : Zob) (b : Board) (ls : list Text) : outcome (list N * Board) :=
  match ls with
  | [] => Done ([], b)
  | l :: ls => obind (parseMoveStr fuel z b l) (fun r => obind (parseMoveLines fuel z (snd r) ls) (fun r' => Done (fst r ++ fst r', snd r')))
  end.
(* Exporter.move, KI2.py:572-584, for every move: a line, then the move is pushed *)
Fixpoint exportKi2 (z : Zob) (b : Board) (ms : list N) : outcome (list Text) :=
  match ms with
  | [] => Done []
  | m :: ms => obind (moveToKi2 b m) (fun t => obind (exportKi2 z (push z b m) ms) (fun ts => Done (t :: ts)))
  end.
