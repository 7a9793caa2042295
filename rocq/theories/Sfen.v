(* Model of SFEN input and output: Position::toSFEN (position.cpp:2955-2999), Position::set(sfen)
   (position.cpp:3331-3403) and their callers.  A text is handled as its list of characters.  No proofs. *)
From Verif Require Export Packed MoveText.
Local Open Scope N_scope.

(* ---- characters and numbers ---- *)
Definition isDigit (c : ascii) : bool := let n := N_of_ascii c in (48 <=? n) && (n <=? 57).
Definition digitValue (c : ascii) : N := N_of_ascii c - 48.
(* operator<<(int): decimal digits, a minus sign in front of negative numbers *)
Fixpoint digitsOf (fuel : nat) (n : N) : list ascii :=
  match fuel with
  | O => []
  | S fuel => (if n <? 10 then [] else digitsOf fuel (n / 10)) ++ [ascii_of_N (48 + n mod 10)]
  end.
Definition printN (n : N) : list ascii := digitsOf (S (N.size_nat n)) n.
Definition printZ (n : Z) : list ascii := if (n <? 0)%Z then "-"%char :: printN (Z.to_N (- n)) else printN (Z.to_N n).
(* istream >> int: leading white space, a sign, digits up to the first other character.  Without digits the
   value is 0; outside the range of int it is the nearest bound. *)
Definition isSpace (c : ascii) : bool := let n := N_of_ascii c in (n =? 32) || ((9 <=? n) && (n <=? 13)).
Fixpoint skipSpaces (l : list ascii) : list ascii := match l with c :: r => if isSpace c then skipSpaces r else l | [] => [] end.
Fixpoint readDigits (l : list ascii) (acc : N) : N :=
  match l with c :: r => if isDigit c then readDigits r (acc * 10 + digitValue c) else acc | [] => acc end.
Definition intMax : Z := 2147483647%Z.
Definition readInt (l : list ascii) : Z :=
  match skipSpaces l with
  | "-"%char :: r => Z.max (- intMax - 1) (- Z.of_N (readDigits r 0))
  | "+"%char :: r => Z.min intMax (Z.of_N (readDigits r 0))
  | r => Z.min intMax (Z.of_N (readDigits r 0))
  end.

(* PieceToCharUSITable, position.cpp:198-201 *)
Definition pieceChars (pc : N) : list ascii :=
  list_ascii_of_string (nthN EmptyString
    [""; "P"; "L"; "N"; "S"; "B"; "R"; "G"; "K"; "+P"; "+L"; "+N"; "+S"; "+B"; "+R"; ""; "";
     "p"; "l"; "n"; "s"; "b"; "r"; "g"; "k"; "+p"; "+l"; "+n"; "+s"; "+b"; "+r"]%string pc).
(* CharToPieceUSI, position.hpp:573-587 *)
Definition charPieces : list (ascii * N) :=
  [("P", 1); ("p", 17); ("L", 2); ("l", 18); ("N", 3); ("n", 19); ("S", 4); ("s", 20); ("B", 5); ("b", 21); ("R", 6); ("r", 22);
   ("G", 7); ("g", 23); ("K", 8); ("k", 24)]%char.
Definition charPiece (c : ascii) : option N := option_map snd (find (fun x => Ascii.eqb (fst x) c) charPieces).

(* ---- toSFEN(ply), position.cpp:2955-2999 ---- *)
(* files 9 .. 1 of a rank *)
Definition rankSquares (r : N) : list N := map (fun f => makeSquare f r) [8; 7; 6; 5; 4; 3; 2; 1; 0].
Fixpoint rowChars (p : Position) (space : N) (sqs : list N) : list ascii :=
  match sqs with
  | [] => if space =? 0 then [] else printN space
  | sq :: sqs =>
      let pc := pieceAt p sq in
      if pc =? Empty then rowChars p (space + 1) sqs
      else (if space =? 0 then [] else printN space) ++ pieceChars pc ++ rowChars p 0 sqs
  end.
Definition boardChars (p : Position) : list ascii :=
  flat_map (fun r => rowChars p 0 (rankSquares r) ++ (if r =? 8 then [] else ["/"%char])) (seqN 0 9).
Definition handItem (p : Position) (c hp : N) : list ascii :=
  let n := numOf (handOf p c) hp in
  if n =? 0 then [] else (if n =? 1 then [] else printN n) ++ pieceChars (mkPiece c (handToPt hp)).
(* HRook, HBishop, HGold, HSilver, HKnight, HLance, HPawn *)
Definition handOrder : list N := [6; 5; 4; 3; 2; 1; 0].
Definition handChars (p : Position) : list ascii :=
  if (handOf p Black =? 0) && (handOf p White =? 0) then ["-"%char]
  else flat_map (fun c => flat_map (handItem p c) handOrder) [Black; White].
Definition sfenChars (p : Position) : list ascii :=
  boardChars p ++ [" "%char; (if turn p =? Black then "b"%char else "w"%char); " "%char] ++ handChars p ++ [" "%char] ++ printZ (gamePly p).
(* sfen(), cshogi.h:235, _cshogi.pyx:770-776 *)
Definition toSfen (b : Board) : string := string_of_list_ascii (sfenChars (bpos b)).

(* ---- set(sfen), position.cpp:3331-3403 ---- *)
(* setPiece(piece, sq): a piece type 15 or a colour 2 is outside byTypeBB_ / byColorBB_ *)
Definition putPiece (p : Position) (pc sq : N) : outcome Position :=
  if (ptOf pc <? 15) && (colorOf pc <? 2) then Done (setPiece p pc sq) else Undefined.
(* the squares; sq is an int in the code and is not bounded here *)
Fixpoint readBoard (l : list ascii) (p : Position) (sq : Z) (promote : bool) : outcome (Position * list ascii) :=
  match l with
  | [] => Done (p, [])
  | c :: l =>
      if Ascii.eqb c " " then Done (p, l)
      else if isDigit c then readBoard l p (sq - 9 * Z.of_N (digitValue c)) promote
      else if Ascii.eqb c "/" then readBoard l p (sq + 82) promote
      else if Ascii.eqb c "+" then readBoard l p sq true
      else match charPiece c with
           | None => Thrown
           | Some pc =>
               if ((0 <=? sq) && (sq <? 81))%Z
               then obind (putPiece p (pc + (if promote then 8 else 0)) (Z.to_N sq)) (fun p => readBoard l p (sq - 9) false)
               else Thrown
           end
  end.
Fixpoint readTurn (l : list ascii) (t : N) : outcome (N * list ascii) :=
  match l with
  | [] => Done (t, [])
  | c :: l =>
      if Ascii.eqb c " " then Done (t, l)
      else if Ascii.eqb c "b" then readTurn l Black
      else if Ascii.eqb c "w" then readTurn l White
      else Thrown
  end.
(* memset(hand_, 0) *)
Definition noHand (p : Position) : Position :=
  mkPos (byType p) (byColor p) (golds p) (board p) (kingSq p) [0; 0] (turn p) (gamePly p) (st p) (prev p).
(* digits is an int: leaving its range is undefined behaviour.  setHand of a king reads
   HandPieceShiftBits[7], outside that table.  The shift of a large count is taken modulo 2^32. *)
Fixpoint readHand (l : list ascii) (p : Position) (digits : N) : outcome (Position * list ascii) :=
  match l with
  | [] => Done (p, [])
  | c :: l =>
      if Ascii.eqb c " " then Done (p, l)
      else if Ascii.eqb c "-" then readHand l (noHand p) digits
      else if isDigit c then
        let n := digits * 10 + digitValue c in
        if (Z.of_N n <=? intMax)%Z then readHand l p n else Undefined
      else match charPiece c with
           | None => Thrown
           | Some pc =>
               if ptOf pc =? King then Undefined
               else readHand l (setHandN p (ptToHand (ptOf pc)) (colorOf pc) (if digits =? 0 then 1 else digits)) 0
           end
  end.
Definition setSfenPos (z : Zob) (l : list ascii) : outcome Position :=
  obind (readBoard l clearPos 72 false) (fun x =>
  let p := setKingsGolds (fst x) in
  obind (readTurn (snd x) (turn p)) (fun y =>
  obind (readHand (snd y) (setTurnField p (fst y)) 0) (fun w =>
  Done (refreshState z (setGamePly (fst w) (readInt (snd w))))))).
(* Board(sfen), set_sfen: cshogi.h:96-107, _cshogi.pyx:341-384.  Thrown is the std::runtime_error; the
   declaration of set in _cshogi.pyx:263 has no "except +", so that for set_sfen it is not turned into a
   Python exception. *)
Definition setSfen (z : Zob) (s : string) : outcome Board := obind (setSfenPos z (list_ascii_of_string s)) (fun p => Done (mkBoard p [])).
