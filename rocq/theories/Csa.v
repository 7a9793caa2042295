(* Model of CSA records: Position::toCSAPos (position.cpp:190-197, 3001-3015, 3301-3320) behind Board.csa_pos,
   and the CSA reader __Parser (parser.h) behind the Python class Parser (_cshogi.pyx:1447-1507).  A line is the
   list of its characters (bytes).  No proofs. *)
From Verif Require Export Command.
Local Open Scope N_scope.

(* PieceToCharCSATable, position.cpp:190-193 *)
Definition pieceCSA (pc : N) : list ascii :=
  list_ascii_of_string (nthN EmptyString
    [" * "; "+FU"; "+KY"; "+KE"; "+GI"; "+KA"; "+HI"; "+KI"; "+OU"; "+TO"; "+NY"; "+NK"; "+NG"; "+UM"; "+RY"; ""; "";
     "-FU"; "-KY"; "-KE"; "-GI"; "-KA"; "-HI"; "-KI"; "-OU"; "-TO"; "-NY"; "-NK"; "-NG"; "-UM"; "-RY"]%string pc).
Definition newline : ascii := ascii_of_N 10.
(* printHandPiece, position.cpp:3302-3310 *)
Definition printHandPiece (p : Position) (c hp : N) (str : string) : list ascii :=
  let n := numOf (handOf p c) hp in
  if n =? 0 then []
  else "P"%char :: (if c =? Black then "+"%char else "-"%char) :: List.concat (repeat ("0"%char :: "0"%char :: list_ascii_of_string str) (N.to_nat n)) ++ [newline].
(* printHand, position.cpp:3312-3320: HPawn, HLance, HKnight, HSilver, HGold, HBishop, HRook *)
Definition printHand (p : Position) (c : N) : list ascii :=
  printHandPiece p c 0 "FU" ++ printHandPiece p c 1 "KY" ++ printHandPiece p c 2 "KE" ++ printHandPiece p c 3 "GI" ++
  printHandPiece p c 4 "KI" ++ printHandPiece p c 5 "KA" ++ printHandPiece p c 6 "HI".
(* toCSAPos, position.cpp:3001-3015; csa_pos, cshogi.h, _cshogi.pyx:778-784 *)
Definition csaPosChars (p : Position) : list ascii :=
  flat_map (fun r => "P"%char :: printN (r + 1) ++ flat_map (fun sq => pieceCSA (pieceAt p sq)) (rankSquares r) ++ [newline]) (seqN 0 9) ++
  printHand p Black ++ printHand p White ++ [if turn p =? Black then "+"%char else "-"%char; newline].
Definition csaPos (b : Board) : string := string_of_list_ascii (csaPosChars (bpos b)).

(* ---- the standard library functions the reader uses ---- *)
(* line[i]; the reader only does this for i up to the length, where it is '\0' *)
Definition charOf (l : list ascii) (i : nat) : ascii := nth i l Ascii.zero.
(* line.substr(i, n), which throws when i is past the end *)
Definition substr (l : list ascii) (i n : nat) : outcome (list ascii) :=
  if Nat.ltb (List.length l) i then Thrown else Done (firstn n (skipn i l)).
(* line.substr(0, n) == prefix of length n *)
Definition starts (s : string) (l : list ascii) : bool := String.eqb (string_of_list_ascii (firstn (String.length s) l)) s.
(* line.find_first_of(c, i) *)
Fixpoint findFrom (c : ascii) (l : list ascii) (i : nat) : option nat :=
  match l with
  | [] => None
  | a :: l => if Ascii.eqb a c then Some i else findFrom c l (S i)
  end.
Definition findFirst (c : ascii) (l : list ascii) (i : nat) : option nat := findFrom c (skipn i l) i.
(* std::stoi: white space, a sign, digits; std::invalid_argument without digits, std::out_of_range outside int *)
Inductive stoiResult := Int (n : Z) | InvalidArgument | OutOfRange.
Definition stoiDigits (negative : bool) (l : list ascii) : stoiResult :=
  match l with
  | c :: _ =>
      if isDigit c then
        let n := if negative then (- Z.of_N (readDigits l 0))%Z else Z.of_N (readDigits l 0) in
        if ((- intMax - 1 <=? n) && (n <=? intMax))%Z then Int n else OutOfRange
      else InvalidArgument
  | [] => InvalidArgument
  end.
Definition stoi (l : list ascii) : stoiResult :=
  match skipSpaces l with
  | c :: r => if Ascii.eqb c "-" then stoiDigits true r else if Ascii.eqb c "+" then stoiDigits false r else stoiDigits false (c :: r)
  | [] => InvalidArgument
  end.
Definition stoiThrow (l : list ascii) : outcome Z := match stoi l with Int n => Done n | _ => Thrown end.
(* vector::resize *)
Definition resize {A} (l : list A) (n : nat) (d : A) : list A := firstn n l ++ repeat d (n - List.length l).
(* while (!is.bad() && !is.eof()) getline: the pieces between the line feeds, the last one may be empty *)
Fixpoint splitLines (l : list ascii) : list (list ascii) :=
  match l with
  | [] => [[]]
  | c :: l => if Ascii.eqb c newline then [] :: splitLines l else match splitLines l with r :: rs => (c :: r) :: rs | [] => [[c]] end
  end.

(* ---- parse_position, parser.h:282-385 ---- *)
(* StringToPieceTypeCSA, StringToPieceCSA, parser.h:18-79: find(str)->second without a test, so that an unknown
   text is undefined behaviour *)
Definition pieceTypeOfText (l : list ascii) : outcome N :=
  match ptOfCSA (string_of_list_ascii l) with Some pt => Done pt | None => Undefined end.
Definition pieceOfText (l : list ascii) : outcome N :=
  match l with
  | c :: r =>
      if Ascii.eqb c "+" then obind (pieceTypeOfText r) (fun pt => Done pt)
      else if Ascii.eqb c "-" then obind (pieceTypeOfText r) (fun pt => Done (pt + 16))
      else if String.eqb (string_of_list_ascii l) " * " then Done Empty
      else Undefined
  | [] => Undefined
  end.
(* pieces_in_board as 81 cells [rank][file], None where nothing was written (the array is not initialised);
   pieces_in_hand by piece; current_turn, None before it is set *)
Record Block := mkBlock { cells : list (option N); inHand : list N; turnRead : option N }.
Definition emptyBlock : Block := mkBlock (repeat None 81) (repeat 0 31) None.
Definition setCell (k : Block) (rank file pc : N) : Block := mkBlock (updN (cells k) (rank * 9 + file) (Some pc)) (inHand k) (turnRead k).
Definition addHand (k : Block) (pc : N) : Block := mkBlock (cells k) (updN (inHand k) pc (nthN 0 (inHand k) pc + 1)) (turnRead k).
Definition setTurnRead (k : Block) (c : N) : Block := mkBlock (cells k) (inHand k) (Some c).
(* "P+" and "P-" lines, parser.h:313-328, from index 2 on.  Every round takes four characters: fuel. *)
Fixpoint readPieces (fuel : nat) (sign : ascii) (l : list ascii) (k : Block) : outcome Block :=
  match fuel, l with
  | _, [] => Done k
  | O, _ => Done k
  | S fuel, _ =>
      obind (obind (substr l 0 1) stoiThrow) (fun rank =>
      obind (obind (substr l 1 1) stoiThrow) (fun file =>
      obind (substr l 2 2) (fun name =>
      obind (pieceOfText (sign :: name)) (fun pc =>
      if ((rank =? 0) && (file =? 0))%Z then readPieces fuel sign (skipn 4 l) (addHand k pc)
      else if ((rank =? 0) || (file =? 0))%Z then Undefined
      else readPieces fuel sign (skipn 4 l) (setCell k (Z.to_N rank - 1) (Z.to_N file - 1) pc)))))
  end.
(* "P1" to "P9" lines, parser.h:330-339: nine pieces from index 2 on *)
Fixpoint readRank (n : nat) (index : nat) (file : N) (rank : N) (l : list ascii) (k : Block) : outcome Block :=
  match n with
  | O => Done k
  | S n => obind (substr l index 3) (fun s => obind (pieceOfText s) (fun pc => readRank n (index + 3) (file + 1) rank l (setCell k rank file pc)))
  end.
(* "PI", parser.h:340-377 *)
Definition initialCells : list N :=
  [18; 19; 20; 23; 24; 23; 20; 19; 18;
   0; 22; 0; 0; 0; 0; 0; 21; 0;
   17; 17; 17; 17; 17; 17; 17; 17; 17;
   0; 0; 0; 0; 0; 0; 0; 0; 0;
   0; 0; 0; 0; 0; 0; 0; 0; 0;
   0; 0; 0; 0; 0; 0; 0; 0; 0;
   1; 1; 1; 1; 1; 1; 1; 1; 1;
   0; 5; 0; 0; 0; 0; 0; 6; 0;
   2; 3; 4; 7; 8; 7; 4; 3; 2].
Fixpoint removePieces (fuel : nat) (l : list ascii) (k : Block) : outcome Block :=
  match fuel, l with
  | _, [] => Done k
  | O, _ => Done k
  | S fuel, file_char :: _ =>
      let file := (57 - Z.of_N (N_of_ascii file_char))%Z in
      let rank_char := charOf l 1 in
      let rank := (Z.of_N (N_of_ascii rank_char) - 49)%Z in
      obind (substr l 2 2) (fun name =>
      obind (pieceTypeOfText name) (fun pt =>
      if Ascii.eqb rank_char "0" && Ascii.eqb file_char "0" then Thrown
      else if ((0 <=? rank) && (rank <? 9) && (0 <=? file) && (file <? 9))%Z then
        match nthN None (cells k) (Z.to_N rank * 9 + Z.to_N file) with
        | None => Undefined
        | Some pc => if (pc =? Empty) || negb (ptOf pc =? pt) then Thrown
                     else removePieces fuel (skipn 4 l) (setCell k (Z.to_N rank) (Z.to_N file) Empty)
        end
      else Thrown))
  end.
Definition isSign (c : ascii) : bool := Ascii.eqb c "+" || Ascii.eqb c "-".
Definition signColor (c : ascii) : N := if Ascii.eqb c "+" then Black else White.
(* line[1] >= '1' && line[1] <= '9' *)
Definition inRange19 (c : ascii) : bool := (49 <=? N_of_ascii c) && (N_of_ascii c <=? 57).
(* one line, parser.h:292-382 *)
Definition positionLine (l : list ascii) (k : Block) : outcome Block :=
  if negb (Ascii.eqb (charOf l 0) "P") then
    if isSign (charOf l 0) then (if Nat.eqb (List.length l) 1 then Done (setTurnRead k (signColor (charOf l 0))) else Thrown) else Thrown
  else if isSign (charOf l 1) then readPieces (List.length l) (charOf l 1) (skipn 2 l) k
  else if inRange19 (charOf l 1) then readRank 9 2 0 (N_of_ascii (charOf l 1) - 49) l k
  else if Ascii.eqb (charOf l 1) "I" then removePieces (List.length l) (skipn 2 l) (mkBlock (map Some initialCells) (inHand k) (turnRead k))
  else Thrown.
Fixpoint positionLines (ls : list (list ascii)) (k : Block) : outcome Block :=
  match ls with
  | [] => Done k
  | l :: ls => obind (positionLine l k) (positionLines ls)
  end.
(* to_sfen, parser.h:387-448, with move_count 1.  Reading a cell that was not written is undefined behaviour. *)
Fixpoint rowText (row : list (option N)) (empty : N) : outcome (list ascii) :=
  match row with
  | [] => Done (if 0 <? empty then printN empty else [])
  | None :: _ => Undefined
  | Some pc :: row =>
      if pc =? Empty then rowText row (empty + 1)
      else obind (rowText row 0) (fun r => Done ((if 0 <? empty then printN empty else []) ++ pieceChars pc ++ r))
  end.
Fixpoint rowsText (n : nat) (rank : N) (l : list (option N)) : outcome (list ascii) :=
  match n with
  | O => Done []
  | S n => obind (rowText (firstn 9 l) 0) (fun r =>
           obind (rowsText n (rank + 1) (skipn 9 l)) (fun rs => Done (r ++ (if rank =? 8 then [] else ["/"%char]) ++ rs)))
  end.
(* BPawn .. BDragon, WPawn .. WDragon *)
Definition handPieces : list N := seqN 1 14 ++ seqN 17 14.
Definition handPart (hand : list N) : list ascii :=
  flat_map (fun pc => let n := nthN 0 hand pc in if 1 <=? n then (if 1 <? n then printN n else []) ++ pieceChars pc else []) handPieces.
Definition handText (hand : list N) : list ascii :=
  if forallb (fun pc => nthN 0 hand pc <? 1) handPieces then ["-"%char] else handPart hand.
Definition blockSfen (k : Block) : outcome string :=
  obind (rowsText 9 0 (cells k)) (fun b =>
  match turnRead k with
  | None => Undefined
  | Some c => Done (string_of_list_ascii (b ++ [" "%char; (if c =? White then "w"%char else "b"%char); " "%char] ++ handText (inHand k) ++ [" "%char; "1"%char]))
  end).
Definition parsePosition (ls : list (list ascii)) : outcome string := obind (positionLines ls emptyBlock) blockSfen.

(* ---- parse_csa, parser.h:118-280 ---- *)
(* What the reader holds: the public members, parser.h:89-100, and the local variables.  gPos is pos once it has
   been set (pos_initialized), gLines position_lines, gTurnStr current_turn_str, gLose lose_color (2 is ColorNum). *)
Record Record_ := mkRecord {
  gVersion : string; gInfos : list string; gSfen : string; gEndgame : string; gNames : string * string; gRatings : N * N;
  gMoves : list N; gTimes : list Z; gScores : list Z; gComments : list string; gComment : string;
  gPos : option Position; gLines : list (list ascii); gTurnStr : string; gLose : N }.
Definition emptyRecord : Record_ := mkRecord "" [] "" "" ("", "")%string (0, 0) [] [] [] [] "" None [] "" 2.
Definition withVersion g v := mkRecord v (gInfos g) (gSfen g) (gEndgame g) (gNames g) (gRatings g) (gMoves g) (gTimes g) (gScores g) (gComments g) (gComment g) (gPos g) (gLines g) (gTurnStr g) (gLose g).
Definition withInfos g v := mkRecord (gVersion g) v (gSfen g) (gEndgame g) (gNames g) (gRatings g) (gMoves g) (gTimes g) (gScores g) (gComments g) (gComment g) (gPos g) (gLines g) (gTurnStr g) (gLose g).
Definition withPos g sfen p := mkRecord (gVersion g) (gInfos g) sfen (gEndgame g) (gNames g) (gRatings g) (gMoves g) (gTimes g) (gScores g) (gComments g) (gComment g) (Some p) (gLines g) (gTurnStr g) (gLose g).
Definition withEnd g e lose := mkRecord (gVersion g) (gInfos g) (gSfen g) e (gNames g) (gRatings g) (gMoves g) (gTimes g) (gScores g) (gComments g) (gComment g) (gPos g) (gLines g) (gTurnStr g) lose.
Definition withNames g v := mkRecord (gVersion g) (gInfos g) (gSfen g) (gEndgame g) v (gRatings g) (gMoves g) (gTimes g) (gScores g) (gComments g) (gComment g) (gPos g) (gLines g) (gTurnStr g) (gLose g).
Definition withRatings g v := mkRecord (gVersion g) (gInfos g) (gSfen g) (gEndgame g) (gNames g) v (gMoves g) (gTimes g) (gScores g) (gComments g) (gComment g) (gPos g) (gLines g) (gTurnStr g) (gLose g).
Definition withMove g ms ts ss cs p := mkRecord (gVersion g) (gInfos g) (gSfen g) (gEndgame g) (gNames g) (gRatings g) ms ts ss cs (gComment g) (Some p) (gLines g) (gTurnStr g) (gLose g).
Definition withTimes g v := mkRecord (gVersion g) (gInfos g) (gSfen g) (gEndgame g) (gNames g) (gRatings g) (gMoves g) v (gScores g) (gComments g) (gComment g) (gPos g) (gLines g) (gTurnStr g) (gLose g).
Definition withNotes g ss cs := mkRecord (gVersion g) (gInfos g) (gSfen g) (gEndgame g) (gNames g) (gRatings g) (gMoves g) (gTimes g) ss cs (gComment g) (gPos g) (gLines g) (gTurnStr g) (gLose g).
Definition withComment g v := mkRecord (gVersion g) (gInfos g) (gSfen g) (gEndgame g) (gNames g) (gRatings g) (gMoves g) (gTimes g) (gScores g) (gComments g) v (gPos g) (gLines g) (gTurnStr g) (gLose g).
Definition withLine g l := mkRecord (gVersion g) (gInfos g) (gSfen g) (gEndgame g) (gNames g) (gRatings g) (gMoves g) (gTimes g) (gScores g) (gComments g) (gComment g) (gPos g) (gLines g ++ [l]) (gTurnStr g) (gLose g).
Definition withTurnStr g v := mkRecord (gVersion g) (gInfos g) (gSfen g) (gEndgame g) (gNames g) (gRatings g) (gMoves g) (gTimes g) (gScores g) (gComments g) (gComment g) (gPos g) (gLines g) v (gLose g).

Definition textOf (l : list ascii) : string := string_of_list_ascii l.
(* replace the last element *)
Definition setLast {A} (l : list A) (x : A) : list A := match l with [] => [] | _ => removelast l ++ [x] end.
(* A rating line, parser.h:147-158.  std::stof, which may throw, is a parameter; the number it gives is the bit
   pattern of the float. *)
Definition ratingLine (stof : string -> outcome N) (l : list ascii) (g : Record_) (set : N -> Record_) : outcome Record_ :=
  match findFirst ":" l 12 with
  | None => Done g
  | Some first => obind (stof (textOf (skipn (S first) l))) (fun v => Done (set v))
  end.
(* "'** ", parser.h:160-169.  Without a move scores[moves.size() - 1] and comments[moves.size() - 1] are outside
   the vectors.  The vectors are as long as moves whenever there is one. *)
Definition scoreLine (l : list ascii) (g : Record_) : outcome Record_ :=
  let last := match findFirst " " l 4 with Some i => i | None => List.length l end in
  match stoi (firstn (last - 4) (skipn 4 l)) with
  | OutOfRange => Thrown
  | r =>
      match gMoves g with
      | [] => Undefined
      | _ => Done (withNotes g (match r with Int n => setLast (gScores g) n | _ => gScores g end) (setLast (gComments g) (textOf (skipn 4 l))))
      end
  end.
(* "'summary:" and other comments, parser.h:170-189.  pos.turn() before pos is set reads an uninitialised variable. *)
Definition commentLine (l : list ascii) (g : Record_) : outcome Record_ :=
  let g := withComment g (gComment g ++ textOf l ++ String newline "") in
  if starts "'summary:" l then
    match findFirst ":" l 9 with
    | None => Done g
    | Some found =>
        let reason := textOf (firstn (found - 9) (skipn 9 l)) in
        if String.eqb reason "illegal move" then
          match gPos g with Some p => Done (withEnd g "%ILLEGAL_MOVE" (turn p)) | None => Undefined end
        else if String.eqb reason "max_moves" then Done (withEnd g "%JISHOGI" (gLose g))
        else if String.eqb reason "abnormal" then Done (withEnd g "%ERROR" (gLose g))
        else Done g
    end
  else Done g.
(* a move, parser.h:210-224.  csaToMove answers 0 for a text that is not a legal move; that move is recorded and
   made all the same.  pos is what doMove gives, as in push. *)
Definition moveLine (z : Zob) (l : list ascii) (g : Record_) : outcome Record_ :=
  match gPos g with
  | None => Thrown
  | Some p =>
      obind (substr l 1 6) (fun s =>
      match csaToMove p (textOf s) with
      | None => Undefined
      | Some m =>
          if inTables m then
            let moves := gMoves g ++ [m] in
            let n := List.length moves in
            let comments := resize (gComments g) n ""%string in
            obind (substr l 7 2) (fun mark =>
            obind (if String.eqb (textOf mark) ",'" then obind (substr l 9 (List.length l)) (fun c => Done (setLast comments (textOf c))) else Done comments) (fun comments =>
            Done (withMove g moves (resize (gTimes g) n 0%Z) (resize (gScores g) n 0%Z) comments (doMove z p m))))
          else Undefined
      end)
  end.
(* "T", parser.h:226-234 *)
Definition timeLine (l : list ascii) (g : Record_) : outcome Record_ :=
  if String.eqb (gEndgame g) "" then
    match gTimes g with
    | [] => Done g
    | _ => obind (stoiThrow (skipn 1 l)) (fun n => Done (withTimes g (setLast (gTimes g) n)))
    end
  else obind (stoiThrow (skipn 1 l)) (fun n => Done (withTimes g (gTimes g ++ [n]))).
(* "%", parser.h:235-256 *)
Definition endLine (l : list ascii) (g : Record_) : outcome Record_ :=
  match gPos g with
  | None => Thrown
  | Some p =>
      let l := match findFirst "," l 0 with Some i => firstn i l | None => l end in
      let s := textOf l in
      let lose :=
        if String.eqb s "%TORYO" || String.eqb s "%TIME_UP" || String.eqb s "%ILLEGAL_MOVE" then turn p
        else if String.eqb s "%+ILLEGAL_ACTION" then Black
        else if String.eqb s "%-ILLEGAL_ACTION" then White
        else if String.eqb s "%KACHI" then opp (turn p)
        else gLose g in
      Done (withEnd g s lose)
  end.
(* one line, parser.h:142-263 *)
Definition oneLine (z : Zob) (stof : string -> outcome N) (l : list ascii) (g : Record_) : outcome Record_ :=
  let c := charOf l 0 in
  if Ascii.eqb c Ascii.zero then Done g
  else if Ascii.eqb c "'" then
    if starts "'black_rate:" l then ratingLine stof l g (fun v => withRatings g (v, snd (gRatings g)))
    else if starts "'white_rate:" l then ratingLine stof l g (fun v => withRatings g (fst (gRatings g), v))
    else if starts "'** " l then scoreLine l g
    else commentLine l g
  else if Ascii.eqb c "V" then Done (withVersion g (textOf l))
  else if Ascii.eqb c "N" then
    if Ascii.eqb (charOf l 1) "+" then Done (withNames g (textOf (skipn 2 l), snd (gNames g)))
    else if Ascii.eqb (charOf l 1) "-" then Done (withNames g (fst (gNames g), textOf (skipn 2 l)))
    else Done g
  else if Ascii.eqb c "$" then Done (withInfos g (gInfos g ++ [textOf l]))
  else if Ascii.eqb c "P" then Done (withLine g l)
  else if isSign c then
    if Nat.eqb (List.length l) 1 then Done (withLine (withTurnStr g (textOf l)) l) else moveLine z l g
  else if Ascii.eqb c "T" then timeLine l g
  else if Ascii.eqb c "%" then endLine l g
  else Thrown.
(* parser.h:265-269: pos is set as soon as the side to move is known *)
Definition initialise (z : Zob) (g : Record_) : outcome Record_ :=
  match gPos g with
  | Some _ => Done g
  | None =>
      if String.eqb (gTurnStr g) "" then Done g
      else obind (parsePosition (gLines g)) (fun sfen =>
           obind (setSfenPos z (list_ascii_of_string sfen)) (fun p => Done (withPos g sfen p)))
  end.
Fixpoint allLines (z : Zob) (stof : string -> outcome N) (ls : list (list ascii)) (g : Record_) : outcome Record_ :=
  match ls with
  | [] => Done g
  | l :: ls => obind (oneLine z stof l g) (fun g => obind (initialise z g) (allLines z stof ls))
  end.
(* parse_csa_str, parser.h:112-115, _cshogi.pyx:1499-1506 *)
Definition parseCsa (z : Zob) (stof : string -> outcome N) (s : string) : outcome Record_ :=
  allLines z stof (splitLines (list_ascii_of_string s)) emptyRecord.
(* win, parser.h:274-279: 0 Draw, 1 BlackWin, 2 WhiteWin *)
Definition gWin (g : Record_) : N := if gLose g =? Black then 2 else if gLose g =? White then 1 else 0.
(* csa_str.split('\n/\n'), _cshogi.pyx:1478 *)
Fixpoint splitMatches (l : list ascii) : list (list ascii) :=
  match l with
  | [] => [[]]
  | c :: r =>
      match r with
      | c1 :: c2 :: r' =>
          if Ascii.eqb c newline && Ascii.eqb c1 "/" && Ascii.eqb c2 newline then [] :: splitMatches r'
          else match splitMatches r with x :: xs => (c :: x) :: xs | [] => [[c]] end
      | _ => match splitMatches r with x :: xs => (c :: x) :: xs | [] => [[c]] end
      end
  end.
(* Parser.parse_str, _cshogi.pyx:1465-1483 *)
Fixpoint parseAll (z : Zob) (stof : string -> outcome N) (ls : list (list ascii)) : outcome (list Record_) :=
  match ls with
  | [] => Done []
  | l :: ls => obind (parseCsa z stof (textOf l)) (fun g => obind (parseAll z stof ls) (fun gs => Done (g :: gs)))
  end.
Definition parseStr (z : Zob) (stof : string -> outcome N) (s : string) : outcome (list Record_) := parseAll z stof (splitMatches (list_ascii_of_string s)).
