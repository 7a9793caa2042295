(* Model of cshogi.Board: the position together with its move history (cshogi.h:86-510, the Python
   class in _cshogi.pyx:320-1095), and the setter set_pieces. *)
From Verif Require Export Abs.
Local Open Scope N_scope.

(* Position::set(pieces, pieces_in_hand), position.cpp:3405-3435.  The arrays are lists of numbers
   (the C++ code takes ints; negative entries are outside this model). *)
Definition setPieces (z : Zob) (p : Position) (pieces : list N) (inHand : list (list N)) : Position :=
  let p1 := fold_left (fun q sq => let pc := nthN 0 pieces sq in if pc =? Empty then q else setPiece q pc sq) squares clearPos in
  let p2 := fold_left (fun q c => fold_left (fun q hp => setHandN q hp c (nthN 0 (nthN [] inHand c) hp)) (seqN 0 7) q) [Black; White] p1 in
  refreshState z (setGamePly (setKingsGolds (setTurnField p2 (turn p))) (gamePly p)).

(* __Board, cshogi.h:464,467: pos and history, latest entry first.  An entry is a move and the
   StateInfo stored beside it.  For a real move that StateInfo is the one pos.st_ points to: its
   contents live in st/prev of the position and the entry holds None.  For a pass it is the backup
   written by doNullMove. *)
Record Board := mkBoard { bpos : Position; bhist : list (N * option StateInfo) }.

(* push, cshogi.h:159-162, _cshogi.pyx:485-499 *)
Definition push (z : Zob) (b : Board) (m : N) : Board := mkBoard (doMove z (bpos b) m) ((m, None) :: bhist b).
(* pop, cshogi.h:164-169, _cshogi.pyx:568-574: the board and the move returned.  history.back() on an
   empty history and undoing past the first state are undefined behaviour: None.  pop of a pass entry
   is not modelled: None. *)
Definition pop (b : Board) : option (Board * N) :=
  match bhist b, prev (bpos b) with
  | (m, None) :: h, _ :: _ => Some (mkBoard (undoMove (bpos b) m) h, m)
  | _, _ => None
  end.
(* peek, cshogi.h:171-176 *)
Definition peek (b : Board) : N := match bhist b with (m, _) :: _ => m | [] => 0 end.
(* push_pass, cshogi.h:178-181, _cshogi.pyx:555-562: asserts that the side to move is not in check: None *)
Definition pushPass (b : Board) : option Board :=
  if inCheck (bpos b) then None
  else Some (mkBoard (fst (doNull (bpos b))) ((MoveNull, Some (snd (doNull (bpos b)))) :: bhist b)).
(* pop_pass, cshogi.h:182-185, _cshogi.pyx:564-566.  On an empty history: undefined behaviour, None.
   pop_pass of an entry that is not a pass is not modelled: None. *)
Definition popPass (b : Board) : option Board :=
  match bhist b with
  | (_, Some backup) :: h => Some (mkBoard (undoNull (bpos b) backup) h)
  | _ => None
  end.
(* get_history, cshogi.h:187-194: oldest first *)
Definition getHistory (b : Board) : list N := rev (map fst (bhist b)).
(* set_pieces, cshogi.h:136-139, _cshogi.pyx:406-442 *)
Definition boardSetPieces (z : Zob) (b : Board) (pieces : list N) (inHand : list (list N)) : Board :=
  mkBoard (setPieces z (bpos b) pieces inHand) [].
(* the turn setter, cshogi.h:230, _cshogi.pyx:742-750 *)
Definition boardSetTurn (z : Zob) (b : Board) (c : N) : Board := mkBoard (setTurn z (bpos b) c) (bhist b).

(* the calls a client makes on a board *)
Inductive op := Push (m : N) | Pop | PushPass | PopPass.
Definition step (z : Zob) (b : Board) (o : op) : option Board :=
  match o with
  | Push m => Some (push z b m)
  | Pop => option_map fst (pop b)
  | PushPass => pushPass b
  | PopPass => popPass b
  end.
Fixpoint run (z : Zob) (b : Board) (l : list op) : option Board :=
  match l with
  | [] => Some b
  | o :: l => match step z b o with Some b' => run z b' l | None => None end
  end.

(* the position described by the arrays given to set_pieces *)
Definition array_position (pieces : list N) (inHand : list (list N)) (c : N) : position :=
  mkPosition (fun s => if on_boardb s then pieceN (nthN 0 pieces (nsquare s)) else None)
             (fun c k => match handSlot k with Some hp => Z.of_N (nthN 0 (nthN [] inHand (ncolor c)) hp) | None => 0%Z end)
             (colorN c).

(* the call that performs an event on the current board; a move is passed by its code *)
Definition callOf (b : Board) (e : event) : op :=
  match e with
  | Play m => Push (code (bpos b) m)
  | Unplay => Pop
  | Pass => PushPass
  | Unpass => PopPass
  end.
Fixpoint calls (z : Zob) (b : Board) (es : list event) : option Board :=
  match es with
  | [] => Some b
  | e :: es => match step z b (callOf b e) with Some b' => calls z b' es | None => None end
  end.
(* the board reached by a line without taking anything back *)
Fixpoint replay (z : Zob) (b0 : Board) (line : list (option move)) : Board :=
  match line with
  | [] => b0
  | Some m :: line => let b := replay z b0 line in push z b (code (bpos b) m)
  | None :: line => let b := replay z b0 line in
                    mkBoard (fst (doNull (bpos b))) ((MoveNull, Some (snd (doNull (bpos b)))) :: bhist b)
  end.

(* bbToVector and pieces(), cshogi.h:271-304, 499-505 (bbToVector): black's fourteen piece types in the
   order of the enum, then white's *)
Definition bbToVector (bb : BB) (pc : N) (bd : list N) : list N := fold_left (fun l sq => updN l sq pc) (bbList bb) bd.
Definition allPieces : list (N * N) := map (pair 0) (seqN 1 14) ++ map (pair 1) (seqN 1 14).
Definition piecesList (p : Position) : list N :=
  fold_left (fun bd x => bbToVector (bbTC p (snd x) (fst x)) (mkPiece (fst x) (snd x)) bd) allPieces (repeat 0 81).
(* pieces_in_hand(color), cshogi.h:264-269, and the Python property returning both sides *)
Definition piecesInHand (p : Position) (c : N) : list N := map (numOfT (handOf p c)) (seqN 0 7).
