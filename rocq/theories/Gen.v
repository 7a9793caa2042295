(* Model of the move generator, /repo/src/generateMoves.cpp:198-748 and generateMoves.hpp:93-110.
   A generated list is a list of move codes in the order in which they are written.
   With no king of a colour, kingSquare is 81: the C++ code then reads tables one past their end
   (KingAttack, SquareToRank); the model returns some value, and the theorems assume both kings. *)
From Verif Require Export Position.
Local Open Scope N_scope.

(* makeCaptureMove, move.hpp:163-165; capturedPieceType2Move, move.hpp:155-161 *)
Definition makeCaptureMove (p : Position) (pt from to : N) : N := N.lor (captured2Move (ptOf (pieceAt p to))) (makeMove pt from to).
(* makePromoteMove<MT>, makeNonPromoteMove<MT> for MT = NonEvasion, Evasion, Capture, generateMoves.hpp:93-110 *)
Definition makePromoteMove (p : Position) (pt from to : N) : N := N.lor (makeCaptureMove p pt from to) PromoteFlag.
Definition makeNonPromoteMove (p : Position) (pt from to : N) : N := makeCaptureMove p pt from to.
(* isBehind, square.hpp:95-96 *)
Definition isBehind (us brank wrank r : N) : bool := if us =? Black then brank <? r else r <? wrank.

(* The template parameters MT and ALL matter to the piece generators only through nonPro, which stands
   for MT == NonEvasion || ALL. *)
(* generateBishopOrRookMoves, generateMoves.cpp:196-219 *)
Definition genBishopRook (nonPro : bool) (pt : N) (p : Position) (target : BB) : list N :=
  let us := turn p in
  flat_map (fun from =>
    flat_map (fun to =>
      if canPromote us from || canPromote us to
      then makePromoteMove p pt from to :: (if nonPro then [makeNonPromoteMove p pt from to] else [])
      else [makeNonPromoteMove p pt from to])
      (bbList (bbAnd (attacksFrom pt us from (occBB p)) target)))
    (bbList (bbTC p pt us)).
(* GeneratePieceMoves<GoldHorseDragon>, :329-345 *)
Definition genGoldHorseDragon (p : Position) (target : BB) : list N :=
  let us := turn p in
  flat_map (fun from =>
    let pt := ptOf (pieceAt p from) in
    map (makeNonPromoteMove p pt from) (bbList (bbAnd (attacksFrom pt us from (occBB p)) target)))
    (bbList (bbAnd (bbOr (golds p) (bbT2 p Horse Dragon)) (bbC p us))).
(* GeneratePieceMoves<Pawn>, :347-385 *)
Definition genPawn (nonPro : bool) (p : Position) (target : BB) : list N :=
  let us := turn p in
  let tRank123BB := inFrontMask us (if us =? Black then 3 else 5) in
  let behind := fun to => if us =? Black then to + 1 else to - 1 in
  let toBB := bbAnd (pawnAttackBB us (bbTC p Pawn us)) target in
  let toOn123BB := bbAnd toBB tRank123BB in
  let rest := if isAny toOn123BB then bbAndNot toBB tRank123BB else toBB in
  flat_map (fun to =>
    makePromoteMove p Pawn (behind to) to ::
    (if nonPro then if negb (makeRank to =? (if us =? Black then 0 else 8)) then [makeNonPromoteMove p Pawn (behind to) to] else [] else []))
    (bbList toOn123BB)
  ++ map (fun to => makeNonPromoteMove p Pawn (behind to) to) (bbList rest).
(* GeneratePieceMoves<Lance>, :387-416 *)
Definition genLance (nonPro : bool) (p : Position) (target : BB) : list N :=
  let us := turn p in
  flat_map (fun from =>
    flat_map (fun to =>
      if canPromote us to
      then makePromoteMove p Lance from to ::
           (if nonPro then if isBehind us 0 8 (makeRank to) then [makeNonPromoteMove p Lance from to] else []
            else if isBehind us 1 7 (makeRank to) then [makeNonPromoteMove p Lance from to] else [])
      else [makeNonPromoteMove p Lance from to])
      (bbList (bbAnd (attacksFrom Lance us from (occBB p)) target)))
    (bbList (bbTC p Lance us)).
(* GeneratePieceMoves<Knight>, :418-437 *)
Definition genKnight (p : Position) (target : BB) : list N :=
  let us := turn p in
  flat_map (fun from =>
    flat_map (fun to =>
      if canPromote us to
      then makePromoteMove p Knight from to :: (if isBehind us 1 7 (makeRank to) then [makeNonPromoteMove p Knight from to] else [])
      else [makeNonPromoteMove p Knight from to])
      (bbList (bbAnd (attacksFrom Knight us from (occBB p)) target)))
    (bbList (bbTC p Knight us)).
(* GeneratePieceMoves<Silver>, :439-455 *)
Definition genSilver (p : Position) (target : BB) : list N :=
  let us := turn p in
  flat_map (fun from =>
    flat_map (fun to =>
      (if canPromote us from || canPromote us to then [makePromoteMove p Silver from to] else [])
      ++ [makeNonPromoteMove p Silver from to])
      (bbList (bbAnd (attacksFrom Silver us from (occBB p)) target)))
    (bbList (bbTC p Silver us)).
(* GeneratePieceMoves<King>, :468-478 *)
Definition genKing (p : Position) (target : BB) : list N :=
  let from := kingSquare p (turn p) in
  map (makeNonPromoteMove p King from) (bbList (bbAnd (kingAttack from) target)).

(* generateDropMoves, :225-326.  The file masks of the pawns are cleared one by one; a file lies in one
   word of the bitboard, so clearing that word (as the code does) is clearing the mask. *)
Definition genPawnDrops (p : Position) (target : BB) : list N :=
  let us := turn p in
  let noLast := bbAndNot target (rankMask (if us =? Black then 0 else 8)) in
  let toBB := fold_left (fun bb sq => bbAndNot bb (squareFileMask sq)) (bbList (bbTC p Pawn us)) noLast in
  let ksq := kingSquare p (opp us) in
  let chkSq := if us =? Black then ksq + 1 else ksq - 1 in
  let special := negb (makeRank ksq =? (if us =? Black then 8 else 0)) && (isSet toBB chkSq && (pieceAt p chkSq =? Empty)) in
  (if special && negb (isPawnDropCheckMate p us chkSq) then [makeDropMove Pawn chkSq] else [])
  ++ map (makeDropMove Pawn) (bbList (if special then xorBit toBB chkSq else toBB)).
Definition genOtherDrops (p : Position) (target : BB) : list N :=
  let us := turn p in
  let hand := handOf p us in
  let have := fun pt => if handExists hand (ptToHand pt) then [pt] else [] in
  let knights := have Knight in
  let lances := have Lance in
  let others := have Silver ++ have Gold ++ have Bishop ++ have Rook in
  let rank2BB := rankMask (if us =? Black then 1 else 7) in
  let rank1BB := rankMask (if us =? Black then 0 else 8) in
  let drops := fun pts bb => flat_map (fun to => map (fun pt => makeDropMove pt to) pts) (bbList bb) in
  drops others (bbAnd target rank1BB) ++ drops (lances ++ others) (bbAnd target rank2BB)
  ++ drops (knights ++ lances ++ others) (bbAnd target (bbNot (bbOr rank2BB rank1BB))).
Definition genDrops (p : Position) (target : BB) : list N :=
  let hand := handOf p (turn p) in
  (if handExists hand 0 then genPawnDrops p target else []) ++ (if exceptPawnExists hand then genOtherDrops p target else []).

(* the seven piece generators in the order of :642-648 and :680-686 *)
Definition genPieces (nonPro : bool) (p : Position) (target : BB) : list N :=
  genPawn nonPro p target ++ genLance nonPro p target ++ genKnight p target ++ genSilver p target
  ++ genBishopRook nonPro Bishop p target ++ genBishopRook nonPro Rook p target ++ genGoldHorseDragon p target.
(* GenerateMoves<NonEvasion>, :671-690 *)
Definition genNonEvasion (p : Position) : list N :=
  let target := bbOr (emptyBB p) (bbC p (opp (turn p))) in
  genDrops p (emptyBB p) ++ genPieces true p target ++ genKing p target.

(* horseAttackToEdge, dragonAttackToEdge, bitboard.hpp:713-716 *)
Definition horseAttackToEdge (sq : N) : BB := bbOr (bishopAttackToEdge sq) (kingAttack sq).
Definition dragonAttackToEdge (sq : N) : BB := bbOr (rookAttackToEdge sq) (kingAttack sq).
(* makeBannedKingTo, generateMoves.cpp:556-606 *)
Definition bannedBy (p : Position) (them checkSq ksq : N) : BB :=
  match ptOf (pieceAt p checkSq) with
  | 2 => lanceAttackToEdge them checkSq
  | 4 => silverAttack them checkSq
  | 7 | 9 | 10 | 11 | 12 => goldAttack them checkSq
  | 5 => bishopAttackToEdge checkSq
  | 13 => horseAttackToEdge checkSq
  | 6 => rookAttackToEdge checkSq
  | 14 => if negb (N.land (squareRelation checkSq ksq) DirecDiag =? 0) then dragonAttack checkSq (occBB p) else dragonAttackToEdge checkSq
  | _ => allZeroBB
  end.
(* GenerateMoves<Evasion, US, ALL>, :613-665 *)
Definition genEvasion (all : bool) (p : Position) : list N :=
  let us := turn p in
  let them := opp us in
  let ksq := kingSquare p us in
  let chks := bbList (checkers p) in
  let banned := fold_left (fun bb sq => bbOr bb (bannedBy p them sq ksq)) chks allZeroBB in
  let kingTo := bbNotThisAnd banned (bbNotThisAnd (bbC p us) (kingAttack ksq)) in
  let kings := map (makeNonPromoteMove p King ksq) (bbList kingTo) in
  if 1 <? N.of_nat (length chks) then kings
  else
    let checkSq := last chks 0 in
    let target1 := betweenBB checkSq ksq in
    let target2 := bbOr target1 (checkers p) in
    kings ++ genPieces all p target2 ++ (if isAny target1 then genDrops p target1 else []).

(* the loop that removes illegal moves, :703-709, 725-731: a removed entry is overwritten by the last one *)
Fixpoint removeLoop (keep : N -> bool) (fuel : nat) (l : list N) : list N :=
  match fuel, l with
  | S n, m :: r => if keep m then m :: removeLoop keep n r
                   else match r with [] => [] | _ => removeLoop keep n (last r 0 :: removelast r) end
  | _, _ => []
  end.
Definition removeIllegal (p : Position) (l : list N) : list N :=
  let pinned := pinnedBB p in
  removeLoop (fun m => pseudoLegalMoveIsLegal false p m pinned) (length l) l.
(* GenerateMoves<Legal>, <LegalAll>, <PseudoLegal>, :695-748 *)
Definition genLegal (p : Position) : list N := removeIllegal p (if inCheck p then genEvasion false p else genNonEvasion p).
Definition genLegalAll (p : Position) : list N := removeIllegal p (if inCheck p then genEvasion true p else genNonEvasion p).
Definition genPseudoLegal (p : Position) : list N := if inCheck p then genEvasion true p else genNonEvasion p.
(* board.legal_moves (__LegalMoveList, cshogi.h:698-713) and is_game_over (cshogi.h:196-199) *)
Definition legalMoves (p : Position) : list N := genLegalAll p.
Definition isGameOver (p : Position) : bool := N.of_nat (length (genLegalAll p)) =? 0.
