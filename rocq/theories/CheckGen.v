(* Model of the generator of checking moves, /repo/src/generateMoves.cpp:750-814 and 1650-2136, its tables
   (/repo/src/init.cpp:330-390) and Position::checkMoveIsEvasion (position.cpp:318-350).  No proofs.
   As in Gen.v a generated list is a list of move codes in the order in which they are written. *)
From Verif Require Export Mate1.
Local Open Scope N_scope.

(* initCheckTable, init.cpp:248-390: pawn, bishop and horse; the other tables are in Mate1.v *)
Definition pawnCheckTable (c sq : N) : BB :=
  let o := opp c in
  bbAndNot (bbOr (unionOver (pawnAttack o) (pawnAttack o sq)) (unionOver (pawnAttack o) (bbAnd (goldAttack o sq) (tRank123 c)))) (setMaskBB sq).
Definition bishopCheckTable (c sq : N) : BB :=
  let around := fun s => bishopAttack s allZeroBB in
  bbAndNot (bbOr (bbOr (unionOver around (bishopAttack sq allZeroBB)) (unionOver around (bbAnd (kingAttack sq) (tRank123 c))))
                 (unionOver (fun s => bbAnd (around s) (tRank123 c)) (kingAttack sq))) (setMaskBB sq).
Definition horseCheckTable (sq : N) : BB :=
  bbAndNot (unionOver (fun s => horseAttack s allZeroBB) (horseAttack sq allZeroBB)) (setMaskBB sq).

(* generatCheckMoves<US, true>, generateMoves.cpp:751-814: every way to make the move from -> to *)
Definition generatCheckMoves (p : Position) (pt from to : N) : list N :=
  let us := turn p in
  let pro := makePromoteMove p pt from to in
  let non := makeNonPromoteMove p pt from to in
  match pt with
  | 1 | 2 => if canPromote us to then pro :: (if isBehind us 0 8 (makeRank to) then [non] else []) else [non]
  | 3 => if canPromote us to then pro :: (if isBehind us 1 7 (makeRank to) then [non] else []) else [non]
  | 4 => (if canPromote us to || canPromote us from then [pro] else []) ++ [non]
  | 5 | 6 => if canPromote us to || canPromote us from then [pro; non] else [non]
  | _ => [non]
  end.
(* x, :1679-1689: the pieces that may check directly *)
Definition directBB (p : Position) : BB :=
  let us := turn p in
  let ksq := kingSquare p (opp us) in
  bbAnd (bbOr (bbOr (bbOr (bbOr (bbOr (bbOr (bbOr
    (bbAnd (bbT p Pawn) (pawnCheckTable us ksq)) (bbAnd (bbT p Lance) (lanceCheckTable us ksq)))
    (bbAnd (bbT p Knight) (knightCheckTable us ksq))) (bbAnd (bbT p Silver) (silverCheckTable us ksq)))
    (bbAnd (golds p) (goldCheckTable us ksq))) (bbAnd (bbT p Bishop) (bishopCheckTable us ksq)))
    (bbT2 p Rook Dragon)) (bbAnd (bbT p Horse) (horseCheckTable ksq))) (bbC p us).
(* :1711-1782: a piece that uncovers a check but stays on the line may still check directly.  The cases the
   code excludes by assert(false) give nothing. *)
Definition alignedCheck (p : Position) (pt from to : N) : list N :=
  let us := turn p in
  let ksq := kingSquare p (opp us) in
  let pro := makePromoteMove p pt from to in
  let non := makeNonPromoteMove p pt from to in
  match pt with
  | 1 => if isSet (pawnAttack us from) to then (if canPromote us to then [pro; non] else [non]) else []
  | 4 => (if isSet (bbAnd (silverAttack (opp us) ksq) (silverAttack us from)) to then [non] else []) ++
         (if isSet (bbAnd (goldAttack (opp us) ksq) (silverAttack us from)) to then (if canPromote us to || canPromote us from then [pro] else []) else [])
  | 7 | 9 | 10 | 11 | 12 => if isSet (bbAnd (goldAttack (opp us) ksq) (goldAttack us from)) to then [non] else []
  | 13 => if isSet (bbAnd (horseAttack ksq (occBB p)) (horseAttack from (occBB p))) to then [non] else []
  | 14 => if isSet (bbAnd (dragonAttack ksq (occBB p)) (dragonAttack from (occBB p))) to then [non] else []
  | _ => []
  end.
(* :1698-1784 *)
Definition discoveredMoves (p : Position) (from : N) : list N :=
  let us := turn p in
  let ksq := kingSquare p (opp us) in
  let pt := ptOf (pieceAt p from) in
  flat_map (fun to =>
    if negb (isAligned from to ksq) then generatCheckMoves p pt from to
    else if isSet (directBB p) from then alignedCheck p pt from to else [])
    (bbList (bbAnd (attacksFrom pt us from (occBB p)) (bbNot (bbC p us)))).
(* the only piece between from and the king, if it is an enemy: :1829-1831 and its repetitions *)
Definition soleEnemy (p : Position) (from ksq : N) : list N :=
  let dstBB := bbAnd (betweenBB from ksq) (occBB p) in
  if isOneBit_merged dstBB && isAny (bbAnd dstBB (bbC p (opp (turn p)))) then firstn 1 (bbList dstBB) else [].
(* abs(a - b) *)
Definition absDiff (a b : N) : N := (a - b) + (b - a).
Definition sameDiag (a b : N) : bool := absDiff (makeFile a) (makeFile b) =? absDiff (makeRank a) (makeRank b).
Definition sameLine (a b : N) : bool := (makeFile a =? makeFile b) || (makeRank a =? makeRank b).
(* :1786-2014: the direct checks of the piece on from *)
Definition directMoves (p : Position) (from : N) : list N :=
  let us := turn p in
  let them := opp us in
  let ksq := kingSquare p them in
  let occ := occBB p in
  let target := bbNot (bbC p us) in
  let pt := ptOf (pieceAt p from) in
  let pro := makePromoteMove p pt from in
  let non := makeNonPromoteMove p pt from in
  let zone := fun to => canPromote us to || canPromote us from in
  match pt with
  | 1 => flat_map (fun to => if canPromote us to then pro to :: (if isSet (pawnAttack them ksq) to then [non to] else []) else [non to])
           (bbList (bbAnd (pawnAttack us from) target))
  | 2 => if negb (makeFile ksq =? makeFile from)
         then flat_map (fun to => if canPromote us to then [pro to] else [])
                (bbList (bbAnd (bbAnd (goldAttack them ksq) (lanceAttack us from occ)) target))
         else flat_map (fun to => if isSet (pawnAttack them ksq) to && canPromote us to then [pro to; non to] else [non to]) (soleEnemy p from ksq)
  | 3 => map non (bbList (bbAnd (bbAnd (knightAttack them ksq) (knightAttack us from)) target)) ++
         flat_map (fun to => if canPromote us to then [pro to] else []) (bbList (bbAnd (bbAnd (goldAttack them ksq) (knightAttack us from)) target))
  | 4 => map non (bbList (bbAnd (bbAnd (silverAttack them ksq) (silverAttack us from)) target)) ++
         flat_map (fun to => if zone to then [pro to] else []) (bbList (bbAnd (bbAnd (goldAttack them ksq) (silverAttack us from)) target))
  | 7 | 9 | 10 | 11 | 12 => map non (bbList (bbAnd (bbAnd (goldAttack them ksq) (goldAttack us from)) target))
  | 5 => if negb (sameDiag ksq from)
         then flat_map (fun to => if zone to then pro to :: (if isSet (bishopAttack ksq occ) to then [non to] else [])
                                  else if isSet (bishopAttack ksq occ) to then [non to] else [])
                (bbList (bbAnd (bbAnd (horseAttack ksq occ) (bishopAttack from occ)) target))
         else flat_map (fun to => if zone to then [pro to; non to] else [non to]) (soleEnemy p from ksq)
  | 6 => if negb (sameLine ksq from)
         then flat_map (fun to => if zone to then pro to :: (if isSet (rookAttack ksq occ) to then [non to] else [])
                                  else if isSet (rookAttack ksq occ) to then [non to] else [])
                (bbList (bbAnd (bbAnd (dragonAttack ksq occ) (rookAttack from occ)) target))
         else flat_map (fun to => if zone to then [pro to; non to] else [non to]) (soleEnemy p from ksq)
  | 13 => if negb (sameDiag ksq from)
          then map non (bbList (bbAnd (bbAnd (horseAttack ksq occ) (horseAttack from occ)) target))
          else map non (soleEnemy p from ksq)
  | 14 => if negb (sameLine ksq from)
          then map non (bbList (bbAnd (bbAnd (dragonAttack ksq occ) (dragonAttack from occ)) target))
          else let dstBB := bbAnd (betweenBB from ksq) occ in
               let toBB := bbAnd (bbAnd (kingAttack ksq) (kingAttack from)) target in
               map non (bbList (if isOneBit_merged dstBB && isAny (bbAnd dstBB (bbC p them)) then bbOr toBB dstBB else toBB))
  | _ => []
  end.
(* :2029-2066: pawn drops *)
Definition pawnCheckDrops (p : Position) : list N :=
  let us := turn p in
  let ksq := kingSquare p (opp us) in
  let toBB := fold_left (fun bb sq => bbAndNot bb (squareFileMask sq)) (bbList (bbTC p Pawn us)) (bbAnd (nOccupiedBB p) (pawnAttack (opp us) ksq)) in
  let chkSq := if us =? Black then ksq + 1 else ksq - 1 in
  let special := negb (makeRank ksq =? (if us =? Black then 8 else 0)) && (isSet toBB chkSq && (pieceAt p chkSq =? Empty)) in
  (if special && negb (isPawnDropCheckMate p us chkSq) then [makeDropMove Pawn chkSq] else [])
  ++ map (makeDropMove Pawn) (bbList (if special then xorBit toBB chkSq else toBB)).
(* :2024-2120: drops that check *)
Definition checkDrops (p : Position) : list N :=
  let us := turn p in
  let them := opp us in
  let ksq := kingSquare p them in
  let have := handExists (handOf p us) in
  let drop := fun hp pt bb => if have hp then map (makeDropMove pt) (bbList (bbAnd (nOccupiedBB p) bb)) else [] in
  (if have 0 then pawnCheckDrops p else [])
  ++ drop 1 Lance (lanceAttack them ksq (occBB p)) ++ drop 2 Knight (knightAttack them ksq) ++ drop 3 Silver (silverAttack them ksq)
  ++ drop 4 Gold (goldAttack them ksq) ++ drop 5 Bishop (bishopAttack ksq (occBB p)) ++ drop 6 Rook (rookAttack ksq (occBB p)).
(* GenerateMoves<CheckAll>, :1651-2136 *)
Definition genCheckAll (p : Position) : list N :=
  let x := directBB p in
  let y := discoveredCheckBB true p in
  removeIllegal p (flat_map (discoveredMoves p) (bbList y) ++ flat_map (directMoves p) (bbList (bbXor (bbOr x y) y)))
  ++ checkDrops p.
(* checkMoveIsEvasion, position.cpp:318-350.  "firstOneFromSQ11" takes the first checker out of target; the
   test that follows asks for another one. *)
Definition checkMoveIsEvasion (p : Position) (m : N) : bool :=
  let us := turn p in
  if mvPtFrom m =? King then negb (attackersToIsAny p (opp us) (mvTo m) (clearBit (occBB p) (mvFrom m)))
  else match bbList (checkers p) with
       | [c] => isSet (bbOr (betweenBB c (kingSquare p us)) (checkers p)) (mvTo m)
       | _ => false
       end.
