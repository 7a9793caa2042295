(* Model of class Position: /repo/src/position.hpp and /repo/src/position.cpp.
   Arrays are lists, a bitboard is a BB, enums and unsigned words are N.
   `assert`s are compiled out of the shipped extension and are not modelled. *)
From Verif Require Export Types.

(* StateInfo, position.hpp:53-69.  The `previous` pointer is modelled by the list `prev` of
   Position below; the two counters are the C++ array continuousCheck[2].  int counters never
   become negative, so they are N (no 2^31 overflow is modelled). *)
Record StateInfo := mkSt {
  pliesFromNull : N;
  contCheck : list N;
  boardKey : N;
  handKey : N;
  checkersBB : BB;
  stHand : N
}.

(* Position, position.hpp:532-546.  st = *st_, prev = the chain of st_->previous, nearest first. *)
Record Position := mkPos {
  byType : list BB;
  byColor : list BB;
  golds : BB;
  board : list N;
  kingSq : list N;
  hands : list N;
  turn : N;
  gamePly : Z;
  st : StateInfo;
  prev : list StateInfo
}.

(* bbOf, position.hpp:264-281 *)
Definition bbT (p : Position) (pt : N) : BB := nthN allZeroBB (byType p) pt.
Definition bbC (p : Position) (c : N) : BB := nthN allZeroBB (byColor p) c.
Definition bbTC (p : Position) (pt c : N) : BB := bbAnd (bbT p pt) (bbC p c).
Definition bbT2 (p : Position) (a b : N) : BB := bbOr (bbT p a) (bbT p b).
Definition bbT3 (p : Position) (a b c : N) : BB := bbOr (bbT2 p a b) (bbT p c).
Definition bbT5 (p : Position) (a b c d e : N) : BB := bbOr (bbOr (bbT3 p a b c) (bbT p d)) (bbT p e).
Definition occBB (p : Position) : BB := bbT p Occupied.
(* emptyBB, position.hpp:287 *)
Definition emptyBB (p : Position) : BB := bbXor (occBB p) allOneBB.
Definition pieceAt (p : Position) (sq : N) : N := nthN 0 (board p) sq.
Definition handOf (p : Position) (c : N) : N := nthN 0 (hands p) c.
(* kingSquare, position.hpp:327-331 *)
Definition kingSquare (p : Position) (c : N) : N := nthN 0 (kingSq p) c.
(* checkersBB(), inCheck(), position.hpp:322-325 *)
Definition checkers (p : Position) : BB := checkersBB (st p).
Definition inCheck (p : Position) : bool := isAny (checkers p).

(* attacksFrom(pt, c, sq, occupied), position.cpp:239-258.  pt > 14 is UNREACHABLE in C++. *)
Definition attacksFrom (pt c sq : N) (occ : BB) : BB :=
  if pt =? Occupied then allZeroBB
  else if pt =? Pawn then pawnAttack c sq
  else if pt =? Lance then lanceAttack c sq occ
  else if pt =? Knight then knightAttack c sq
  else if pt =? Silver then silverAttack c sq
  else if pt =? Bishop then bishopAttack sq occ
  else if pt =? Rook then rookAttack sq occ
  else if (pt =? Gold) || (pt =? ProPawn) || (pt =? ProLance) || (pt =? ProKnight) || (pt =? ProSilver)
       then goldAttack c sq
  else if pt =? King then kingAttack sq
  else if pt =? Horse then horseAttack sq occ
  else if pt =? Dragon then dragonAttack sq occ
  else allOneBB.

(* attackersTo(sq, occupied), position.cpp:3836-3853 *)
Definition attackersToAll (p : Position) (sq : N) (occ : BB) : BB :=
  bbOr (bbOr (bbOr (bbOr
    (bbAnd (bbOr (bbOr (bbOr (bbOr
       (bbAnd (pawnAttack Black sq) (bbT p Pawn))
       (bbAnd (lanceAttack Black sq occ) (bbT p Lance)))
       (bbAnd (knightAttack Black sq) (bbT p Knight)))
       (bbAnd (silverAttack Black sq) (bbT p Silver)))
       (bbAnd (goldAttack Black sq) (golds p))) (bbC p White))
    (bbAnd (bbOr (bbOr (bbOr (bbOr
       (bbAnd (pawnAttack White sq) (bbT p Pawn))
       (bbAnd (lanceAttack White sq occ) (bbT p Lance)))
       (bbAnd (knightAttack White sq) (bbT p Knight)))
       (bbAnd (silverAttack White sq) (bbT p Silver)))
       (bbAnd (goldAttack White sq) (golds p))) (bbC p Black)))
    (bbAnd (bishopAttack sq occ) (bbT2 p Bishop Horse)))
    (bbAnd (rookAttack sq occ) (bbT2 p Rook Dragon)))
    (bbAnd (kingAttack sq) (bbT3 p King Horse Dragon)).

(* attackersTo(c, sq, occupied), position.cpp:3856-3866 *)
Definition attackersTo (p : Position) (c sq : N) (occ : BB) : BB :=
  let o := opp c in
  bbAnd (bbOr (bbOr (bbOr (bbOr (bbOr (bbOr
    (bbAnd (pawnAttack o sq) (bbT p Pawn))
    (bbAnd (lanceAttack o sq occ) (bbT p Lance)))
    (bbAnd (knightAttack o sq) (bbT p Knight)))
    (bbAnd (silverAttack o sq) (bbT3 p Silver King Dragon)))
    (bbAnd (goldAttack o sq) (bbOr (bbT2 p King Horse) (golds p))))
    (bbAnd (bishopAttack sq occ) (bbT2 p Bishop Horse)))
    (bbAnd (rookAttack sq occ) (bbT2 p Rook Dragon))) (bbC p c).

(* attackersToExceptKing, position.cpp:3869-3879 *)
Definition attackersToExceptKing (p : Position) (c sq : N) : BB :=
  let o := opp c in
  let occ := occBB p in
  bbAnd (bbOr (bbOr (bbOr (bbOr (bbOr (bbOr
    (bbAnd (pawnAttack o sq) (bbT p Pawn))
    (bbAnd (lanceAttack o sq occ) (bbT p Lance)))
    (bbAnd (knightAttack o sq) (bbT p Knight)))
    (bbAnd (silverAttack o sq) (bbT2 p Silver Dragon)))
    (bbAnd (goldAttack o sq) (bbOr (golds p) (bbT p Horse))))
    (bbAnd (bishopAttack sq occ) (bbT2 p Bishop Horse)))
    (bbAnd (rookAttack sq occ) (bbT2 p Rook Dragon))) (bbC p c).

(* attackersToIsAny, position.hpp:343-346 *)
Definition attackersToIsAny (p : Position) (c sq : N) (occ : BB) : bool := isAny (attackersTo p c sq occ).

(* hiddenCheckers<FindPinned, BetweenIsUs>, position.hpp:486-518.  The while loop over pinners is a
   fold over the squares of the bitboard in scanning order. *)
Definition hiddenCheckers (findPinned betweenIsUs : bool) (p : Position) : BB :=
  let us := turn p in
  let them := opp us in
  let pin := bbC p (if findPinned then them else us) in
  let kc := if findPinned then us else them in
  let ksq := kingSquare p kc in
  if negb (isInSquare ksq) then allZeroBB
  else
    let pinners := bbAnd pin (bbOr (bbOr (bbAnd (bbT p Lance) (lanceAttackToEdge kc ksq))
                                         (bbAnd (bbT2 p Rook Dragon) (rookAttackToEdge ksq)))
                                   (bbAnd (bbT2 p Bishop Horse) (bishopAttackToEdge ksq))) in
    fold_left (fun result sq =>
      let between := bbAnd (betweenBB sq ksq) (occBB p) in
      if isAny between && isOneBit_merged between
         && andIsAny between (bbC p (if betweenIsUs then us else them))
      then bbOr result between else result) (bbList pinners) allZeroBB.
(* pinnedBB, discoveredCheckBB, position.hpp:299-304 *)
Definition pinnedBB (p : Position) : BB := hiddenCheckers true true p.
Definition discoveredCheckBB (betweenIsUs : bool) (p : Position) : BB := hiddenCheckers false betweenIsUs p.

(* CheckInfo, position.cpp:207-237 *)
Record CheckInfo := mkCI { ciPinned : BB; ciDc : BB; ciCheck : list BB }.
Definition checkInfo (p : Position) : CheckInfo :=
  let them := opp (turn p) in
  let ksq := kingSquare p them in
  let occ := occBB p in
  mkCI (pinnedBB p) (discoveredCheckBB true p)
    (if negb (isInSquare ksq) then repeat allZeroBB 15
     else
       let g := goldAttack them ksq in
       let b := bishopAttack ksq occ in
       let r := rookAttack ksq occ in
       let k := kingAttack ksq in
       [allZeroBB; pawnAttack them ksq; lanceAttack them ksq occ; knightAttack them ksq;
        silverAttack them ksq; b; r; g; allZeroBB; g; g; g; g; bbOr b k; bbOr r k]).
Definition checkBB (ci : CheckInfo) (pt : N) : BB := nthN allZeroBB (ciCheck ci) pt.

(* isPinnedIllegal<false>, isDiscoveredCheck<false>, position.hpp:311-320 *)
Definition isPinnedIllegal (from to ksq : N) (pinned : BB) : bool :=
  isSet pinned from && negb (isAligned from to ksq).
Definition isDiscoveredCheck (from to ksq : N) (dc : BB) : bool :=
  isSet dc from && negb (isAligned from to ksq).

(* moveGivesCheck, position.cpp:3798-3824 *)
Definition moveGivesCheck (p : Position) (m : N) (ci : CheckInfo) : bool :=
  let to := mvTo m in
  if mvDrop m then isSet (checkBB ci (mvPtDropped m)) to
  else
    let from := mvFrom m in
    isSet (checkBB ci (mvPtToOf m (mvPtFrom m))) to
    || isDiscoveredCheck from to (kingSquare p (opp (turn p))) (ciDc ci).

(* canPieceCapture (lazy dcBB), position.cpp:786-801 *)
Definition canPieceCapture (p : Position) (them sq : N) : bool :=
  let fromBB := attackersToExceptKing p them sq in
  if isAny fromBB then
    let ksq := kingSquare p them in
    let dc := discoveredCheckBB false p in
    existsb (fun from => negb (isDiscoveredCheck from sq ksq dc)) (bbList fromBB)
  else false.
(* isPawnDropCheckMate, position.cpp:807-833.  Simplification: the do-while would also run once on
   an empty kingMoveBB, which the comment at 823 excludes (the dropped pawn's square is free). *)
Definition isPawnDropCheckMate (p : Position) (us sq : N) : bool :=
  let them := opp us in
  if canPieceCapture p them sq then false
  else
    let ksq := kingSquare p them in
    let tempOcc := bbOr (occBB p) (setMaskBB sq) in
    let kingMoveBB := bbNotThisAnd (bbC p them) (kingAttack ksq) in
    forallb (fun to => attackersToIsAny p us to tempOcc) (bbList kingMoveBB).

(* pseudoLegalMoveIsLegal<false, FROMMUSTNOTKING>, position.cpp:266-284 *)
Definition pseudoLegalMoveIsLegal (fromMustNotKing : bool) (p : Position) (m : N) (pinned : BB) : bool :=
  if mvDrop m then true
  else
    let us := turn p in
    let from := mvFrom m in
    if negb fromMustNotKing && (ptOf (pieceAt p from) =? King) then
      negb (attackersToIsAny p (opp us) (mvTo m) (occBB p))
    else negb (isPinnedIllegal from (mvTo m) (kingSquare p us) pinned).

(* pseudoLegalMoveIsEvasion, position.cpp:290-315 *)
Definition pseudoLegalMoveIsEvasion (p : Position) (m : N) (pinned : BB) : bool :=
  if mvPtFrom m =? King then negb (attackersToIsAny p (opp (turn p)) (mvTo m) (occBB p))
  else
    let checkSq := firstSq (checkers p) in
    if isAny (dropFirst (checkers p)) then false
    else
      let target := bbOr (betweenBB checkSq (kingSquare p (turn p))) (checkers p) in
      isSet target (mvTo m) && pseudoLegalMoveIsLegal true p m pinned.

(* moveIsPseudoLegal<false>, position.cpp:354-464.  to + TDeltaN is computed in Z because the C++
   Square arithmetic may leave the board. *)
Definition moveIsPseudoLegal (p : Position) (m : N) : bool :=
  let us := turn p in
  let them := opp us in
  let to := mvTo m in
  if mvDrop m then
    let pt := mvPtDropped m in
    if negb (handExists (handOf p us) (ptToHand pt)) || negb (pieceAt p to =? Empty) then false
    else
      let evades :=
        if inCheck p then
          if isAny (dropFirst (checkers p)) then false
          else isSet (betweenBB (firstSq (checkers p)) (kingSquare p us)) to
        else true in
      if negb evades then false
      else if pt =? Pawn then
        if isAny (bbAnd (bbTC p Pawn us) (fileMask (makeFile to))) then false
        else negb (Z.eqb (Z.of_N to + (if us =? Black then (-1)%Z else 1%Z)) (Z.of_N (kingSquare p them))
                   && isPawnDropCheckMate p us to)
      else true
  else
    let from := mvFrom m in
    let pt := mvPtFrom m in
    if negb (pieceAt p from =? mkPiece us pt) || isSet (bbC p us) to then false
    else if negb (isSet (attacksFrom pt us from (occBB p)) to) then false
    else if inCheck p then
      if pt =? King then negb (attackersToIsAny p them to (clearBit (occBB p) from))
      else if isAny (dropFirst (checkers p)) then false
      else isSet (bbOr (betweenBB (firstSq (checkers p)) (kingSquare p us)) (checkers p)) to
    else true.

(* __Board::moveIsLegal, cshogi.h:254-260 (Python is_legal) *)
Definition boardMoveIsLegal (p : Position) (m : N) : bool :=
  moveIsPseudoLegal p m && pseudoLegalMoveIsLegal false p m (pinnedBB p).

(* ---- Zobrist keys ---- *)
(* zobrist_[pt][sq][c], zobHand_[hp][c], position.hpp:526-528,548-550; filled by initZobrist
   (position.cpp:2813-2827) with random words whose lowest bit is cleared. zobTurn_ = 1. *)
Record Zob := mkZob { zPiece : N -> N -> N -> N; zHand : N -> N -> N }.
Definition zobTurn : N := 1.

(* computeBoardKey, position.cpp:3210-3219 *)
Definition computeBoardKey (z : Zob) (p : Position) : N :=
  let r := fold_left (fun acc sq =>
    let pc := pieceAt p sq in
    if negb (pc =? Empty) then add64 acc (zPiece z (ptOf pc) sq (colorOf pc)) else acc) squares 0 in
  if turn p =? White then N.lxor r zobTurn else r.
(* computeHandKey, position.cpp:3221-3231 *)
Definition computeHandKey (z : Zob) (p : Position) : N :=
  fold_left (fun acc hp =>
    fold_left (fun acc c =>
      N.iter (numOf (handOf p c) hp) (fun a => add64 a (zHand z hp c)) acc) [Black; White] acc)
    [0; 1; 2; 3; 4; 5; 6] 0.
(* StateInfo::key, position.hpp:68 *)
Definition stKey (s : StateInfo) : N := add64 (boardKey s) (handKey s).
Definition getKey (p : Position) : N := stKey (st p).

(* getKeyAfter, position.cpp:2830-2884 *)
Definition getKeyAfter (z : Zob) (p : Position) (m : N) : N :=
  let us := turn p in
  let k := N.lxor (boardKey (st p)) zobTurn in
  let h := handKey (st p) in
  let to := mvTo m in
  if mvDrop m then
    let pt := mvPtDropped m in
    add64 (add64 k (zPiece z pt to us)) (sub64 h (zHand z (ptToHand pt) us))
  else
    let from := mvFrom m in
    let moved := pieceAt p from in
    let after := if mvPromo m then moved + 8 else moved in
    let topc := pieceAt p to in
    let k1 := if negb (topc =? Empty) then sub64 k (zPiece z (ptOf topc) to (colorOf topc)) else k in
    let h1 := if negb (topc =? Empty) then add64 h (zHand z (ptToHand (ptOf topc)) us) else h in
    let k2 := sub64 k1 (zPiece z (ptOf moved) from us) in
    let k3 := add64 k2 (zPiece z (ptOf after) to us) in
    add64 k3 h1.
(* getBoardKeyAfter, position.cpp:2887-2938 *)
Definition getBoardKeyAfter (z : Zob) (p : Position) (m : N) : N :=
  let us := turn p in
  let k := N.lxor (boardKey (st p)) zobTurn in
  let to := mvTo m in
  if mvDrop m then add64 k (zPiece z (mvPtDropped m) to us)
  else
    let from := mvFrom m in
    let moved := pieceAt p from in
    let after := if mvPromo m then moved + 8 else moved in
    let topc := pieceAt p to in
    let k1 := if negb (topc =? Empty) then sub64 k (zPiece z (ptOf topc) to (colorOf topc)) else k in
    add64 (sub64 k1 (zPiece z (ptOf moved) from us)) (zPiece z (ptOf after) to us).

(* ---- updating the position ---- *)
(* goldsBB_ = bbOf(Gold, ProPawn, ProLance, ProKnight, ProSilver), position.cpp:584,645 *)
Definition goldsOf (bt : list BB) : BB :=
  let g := fun pt => nthN allZeroBB bt pt in
  bbOr (bbOr (bbOr (bbOr (g Gold) (g ProPawn)) (g ProLance)) (g ProKnight)) (g ProSilver).
Definition xorAt (l : list BB) (i sq : N) : list BB := updN l i (xorBit (nthN allZeroBB l i) sq).
Definition setContCheck (cc : list N) (c : N) (isCheck : bool) : list N :=
  updN cc c (if isCheck then nthN 0 cc c + 2 else 0).

(* doMove(move, newSt, ci, moveIsCheck), position.cpp:482-594 *)
Definition doMoveCI (z : Zob) (p : Position) (m : N) (ci : CheckInfo) (moveIsCheck : bool) : Position :=
  let us := turn p in
  let them := opp us in
  let to := mvTo m in
  let bk0 := N.lxor (boardKey (st p)) zobTurn in
  let hk0 := handKey (st p) in
  let cc := setContCheck (contCheck (st p)) us moveIsCheck in
  if mvDrop m then
    let pt := mvPtDropped m in
    let hp := ptToHand pt in
    let hk := sub64 hk0 (zHand z hp us) in
    let bk := add64 bk0 (zPiece z pt to us) in
    let hd := updN (hands p) us (minusOne (handOf p us) hp) in
    let bt := xorAt (xorAt (byType p) Occupied to) pt to in
    let bc := xorAt (byColor p) us to in
    let bd := updN (board p) to (mkPiece us pt) in
    let chk := if moveIsCheck then setMaskBB to else allZeroBB in
    mkPos bt bc (goldsOf bt) bd (kingSq p) hd them (gamePly p + 1)%Z
      (mkSt (pliesFromNull (st p) + 1) cc bk hk chk (nthN 0 hd them)) (st p :: prev p)
  else
    let from := mvFrom m in
    let ptFrom := mvPtFrom m in
    let ptTo := mvPtToOf m ptFrom in
    let cap := mvCap m in
    let bt1 := xorAt (xorAt (byType p) ptFrom from) ptTo to in
    let bc1 := updN (byColor p) us (xorBit2 (bbC p us) from to) in
    let bd := updN (updN (board p) from Empty) to (mkPiece us ptTo) in
    let bk1 := add64 (sub64 bk0 (zPiece z ptFrom from us)) (zPiece z ptTo to us) in
    let captures := negb (cap =? 0) in
    let hp := ptToHand cap in
    let bk := if captures then sub64 bk1 (zPiece z cap to them) else bk1 in
    let hk := if captures then add64 hk0 (zHand z hp us) else hk0 in
    let bt2 := if captures then xorAt bt1 cap to else bt1 in
    let bc := if captures then xorAt bc1 them to else bc1 in
    let hd := if captures then updN (hands p) us (plusOne (handOf p us) hp) else hands p in
    let bt := updN bt2 Occupied (bbOr (nthN allZeroBB bc Black) (nthN allZeroBB bc White)) in
    let kq := if ptTo =? King then updN (kingSq p) us to else kingSq p in
    let occ := nthN allZeroBB bt Occupied in
    let ofUs := fun a b => bbAnd (bbOr (nthN allZeroBB bt a) (nthN allZeroBB bt b)) (nthN allZeroBB bc us) in
    let chk :=
      if moveIsCheck then
        let direct := bbAnd (checkBB ci ptTo) (setMaskBB to) in
        let ksq := nthN 0 kq them in
        if isDiscoveredCheck from to ksq (ciDc ci) then
          let rel := squareRelation from ksq in
          if rel =? DirecFile then bbOr direct (bbAnd (rookAttackFile from occ) (nthN allZeroBB bc us))
          else if rel =? DirecRank then bbOr direct (bbAnd (rookAttackRank ksq occ) (ofUs Rook Dragon))
          else if (rel =? DirecDiagNESW) || (rel =? DirecDiagNWSE) then
            bbOr direct (bbAnd (bishopAttack ksq occ) (ofUs Bishop Horse))
          else direct
        else direct
      else allZeroBB in
    mkPos bt bc (goldsOf bt) bd kq hd them (gamePly p + 1)%Z
      (mkSt (pliesFromNull (st p) + 1) cc bk hk chk (nthN 0 hd them)) (st p :: prev p).

(* doMove(move, newSt), position.cpp:476-479 *)
Definition doMove (z : Zob) (p : Position) (m : N) : Position :=
  let ci := checkInfo p in doMoveCI z p m ci (moveGivesCheck p m ci).

(* undoMove, position.cpp:596-654.  With an empty chain st_->previous would be a null pointer; the
   callers below never do that. *)
Definition undoMove (p : Position) (m : N) : Position :=
  let them := turn p in
  let us := opp them in
  let to := mvTo m in
  let st' := hd (st p) (prev p) in
  let pv' := tl (prev p) in
  if mvDrop m then
    let pt := mvPtDropped m in
    let bt1 := xorAt (byType p) pt to in
    let bc := xorAt (byColor p) us to in
    let bd := updN (board p) to Empty in
    let hd := updN (hands p) us (plusOne (handOf p us) (ptToHand pt)) in
    let bt := updN bt1 Occupied (bbOr (nthN allZeroBB bc Black) (nthN allZeroBB bc White)) in
    mkPos bt bc (goldsOf bt) bd (kingSq p) hd us (gamePly p - 1)%Z st' pv'
  else
    let from := mvFrom m in
    let ptFrom := mvPtFrom m in
    let ptTo := mvPtToOf m ptFrom in
    let cap := mvCap m in
    let kq := if ptTo =? King then updN (kingSq p) us from else kingSq p in
    let captures := negb (cap =? 0) in
    let bt1 := if captures then xorAt (byType p) cap to else byType p in
    let bc1 := if captures then xorAt (byColor p) them to else byColor p in
    let bd1 := updN (board p) to (if captures then mkPiece them cap else Empty) in
    let hd := if captures then updN (hands p) us (minusOne (handOf p us) (ptToHand cap)) else hands p in
    let bt2 := xorAt (xorAt bt1 ptFrom from) ptTo to in
    let bc := updN bc1 us (xorBit2 (nthN allZeroBB bc1 us) from to) in
    let bd := updN bd1 from (mkPiece us ptFrom) in
    let bt := updN bt2 Occupied (bbOr (nthN allZeroBB bc Black) (nthN allZeroBB bc White)) in
    mkPos bt bc (goldsOf bt) bd kq hd us (gamePly p - 1)%Z st' pv'.

(* doNullMove<true>(backUpSt), position.cpp:656-676: returns the position and the backup *)
Definition doNull (p : Position) : Position * StateInfo :=
  let s := st p in
  let backup := mkSt (pliesFromNull s) [0; 0] (boardKey s) (handKey s) allZeroBB (handOf p (turn p)) in
  let them := opp (turn p) in
  let s' := mkSt 0 (updN (contCheck s) them 0) (N.lxor (boardKey s) zobTurn) (handKey s) (checkersBB s)
                 (handOf p them) in
  (mkPos (byType p) (byColor p) (golds p) (board p) (kingSq p) (hands p) them (gamePly p) s' (prev p), backup).
(* doNullMove<false>(backUpSt) *)
Definition undoNull (p : Position) (backup : StateInfo) : Position :=
  let s := st p in
  let them := opp (turn p) in
  let s' := mkSt (pliesFromNull backup) (contCheck s) (boardKey backup) (handKey backup) (checkersBB s)
                 (handOf p them) in
  mkPos (byType p) (byColor p) (golds p) (board p) (kingSq p) (hands p) them (gamePly p) s' (prev p).

(* ---- building a position ---- *)
(* clear, position.cpp:3830-3833 *)
Definition clearSt : StateInfo := mkSt 0 [0; 0] 0 0 allZeroBB 0.
Definition clearPos : Position :=
  mkPos (repeat allZeroBB 15) (repeat allZeroBB 2) allZeroBB (repeat 0 81) [0; 0] [0; 0] 0 0%Z clearSt [].
(* setPiece, position.hpp:456-465 *)
Definition setPiece (p : Position) (pc sq : N) : Position :=
  let c := colorOf pc in
  let pt := ptOf pc in
  let bt1 := updN (byType p) pt (setBit (bbT p pt) sq) in
  let bc := updN (byColor p) c (setBit (bbC p c) sq) in
  let bt := updN bt1 Occupied (setBit (nthN allZeroBB bt1 Occupied) sq) in
  mkPos bt bc (golds p) (updN (board p) sq pc) (kingSq p) (hands p) (turn p) (gamePly p) (st p) (prev p).
(* setHand(hp, c, num), position.hpp:466 *)
Definition setHandN (p : Position) (hp c num : N) : Position :=
  mkPos (byType p) (byColor p) (golds p) (board p) (kingSq p)
        (updN (hands p) c (handOrEqual (handOf p c) num hp)) (turn p) (gamePly p) (st p) (prev p).
(* hand_[c].plusOne(hp), used by set_hcp/set_psfen, position.cpp:3477,3543 *)
Definition handPlusOne (p : Position) (c hp : N) : Position :=
  mkPos (byType p) (byColor p) (golds p) (board p) (kingSq p)
        (updN (hands p) c (plusOne (handOf p c) hp)) (turn p) (gamePly p) (st p) (prev p).
Definition setTurnField (p : Position) (c : N) : Position :=
  mkPos (byType p) (byColor p) (golds p) (board p) (kingSq p) (hands p) c (gamePly p) (st p) (prev p).
(* king_square_or_square_num, position.cpp:31-33 *)
Definition kingSquareOrNum (b : BB) : N := if isAny b then firstSq b else SquareNum.
(* the kingSquare_/goldsBB_ block shared by every setter, position.cpp:3359-3361, 3424-3426, ... *)
Definition setKingsGolds (p : Position) : Position :=
  mkPos (byType p) (byColor p) (bbT5 p Gold ProPawn ProLance ProKnight ProSilver) (board p)
        [kingSquareOrNum (bbTC p King Black); kingSquareOrNum (bbTC p King White)]
        (hands p) (turn p) (gamePly p) (st p) (prev p).
Definition setGamePly (p : Position) (n : Z) : Position :=
  mkPos (byType p) (byColor p) (golds p) (board p) (kingSq p) (hands p) (turn p) n (st p) (prev p).
(* findCheckers, position.hpp:476-479 *)
Definition findCheckersBB (p : Position) : BB :=
  let ksq := kingSquare p (turn p) in
  if isInSquare ksq then attackersToExceptKing p (opp (turn p)) ksq else allZeroBB.
(* st_->boardKey = ...; st_->handKey = ...; st_->hand = ...; findCheckers(): the tail shared by
   every setter (position.cpp:3394-3398 etc.) and by setTurn (position.hpp:395-403) *)
Definition refreshState (z : Zob) (p : Position) : Position :=
  mkPos (byType p) (byColor p) (golds p) (board p) (kingSq p) (hands p) (turn p) (gamePly p)
    (mkSt (pliesFromNull (st p)) (contCheck (st p)) (computeBoardKey z p) (computeHandKey z p)
          (findCheckersBB p) (handOf p (turn p))) (prev p).
(* setTurn, position.hpp:395-403 *)
Definition setTurn (z : Zob) (p : Position) (c : N) : Position := refreshState z (setTurnField p c).
