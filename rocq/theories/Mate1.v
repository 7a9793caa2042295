(* Model of the one-move mate finder: /repo/src/position.cpp:741-784 and 836-2803, and the tables of
   /repo/src/init.cpp it uses.  "Move::moveNone()" is None, a returned move is Some code.
   The C++ loops "while (bb) { sq = bb.firstOneFromSQ11(); ... return ...; }" are firstSome over bbList.
   Where C++ toggles a piece out of the bitboards and back (xorBBs), the model works on the toggled copy. *)
From Verif Require Export Gen.
Local Open Scope N_scope.

Fixpoint firstSome {A} (f : A -> option N) (l : list A) : option N :=
  match l with
  | [] => None
  | x :: r => match f x with Some m => Some m | None => firstSome f r end
  end.
Notation "a <|> b" := (match a with Some m => Some m | None => b end) (at level 60, right associativity).

(* ---- tables ---- *)
Definition unionOver (f : N -> BB) (l : BB) : BB := fold_left (fun acc sq => bbOr acc (f sq)) (bbList l) allZeroBB.
Definition tRank123 (c : N) : BB := inFrontMask c (if c =? Black then 3 else 5).
Definition rankOf4 (c : N) : BB := rankMask (if c =? Black then 3 else 5).
(* initCheckTable, init.cpp:248-322: gold, silver, knight and lance *)
Definition goldCheckTable (c sq : N) : BB :=
  bbAndNot (unionOver (goldAttack (opp c)) (goldAttack (opp c) sq)) (bbOr (setMaskBB sq) (goldAttack (opp c) sq)).
Definition silverCheckTable (c sq : N) : BB :=
  let o := opp c in
  let t1 := unionOver (silverAttack o) (silverAttack o sq) in
  let t2 := unionOver (fun s => bbAnd (silverAttack o s) (tRank123 c)) (goldAttack o sq) in
  let t3 := unionOver (fun s => bbAnd (silverAttack o s) (rankOf4 c)) (bbAnd (goldAttack o sq) (tRank123 c)) in
  bbAndNot (bbOr (bbOr t1 t2) t3) (bbOr (setMaskBB sq) (silverAttack o sq)).
Definition knightCheckTable (c sq : N) : BB :=
  let o := opp c in
  bbOr (unionOver (knightAttack o) (knightAttack o sq))
       (unionOver (knightAttack o) (bbAnd (goldAttack o sq) (tRank123 c))).
Definition lanceCheckTable (c sq : N) : BB :=
  let o := opp c in
  bbAndNot (bbOr (lanceAttackToEdge o sq) (unionOver (lanceAttackToEdge o) (bbAnd (goldAttack o sq) (tRank123 c))))
           (bbOr (setMaskBB sq) (pawnAttack o sq)).
(* initNeighbor5x5, init.cpp:420-430 *)
Definition neighbor5x5Table (sq : N) : BB := bbAndNot (unionOver kingAttack (kingAttack sq)) (setMaskBB sq).
(* CHECK_AROUND_BB for Knight, Silver, Gold and King (= Horse, Dragon, King) and for the sliders,
   initMate1Ply, position.cpp:863-945 *)
Definition checkAround (us pt sq : N) : BB :=
  let o := opp us in
  let around := fun f => unionOver f (kingAttack sq) in
  bbAnd (match pt with
    | 2 => bbOr (bbOr (lanceAttackToEdge o sq)
             (if negb (makeFile sq =? 0) then bbOr (lanceAttackToEdge o (sq - 9)) (setMaskBB (sq - 9)) else allZeroBB))
             (if negb (makeFile sq =? 8) then bbOr (lanceAttackToEdge o (sq + 9)) (setMaskBB (sq + 9)) else allZeroBB)
    | 3 => around (knightAttack o)
    | 4 => around (silverAttack o)
    | 7 => around (goldAttack o)
    | 5 => around bishopAttackToEdge
    | 6 => around rookAttackToEdge
    | 8 => around kingAttack
    | _ => allZeroBB
    end) (bbNot (setMaskBB sq)).
(* NextSquare, position.cpp:951-969: the square after s2 on the line from s1, 81 if none *)
Definition stepOn (a b x : N) : option N :=      (* x moved once in the direction from a to b, on 0..8 *)
  if a <? b then (if x <? 8 then Some (x + 1) else None) else if b <? a then (if 0 <? x then Some (x - 1) else None) else Some x.
Definition nextSquare (s1 s2 : N) : N :=
  if isSet (bbOr (rookAttackToEdge s1) (bishopAttackToEdge s1)) s2 then
    match stepOn (makeFile s1) (makeFile s2) (makeFile s2), stepOn (makeRank s1) (makeRank s2) (makeRank s2) with
    | Some f, Some r => makeSquare f r
    | _, _ => 81
    end
  else 81.

(* ---- helpers of the class ---- *)
(* nOccupiedBB, position.hpp:285 *)
Definition nOccupiedBB (p : Position) : BB := bbNot (occBB p).
(* canKingEscape, position.cpp:741-765 *)
Definition canKingEscape (p : Position) (us sq : N) (bb : BB) : bool :=
  let them := opp us in
  let ksq := kingSquare p them in
  let kingMoveBB := clearBit (bbNotThisAnd bb (bbNotThisAnd (bbC p them) (kingAttack ksq))) sq in
  let tempOcc := clearBit (setBit (occBB p) sq) ksq in
  existsb (fun to => negb (attackersToIsAny p us to tempOcc)) (bbList kingMoveBB).
(* canPieceCapture(pos, them, sq, dcBB), position.cpp:767-783 *)
Definition canPieceCaptureDc (p : Position) (them sq : N) (dc : BB) : bool :=
  existsb (fun from => negb (isDiscoveredCheck from sq (kingSquare p them) dc)) (bbList (attackersToExceptKing p them sq)).
(* xorBBs, position.cpp:835-839, followed by goldsBB_.xorBit for the gold-like pieces (1660-1661) *)
Definition isGoldLike (pt : N) : bool := (pt =? Gold) || (pt =? ProPawn) || (pt =? ProLance) || (pt =? ProKnight) || (pt =? ProSilver).
Definition lifted (p : Position) (pt from : N) : Position :=
  mkPos (xorAt (xorAt (byType p) Occupied from) pt from) (xorAt (byColor p) (turn p) from)
        (if isGoldLike pt then xorBit (golds p) from else golds p)
        (board p) (kingSq p) (hands p) (turn p) (gamePly p) (st p) (prev p).
(* unDropCheckIsSupported, position.hpp:348 *)
Definition supported (p : Position) (c sq : N) : bool := attackersToIsAny p c sq (occBB p).
(* isInFrontOf, square.hpp:92-93 *)
Definition isInFrontOf (us brank wrank r : N) : bool := if us =? Black then r <? brank else wrank <? r.

(* ---- the first part: mateMoveIn1Ply<US, false>, position.cpp:1289-2015 ---- *)
(* one kind of drop: the loop at 1312-1325 (and 1330-1338, 1343-1354, 1366-1376, 1399-1409).
   needs: the square must be covered by another piece (not asked of a knight, 1415-1425). *)
Definition dropMates (p : Position) (pt : N) (needs : bool) (nbhd : N -> BB) (toBB : BB) : option N :=
  let us := turn p in
  let dc := discoveredCheckBB false p in
  firstSome (fun to =>
    if (if needs then attackersToIsAny p us to (occBB p) else true)
       && negb (canKingEscape p us to (nbhd to)) && negb (canPieceCaptureDc p (opp us) to dc)
    then Some (makeDropMove pt to) else None) (bbList toBB).
Definition mateDrops (p : Position) : option N :=
  let us := turn p in
  let them := opp us in
  let ksq := kingSquare p them in
  let has := fun hp => handExists (handOf p us) hp in
  let target := nOccupiedBB p in
  (if has 6 then dropMates p Rook true rookAttackToEdge (bbAnd target (rookStepAttacks ksq))
   else if has 1 && isInFrontOf us 8 0 (makeRank ksq) then
     let to := if us =? Black then ksq + 1 else ksq - 1 in
     if pieceAt p to =? Empty then dropMates p Lance true (lanceAttackToEdge us) (setMaskBB to) else None
   else None)
  <|> (if has 5 then dropMates p Bishop true bishopAttackToEdge (bbAnd target (bishopStepAttacks ksq)) else None)
  <|> (if has 4 then
         dropMates p Gold true (goldAttack us)
           (bbAnd target (if has 6 then bbXor (goldAttack them ksq) (pawnAttack us ksq) else goldAttack them ksq))
       else None)
  <|> (if has 3 then
         if has 4 then
           if has 5 then None
           else dropMates p Silver true (silverAttack us)
                  (bbAnd target (bbAnd (silverAttack them ksq) (inFrontMask us (makeRank ksq))))
         else dropMates p Silver true (silverAttack us)
                (bbAnd target (if has 5 then bbAnd (goldAttack them ksq) (silverAttack them ksq) else silverAttack them ksq))
       else None)
  <|> (if has 2 then dropMates p Knight false (fun _ => allZeroBB) (bbAnd target (knightAttack them ksq)) else None).

(* one kind of move of the piece on `from` to the squares of toBB: the loop at 1446-1464, with the
   variations of 1490-1505, 1527-1543 ... ; knight stands for the template parameter IsKnight, and
   needs is false only for the unpromoted knight (1856-1868) *)
Definition moveMates (p : Position) (knight needs : bool) (pt from : N) (pr : bool) (nbhd : Position -> N -> BB) (toBB : BB) : option N :=
  let us := turn p in
  let them := opp us in
  let ksq := kingSquare p them in
  let pinned := pinnedBB p in
  let dcUs := discoveredCheckBB true p in
  let p1 := lifted p pt from in
  let after := discoveredCheckBB false p1 in
  firstSome (fun to =>
    if (if needs then supported p1 us to else true)
       && negb (canKingEscape p1 us to (nbhd p1 to))
       && ((if knight then isSet dcUs from else isDiscoveredCheck from to ksq dcUs)
           || negb (canPieceCaptureDc p1 them to after))
       && negb (if knight then isSet pinned from else isPinnedIllegal from to (kingSquare p us) pinned)
    then Some (if pr then makePromoteMove p pt from to else makeCaptureMove p pt from to) else None) (bbList toBB).

Definition nbDragon (ksq : N) (p1 : Position) (to : N) : BB := dragonAttack to (bbXor (occBB p1) (setMaskBB ksq)).
Definition nbC (f : N -> BB) (p1 : Position) (to : N) : BB := f to.

(* moves of dragon, rook, horse, bishop, golds, silver, knight, lance and pawn, in the order of the code *)
Definition mateDragon (p : Position) : option N :=      (* 1433-1469 *)
  let us := turn p in let ksq := kingSquare p (opp us) in
  let moveTarget := bbNotThisAnd (bbC p us) (kingAttack ksq) in
  firstSome (fun from =>
    moveMates p false true Dragon from false (nbDragon ksq) (bbAnd moveTarget (dragonAttack from (occBB p))))
    (bbList (bbTC p Dragon us)).
Definition mateRook (p : Position) : option N :=        (* 1474-1550 *)
  let us := turn p in let ksq := kingSquare p (opp us) in
  let moveTarget := bbNotThisAnd (bbC p us) (kingAttack ksq) in
  let z := tRank123 us in
  let fromBB := bbTC p Rook us in
  firstSome (fun from =>
    moveMates p false true Rook from true (nbDragon ksq) (bbAnd moveTarget (rookAttack from (occBB p))))
    (bbList (bbAnd fromBB z))
  <|> firstSome (fun from =>
    let toBB := bbAnd (bbAnd moveTarget (rookAttack from (occBB p))) (bbOr (rookStepAttacks ksq) z) in
    moveMates p false true Rook from true (nbDragon ksq) (bbAnd toBB z)
    <|> moveMates p false true Rook from false (nbC rookAttackToEdge) (bbAndNot toBB z))
    (bbList (bbAndNot fromBB z)).
Definition mateHorse (p : Position) : option N :=       (* 1552-1583 *)
  let us := turn p in let ksq := kingSquare p (opp us) in
  let moveTarget := bbNotThisAnd (bbC p us) (kingAttack ksq) in
  firstSome (fun from =>
    moveMates p false true Horse from false (nbC horseAttackToEdge) (bbAnd moveTarget (horseAttack from (occBB p))))
    (bbList (bbTC p Horse us)).
Definition mateBishop (p : Position) : option N :=      (* 1585-1658 *)
  let us := turn p in let ksq := kingSquare p (opp us) in
  let moveTarget := bbNotThisAnd (bbC p us) (kingAttack ksq) in
  let z := tRank123 us in
  let fromBB := bbTC p Bishop us in
  firstSome (fun from =>
    moveMates p false true Bishop from true (nbC horseAttackToEdge) (bbAnd moveTarget (bishopAttack from (occBB p))))
    (bbList (bbAnd fromBB z))
  <|> firstSome (fun from =>
    let toBB := bbAnd (bbAnd moveTarget (bishopAttack from (occBB p))) (bbOr (bishopStepAttacks ksq) z) in
    moveMates p false true Bishop from true (nbC horseAttackToEdge) (bbAnd toBB z)
    <|> moveMates p false true Bishop from false (nbC bishopAttackToEdge) (bbAndNot toBB z))
    (bbList (bbAndNot fromBB z)).
Definition mateGolds (p : Position) : option N :=       (* 1660-1693 *)
  let us := turn p in let ksq := kingSquare p (opp us) in
  let moveTarget := bbNotThisAnd (bbC p us) (kingAttack ksq) in
  firstSome (fun from =>
    moveMates p false true (ptOf (pieceAt p from)) from false (nbC (goldAttack us))
      (bbAnd (bbAnd moveTarget (goldAttack us from)) (goldAttack (opp us) ksq)))
    (bbList (bbAnd (bbAnd (golds p) (bbC p us)) (goldCheckTable us ksq))).
Definition mateSilver (p : Position) : option N :=      (* 1695-1825 *)
  let us := turn p in let them := opp us in let ksq := kingSquare p them in
  let moveTarget := bbNotThisAnd (bbC p us) (kingAttack ksq) in
  let z := tRank123 us in
  let low := inFrontMask them (if us =? Black then 3 else 5) in
  let fromBB := bbAnd (bbTC p Silver us) (silverCheckTable us ksq) in
  let chk := silverAttack them ksq in
  let chkPro := goldAttack them ksq in
  firstSome (fun from =>
    let toBB := bbAnd moveTarget (silverAttack us from) in
    moveMates p false true Silver from true (nbC (goldAttack us)) (bbAnd toBB chkPro)
    <|> moveMates p false true Silver from false (nbC (silverAttack us))
          (bbAndNot (bbAnd toBB chk) (inFrontMask them (makeRank ksq))))
    (bbList (bbAnd fromBB z))
  <|> firstSome (fun from =>
    moveMates p false true Silver from false (nbC (silverAttack us)) (bbAnd (bbAnd moveTarget (silverAttack us from)) chk))
    (bbList (bbAnd (bbAndNot fromBB z) low))
  <|> firstSome (fun from =>
    let toBB := bbAnd moveTarget (silverAttack us from) in
    moveMates p false true Silver from true (nbC (goldAttack us)) (bbAnd (bbAnd toBB z) chkPro)
    <|> moveMates p false true Silver from false (nbC (silverAttack us)) (bbAnd toBB chk))
    (bbList (bbAndNot (bbAndNot fromBB z) low)).
Definition mateKnight (p : Position) : option N :=      (* 1827-1873 *)
  let us := turn p in let them := opp us in let ksq := kingSquare p them in
  let z := tRank123 us in
  let chkPro := bbAnd (goldAttack them ksq) z in
  let chk := knightAttack them ksq in
  firstSome (fun from =>
    let toBB := bbNotThisAnd (bbC p us) (knightAttack us from) in
    moveMates p true true Knight from true (nbC (goldAttack us)) (bbAnd toBB chkPro)
    <|> moveMates p true false Knight from false (nbC (fun _ => allZeroBB)) (bbAnd toBB chk))
    (bbList (bbAnd (bbTC p Knight us) (knightCheckTable us ksq))).
Definition mateLance (p : Position) : option N :=       (* 1875-1932; the single square of 1915-1926 is the only one of chk *)
  let us := turn p in let them := opp us in let ksq := kingSquare p them in
  let moveTarget := bbNotThisAnd (bbC p us) (kingAttack ksq) in
  let chkPro := bbAnd (goldAttack them ksq) (tRank123 us) in
  let chk := bbAnd (pawnAttack them ksq) (inFrontMask them (if us =? Black then 1 else 7)) in
  let front := if us =? Black then ksq + 1 else ksq - 1 in
  firstSome (fun from =>
    let toBB := bbAnd moveTarget (lanceAttack us from (occBB p)) in
    moveMates p false true Lance from true (nbC (goldAttack us)) (bbAnd toBB chkPro)
    <|> (if isAny (bbAnd toBB chk) then moveMates p false true Lance from false (nbC (lanceAttackToEdge us)) (setMaskBB front) else None))
    (bbList (bbAnd (bbTC p Lance us) (lanceCheckTable us ksq))).
Definition matePawn (p : Position) : option N :=        (* 1934-2015 *)
  let us := turn p in let them := opp us in let ksq := kingSquare p them in
  let moveTarget := bbNotThisAnd (bbC p us) (kingAttack ksq) in
  let krank := makeRank ksq in
  let fromBB := bbTC p Pawn us in
  let ahead := fun sq => if us =? Black then sq - 1 else sq + 1 in
  let behind := fun sq => if us =? Black then sq + 1 else sq - 1 in
  if isInFrontOf us 7 1 krank then
    (if isInFrontOf us 3 5 krank then
       let toPro := bbAnd (bbAnd moveTarget (goldAttack them ksq)) (tRank123 us) in
       firstSome (fun from => moveMates p false true Pawn from true (nbC (goldAttack us)) (setMaskBB (ahead from)))
         (bbList (bbAnd fromBB (pawnAttackBB them toPro)))
     else None)
    <|> (let to := behind ksq in let from := behind to in
         if isSet fromBB from && negb (isSet (bbC p us) to) && isBehind us 1 7 krank
         then moveMates p false true Pawn from false (nbC (fun _ => allZeroBB)) (setMaskBB to) else None)
  else None.
Definition mateBasic (p : Position) : option N :=
  mateDrops p <|> mateDragon p <|> mateRook p <|> mateHorse p <|> mateBishop p <|> mateGolds p
  <|> mateSilver p <|> mateKnight p <|> mateLance p <|> matePawn p.

(* ---- the second part: Additional, position.cpp:2017-2796 ---- *)
(* attacksSlider(us, slide) and (us, avoid, occ), position.cpp:980-1026; avoid is a bitboard here *)
Definition attacksSlider (p : Position) (us : N) (avoid occ : BB) : BB :=
  bbOr (bbOr (unionOver (fun s => lanceAttack us s occ) (bbAnd (bbTC p Lance us) (bbNot avoid)))
             (unionOver (fun s => bishopAttack s occ) (bbAnd (bbAnd (bbT2 p Bishop Horse) (bbC p us)) (bbNot avoid))))
       (unionOver (fun s => rookAttack s occ) (bbAnd (bbAnd (bbT2 p Rook Dragon) (bbC p us)) (bbNot avoid))).
(* attacksAroundKingNonSlider<kc>, position.cpp:1028-1061 and ...InAvoiding, 1090-1126: attacks of opp kc *)
Definition attacksAroundNonSlider (p : Position) (kc : N) (avoid : BB) : BB :=
  let k := kingSquare p kc in
  let th := opp kc in
  let pick := fun f bb pt => unionOver f (bbAnd (bbAnd bb (checkAround th pt k)) (bbNot avoid)) in
  bbOr (bbOr (bbOr (bbOr (pawnAttackBB th (bbTC p Pawn th))
    (pick (knightAttack th) (bbTC p Knight th) 3))
    (pick (silverAttack th) (bbTC p Silver th) 4))
    (pick (goldAttack th) (bbAnd (golds p) (bbC p th)) 7))
    (pick kingAttack (bbAnd (bbT3 p Horse Dragon King) (bbC p th)) 8).
(* attacksAroundKingSlider<kc>, position.cpp:1063-1088 *)
Definition attacksAroundSlider (p : Position) (kc : N) : BB :=
  let k := kingSquare p kc in
  let th := opp kc in
  let occ := occBB p in
  bbOr (bbOr (unionOver (fun s => lanceAttack th s occ) (bbAnd (bbTC p Lance th) (checkAround th 2 k)))
             (unionOver (fun s => bishopAttack s occ) (bbAnd (bbAnd (bbT2 p Bishop Horse) (bbC p th)) (checkAround th 5 k))))
       (unionOver (fun s => rookAttack s occ) (bbAnd (bbAnd (bbT2 p Rook Dragon) (bbC p th)) (checkAround th 6 k))).
(* attacksAroundKingInAvoiding<kc>, position.hpp:381-384 *)
Definition attacksAroundAvoiding (p : Position) (kc from : N) (occ : BB) : BB :=
  bbOr (attacksAroundNonSlider p kc (setMaskBB from)) (attacksSlider p (opp kc) (setMaskBB from) occ).
(* canPawnDrop, position.hpp:387-390 *)
Definition canPawnDrop (p : Position) (c sq : N) : bool :=
  handExists (handOf p c) 0 && negb (isAny (bbAnd (bbTC p Pawn c) (fileMask (makeFile sq)))).
(* pinnedPieces(us, from, to), position.cpp:1128-1153.  popCount<false> counts the merged words;
   between two squares of a line that is the number of squares. *)
Definition pinnedPieces (p : Position) (us from to : N) : BB :=
  let ksq := kingSquare p us in
  let avoid := bbNot (setMaskBB from) in
  let pinners := bbAnd (bbAnd (bbOr (bbOr (bbAnd (bbT2 p Rook Dragon) (rookAttackToEdge ksq))
                                          (bbAnd (bbT2 p Bishop Horse) (bishopAttackToEdge ksq)))
                                    (bbAnd (bbT p Lance) (lanceAttackToEdge us ksq))) avoid) (bbC p (opp us)) in
  let pieces := bbOr (bbAnd (occBB p) avoid) (setMaskBB to) in
  fold_left (fun result s =>
    let b := bbAnd (betweenBB ksq s) pieces in
    if count1s (bbMerge b) <=? 1 then bbOr result (bbAnd b (bbC p us)) else result) (bbList pinners) allZeroBB.
(* can_king_escape_cangoto, position.cpp:1211-1241 *)
Definition canKingEscapeCangoto (p : Position) (us from to : N) (avoid occ : BB) : bool :=
  let ksq := kingSquare p us in
  let occ' := bbXor (bbOr occ (setMaskBB to)) (setMaskBB ksq) in
  let bb := bbAnd (kingAttack ksq) (bbNot (bbAnd (bbOr avoid (bbC p us)) (bbNot (setMaskBB to)))) in
  existsb (fun e => negb (isAny (bbAnd (attackersTo p (opp us) e occ') (bbNot (setMaskBB from))))) (bbList bb).
(* can_piece_capture, position.cpp:1243-1285; avoid = allZeroBB for the first version *)
Definition canPieceCapture2 (p : Position) (us to : N) (avoid pinned occ : BB) : bool :=
  let ksq := kingSquare p us in
  existsb (fun from => negb (isAny pinned) || negb (isSet pinned from) || isAligned from to ksq)
    (bbList (bbAnd (attackersTo p us to occ) (bbNot (bbOr (bbT p King) avoid)))).

(* rook, bishop or lance two squares away, when the defender holds at most pawns: 2036-2286 *)
Definition mateFar (p : Position) : option N :=
  let us := turn p in let them := opp us in let ksq := kingSquare p them in
  let ourHand := handOf p us in let themHand := handOf p them in
  let occ := occBB p in
  let dcThem := discoveredCheckBB false p in
  let pinned := pinnedBB p in
  if exceptPawnExists themHand then None else
  let movable := bbAnd (bbNot (bbC p them)) (kingAttack ksq) in
  let aakns := attacksAroundNonSlider p them allZeroBB in
  let aaks := attacksAroundSlider p them in
  let escCount := popCount (bbAnd movable (bbNot (bbOr aakns aaks))) in
  if 4 <=? escCount then None else
  firstSome (fun one =>
    let to := nextSquare ksq one in
    if to =? 81 then None
    else if negb (pieceAt p to =? Empty) && (colorOf (pieceAt p to) =? us) then None
    else if canPawnDrop p them one then None
    else if (ptOf (pieceAt p to) =? Pawn) && (makeFile to =? makeFile one) && handExists themHand 0 then None
    else
      (* Effect8::directions_of(ksq, one), square.hpp:333, for a neighbour of ksq *)
      let diag := negb (makeFile ksq =? makeFile one) && negb (makeRank ksq =? makeRank one) in
      let canLance := (makeFile ksq =? makeFile one) && (one =? (if us =? Black then ksq + 1 else ksq - 1)) in
      let pt := if diag then (if handExists ourHand 5 then Bishop else 0)
                else if canLance && handExists ourHand 1 then Lance
                else if handExists ourHand 6 then Rook else 0 in
      let edge := if diag then bishopAttackToEdge else rookAttackToEdge in
      let blocked := fun s => negb (isAny (bbAnd (bbNot (edge s))
                       (bbAnd movable (bbNot (bbOr aakns (attacksSlider p us allZeroBB (bbOr occ (setMaskBB s)))))))) in
      (if (pt =? 0) || negb (pieceAt p to =? Empty) then None
       else if canPieceCapture2 p them one allZeroBB dcThem occ then None
       else if canPieceCapture2 p them to allZeroBB dcThem occ then None
       else if blocked to then Some (makeDropMove pt to)
       else if escCount <=? 2 then
         let next := nextSquare one to in
         if next =? 81 then None
         else if negb (pieceAt p next =? Empty) then None
         else if canPawnDrop p them to then None
         else if canPieceCapture2 p them next allZeroBB dcThem occ then None
         else if blocked next then Some (makeDropMove pt next) else None
       else None)
      <|> (if negb diag then
             let rd := bbAnd (bbT2 p Rook Dragon) (bbC p us) in
             let bb := bbOr (bbOr
               (if andIsAny (rookAttackToEdge to) rd then bbAnd (rookAttack to occ) rd else allZeroBB)
               (if andIsAny (kingAttack to) (bbTC p Dragon us) then bbAnd (kingAttack to) (bbTC p Dragon us) else allZeroBB))
               (if canLance && andIsAny (lanceAttackToEdge them to) (bbTC p Lance us)
                then bbAnd (lanceAttack them to occ) (bbTC p Lance us) else allZeroBB) in
             firstSome (fun from =>
               let occ1 := bbXor occ (setMaskBB from) in
               let ptf := ptOf (pieceAt p from) in
               if isPinnedIllegal from to (kingSquare p us) pinned then None
               else if canPieceCapture2 p them to allZeroBB dcThem occ1 then None
               else if canPieceCapture2 p them one (setMaskBB to) dcThem occ1 then None
               else
                 let attacks := if ptf =? Lance then rookAttackToEdge to
                                else if canPromote2 us from to || (ptf =? Dragon)
                                then bbOr (rookAttackToEdge to) (bishopAttackToEdge to) else rookAttackToEdge to in
                 let occ2 := bbOr occ1 (setMaskBB to) in
                 if isAny (bbAnd (kingAttack ksq)
                      (bbNot (bbOr (bbOr (bbC p them) (attacksAroundAvoiding p them from occ2)) attacks))) then None
                 else Some (if negb (ptf =? Lance) && canPromote2 us from to && (N.land ptf 8 =? 0)
                            then makePromoteMove p ptf from to else makeCaptureMove p ptf from to)) (bbList bb)
           else
             let bh := bbAnd (bbT2 p Bishop Horse) (bbC p us) in
             let bb := bbOr
               (if andIsAny (bishopAttackToEdge to) bh then bbAnd (bishopAttack to occ) bh else allZeroBB)
               (if andIsAny (kingAttack to) (bbTC p Horse us) then bbAnd (kingAttack to) (bbTC p Horse us) else allZeroBB) in
             firstSome (fun from =>
               let occ1 := bbXor occ (setMaskBB from) in
               let ptf := ptOf (pieceAt p from) in
               if isPinnedIllegal from to (kingSquare p us) pinned then None
               else if canPieceCapture2 p them one (setMaskBB to) dcThem occ1 then None
               else if canPieceCapture2 p them to allZeroBB dcThem occ1 then None
               else
                 let occ2 := bbOr occ1 (setMaskBB to) in
                 if isAny (bbAnd (kingAttack ksq)
                      (bbNot (bbOr (bbOr (bbOr (bbC p them) (attacksAroundAvoiding p them from occ2)) (rookAttackToEdge to)) (bishopAttackToEdge to)))) then None
                 else Some (if canPromote2 us from to && (N.land ptf 8 =? 0)
                            then makePromoteMove p ptf from to else makeCaptureMove p ptf from to)) (bbList bb)))
    (bbList (bbAnd (nOccupiedBB p) (kingAttack ksq))).

(* double checks: 2288-2538.  In the two loops of the knight and of the silver (2350-2408) the test
   "if (bb_attacks & setMaskBB(ksq)) continue" is the code's.  The branch for an unpromoted silver in
   the last loop (2523-2536) cannot be reached, since case Silver ends with continue. *)
Definition mateDouble (p : Position) : option N :=
  let us := turn p in let them := opp us in let ksq := kingSquare p them in
  let occ := occBB p in
  let pinned := pinnedBB p in
  let dcUs := discoveredCheckBB true p in
  let bbMove := bbNot (bbC p us) in
  let stays := fun from to (attacks : BB) =>
    canKingEscapeCangoto p them from to attacks (bbXor occ (setMaskBB from)) in
  let bad := fun from to => isPinnedIllegal from to (kingSquare p us) pinned in
  let special := fun pt from (bb : BB) (att : N -> BB) (pr : bool) =>
    firstSome (fun to =>
      if isAligned from to ksq then None
      else if pr && negb (canPromote2 us from to) then None
      else if isSet (att to) ksq then None
      else if bad from to then None
      else if stays from to (att to) then None
      else Some (if pr then makePromoteMove p pt from to else makeCaptureMove p pt from to)) (bbList bb) in
  firstSome (fun from =>
    let pt := ptOf (pieceAt p from) in
    let general := fun pt (bb : BB) =>
      firstSome (fun to =>
        let promo := canPromote us from || canPromote us to in
        if isAligned from to ksq then None
        else if bad from to then None
        else
          let attacks := match pt with
            | 7 => goldAttack us to
            | 5 => if promo then bbOr (bishopAttackToEdge to) (kingAttack to) else bishopAttackToEdge to
            | 13 => bbOr (bishopAttackToEdge to) (kingAttack to)
            | 6 => if promo then bbOr (rookAttackToEdge to) (kingAttack to) else rookAttackToEdge to
            | 14 => bbOr (rookAttackToEdge to) (kingAttack to)
            | _ => allZeroBB
            end in
          if stays from to attacks then None
          else Some (if promo && (N.land pt 8 =? 0) && negb (pt =? Gold)
                     then makePromoteMove p pt from to else makeCaptureMove p pt from to)) (bbList (bbAnd bb bbMove)) in
    match pt with
    | 1 =>
        if makeFile from =? makeFile ksq then None else
        let to := if us =? Black then from - 1 else from + 1 in
        if negb (pieceAt p to =? Empty) && negb (colorOf (pieceAt p to) =? them) then None
        else if negb (canPromote us to) then None
        else if negb (isSet (goldAttack us to) ksq) then None
        else if bad from to then None
        else if stays from to (goldAttack us to) then None
        else Some (makePromoteMove p Pawn from to)
    | 3 =>
        if negb (isSet (checkAround us Knight ksq) from) then None
        else special Knight from (bbAnd (bbAnd (knightAttack us from) (knightAttack them ksq)) bbMove) (knightAttack us) false
             <|> special Knight from (bbAnd (knightAttack us from) (goldAttack them ksq)) (goldAttack us) true
    | 4 =>
        if negb (isSet (checkAround us Silver ksq) from) then None
        else special Silver from (bbAnd (bbAnd (silverAttack us from) (silverAttack them ksq)) bbMove) (silverAttack us) false
             <|> special Silver from (bbAnd (bbAnd (silverAttack us from) (goldAttack them ksq)) bbMove) (goldAttack us) true
    | 7 | 9 | 10 | 11 | 12 =>
        if negb (isSet (checkAround us Gold ksq) from) then None
        else general Gold (bbAnd (goldAttack us from) (goldAttack them ksq))
    | 5 => general Bishop (bbAnd (bbOr (bishopAttack ksq occ)
             (bbAnd (kingAttack ksq) (if canPromote us from then allOneBB else enemyField us))) (bishopAttack from occ))
    | 13 => general Horse (bbAnd (horseAttack from occ) (horseAttack ksq occ))
    | 6 => general Rook (bbAnd (bbOr (rookAttack ksq occ)
             (bbAnd (kingAttack ksq) (if canPromote us from then allOneBB else enemyField us))) (rookAttack from occ))
    | 14 => general Dragon (bbAnd (dragonAttack from occ) (dragonAttack ksq occ))
    | _ => None
    end) (bbList dcUs).

(* single discovered checks, when the defender holds at most pawns: 2539-2793 *)
(* the walk from the king to the uncovered piece, 2723-2749 and 2775-2789: true = nothing comes between *)
Fixpoint lineHolds (fuel : nat) (p : Position) (them from to : N) (capPawn : bool) (pinned occ : BB) (s1 s2 : N) : bool :=
  match fuel with
  | O => true
  | S n =>
    if canPieceCapture2 p them s2 (setMaskBB to) pinned occ then false
    else if negb (s2 =? from) && negb (pieceAt p s2 =? Empty) then true
    else if canPawnDrop p them s2 || (capPawn && (makeFile s2 =? makeFile to)) then false
    else let s3 := nextSquare s1 s2 in
         if s3 =? 81 then true else lineHolds n p them from to capPawn pinned occ s2 s3
  end.
Definition mateDiscover (p : Position) : option N :=
  let us := turn p in let them := opp us in let ksq := kingSquare p them in
  let occ := occBB p in
  let pinned := pinnedBB p in
  let dcUs := discoveredCheckBB true p in
  let bbMove := bbNot (bbC p us) in
  if negb (isAny dcUs) || exceptPawnExists (handOf p them) then None else
  firstSome (fun from =>
    let atk0 := bbAnd (attackersTo p them from occ) (bbNot (setMaskBB ksq)) in
    if isAny atk0 && (2 <=? popCount atk0) then None else
    let atk := if isAny atk0 then atk0 else bbAnd (neighbor5x5Table ksq) bbMove in
    let pt0 := ptOf (pieceAt p from) in
    let pt := if isGoldLike pt0 then Gold else pt0 in
    let moves := match pt with
      | 3 => if isSet (if us =? Black then bbOr (bbOr (rankMask 2) (rankMask 3)) (rankMask 4) else bbOr (bbOr (rankMask 4) (rankMask 5)) (rankMask 6)) from
             then bbAnd (knightAttack us from) (bbNot (goldAttack them ksq)) else allZeroBB
      | 4 => silverAttack us from
      | 7 => bbAnd (goldAttack us from) (bbNot (goldAttack them ksq))
      | 5 => bishopAttack from occ
      | 13 => bbAnd (horseAttack from occ) (bbNot (kingAttack ksq))
      | 6 => rookAttack from occ
      | 14 => bbAnd (dragonAttack from occ) (bbNot (kingAttack ksq))
      | _ => allZeroBB
      end in
    let occ1 := bbXor occ (setMaskBB from) in
    firstSome (fun to =>
      let capPawn := ptOf (pieceAt p to) =? Pawn in
      let occ2 := bbOr occ1 (setMaskBB to) in
      let newPinned := pinnedPieces p them from to in
      if isAligned from to ksq then None
      else if isPinnedIllegal from to (kingSquare p us) pinned then None
      else if canPawnDrop p them from then None
      else if capPawn && (makeFile from =? makeFile to) then None
      else if canPieceCapture2 p them from (setMaskBB to) newPinned occ2 then None
      else if isSet (kingAttack ksq) to && negb (isAny (bbXor (attackersTo p us to occ) (setMaskBB from))) then None
      else
        let holds := fun attacks : BB =>
          negb (isSet attacks ksq)
          && negb (isAny (bbAnd (kingAttack ksq) (bbNot (bbOr (bbOr attacks
               (attacksAroundAvoiding p them from (bbXor occ2 (setMaskBB ksq)))) (bbC p them)))))
          && lineHolds 9 p them from to capPawn newPinned occ2 ksq (ksq + nextSquare ksq from - from) in
        let pro := canPromote2 us from to in
        (if (pt =? Silver) && negb pro then None
         else
           let attacks := match pt with
             | 4 | 3 | 7 => goldAttack us to
             | 5 => if pro then horseAttack to occ2 else bishopAttack to occ2
             | 13 => horseAttack to occ2
             | 6 => if pro then dragonAttack to occ2 else rookAttack to occ2
             | _ => dragonAttack to occ2
             end in
           if holds attacks
           then Some (if pro && (N.land (pieceAt p from) 8 =? 0) && negb (pt =? Gold)
                      then makePromoteMove p pt from to else makeCaptureMove p pt from to)
           else None)
        <|> (if (pt =? Silver) && holds (silverAttack us to) then Some (makeCaptureMove p Silver from to) else None))
      (bbList (bbAnd moves atk)))
    (bbList (bbAnd dcUs (neighbor5x5Table ksq))).

(* mateMoveIn1Ply<US, Additional>, position.cpp:1289-2799, and the value mate_move_in_1ply() returns (cshogi.h:242) *)
Definition mateIn1 (additional : bool) (p : Position) : option N :=
  mateBasic p <|> (if additional then mateFar p <|> (if isAny (discoveredCheckBB true p) then mateDouble p else None) <|> mateDiscover p else None).
Definition mateMoveIn1Ply (p : Position) : N := match mateIn1 true p with Some m => m | None => MoveNone end.
