(* Model of the attack tables built by /repo/src/init.cpp and of the attack functions of
   /repo/src/bitboard.hpp:606-721.  A table is modelled by the function that fills it. *)
From Verif Require Export Bitboard.

(* ---- lance ---- *)
(* lanceBlockMask, init.cpp:31-33 *)
Definition lanceBlockMask (sq : N) : BB :=
  bbAnd (squareFileMask sq) (bbNot (bbOr (rankMask 8) (rankMask 0))).

(* the two loops of lanceAttackCalc, init.cpp:41-55.  The fuel is the number of ranks left. *)
Fixpoint lanceUp (n : nat) (file rank : N) (occ bb : BB) : BB :=
  match n with
  | O => bb
  | S k => let rank' := rank - 1 in
           let sq := makeSquare file rank' in
           let bb' := bbOr bb (setMaskBB sq) in
           if isSet occ sq then bb' else lanceUp k file rank' occ bb'
  end.
Fixpoint lanceDown (n : nat) (file rank : N) (occ bb : BB) : BB :=
  match n with
  | O => bb
  | S k => let rank' := rank + 1 in
           let sq := makeSquare file rank' in
           let bb' := bbOr bb (setMaskBB sq) in
           if isSet occ sq then bb' else lanceDown k file rank' occ bb'
  end.
(* lanceAttackCalc, init.cpp:37-58 *)
Definition lanceAttackCalc (c sq : N) (occ : BB) : BB :=
  let file := makeFile sq in
  let rank := makeRank sq in
  let bb1 := lanceUp (N.to_nat rank) file rank occ allZeroBB in
  let bb2 := lanceDown (N.to_nat (8 - rank)) file rank occ bb1 in
  bbAnd bb2 (inFrontMask c rank).

(* indexToOccupied, init.cpp:66-75 *)
Fixpoint indexToOccupied_loop (n : nat) (i index : N) (mask result : BB) : BB :=
  match n with
  | O => result
  | S k => let sq := firstSq mask in
           let result' := if negb (N.land index (N.shiftl 1 i) =? 0) then setBit result sq else result in
           indexToOccupied_loop k (i + 1) index (dropFirst mask) result'
  end.
Definition indexToOccupied (index : N) (bits : nat) (mask : BB) : BB :=
  indexToOccupied_loop bits 0 index mask allZeroBB.

(* LanceAttack[c][sq][index], init.cpp:78-91 *)
Definition LanceAttackTable (c sq index : N) : BB :=
  lanceAttackCalc c sq (indexToOccupied index 7 (lanceBlockMask sq)).

(* Slide table, bitboard.hpp:455-465 *)
Definition slide (sq : N) : N := if sq <? 63 then 1 + 9 * (sq / 9) else 1 + 9 * ((sq - 63) / 9).

(* Bitboard::part + occupied.p(part) >> Slide[sq] & 127, bitboard.hpp:607-608 *)
Definition lanceIndex (sq : N) (occ : BB) : N :=
  N.land (N.shiftr (if sq <? 63 then p0 occ else p1 occ) (slide sq)) 127.

(* lanceAttack, bitboard.hpp:606-610 *)
Definition lanceAttack (c sq : N) (occ : BB) : BB := LanceAttackTable c sq (lanceIndex sq occ).
(* rookAttackFile, bitboard.hpp:612-616 *)
Definition rookAttackFile (sq : N) (occ : BB) : BB :=
  let index := lanceIndex sq occ in
  bbOr (LanceAttackTable 0 sq index) (LanceAttackTable 1 sq index).

(* ---- rook, horizontal ---- *)
(* initRookAttacks, init.cpp:93-115 *)
Definition rookLeft (sq : N) : BB :=
  let f := makeFile sq in let r := makeRank sq in
  fold_left (fun b f2 => bbOr b (setMaskBB (makeSquare f2 r))) (seqN (f + 1) (N.to_nat (8 - f))) allZeroBB.
Definition rookRight (sq : N) : BB :=
  let f := makeFile sq in let r := makeRank sq in
  fold_left (fun b f2 => bbOr b (setMaskBB (makeSquare f2 r))) (rev (seqN 0 (N.to_nat f))) allZeroBB.
(* RookAttackRankToMask[sq], (hi, lo) = ([1], [0]) *)
Definition RookAttackRankToMask (sq : N) : BB * BB :=
  unpack (byteReverse (rookRight sq)) (rookLeft sq).

(* rookAttackRank, bitboard.hpp:619-649, after the masks have been looked up *)
Definition rookAttackRank_core (masks : BB * BB) (occ : BB) : BB :=
  let mask_hi := fst masks in
  let mask_lo := snd masks in
  let rocc := byteReverse occ in
  let '(hi0, lo0) := unpack rocc occ in
  let hi := bbAnd hi0 mask_hi in
  let lo := bbAnd lo0 mask_lo in
  let '(t1, t0) := decrement hi lo in
  let t1' := bbAnd (bbXor t1 hi) mask_hi in
  let t0' := bbAnd (bbXor t0 lo) mask_lo in
  let '(hi', lo') := unpack t1' t0' in
  bbOr (byteReverse hi') lo'.
Definition rookAttackRank (sq : N) (occ : BB) : BB := rookAttackRank_core (RookAttackRankToMask sq) occ.

(* rookAttack, bitboard.hpp:650-652 *)
Definition rookAttack (sq : N) (occ : BB) : BB := bbOr (rookAttackRank sq occ) (rookAttackFile sq occ).

(* ---- bishop ---- *)
(* the while loop of initBishopAttacks, init.cpp:139-148.  north/west select the direction:
   DeltaN = -1, DeltaS = +1, DeltaW = +9, DeltaE = -9 (square.hpp:104-111).  At most 8 steps. *)
Fixpoint bishopRay (n : nat) (north west : bool) (sq : N) (bb : BB) : BB :=
  match n with
  | O => bb
  | S k =>
    if (if north then makeRank sq =? 0 else makeRank sq =? 8) then bb
    else if (if west then makeFile sq =? 8 else makeFile sq =? 0) then bb
    else let sq1 := if north then sq - 1 else sq + 1 in
         let sq2 := if west then sq1 + 9 else sq1 - 9 in
         bishopRay k north west sq2 (bbOr bb (setMaskBB sq2))
  end.
(* BishopAttackToMask[sq], init.cpp:125-163, (hi, lo) = ([1], [0]) *)
Definition BishopAttackToMask (sq : N) : BB256 * BB256 :=
  let b0 := bishopRay 9 true true sq allZeroBB in
  let b1 := bishopRay 9 false true sq allZeroBB in
  let b2 := byteReverse (bishopRay 9 true false sq allZeroBB) in
  let b3 := byteReverse (bishopRay 9 false false sq allZeroBB) in
  (bb256_of2 (mkBB (p1 b0) (p1 b2)) (mkBB (p1 b1) (p1 b3)),
   bb256_of2 (mkBB (p0 b0) (p0 b2)) (mkBB (p0 b1) (p0 b3))).

(* bishopAttack, bitboard.hpp:655-683, parametrised by which byteReverse the build selects *)
Definition bishopAttack_core (rev256 : BB256 -> BB256) (masks : BB256 * BB256) (occ : BB) : BB :=
  let mask_hi := fst masks in
  let mask_lo := snd masks in
  let occ2 := bb256_dup occ in
  let rocc2 := bb256_dup (byteReverse occ) in
  let '(hi0, lo0) := unpack256 rocc2 occ2 in
  let hi := and256 hi0 mask_hi in
  let lo := and256 lo0 mask_lo in
  let '(t1, t0) := decrement256 hi lo in
  let t1' := and256 (xor256 t1 hi) mask_hi in
  let t0' := and256 (xor256 t0 lo) mask_lo in
  let '(hi', lo') := unpack256 t1' t0' in
  merge256 (or256 (rev256 hi') lo').
Definition bishopAttack (sq : N) (occ : BB) : BB :=
  bishopAttack_core byteReverse256_avx2 (BishopAttackToMask sq) occ.
Definition bishopAttack_portable (sq : N) (occ : BB) : BB :=
  bishopAttack_core byteReverse256_portable (BishopAttackToMask sq) occ.

(* ---- step pieces, init.cpp:167-199 ---- *)
Definition kingAttack (sq : N) : BB := bbOr (rookAttack sq allOneBB) (bishopAttack sq allOneBB).
Definition goldAttack (c sq : N) : BB :=
  bbOr (bbAnd (kingAttack sq) (inFrontMask c (makeRank sq))) (rookAttack sq allOneBB).
Definition silverAttack (c sq : N) : BB :=
  bbOr (bbAnd (kingAttack sq) (inFrontMask c (makeRank sq))) (bishopAttack sq allOneBB).
Definition pawnAttack (c sq : N) : BB := bbXor (silverAttack c sq) (bishopAttack sq allOneBB).
(* bishopStepAttacks, bitboard.hpp:719 *)
Definition bishopStepAttacks (sq : N) : BB := bbAnd (silverAttack 0 sq) (silverAttack 1 sq).
(* rookStepAttacks, bitboard.hpp:717 *)
Definition rookStepAttacks (sq : N) : BB := bbAnd (goldAttack 0 sq) (goldAttack 1 sq).
Definition knightAttack (c sq : N) : BB :=
  let bb := pawnAttack c sq in
  if isAny bb then bbAnd (bishopStepAttacks (firstSq bb)) (inFrontMask c (makeRank sq)) else allZeroBB.

(* dragonAttack / horseAttack, bitboard.hpp:696-697 *)
Definition dragonAttack (sq : N) (occ : BB) : BB := bbOr (rookAttack sq occ) (kingAttack sq).
Definition horseAttack (sq : N) (occ : BB) : BB := bbOr (bishopAttack sq occ) (kingAttack sq).

(* pawnAttack on a whole board of pawns, bitboard.hpp:693-694 *)
Definition pawnAttackBB (c : N) (from : BB) : BB := if c =? 0 then bbShr from 1 else bbShl from 1.

(* ---- relations between squares ---- *)
(* initSquareRelation, init.cpp:201-221; Direction values square.hpp:170-178 *)
Definition DirecMisc : N := 0.
Definition DirecFile : N := 2.
Definition DirecRank : N := 3.
Definition DirecDiagNESW : N := 4.
Definition DirecDiagNWSE : N := 5.
Definition DirecCross : N := 2.
Definition DirecDiag : N := 4.
Definition squareRelation (s1 s2 : N) : N :=
  let f1 := makeFile s1 in let r1 := makeRank s1 in
  let f2 := makeFile s2 in let r2 := makeRank s2 in
  if s1 =? s2 then DirecMisc
  else if f1 =? f2 then DirecFile
  else if r1 =? r2 then DirecRank
  else if r1 + f2 =? r2 + f1 then DirecDiagNESW      (* rank1 - rank2 == file1 - file2 *)
  else if r1 + f1 =? r2 + f2 then DirecDiagNWSE      (* rank1 - rank2 == file2 - file1 *)
  else DirecMisc.
(* isAligned<true>, square.hpp:190-199 *)
Definition isAligned (from to ksq : N) : bool := squareRelation from ksq =? squareRelation from to.

(* initAttackToEdge, init.cpp:225-232 *)
Definition rookAttackToEdge (sq : N) : BB := rookAttack sq allZeroBB.
Definition bishopAttackToEdge (sq : N) : BB := bishopAttack sq allZeroBB.
Definition lanceAttackToEdge (c sq : N) : BB := lanceAttack c sq allZeroBB.

(* initBetweenBB, init.cpp:234-246 *)
Definition betweenBB (s1 s2 : N) : BB :=
  if s1 =? s2 then allZeroBB
  else let d := squareRelation s1 s2 in
    if negb (N.land d DirecCross =? 0) then
      bbAnd (rookAttack s1 (setMaskBB s2)) (rookAttack s2 (setMaskBB s1))
    else if negb (N.land d DirecDiag =? 0) then
      bbAnd (bishopAttack s1 (setMaskBB s2)) (bishopAttack s2 (setMaskBB s1))
    else allZeroBB.
