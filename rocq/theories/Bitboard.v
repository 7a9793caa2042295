(* Model of /repo/src/bitboard.hpp and bitboard.cpp: the 81-bit board set stored in two words. *)
From Verif Require Export Bits.

(* class Bitboard, bitboard.hpp:36-297: p_[0] holds SQ11..SQ79 (63 bits), p_[1] SQ81..SQ99 (18 bits) *)
Record BB := mkBB { p0 : N; p1 : N }.

Definition allZeroBB : BB := mkBB 0 0.                              (* bitboard.hpp:451 *)
Definition allOneBB : BB := mkBB 0x7fffffffffffffff 0x3ffff.        (* bitboard.hpp:450 *)

(* SetMaskBB table, bitboard.cpp:25-107: { 1 << sq, 0 } for sq <= SQ79, { 0, 1 << (sq-63) } after.
   Bitboard::part, bitboard.hpp:283: SQ79 < sq, SQ79 = 62. *)
Definition setMaskBB (sq : N) : BB :=
  if sq <? 63 then mkBB (N.shiftl 1 sq) 0 else mkBB 0 (N.shiftl 1 (sq - 63)).

Definition bbAnd (a b : BB) := mkBB (N.land (p0 a) (p0 b)) (N.land (p1 a) (p1 b)).  (* :80-88,125 *)
Definition bbOr (a b : BB) := mkBB (N.lor (p0 a) (p0 b)) (N.lor (p1 a) (p1 b)).     (* :89-97,126 *)
Definition bbXor (a b : BB) := mkBB (N.lxor (p0 a) (p0 b)) (N.lxor (p1 a) (p1 b)).  (* :98-106,127 *)
Definition bbNot (a : BB) := mkBB (not64 (p0 a)) (not64 (p1 a)).                     (* :71-79 *)
Definition bbAndNot (a b : BB) := bbAnd a (bbNot b).      (* andEqualNot, :139-146 *)
Definition bbNotThisAnd (a b : BB) := bbAnd (bbNot a) b.  (* notThisAnd, :148-156 *)
Definition bbShl (a : BB) (i : N) := mkBB (w64 (N.shiftl (p0 a) i)) (w64 (N.shiftl (p1 a) i)). (* <<, :107-115 *)
Definition bbShr (a : BB) (i : N) := mkBB (N.shiftr (p0 a) i) (N.shiftr (p1 a) i).             (* >>, :116-124 *)
Definition bbMerge (a : BB) : N := N.lor (p0 a) (p1 a).                              (* merge, :54 *)
Definition isAny (a : BB) : bool := negb (bbMerge a =? 0).                           (* :55-62 *)
Definition andIsAny (a b : BB) : bool := isAny (bbAnd a b).                          (* :64-70 *)
Definition bbEq (a b : BB) : bool := (p0 a =? p0 b) && (p1 a =? p1 b).               (* ==, :130-136 *)
Definition isSet (a : BB) (sq : N) : bool := andIsAny a (setMaskBB sq).              (* :157-160 *)
Definition setBit (a : BB) (sq : N) : BB := bbOr a (setMaskBB sq).                   (* :161 *)
Definition clearBit (a : BB) (sq : N) : BB := bbAndNot a (setMaskBB sq).             (* :162 *)
Definition xorBit (a : BB) (sq : N) : BB := bbXor a (setMaskBB sq).                  (* :163 *)
Definition xorBit2 (a : BB) (s1 s2 : N) : BB := bbXor a (bbOr (setMaskBB s1) (setMaskBB s2)).  (* :164 *)

(* constFirstOneFromSQ11, :194-200 (square only) *)
Definition firstSq (a : BB) : N :=
  if negb (p0 a =? 0) then firstOneFromLSB (p0 a) else firstOneFromLSB (p1 a) + 63.
(* the board left behind by firstOneFromSQ11, :168-192 *)
Definition dropFirst (a : BB) : BB :=
  if negb (p0 a =? 0) then mkBB (clearLowest (p0 a)) (p1 a) else mkBB (p0 a) (clearLowest (p1 a)).

(* popCount<true>, :203-204 *)
Definition popCount (a : BB) : N := count1s (p0 a) + count1s (p1 a).
(* isOneBit<false> with HAVE_SSE42, :207-210 and 204: the two words are merged before counting *)
Definition isOneBit_merged (a : BB) : bool := count1s (bbMerge a) =? 1.
(* isOneBit, portable branch, :211-217 *)
Definition isOneBit_portable (a : BB) : bool :=
  if negb (isAny a) then false
  else if negb (p0 a =? 0) then N.lor (clearLowest (p0 a)) (p1 a) =? 0
  else clearLowest (p1 a) =? 0.

(* The loop "while (w) { sq = firstOne(w) + base; w &= w - 1; ... }" of foreachBB/FOREACH_BB,
   bitboard.hpp:729-750, as the list of visited squares.  64 iterations always suffice; that the
   fuel never runs out is proved in BitboardProofs.v (bbList_filter). *)
Fixpoint wordList (fuel : nat) (w base : N) : list N :=
  match fuel with
  | O => []
  | S k => if w =? 0 then [] else (firstOneFromLSB w + base) :: wordList k (clearLowest w) base
  end.
Definition bbList (a : BB) : list N := wordList 64 (p0 a) 0 ++ wordList 64 (p1 a) 63.

(* byteReverse, :221-233 *)
Definition byteReverse (a : BB) : BB := mkBB (bswap64 (p1 a)) (bswap64 (p0 a)).
(* unpack, :235-246; returns (hiOut, loOut) *)
Definition unpack (hiIn loIn : BB) : BB * BB :=
  (mkBB (p1 loIn) (p1 hiIn), mkBB (p0 loIn) (p0 hiIn)).
(* decrement, :249-267; returns (hiOut, loOut) *)
Definition decrement (hiIn loIn : BB) : BB * BB :=
  (mkBB (sub64 (p0 hiIn) (if p0 loIn =? 0 then 1 else 0)) (sub64 (p1 hiIn) (if p1 loIn =? 0 then 1 else 0)),
   mkBB (sub64 (p0 loIn) 1) (sub64 (p1 loIn) 1)).

(* class Bitboard256, :303-445 *)
Record BB256 := mkBB256 { q0 : N; q1 : N; q2 : N; q3 : N }.
Definition bb256_of2 (a b : BB) := mkBB256 (p0 a) (p1 a) (p0 b) (p1 b).   (* :320 *)
Definition bb256_dup (a : BB) := mkBB256 (p0 a) (p1 a) (p0 a) (p1 a).     (* :321 *)
Definition and256 (a b : BB256) := mkBB256 (N.land (q0 a) (q0 b)) (N.land (q1 a) (q1 b)) (N.land (q2 a) (q2 b)) (N.land (q3 a) (q3 b)).
Definition or256 (a b : BB256) := mkBB256 (N.lor (q0 a) (q0 b)) (N.lor (q1 a) (q1 b)) (N.lor (q2 a) (q2 b)) (N.lor (q3 a) (q3 b)).
Definition xor256 (a b : BB256) := mkBB256 (N.lxor (q0 a) (q0 b)) (N.lxor (q1 a) (q1 b)) (N.lxor (q2 a) (q2 b)) (N.lxor (q3 a) (q3 b)).
(* byteReverse, portable branch, :369-376: all four words change place *)
Definition byteReverse256_portable (a : BB256) := mkBB256 (bswap64 (q3 a)) (bswap64 (q2 a)) (bswap64 (q1 a)) (bswap64 (q0 a)).
(* byteReverse, AVX2 branch, :362-368: _mm256_shuffle_epi8 works inside each 128-bit lane *)
Definition byteReverse256_avx2 (a : BB256) := mkBB256 (bswap64 (q1 a)) (bswap64 (q0 a)) (bswap64 (q3 a)) (bswap64 (q2 a)).
Definition merge256 (a : BB256) : BB := mkBB (N.lor (q0 a) (q2 a)) (N.lor (q1 a) (q3 a)).   (* :379-391 *)
(* unpack, :393-408; returns (hiOut, loOut) *)
Definition unpack256 (hiIn loIn : BB256) : BB256 * BB256 :=
  (mkBB256 (q1 loIn) (q1 hiIn) (q3 loIn) (q3 hiIn), mkBB256 (q0 loIn) (q0 hiIn) (q2 loIn) (q2 hiIn)).
(* decrement, :411-434 *)
Definition decrement256 (hiIn loIn : BB256) : BB256 * BB256 :=
  let br l := if l =? 0 then 1 else 0 in
  (mkBB256 (sub64 (q0 hiIn) (br (q0 loIn))) (sub64 (q1 hiIn) (br (q1 loIn)))
           (sub64 (q2 hiIn) (br (q2 loIn))) (sub64 (q3 hiIn) (br (q3 loIn))),
   mkBB256 (sub64 (q0 loIn) 1) (sub64 (q1 loIn) 1) (sub64 (q2 loIn) 1) (sub64 (q3 loIn) 1)).

(* makeFile / makeRank / makeSquare, square.hpp:129-165: tables of 81 entries, sq = file*9+rank *)
Definition makeFile (sq : N) : N := sq / 9.
Definition makeRank (sq : N) : N := sq mod 9.
Definition makeSquare (f r : N) : N := f * 9 + r.

(* FileMask / RankMask, bitboard.hpp:467-485 and bitboard.cpp:109-115 *)
Definition fileMask (f : N) : BB :=
  if f <? 7 then mkBB (N.shiftl 0x1ff (9 * f)) 0 else mkBB 0 (N.shiftl 0x1ff (9 * (f - 7))).
Definition rankMask (r : N) : BB := mkBB (N.shiftl 0x40201008040201 r) (N.shiftl 0x201 r).
Definition squareFileMask (sq : N) : BB := fileMask (makeFile sq).   (* :520-523 *)
Definition squareRankMask (sq : N) : BB := rankMask (makeRank sq).   (* :526-529 *)
(* InFrontOfRank..., :531-549 and bitboard.cpp:117-120.  The eighteen named constants are the
   running ORs of the rank masks in front of rank r. *)
Definition inFrontMask (c r : N) : BB :=
  if c =? 0 then fold_left (fun b i => bbOr b (rankMask i)) (seqN 0 (N.to_nat r)) allZeroBB
  else fold_left (fun b i => bbOr b (rankMask (8 - i))) (seqN 0 (N.to_nat (8 - r))) allZeroBB.
(* EnemyField, :575 *)
Definition enemyField (c : N) : BB :=
  if c =? 0 then bbOr (bbOr (rankMask 0) (rankMask 1)) (rankMask 2)
  else bbOr (bbOr (rankMask 6) (rankMask 7)) (rankMask 8).
