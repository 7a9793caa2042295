(* Model of the scalar types of cshogi: colours, squares, pieces, hands and move codes.
   Every C++ enum / unsigned value is an N; a 32-bit wrap is written explicitly. *)
From Verif Require Export Attack.

(* Color, color.hpp:25-28; oppositeColor, color.hpp:31-35 *)
Definition Black : N := 0.
Definition White : N := 1.
Definition opp (c : N) : N := N.lxor c 1.

(* PieceType, piece.hpp:32-41 *)
Definition Occupied : N := 0.
Definition Pawn : N := 1.
Definition Lance : N := 2.
Definition Knight : N := 3.
Definition Silver : N := 4.
Definition Bishop : N := 5.
Definition Rook : N := 6.
Definition Gold : N := 7.
Definition King : N := 8.
Definition ProPawn : N := 9.
Definition ProLance : N := 10.
Definition ProKnight : N := 11.
Definition ProSilver : N := 12.
Definition Horse : N := 13.
Definition Dragon : N := 14.
(* Empty and PieceNone, piece.hpp:44-53 *)
Definition Empty : N := 0.
Definition PieceNone : N := 31.
(* SquareNum, square.hpp *)
Definition SquareNum : N := 81.
Definition isInSquare (sq : N) : bool := sq <? 81.

(* pieceToPieceType, pieceToColor, colorAndPieceTypeToPiece, inverse: piece.hpp:56,69-76 *)
Definition ptOf (p : N) : N := N.land p 15.
Definition colorOf (p : N) : N := N.shiftr p 4.
Definition mkPiece (c pt : N) : N := N.lor (N.shiftl c 4) pt.
Definition inversePiece (p : N) : N := N.lxor p 16.
(* isSlider, piece.hpp:78-81 *)
Definition isSlider (pt : N) : bool := N.testbit 0x60646064 pt.

(* PieceTypeToHandPieceTable / HandPieceToPieceTypeTable, piece.hpp:83-91.  7 = HandPieceNum.
   Reading the first table with an index above 14 is out of bounds in C++; here it yields 7. *)
Definition ptToHand (pt : N) : N := nthN 7 [7; 0; 1; 2; 3; 5; 6; 4; 7; 0; 1; 2; 3; 5; 6] pt.
Definition handToPt (hp : N) : N := nthN 0 [1; 2; 3; 4; 7; 5; 6] hp.

(* ---- Hand, hand.hpp:38-142, hand.cpp:26-53 ---- *)
Definition handShift (hp : N) : N := nthN 0 [0; 6; 10; 14; 18; 22; 25] hp.
Definition handWidthMask (hp : N) : N := nthN 0 [0x1f; 7; 7; 7; 7; 3; 3] hp.
Definition handMask (hp : N) : N := N.shiftl (handWidthMask hp) (handShift hp).
Definition handOne (hp : N) : N := nthN 0 [1; 64; 1024; 16384; 262144; 4194304; 33554432] hp.
(* numOf(HandPiece), hand.hpp:52-54 *)
Definition numOf (h hp : N) : N := N.shiftr (N.land h (handMask hp)) (handShift hp).
(* numOf<HP>(), hand.hpp:43-51: the rook is read without a mask *)
Definition numOfT (h hp : N) : N :=
  if hp =? 6 then N.shiftr h 25 else N.shiftr (N.land h (handMask hp)) (handShift hp).
(* exists(HandPiece), hand.hpp:66 *)
Definition handExists (h hp : N) : bool := negb (N.land h (handMask hp) =? 0).
(* exceptPawnExists, hand.hpp:67,126-128 *)
Definition exceptPawnMask : N :=
  fold_left N.lor (map handMask [1; 2; 3; 4; 5; 6]) 0.
Definition exceptPawnExists (h : N) : bool := negb (N.land h exceptPawnMask =? 0).
(* orEqual, plusOne, minusOne, hand.hpp:69-71 *)
Definition handOrEqual (h num hp : N) : N := w32 (N.lor h (N.shiftl num (handShift hp))).
Definition plusOne (h hp : N) : N := w32 (h + handOne hp).
Definition minusOne (h hp : N) : N := sub32 h (handOne hp).
(* BorrowMask, hand.hpp:133-139; isEqualOrSuperior, hand.hpp:77-90 *)
Definition borrowMask : N :=
  fold_left N.lor (map (fun hp => handMask hp + handOne hp) [0; 1; 2; 3; 4; 5; 6]) 0.
Definition isEqualOrSuperior (h ref : N) : bool := N.land (sub32 h ref) borrowMask =? 0.

(* ---- Move, move.hpp:38-174 ---- *)
Definition PromoteFlag : N := 0x4000.
Definition MoveNone : N := 0.
Definition MoveNull : N := 129.
Definition mvTo (m : N) : N := N.land m 0x7f.
Definition mvFrom (m : N) : N := N.land (N.shiftr m 7) 0x7f.
Definition mvCap (m : N) : N := N.land (N.shiftr m 20) 0xf.
Definition mvPromo (m : N) : bool := negb (N.land m PromoteFlag =? 0).
Definition mvPtFrom (m : N) : N := N.land (N.shiftr m 16) 0xf.
Definition mvDrop (m : N) : bool := 81 <=? mvFrom m.
Definition mvPtDropped (m : N) : N := mvFrom m - 80.
(* pieceTypeTo(ptFrom), move.hpp:72-79 *)
Definition mvPtToOf (m ptFrom : N) : N := ptFrom + N.shiftr (N.land m PromoteFlag) 11.
(* pieceTypeTo(), move.hpp:69 *)
Definition mvPtTo (m : N) : N := if mvDrop m then mvPtDropped m else mvPtToOf m (mvPtFrom m).
Definition mvPtFromOrDropped (m : N) : N := if mvDrop m then mvPtDropped m else mvPtFrom m.
Definition mvIsCapture (m : N) : bool := negb (N.land m 0xf00000 =? 0).

Definition to2Move (to : N) : N := to.
Definition from2Move (from : N) : N := N.shiftl from 7.
Definition drop2From (pt : N) : N := 80 + pt.
Definition pieceType2Move (pt : N) : N := N.shiftl pt 16.
Definition captured2Move (pt : N) : N := N.shiftl pt 20.
(* makeMove, makeDropMove, move.hpp:157-159,174 *)
Definition makeMove (pt from to : N) : N := N.lor (N.lor (pieceType2Move pt) (from2Move from)) (to2Move to).
Definition makeDropMove (pt to : N) : N := N.lor (from2Move (drop2From pt)) (to2Move to).

(* canPromote(Color, Rank), square.hpp:246-251 *)
Definition canPromoteRank (c rank : N) : bool := negb (N.land 0x1c00007 (w32 (N.shiftl 1 (N.shiftl c 4 + rank))) =? 0).
Definition canPromote (c sq : N) : bool := canPromoteRank c (makeRank sq).
(* canPromote(Color, Square, Square), square.hpp:262-265 *)
Definition canPromote2 (c from to : N) : bool := canPromote c from || canPromote c to.

(* inverse(Square), square.hpp:236 *)
Definition inverseSq (sq : N) : N := 80 - sq.
Definition inverseIfWhite (c sq : N) : N := if c =? 0 then sq else inverseSq sq.
