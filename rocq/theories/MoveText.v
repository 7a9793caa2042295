(* Model of move texts, 16-bit moves, rotated moves and move labels:
   /repo/src/move.cpp, usi.cpp, square.hpp, cshogi.h.  Strings are Coq strings; std::string::operator[]
   at the length gives '\0' and further on is undefined behaviour, modelled by None. *)
From Verif Require Export Gen.
From Coq Require Export Ascii String.
Local Open Scope N_scope.

(* moveStr[i] *)
Definition charAt (s : string) (i : nat) : option ascii :=
  if Nat.ltb i (String.length s) then String.get i s else if Nat.eqb i (String.length s) then Some Ascii.zero else None.
(* fileToCharUSI, rankToCharUSI, fileToCharCSA, rankToCharCSA, square.hpp:210-222 *)
Definition fileChar (f : N) : ascii := ascii_of_N (49 + f).
Definition rankCharUSI (r : N) : ascii := ascii_of_N (97 + r).
Definition rankCharCSA (r : N) : ascii := ascii_of_N (49 + r).
(* squareToStringUSI, squareToStringCSA, square.hpp:214-228 *)
Definition squareUSI (sq : N) : string := String (fileChar (makeFile sq)) (String (rankCharUSI (makeRank sq)) EmptyString).
Definition squareCSA (sq : N) : string := String (fileChar (makeFile sq)) (String (rankCharCSA (makeRank sq)) EmptyString).
(* HandPieceToStringTable, PieceTypeToStringTable, move.cpp:25-32; an index past the end is undefined
   behaviour in C++, here the empty string *)
Definition handPieceString (hp : N) : string := nthN EmptyString ["P*"; "L*"; "N*"; "S*"; "G*"; "B*"; "R*"]%string hp.
Definition pieceTypeString (pt : N) : string :=
  nthN EmptyString [""; "FU"; "KY"; "KE"; "GI"; "KA"; "HI"; "KI"; "OU"; "TO"; "NY"; "NK"; "NG"; "UM"; "RY"]%string pt.
(* Move::toUSI, move.cpp:34-44 *)
Definition toUSI (m : N) : string :=
  if m =? 0 then "None"%string
  else if mvDrop m then (handPieceString (ptToHand (mvPtDropped m)) ++ squareUSI (mvTo m))%string
  else (squareUSI (mvFrom m) ++ squareUSI (mvTo m) ++ (if mvPromo m then "+" else ""))%string.
(* Move::toCSA, move.cpp:46-52 *)
Definition toCSA (m : N) : string :=
  if m =? 0 then "None"%string
  else ((if mvDrop m then "00" else squareCSA (mvFrom m)) ++ squareCSA (mvTo m) ++ pieceTypeString (mvPtTo m))%string.

(* charUSIToFile, charCSAToFile, charUSIToRank, charCSAToRank, square.hpp:230-233, together with
   isInFile / isInRank, square.hpp:119-120 *)
Definition fileOfChar (c : ascii) : option N := let n := N_of_ascii c in if (49 <=? n) && (n <=? 57) then Some (n - 49) else None.
Definition rankOfCharUSI (c : ascii) : option N := let n := N_of_ascii c in if (97 <=? n) && (n <=? 105) then Some (n - 97) else None.
Definition rankOfCharCSA (c : ascii) : option N := fileOfChar c.
(* CharToPieceUSI, position.hpp:573-587, then pieceToPieceType *)
Definition ptOfCharUSI (c : ascii) : option N :=
  match c with
  | "P"%char | "p"%char => Some Pawn | "L"%char | "l"%char => Some Lance | "N"%char | "n"%char => Some Knight
  | "S"%char | "s"%char => Some Silver | "B"%char | "b"%char => Some Bishop | "R"%char | "r"%char => Some Rook
  | "G"%char | "g"%char => Some Gold | "K"%char | "k"%char => Some King | _ => None
  end.
(* StringToPieceTypeCSA, usi.cpp:35-59 *)
Definition csaNames : list (string * N) :=
  [("FU", 1); ("KY", 2); ("KE", 3); ("GI", 4); ("KA", 5); ("HI", 6); ("KI", 7); ("OU", 8); ("TO", 9); ("NY", 10); ("NK", 11);
   ("NG", 12); ("UM", 13); ("RY", 14)]%string.
Definition ptOfCSA (s : string) : option N := option_map snd (find (fun x => String.eqb (fst x) s) csaNames).
(* The test at the end of usiToMoveBody and csaToMoveBody, usi.cpp:98-103, 154-159.  Dropping a king reads
   HandPieceMask[HandPieceNum], one past its end (hand.hpp), before anything else is tested. *)
Definition accept (p : Position) (m : N) : option N :=
  if mvDrop m && (ptToHand (mvPtDropped m) =? 7) then None else Some (if boardMoveIsLegal p m then m else 0).
(* two characters as a square; both are read before either is tested *)
Definition readSquare (rank : ascii -> option N) (s : string) (i : nat) : option (option N) :=
  match charAt s i, charAt s (S i) with
  | Some a, Some b => Some (match fileOfChar a, rank b with Some f, Some r => Some (f * 9 + r) | _, _ => None end)
  | _, _ => None
  end.
(* usiToMoveBody, usi.cpp:63-104: None is an access out of bounds, Some 0 is Move::moveNone() *)
Definition usiToMove (p : Position) (s : string) : option N :=
  match charAt s 0 with
  | None => None
  | Some c0 =>
    match ptOfCharUSI c0 with
    | Some pt =>
      match charAt s 1 with
      | None => None
      | Some c1 =>
        if negb (Ascii.eqb c1 "*"%char) then Some 0
        else match readSquare rankOfCharUSI s 2 with
             | None => None
             | Some None => Some 0
             | Some (Some to) => accept p (makeDropMove pt to)
             end
      end
    | None =>
      match readSquare rankOfCharUSI s 0 with
      | None => None
      | Some None => Some 0
      | Some (Some from) =>
        match readSquare rankOfCharUSI s 2 with
        | None => None
        | Some None => Some 0
        | Some (Some to) =>
          match charAt s 4 with
          | None => None
          | Some c4 =>
            if Ascii.eqb c4 Ascii.zero then accept p (makeNonPromoteMove p (ptOf (pieceAt p from)) from to)
            else if Ascii.eqb c4 "+"%char then
              match charAt s 5 with
              | None => None
              | Some c5 => if negb (Ascii.eqb c5 Ascii.zero) then Some 0
                           else accept p (makePromoteMove p (ptOf (pieceAt p from)) from to)
              end
            else Some 0
          end
        end
      end
    end
  end.
(* csaToMoveBody, usi.cpp:124-160 *)
Definition csaToMove (p : Position) (s : string) : option N :=
  if negb (Nat.eqb (String.length s) 6) then Some 0
  else match readSquare rankOfCharCSA s 2 with
       | None => None
       | Some None => Some 0
       | Some (Some to) =>
         match ptOfCSA (substring 4 2 s) with
         | None => Some 0
         | Some ptTo =>
           match charAt s 0, charAt s 1 with
           | Some c0, Some c1 =>
             if Ascii.eqb c0 "0"%char && Ascii.eqb c1 "0"%char then accept p (makeDropMove ptTo to)
             else match readSquare rankOfCharCSA s 0 with
                  | None => None
                  | Some None => Some 0
                  | Some (Some from) =>
                    let ptFrom := ptOf (pieceAt p from) in
                    if ptFrom =? ptTo then accept p (makeNonPromoteMove p ptFrom from to)
                    else if ptFrom + 8 =? ptTo then accept p (makePromoteMove p ptFrom from to)
                    else Some 0
                  end
           | _, _ => None
           end
         end
       end.

(* ---- move codes, cshogi.h:738-792 ---- *)
(* __Board::move, drop_move, cshogi.h:204-213 *)
Definition boardMove (p : Position) (from to : N) (promotion : bool) : N :=
  if promotion then makePromoteMove p (ptOf (pieceAt p from)) from to else makeNonPromoteMove p (ptOf (pieceAt p from)) from to.
Definition boardDropMove (to pt : N) : N := makeDropMove pt to.
(* __move_drop_hand_piece, cshogi.h:752 *)
Definition moveDropHandPiece (m : N) : N := ptToHand (mvFrom m - 80).
(* __move16: conversion to unsigned short *)
Definition move16 (m : N) : N := m mod 65536.
(* move16toMove, move.hpp:223-231, used by move_from_move16 *)
Definition move16toMove (p : Position) (m : N) : N :=
  if m =? 0 then 0
  else if mvDrop m then m
  else N.lor (N.lor m (pieceType2Move (ptOf (pieceAt p (mvFrom m))))) (captured2Move (ptOf (pieceAt p (mvTo m)))).
(* __move16_from_psv, cshogi.h:756-766; unsigned short arithmetic *)
Definition move16FromPsv (m : N) : N :=
  let to := N.land m 0x7f in
  let from := N.land (N.shiftr m 7) 0x7f in
  let from := if negb (N.land m 16384 =? 0) then from + 80 else from in
  N.lor (N.lor to (N.shiftl from 7)) (if negb (N.land m 32768 =? 0) then PromoteFlag else 0) mod 65536.
(* __move16_to_psv, cshogi.h:768-780 *)
Definition move16ToPsv (m : N) : N :=
  let to := N.land m 0x7f in
  let from := N.land (N.shiftr m 7) 0x7f in
  let drop := 81 <=? from in
  N.lor (N.lor (N.lor to (N.shiftl (if drop then from - 80 else from) 7)) (if drop then 16384 else 0))
        (if negb (N.land m PromoteFlag =? 0) then 32768 else 0) mod 65536.
(* move_from_move16, move_from_psv, cshogi.h:223-229 *)
Definition moveFromMove16 (p : Position) (m16 : N) : N := move16toMove p m16.
Definition moveFromPsv (p : Position) (m16 : N) : N := move16toMove p (move16FromPsv m16).
(* __move_rotate, cshogi.h:783-790.  For a destination or source above 80 the C++ subtraction goes below
   zero; here it stops at zero. *)
Definition moveRotate (m : N) : N :=
  let to := 80 - mvTo m in
  let from := if negb (mvDrop m) then 80 - mvFrom m else mvFrom m in
  N.lor (N.lor (N.land m 0xffffC000) to) (N.shiftl from 7).

(* get_move_direction, cshogi.h:795-827, enum MOVE_DIRECTION, dlshogi.h *)
Definition moveDirection (dx dy : Z) : N :=
  if ((dy <? 0) && (dx =? 0))%Z then 0
  else if ((dy =? -2) && (dx =? -1))%Z then 8
  else if ((dy =? -2) && (dx =? 1))%Z then 9
  else if ((dy <? 0) && (dx <? 0))%Z then 1
  else if ((dy <? 0) && (0 <? dx))%Z then 2
  else if ((dy =? 0) && (dx <? 0))%Z then 3
  else if ((dy =? 0) && (0 <? dx))%Z then 4
  else if ((0 <? dy) && (dx =? 0))%Z then 5
  else if ((0 <? dy) && (dx <? 0))%Z then 6
  else 7.
(* __dlshogi_make_move_label, cshogi.h:830-871; color is 0 or 1 *)
Definition makeMoveLabel (m color : N) : N :=
  let m16 := m mod 65536 in
  let to := N.land m16 127 in
  let from := N.land (N.shiftr m16 7) 127 in
  if from <? SquareNum then
    let to := if color =? White then 80 - to else to in
    let from := if color =? White then 80 - from else from in
    let dx := (Z.of_N (from / 9) - Z.of_N (to / 9))%Z in
    let dy := (Z.of_N (to mod 9) - Z.of_N (from mod 9))%Z in
    let dir := moveDirection dx dy in
    let dir := if 0 <? N.land m16 16384 then dir + 10 else dir in
    81 * dir + to
  else
    let to := if color =? White then 80 - to else to in
    81 * (20 + (from - SquareNum)) + to.
