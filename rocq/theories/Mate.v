(* Model of the mate search behind Board.mate_move and Board.is_mate: /repo/src/mate.cpp,
   cshogi.h:243-251 and _cshogi.pyx:848-869.  No proofs.
   The C++ makes each move on one Position and takes it back; here the new position is a new value, so the
   calls of undoMove have no counterpart.  The array moveList_ has room for MaxCheckMoves = 91 moves
   (mate.cpp:7); the lists here have no limit.  None stands for an exception, for undefined behaviour and
   for recursion without end. *)
From Verif Require Export CheckGen Draw.
Local Open Scope Z_scope.

(* MovePicker<true, INCHECK>, mate.cpp:14-26 *)
Definition orMoves (inCheck : bool) (p : Position) : list N :=
  let l := genCheckAll p in
  if inCheck then removeLoop (checkMoveIsEvasion p) (length l) l else l.
(* MovePicker<false, false>, mate.cpp:27-38.  generateMoves<Evasion> does not generate every refusal to promote. *)
Definition andMoves (p : Position) : list N := removeIllegal p (genEvasion false p).

(* mateMoveIn3Ply, mate.cpp:51-105; the case of an empty list (:69-73) is that of a loop without a round *)
Definition mate3 (z : Zob) (inCheck : bool) (p : Position) : bool :=
  let ci := checkInfo p in
  existsb (fun m => let p1 := doMoveCI z p m ci true in
                    let ci2 := checkInfo p1 in
                    forallb (fun m2 => negb (moveGivesCheck p1 m2 ci2) && negb (mateMoveIn1Ply (doMoveCI z p1 m2 ci2 false) =? 0)%N)
                            (andMoves p1))
          (orMoves inCheck p).

(* a loop that stops at the first success, and one that stops at the first failure *)
Fixpoint firstOf (f : N -> option bool) (l : list N) : option (option N) :=
  match l with
  | [] => Some None
  | m :: l => match f m with Some true => Some (Some m) | Some false => firstOf f l | None => None end
  end.
Fixpoint allOf (f : N -> option bool) (l : list N) : option bool :=
  match l with
  | [] => Some true
  | m :: l => match f m with Some true => allOf f l | Some false => Some false | None => None end
  end.
(* mateMoveInOddPlyReturnMove, mate.cpp:107-151, and mateMoveInOddPly, :155-200, which differ in what they return.
   even is mateMoveInEvenPly. *)
Definition oddPly (even : Position -> Z -> option bool) (z : Zob) (inCheck : bool) (p : Position) (depth : Z) : option (option N) :=
  let ci := checkInfo p in
  firstOf (fun m => let q := doMoveCI z p m ci true in
                    match isDraw q 16 with
                    | None => None
                    | Some RepetitionLose => Some true
                    | Some RepetitionDraw | Some RepetitionWin | Some RepetitionSuperior => Some false
                    | Some NotRepetition | Some RepetitionInferior => even q (depth - 1)
                    end)
          (orMoves inCheck p).
(* mateMoveInEvenPly, mate.cpp:202-275.  fuel bounds the depth of the recursion: when it runs out the result is None. *)
Fixpoint evenPly (z : Zob) (fuel : nat) (p : Position) (depth : Z) : option bool :=
  match fuel with
  | O => None
  | S fuel =>
      let ci := checkInfo p in
      allOf (fun m => let gives := moveGivesCheck p m ci in
                      let q := doMoveCI z p m ci gives in
                      match isDraw q 16 with
                      | None => None
                      | Some RepetitionWin => Some true
                      | Some RepetitionDraw | Some RepetitionLose | Some RepetitionInferior => Some false
                      | Some NotRepetition | Some RepetitionSuperior =>
                          if depth =? 4 then Some (mate3 z gives q)
                          else if depth =? 2 then Some (negb gives && negb (mateMoveIn1Ply q =? 0)%N)
                          else option_map (fun r => match r with Some _ => true | None => false end)
                                          (oddPly (evenPly z fuel) z gives q (depth - 1))
                      end)
            (andMoves p)
  end.
(* Board.mate_move, _cshogi.pyx:848-858, cshogi.h:243-248: two assertions; no move is 0 *)
Definition mateMove (z : Zob) (b : Board) (ply : Z) : option N :=
  if (ply mod 2 =? 1) && (3 <=? ply) then
    option_map (fun r => match r with Some m => m | None => 0%N end)
               (oddPly (evenPly z (Z.to_nat ply)) z (inCheck (bpos b)) (bpos b) ply)
  else None.
(* Board.is_mate, _cshogi.pyx:860-869, cshogi.h:249-251.  For ply <= 0 the C++ recursion has no bound; here None. *)
Definition isMate (z : Zob) (b : Board) (ply : Z) : option bool :=
  if ply mod 2 =? 0 then
    if inCheck (bpos b) then evenPly z (Z.to_nat ply) (bpos b) ply else Some false
  else None.
