(* Model of isOK, position.cpp:3103-3208 (Python: Board.is_ok, _cshogi.pyx:954-960).  What it prints when the
   answer is false, and the static prevKey it prints, are left out. *)
From Verif Require Export Board.
Local Open Scope N_scope.

Definition okTypes : list N := seqN 1 14.
(* debugBitboards, :3116-3134 *)
Definition bitboardsOk (p : Position) : bool :=
  negb (isAny (bbAnd (bbC p Black) (bbC p White))) &&
  bbEq (bbOr (bbC p Black) (bbC p White)) (occBB p) &&
  bbEq (fold_left (fun b pt => bbXor b (bbT p pt)) (tl okTypes) (bbT p Pawn)) (occBB p) &&
  forallb (fun pt1 => forallb (fun pt2 => negb (isAny (bbAnd (bbT p pt1) (bbT p pt2)))) (seqN (pt1 + 1) (N.to_nat (14 - pt1)))) okTypes.
(* debugKingCount, :3137-3154; the counting loop over the squares is the length of the filtered list *)
Definition kingCount (p : Position) (c : N) : N := N.of_nat (List.length (filter (fun sq => pieceAt p sq =? mkPiece c King) squares)).
Definition kingCountOk (p : Position) : bool :=
  negb ((popCount (bbT p King) =? 0) || (2 <? popCount (bbT p King))) &&
  negb (1 <? popCount (bbTC p King Black)) && negb (1 <? popCount (bbTC p King White)) &&
  (kingCount p Black =? popCount (bbTC p King Black)) && (kingCount p White =? popCount (bbTC p King White)).
(* debugKingCapture, :3157-3165 *)
Definition kingCaptureOk (p : Position) : bool :=
  let us := turn p in
  let them := opp us in
  negb (isInSquare (kingSquare p us) && isInSquare (kingSquare p them) && isAny (attackersTo p us (kingSquare p them) (occBB p))).
(* debugCheckerCount, :3168-3171 *)
Definition checkerCountOk (p : Position) : bool := negb (2 <? popCount (checkers p)).
(* debugKey, :3174-3177; computeKey, position.hpp:522 *)
Definition computeKey (z : Zob) (p : Position) : N := add64 (computeBoardKey z p) (computeHandKey z p).
Definition keyOk (z : Zob) (p : Position) : bool := getKey p =? computeKey z p.
(* debugStateHand, :3180-3183 *)
Definition stateHandOk (p : Position) : bool := stHand (st p) =? handOf p (turn p).
(* debugPiece, :3186-3197 *)
Definition pieceOk (p : Position) : bool :=
  forallb (fun sq => let pc := pieceAt p sq in
                     if pc =? Empty then isSet (emptyBB p) sq else isSet (bbTC p (ptOf pc) (colorOf pc)) sq) squares.
Definition isOK (z : Zob) (p : Position) : bool :=
  bitboardsOk p && kingCountOk p && kingCaptureOk p && checkerCountOk p && keyOk z p && stateHandOk p && pieceOk p.
