(* Model of the repetition tests: Position::isDraw and Position::moveIsDraw (position.cpp:3235-3299) and
   Board.is_draw / Board.move_is_draw (_cshogi.pyx:600-646).  No proofs. *)
From Verif Require Export Board.
Local Open Scope Z_scope.

(* RepetitionType, position.hpp:41-44 *)
Inductive Rep := NotRepetition | RepetitionDraw | RepetitionWin | RepetitionLose | RepetitionSuperior | RepetitionInferior.

(* isDraw, position.cpp:3235-3270.  The states behind st_ are the list prev; following a null pointer is
   None.  BAN_BLACK_REPETITION and BAN_WHITE_REPETITION are not defined in the Python build. *)
Fixpoint drawLoop (cur : StateInfo) (us : N) (l : list StateInfo) (i e : Z) : option Rep :=
  match l with
  | _ :: stp :: l =>
      if (stKey stp =? stKey cur)%N then
        Some (if i <=? Z.of_N (nthN 0%N (contCheck cur) us) then RepetitionLose
              else if i <=? Z.of_N (nthN 0%N (contCheck cur) (opp us)) then RepetitionWin
              else RepetitionDraw)
      else if (boardKey stp =? boardKey cur)%N && isEqualOrSuperior (stHand cur) (stHand stp) then Some RepetitionSuperior
      else if (boardKey stp =? boardKey cur)%N && isEqualOrSuperior (stHand stp) (stHand cur) then Some RepetitionInferior
      else if i + 2 <=? e then drawLoop cur us l (i + 2) e else Some NotRepetition
  | _ => None
  end.
Definition isDraw (p : Position) (checkMaxPly : Z) : option Rep :=
  let e := Z.min (Z.of_N (pliesFromNull (st p))) checkMaxPly in
  if 4 <=? e then match prev p with _ :: _ :: l => drawLoop (st p) (turn p) l 4 e | _ => None end
  else Some NotRepetition.
(* moveIsDraw, position.cpp:3272-3299 *)
Fixpoint moveLoop (cur : StateInfo) (us key : N) (l : list StateInfo) (i e : Z) : option Rep :=
  match l with
  | _ :: stp :: l =>
      if (stKey stp =? key)%N then
        Some (if i <=? Z.of_N (nthN 0%N (contCheck cur) us) then RepetitionWin
              else if i <=? Z.of_N (nthN 0%N (contCheck cur) (opp us)) then RepetitionLose
              else RepetitionDraw)
      else if i + 2 <=? e then moveLoop cur us key l (i + 2) e else Some NotRepetition
  | _ => None
  end.
Definition moveIsDraw (z : Zob) (p : Position) (m : N) (checkMaxPly : Z) : option Rep :=
  let e := Z.min (Z.of_N (pliesFromNull (st p))) (checkMaxPly - 1) + 1 in
  if 4 <=? e then match prev p with _ :: l => moveLoop (st p) (turn p) (getKeyAfter z p m) l 4 e | _ => None end
  else Some NotRepetition.
(* the argument ply of is_draw and move_is_draw: None and 0 mean the largest int *)
Definition plyLimit (ply : option Z) : Z := match ply with Some n => if n =? 0 then 2147483647 else n | None => 2147483647 end.
