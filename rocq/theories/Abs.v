(* Reading the model's positions and move codes as positions and moves of Spec.v.  These functions
   occur in the statements of the property theorems, so they are kept small and proof-free.
   The numbering they use is that of color.hpp:25-28, square.hpp:37-49, piece.hpp:32-53, hand.hpp:26-37
   and move.hpp:38-75. *)
From Verif Require Export Position.
From Verif Require Export Spec.
Local Open Scope N_scope.

Definition colorN (c : N) : color := if c =? 0 then Sente else Gote.
Definition ncolor (c : color) : N := match c with Sente => 0 | Gote => 1 end.
(* piece type <-> kind *)
Definition kinds : list kind := [FU; KY; KE; GI; KA; HI; KI; OU; TO; NY; NK; NG; UM; RY].
Definition kindN (pt : N) : kind := nthN OU kinds (pt - 1).
Definition nkind (k : kind) : N :=
  match k with
  | FU => 1 | KY => 2 | KE => 3 | GI => 4 | KA => 5 | HI => 6 | KI => 7 | OU => 8
  | TO => 9 | NY => 10 | NK => 11 | NG => 12 | UM => 13 | RY => 14
  end.
(* square number = (file - 1) * 9 + (rank - 1) *)
Definition squareN (i : N) : square := (Z.of_N (i / 9) + 1, Z.of_N (i mod 9) + 1)%Z.
Definition nsquare (s : square) : N := Z.to_N ((fst s - 1) * 9 + (snd s - 1)).
Definition on_boardb (s : square) : bool := ((1 <=? fst s) && (fst s <=? 9) && (1 <=? snd s) && (snd s <=? 9))%Z.
(* piece code: 0 = empty, otherwise 16 * colour + type *)
Definition pieceN (x : N) : option (color * kind) := if x =? 0 then None else Some (colorN (x / 16), kindN (x mod 16)).
Definition npiece (x : option (color * kind)) : N := match x with None => 0 | Some (c, k) => 16 * ncolor c + nkind k end.
(* hand slot *)
Definition handSlot (k : kind) : option N :=
  match k with
  | FU => Some 0 | KY => Some 1 | KE => Some 2 | GI => Some 3 | KI => Some 4 | KA => Some 5 | HI => Some 6
  | _ => None
  end.
Definition abs (p : Position) : position :=
  mkPosition (fun s => if on_boardb s then pieceN (pieceAt p (nsquare s)) else None)
             (fun c k => match handSlot k with Some hp => Z.of_N (numOf (handOf p (ncolor c)) hp) | None => 0%Z end)
             (colorN (turn p)).

(* the 24-bit code of a move in a position: destination, source or 80 + dropped type, promotion flag,
   type of the moving piece, type of the captured piece *)
Definition code (p : Position) (m : move) : N :=
  match m with
  | Drop k t => nsquare t + 128 * (80 + nkind k)
  | Go s t promoting => nsquare t + 128 * nsquare s + (if promoting then 16384 else 0)
      + 65536 * (pieceAt p (nsquare s) mod 16) + 1048576 * (pieceAt p (nsquare t) mod 16)
  end.
