(* Model of /repo/src/book.cpp:26-85: the hash used by opening books.  The tables are arbitrary words. *)
From Verif Require Export Position.
Local Open Scope N_scope.

(* Book::ZobPiece, ZobHand, ZobTurn, book.cpp:27-42.  ZobHand has 19 columns: a count above 18 would be
   read out of bounds. *)
Record BookZob := mkBookZob { bzPiece : N -> N -> N; bzHand : N -> N -> N; bzTurn : N }.
(* the loop over HandPiece, book.cpp:52-54 *)
Definition xorHand (z : BookZob) (h key : N) : N := fold_left (fun k hp => N.lxor k (bzHand z hp (numOf h hp))) (seqN 0 7) key.
(* Book::bookKey, book.cpp:44-58 *)
Definition bookKey (z : BookZob) (p : Position) : N :=
  let k1 := fold_left (fun k sq => N.lxor k (bzPiece z (pieceAt p sq) sq)) (bbList (occBB p)) 0 in
  let k2 := xorHand z (handOf p (turn p)) k1 in
  if turn p =? White then N.lxor k2 (bzTurn z) else k2.
(* Book::bookKeyAfter, book.cpp:60-85 *)
Definition bookKeyAfter (z : BookZob) (p : Position) (key m : N) : N :=
  let to := mvTo m in
  let k1 := if mvDrop m then N.lxor key (bzPiece z (mkPiece (turn p) (mvPtDropped m)) to)
            else let from := mvFrom m in
                 let a := N.lxor (N.lxor key (bzPiece z (pieceAt p from) from)) (bzPiece z (mkPiece (turn p) (mvPtTo m)) to) in
                 if mvIsCapture m then N.lxor a (bzPiece z (pieceAt p to) to) else a in
  let k2 := xorHand z (handOf p (turn p)) k1 in
  let k3 := xorHand z (handOf p (opp (turn p))) k2 in
  N.lxor k3 (bzTurn z).
