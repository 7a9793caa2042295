(* Vocabulary of the property theorems: how a board is set up, which boards a client can reach, and
   what it means that all views of a board agree.  No proofs. *)
From Verif Require Export Board.
Local Open Scope N_scope.

(* Position::initZobrist, position.cpp:2813-2827: every table entry is a random word with its lowest
   bit cleared.  The random words are arbitrary. *)
Definition initZobrist (randomPiece : N -> N -> N -> N) (randomHand : N -> N -> N) : Zob :=
  mkZob (fun pt sq c => N.ldiff (randomPiece pt sq c) 1) (fun hp c => N.ldiff (randomHand hp c) 1).

(* the numbers used for pieces in arrays *)
Definition piece_code (x : N) : Prop := x = 0 \/ exists c k, x = npiece (Some (c, k)).

(* A board that has just been set up.  The position must be proper: one that a shogi set can show,
   with the side that has just moved not in check. *)
Inductive set_up (z : Zob) : Board -> Prop :=
  | su_pieces b pieces inHand : turn (bpos b) < 2 -> length pieces = 81%nat -> Forall piece_code pieces ->
      proper (array_position pieces inHand (turn (bpos b))) -> set_up z (boardSetPieces z b pieces inHand).
(* A board a client can have: set up, then moves, take-backs, passes and pass take-backs in any order. *)
Definition reachable (z : Zob) (b : Board) : Prop :=
  exists b0 es line, set_up z b0 /\ game any_pass (abs (bpos b0)) es line /\ calls z b0 es = Some b.

(* every redundant representation in the position object says the same as the piece array *)
Record agree (p : Position) : Prop := {
  ag_code : forall s, on_board s -> piece_code (pieceAt p (nsquare s));
  ag_piece : forall s c k, on_board s ->
    (isSet (bbTC p (nkind k) (ncolor c)) (nsquare s) = true <-> at_square (abs p) s = Some (c, k));
  ag_type : forall s k, on_board s -> (isSet (bbT p (nkind k)) (nsquare s) = true <-> exists c, at_square (abs p) s = Some (c, k));
  ag_color : forall s c, on_board s -> (isSet (bbC p (ncolor c)) (nsquare s) = true <-> exists k, at_square (abs p) s = Some (c, k));
  ag_occupied : forall s, on_board s -> (isSet (occBB p) (nsquare s) = true <-> at_square (abs p) s <> None);
  ag_golds : forall s, on_board s ->
    (isSet (golds p) (nsquare s) = true <-> exists c k, at_square (abs p) s = Some (c, k) /\ In k [KI; TO; NY; NK; NG]);
  ag_king : forall s c, on_board s -> (kingSquare p (ncolor c) = nsquare s <-> at_square (abs p) s = Some (c, OU));
  ag_noking : forall c, (forall s, at_square (abs p) s <> Some (c, OU)) -> kingSquare p (ncolor c) = 81;
  ag_hand : stHand (st p) = handOf p (turn p);
  ag_turn : turn p < 2
}.

(* the hash of a position computed from nothing but the position *)
Definition square_value (z : Zob) (P : position) (s : square) : Z :=
  match at_square P s with Some (c, k) => Z.of_N (zPiece z (nkind k) (nsquare s) (ncolor c)) | None => 0%Z end.
Definition hand_value (z : Zob) (P : position) (c : color) (k : kind) : Z :=
  match handSlot k with Some hp => (in_hand P c k * Z.of_N (zHand z hp (ncolor c)))%Z | None => 0%Z end.
Definition sum {A} (f : A -> Z) (l : list A) : Z := fold_right (fun x n => (f x + n)%Z) 0%Z l.
Definition scratch_hash (z : Zob) (P : position) : Z :=
  ((sum (square_value z P) all_squares + (match side P with Sente => 0 | Gote => 1 end)
    + sum (hand_value z P Sente) hand_kinds + sum (hand_value z P Gote) hand_kinds) mod 2 ^ 64)%Z.
