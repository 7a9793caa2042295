(* What the declaration rule asks for, and what the feature planes should hold.  Stated on positions of
   Spec.v only. *)
From Verif Require Export Spec Abs.
Local Open Scope Z_scope.

(* ---- the declaration rule (27 points) ---- *)
Definition in_zoneb (c : color) (t : square) : bool := rank_for c t <=? 3.
Definition worth (k : kind) : Z := match k with OU => 0 | HI | KA | RY | UM => 5 | _ => 1 end.
(* pieces of c, other than the king, in the camp of the other side *)
Definition camp_count (P : position) (c : color) : Z :=
  Z.of_nat (length (filter (fun s => match at_square P s with
    | Some (c', k) => color_eqb c' c && negb (kind_eqb k OU) && in_zoneb c s | None => false end) all_squares)).
Definition add_up {A} (f : A -> Z) (l : list A) : Z := fold_right (fun x n => f x + n) 0 l.
(* points of the pieces in that camp and of the pieces in hand *)
Definition points (P : position) (c : color) : Z :=
  add_up (fun s => match at_square P s with Some (c', k) => if color_eqb c' c && in_zoneb c s then worth k else 0 | None => 0 end) all_squares
  + add_up (fun k => worth k * in_hand P c k) hand_kinds.
Definition points_needed (c : color) : Z := match c with Sente => 28 | Gote => 27 end.
Definition king_entered (P : position) (c : color) : Prop := exists s, on_board s /\ at_square P s = Some (c, OU) /\ in_zone c s.
Definition may_declare (P : position) : Prop :=
  let c := side P in
  ~ in_check P c /\ king_entered P c /\ 10 <= camp_count P c /\ points_needed c <= points P c.

(* ---- planes ---- *)
(* the cell of a square in a plane of 81 *)
Definition cell (s : square) : Z := (fst s - 1) * 9 + (snd s - 1).
(* the board as the player c sees it *)
Definition seen (c : color) (s : square) : square := match c with Sente => s | Gote => (10 - fst s, 10 - snd s) end.
(* 0 for the player who looks, 1 for the opponent *)
Definition whose (viewer c : color) : Z := if color_eqb viewer c then 0 else 1.
(* the fourteen kinds in the order of the planes *)
Definition kind_no (k : kind) : Z :=
  match k with FU => 0 | KY => 1 | KE => 2 | GI => 3 | KA => 4 | HI => 5 | KI => 6 | OU => 7 | TO => 8 | NY => 9 | NK => 10 | NG => 11 | UM => 12 | RY => 13 end.
(* hand planes: first plane and number of planes of a kind, in the order of the hand *)
Definition hand_first (k : kind) : Z := match k with FU => 0 | KY => 8 | KE => 12 | GI => 16 | KI => 20 | KA => 24 | HI => 26 | _ => 0 end.
Definition hand_room (k : kind) : Z := match k with FU => 8 | KY | KE | GI | KI => 4 | KA | HI => 2 | _ => 0 end.
(* at least n pieces of c attack s *)
Definition attacked_times (P : position) (c : color) (s : square) (n : Z) : Prop :=
  exists l, NoDup l /\ Z.of_nat (length l) = n /\ forall t, In t l -> on_board t /\ piece_attacks P c t s.
(* an entry of a buffer *)
Definition entry (m : list Z) (i : Z) : Z := nth (Z.to_nat i) m 0.
(* m' is m, except that some places now hold 1: those that `ones` names *)
Definition marked (m m' : list Z) (ones : Z -> Prop) : Prop :=
  length m' = length m /\ forall i, 0 <= i < Z.of_nat (length m) -> (ones i /\ entry m' i = 1) \/ (~ ones i /\ entry m' i = entry m i).
(* v says whether A holds *)
Definition flag (v : Z) (A : Prop) : Prop := (A /\ v = 1) \/ (~ A /\ v = 0).
(* some piece of c of kind k attacks s *)
Definition kind_attacks (P : position) (c : color) (k : kind) (s : square) : Prop :=
  exists t, on_board t /\ at_square P t = Some (c, k) /\ attacks (occupied P) c k t s.
(* The first buffer, 2 x 31 planes: for the side to move, then for the opponent, where each kind stands,
   what each kind attacks, and how often a square is attacked (once, twice, three times), on the board
   as the side to move sees it.  What lies behind the planes is left alone. *)
Definition buffer1 (P : position) (m m' : list Z) : Prop :=
  let v := side P in
  length m' = length m /\ (forall i, 5022 <= i < Z.of_nat (length m) -> entry m' i = entry m i) /\
  forall c s, on_board s -> let at1 := fun plane => entry m' ((31 * whose v c + plane) * 81 + cell (seen v s)) in
    (forall k, flag (at1 (kind_no k)) (at_square P s = Some (c, k))) /\
    (forall k, flag (at1 (14 + kind_no k)) (kind_attacks P c k s)) /\
    (forall j, 0 <= j < 3 -> flag (at1 (28 + j)) (attacked_times P c s (j + 1))).
(* The second buffer, 57 planes: for the side to move, then for the opponent, as many full planes as
   pieces in hand of each kind (pawns: at most eight); the last plane is full when the side to move is
   in check. *)
Definition buffer2 (P : position) (m m' : list Z) : Prop :=
  let v := side P in
  length m' = length m /\ (forall i, 4617 <= i < Z.of_nat (length m) -> entry m' i = entry m i) /\
  forall s, on_board s ->
    (forall c k j, In k hand_kinds -> 0 <= j < hand_room k ->
      flag (entry m' ((28 * whose v c + hand_first k + j) * 81 + cell s)) (j < in_hand P c k)) /\
    flag (entry m' (56 * 81 + cell s)) (in_check P v).
(* v says whether A holds, but keeps what was there before when it does not *)
Definition kept (v before : Z) (A : Prop) : Prop := (A /\ v = 1) \/ (~ A /\ v = before).
(* The 62 declaration planes behind them: whether the king has entered the camp, how many pieces are
   missing there to ten, how many points are missing.  They are written when the condition holds and left
   alone when it does not. *)
Definition declaration_planes (P : position) (m m' : list Z) : Prop :=
  let v := side P in
  forall c s, on_board s -> let at2 := fun mem plane => entry mem ((57 + 31 * whose v c + plane) * 81 + cell s) in
    kept (at2 m' 0) (at2 m 0) (king_entered P c) /\
    (forall j, 0 <= j < 10 -> kept (at2 m' (1 + j)) (at2 m (1 + j)) (10 - camp_count P c = j)) /\
    (forall j, 0 <= j < 20 -> kept (at2 m' (11 + j)) (at2 m (11 + j)) (points_needed c - points P c = j)).
Definition buffer2_more (P : position) (m m' : list Z) : Prop :=
  length m' = length m /\ (forall i, 9639 <= i < Z.of_nat (length m) -> entry m' i = entry m i) /\
  (forall s, on_board s ->
    (forall c k j, In k hand_kinds -> 0 <= j < hand_room k ->
      flag (entry m' ((28 * whose (side P) c + hand_first k + j) * 81 + cell s)) (j < in_hand P c k)) /\
    flag (entry m' (56 * 81 + cell s)) (in_check P (side P))) /\
  declaration_planes P m m'.
