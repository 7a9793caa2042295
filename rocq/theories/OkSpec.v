(* What is_ok answers, in terms of the position. *)
From Verif Require Export FeaturesSpec.
Local Open Scope Z_scope.

(* There is a king and no side has two; when the side to move has its king, the other king (if there is one)
   is not in check; and the king of the side to move is attacked by at most two pieces. *)
Record sound (P : position) : Prop := {
  so_king : exists c s, on_board s /\ at_square P s = Some (c, OU);
  so_one : forall c s t, on_board s -> on_board t -> at_square P s = Some (c, OU) -> at_square P t = Some (c, OU) -> s = t;
  so_safe : (exists s, on_board s /\ at_square P s = Some (side P, OU)) -> ~ in_check P (other (side P));
  so_checks : forall k, on_board k -> at_square P k = Some (side P, OU) -> ~ attacked_times P (other (side P)) k 3
}.
