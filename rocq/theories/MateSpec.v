(* What it means for a move to mate at once. *)
From Verif Require Export Spec.

(* the move is legal, it gives check, and no legal move answers it *)
Definition mates (P : position) (m : move) : Prop :=
  legal P m /\ in_check (play P m) (other (side P)) /\ forall reply, ~ legal (play P m) reply.
