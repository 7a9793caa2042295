(* What a program that works with several boards relies on: every board is a value of its own.  A copy is
   that value at the moment of copying; every other call changes the board it is made on and no other. *)
From Verif Require Export Heap.

Definition Values := nat -> option Board.
Definition no_boards : Values := fun _ => None.
Definition set_value (v : Values) (n : nat) (b : option Board) : Values := fun k => if Nat.eqb k n then b else v k.
Definition changed (v : Values) (n : nat) (b : option Board) : option Values :=
  match b with Some _ => Some (set_value v n b) | None => None end.
Definition made (v : Values) (n : nat) (b : outcome Board) : option Values :=
  match b with Done b => Some (set_value v n (Some b)) | _ => None end.
Definition value_step (z : Zob) (v : Values) (c : call) : option Values :=
  match c with
  | MakeSfen n s => made v n (setSfen z s)
  | MakeHcp n d => made v n (setHcp z d)
  | MakePsfen n d => made v n (setPsfen z d)
  | MakePieces n pieces inHand => changed v n (option_map (fun b => boardSetPieces z b pieces inHand) (v n))
  | SetTurn n t => changed v n (option_map (fun b => boardSetTurn z b t) (v n))
  | Do n o => changed v n (match v n with Some b => step z b o | None => None end)
  | Copy dst src => changed v dst (v src)
  | Delete n => Some (set_value v n None)
  end.
Fixpoint values (z : Zob) (v : Values) (l : list call) : option Values :=
  match l with
  | [] => Some v
  | c :: l => match value_step z v c with Some v' => values z v' l | None => None end
  end.

(* the board a call is made on, or makes *)
Definition target (c : call) : nat :=
  match c with
  | MakeSfen n _ | MakeHcp n _ | MakePsfen n _ | MakePieces n _ _ | SetTurn n _ | Do n _ | Copy n _ | Delete n => n
  end.
