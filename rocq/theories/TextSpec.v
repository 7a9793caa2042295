(* Specification of move texts and of the half-turn of the board, in terms of Spec.v only. *)
From Verif Require Export Spec.
From Coq Require Export Ascii String.
Local Open Scope Z_scope.

(* USI: files are digits 1-9, ranks letters a-i *)
Definition digit_char (n : Z) : ascii := ascii_of_N (Z.to_N (48 + n)).
Definition letter_char (n : Z) : ascii := ascii_of_N (Z.to_N (96 + n)).
Definition usi_square (s : square) : string := String (digit_char (fst s)) (String (letter_char (snd s)) EmptyString).
Definition usi_letter (k : kind) : string :=
  match k with FU => "P" | KY => "L" | KE => "N" | GI => "S" | KI => "G" | KA => "B" | HI => "R" | _ => "" end%string.
Definition usi_text (m : move) : string :=
  match m with
  | Drop k t => usi_letter k ++ "*" ++ usi_square t
  | Go s t promoting => usi_square s ++ usi_square t ++ (if promoting then "+" else "")
  end%string.
(* CSA: ranks are digits too, a drop comes from 00, and the kind after the move is written last *)
Definition csa_square (s : square) : string := String (digit_char (fst s)) (String (digit_char (snd s)) EmptyString).
Definition csa_name (k : kind) : string :=
  match k with FU => "FU" | KY => "KY" | KE => "KE" | GI => "GI" | KI => "KI" | KA => "KA" | HI => "HI" | OU => "OU"
             | TO => "TO" | NY => "NY" | NK => "NK" | NG => "NG" | UM => "UM" | RY => "RY" end%string.
Definition kind_after (P : position) (m : move) : option kind :=
  match m with
  | Drop k _ => Some k
  | Go s _ promoting => match at_square P s with Some (_, k) => if promoting then promote k else Some k | None => None end
  end.
Definition csa_text (P : position) (m : move) : string :=
  match m, kind_after P m with
  | Drop _ t, Some k => "00" ++ csa_square t ++ csa_name k
  | Go s t _, Some k => csa_square s ++ csa_square t ++ csa_name k
  | _, None => ""
  end%string.

(* the board turned by 180 degrees with colours exchanged *)
Definition turn_square (s : square) : square := (10 - fst s, 10 - snd s).
Definition turn_move (m : move) : move :=
  match m with Drop k t => Drop k (turn_square t) | Go s t pr => Go (turn_square s) (turn_square t) pr end.
Definition turn_position (P : position) : position :=
  mkPosition (fun s => match at_square P (turn_square s) with Some (c, k) => Some (other c, k) | None => None end)
             (fun c k => in_hand P (other c) k) (other (side P)).
(* What a text is taken to mean when it is read leniently: in USI a drop may use the small letter and be
   followed by anything, and a board move may be followed by a NUL character and anything. *)
Definition small_letter (k : kind) : string :=
  match k with FU => "p" | KY => "l" | KE => "n" | GI => "s" | KI => "g" | KA => "b" | HI => "r" | _ => "" end%string.
Definition usi_reads (s : string) (m : move) : Prop :=
  match m with
  | Drop k t => on_board t /\ In k hand_kinds /\ exists rest, s = (usi_text m ++ rest)%string \/ s = (small_letter k ++ "*" ++ usi_square t ++ rest)%string
  | Go a t _ => on_board a /\ on_board t /\ (s = usi_text m \/ exists rest, s = (usi_text m ++ String Ascii.zero rest)%string)
  end.
