(* Vocabulary for the "position" command: words of a text, and pushing moves one by one.  No proofs. *)
From Verif Require Export Command SfenSpec TextSpec.

(* white space: blank, tab, line feed, vertical tab, form feed, carriage return *)
Definition white (c : ascii) : Prop := In (N_of_ascii c) [32; 9; 10; 11; 12; 13]%N.
(* a word is not empty and has no white space in it *)
Definition word (w : string) : Prop := w <> ""%string /\ forall c, In c (list_ascii_of_string w) -> ~ white c.
(* "the words of the text s are ws" *)
Inductive words_of : string -> list string -> Prop :=
| words_none : words_of "" []
| words_white c s ws : white c -> words_of s ws -> words_of (String c s) ws
| words_last w : word w -> words_of w [w]
| words_more w c s ws : word w -> white c -> words_of s ws -> words_of (w ++ String c s) (w :: ws).

(* push_usi for each text in turn, giving up at the first one that is answered with 0 *)
Fixpoint push_each (z : Zob) (b : Board) (ms : list string) : outcome Board :=
  match ms with
  | [] => Done b
  | m :: ms => obind (pushUsi z b m) (fun x => if N.eqb (snd x) 0 then Thrown else push_each z (fst x) ms)
  end.
(* legal moves one after the other, and where they lead *)
Fixpoint legal_moves (P : position) (ms : list move) : Prop :=
  match ms with [] => True | m :: ms => legal P m /\ legal_moves (play P m) ms end.
Definition play_all (P : position) (ms : list move) : position := fold_left play ms P.
(* the command a program would send *)
Definition command (sfen : string) (ms : list string) : string :=
  ("sfen " ++ sfen ++ " moves" ++ String.concat "" (map (fun m => " " ++ m) ms))%string.
