(* The SFEN notation, written for the abstract positions of Spec.v.  No proofs. *)
From Verif Require Export Spec.
From Coq Require Export Ascii String.
Local Open Scope Z_scope.

(* black's pieces are capital letters, white's small ones; "+" marks a promoted piece *)
Definition sfen_letter (c : color) (k : kind) : ascii :=
  match c, k with
  | Sente, FU => "P" | Sente, KY => "L" | Sente, KE => "N" | Sente, GI => "S" | Sente, KI => "G" | Sente, KA => "B" | Sente, HI => "R"
  | Sente, OU => "K" | Gote, FU => "p" | Gote, KY => "l" | Gote, KE => "n" | Gote, GI => "s" | Gote, KI => "g" | Gote, KA => "b"
  | Gote, HI => "r" | Gote, OU => "k"
  | _, _ => "?"
  end%char.
Definition sfen_piece (c : color) (k : kind) : string :=
  if kind_eqb (unpromote k) k then String (sfen_letter c k) "" else String "+" (String (sfen_letter c (unpromote k)) "").
(* a decimal number *)
Definition digit (n : Z) : ascii := ascii_of_nat (48 + Z.to_nat n).
Inductive numeral : string -> Z -> Prop :=
| num_one d : 0 <= d <= 9 -> numeral (String (digit d) "") d
| num_more s n d : numeral s n -> 0 <= d <= 9 -> numeral (s ++ String (digit d) "") (10 * n + d).
(* a row of squares: letters for pieces, digits for that many empty squares *)
Inductive row_text : list (option (color * kind)) -> string -> Prop :=
| row_end : row_text [] ""
| row_piece c k cells s : row_text cells s -> row_text (Some (c, k) :: cells) (sfen_piece c k ++ s)
| row_space n cells s : 1 <= n <= 9 -> row_text cells s -> row_text (repeat None (Z.to_nat n) ++ cells) (String (digit n) s).
Definition row_of (P : position) (rank : Z) : list (option (color * kind)) := map (fun file => at_square P (file, rank)) [9; 8; 7; 6; 5; 4; 3; 2; 1].
(* nine rows, rank 1 first, separated by "/" *)
Inductive rows_text (P : position) : list Z -> string -> Prop :=
| rows_last r s : row_text (row_of P r) s -> rows_text P [r] s
| rows_more r r' rs s t : row_text (row_of P r) s -> rows_text P (r' :: rs) t -> rows_text P (r :: r' :: rs) (s ++ String "/" t).
Definition board_text (P : position) (s : string) : Prop := rows_text P [1; 2; 3; 4; 5; 6; 7; 8; 9] s.
(* pieces in hand: count (may be left out if 1) and letter; "-" if there are none *)
Definition count_text (n : Z) (s : string) : Prop := n = 1 /\ s = ""%string \/ numeral s n.
Inductive items_text : list (color * kind * Z) -> string -> Prop :=
| items_end : items_text [] ""
| items_next c k n l s t : In k hand_kinds -> 1 <= n -> count_text n s -> items_text l t -> items_text ((c, k, n) :: l) (s ++ String (sfen_letter c k) t).
Definition hand_text (P : position) (s : string) : Prop :=
  (s = "-"%string /\ (forall c k, in_hand P c k = 0)) \/
  exists l, l <> [] /\ items_text l s /\ NoDup (map fst l) /\ forall c k, In k hand_kinds -> forall n, In (c, k, n) l <-> in_hand P c k = n /\ 1 <= n.
Definition side_text (P : position) : string := match side P with Sente => "b" | Gote => "w" end.
(* "s denotes the position P at move number n" *)
Definition sfen_denotes (s : string) (P : position) (n : Z) : Prop :=
  exists b h m, board_text P b /\ hand_text P h /\ numeral m n /\ s = (b ++ " " ++ side_text P ++ " " ++ h ++ " " ++ m)%string.
(* ---- arbitrary texts ---- *)
(* the texts between the spaces *)
Fixpoint fields (l : list ascii) : list (list ascii) :=
  match l with
  | [] => [[]]
  | c :: l => if Ascii.eqb c " " then [] :: fields l else match fields l with f :: fs => (c :: f) :: fs | [] => [[c]] end
  end.
Definition field (n : nat) (s : string) : list ascii := nth n (fields (list_ascii_of_string s)) [].
(* "+" is always followed by a piece that has a promoted form *)
Definition plus_ok (f : list ascii) : Prop :=
  forall f1 f2, f = f1 ++ "+"%char :: f2 -> exists c f3, f2 = c :: f3 /\ In c (list_ascii_of_string "PLNSBRplnsbr").
(* no king, and (leaving out dashes) at most nine digits in a row *)
Definition is_digit (c : ascii) : Prop := exists d, 0 <= d <= 9 /\ c = digit d.
Definition hand_field_ok (f : list ascii) : Prop :=
  ~ In "K"%char f /\ ~ In "k"%char f /\
  forall f1 ds f2, filter (fun c => negb (Ascii.eqb c "-")) f = f1 ++ ds ++ f2 -> Forall is_digit ds -> (List.length ds <= 9)%nat.
