(* The two 32-byte formats as bit strings, written down from their published descriptions (the comments of
   position.cpp:96-183): the words of the code with the bit that is stored first on the left. *)
From Coq Require Import String Ascii ZArith List Bool.
Import ListNotations.
From Verif Require Export Spec.
Local Open Scope Z_scope.

Fixpoint word (s : string) : list bool :=
  match s with EmptyString => [] | String a s => (if Ascii.eqb a "1"%char then true else false) :: word s end.
Definition gote (c : color) : list bool := match c with Sente => [false] | Gote => [true] end.
Definition promoted (k : kind) : list bool :=
  match k with FU | KY | KE | GI | KA | HI => [false] | TO | NY | NK | NG | UM | RY => [true] | KI | OU => [] end.
(* a piece on the board: its word, then in HuffmanCodedPos the side and the promotion flag, in PackedSfen the
   promotion flag and the side; gold has no promotion flag, an empty square is 0 and a king is left out *)
Definition hcp_kind (k : kind) : list bool :=
  word (match unpromote k with FU => "10" | KY => "1100" | KE => "1110" | GI => "1101" | KI => "11110" | KA => "111110" | HI => "111111" | _ => "" end).
Definition psfen_kind (k : kind) : list bool :=
  word (match unpromote k with FU => "10" | KY => "1100" | KE => "1101" | GI => "1110" | KI => "11110" | KA => "111110" | HI => "111111" | _ => "" end).
Definition hcp_square (x : option (color * kind)) : list bool :=
  match x with None => word "0" | Some (_, OU) => [] | Some (c, k) => (hcp_kind k ++ gote c ++ promoted k)%list end.
Definition psfen_square (x : option (color * kind)) : list bool :=
  match x with None => word "0" | Some (_, OU) => [] | Some (c, k) => (psfen_kind k ++ promoted k ++ gote c)%list end.
(* a piece in hand: its word, then the side *)
Definition hcp_hand (c : color) (k : kind) : list bool :=
  (word (match k with FU => "00" | KY => "1000" | KE => "1100" | GI => "1010" | KI => "1110" | KA => "111110" | HI => "111111" | _ => "" end) ++ gote c)%list.
Definition psfen_hand (c : color) (k : kind) : list bool :=
  (word (match k with FU => "00" | KY => "1000" | KE => "1010" | GI => "1100" | KI => "1110" | KA => "111100" | HI => "111110" | _ => "" end) ++ gote c)%list.
(* a piece that is not in the game *)
Definition hcp_box (k : kind) : list bool :=
  word (match k with FU => "010" | KY => "10010" | KE => "11010" | GI => "10110" | KI => "10111" | KA => "1111000" | HI => "1111010" | _ => "" end).
Definition psfen_box (k : kind) : list bool :=
  word (match k with FU => "010" | KY => "10010" | KE => "10110" | GI => "11010" | KI => "11011" | KA => "1111010" | HI => "1111110" | _ => "" end).
(* seven bits, the lowest first *)
Definition seven (n : Z) : list bool := map (Z.testbit n) [0; 1; 2; 3; 4; 5; 6].
(* the squares are counted down the files, from 1a = 0 to 9i = 80 *)
Definition number (s : square) : Z := 9 * (fst s - 1) + (snd s - 1).
Definition is_king (x : option (color * kind)) (c : color) : bool :=
  match x with Some (c', OU) => color_eqb c' c | _ => false end.
Definition king_number (P : position) (c : color) : Z :=
  match find (fun s => is_king (at_square P s) c) all_squares with Some s => number s | None => 81 end.
Definition copies (n : Z) (l : list bool) : list bool := List.concat (repeat l (Z.to_nat n)).
(* side to move, the two kings, the squares, the hands, and the pieces that are missing from a full set *)
Definition layout (sq : option (color * kind) -> list bool) (hand : color -> kind -> list bool) (box : kind -> list bool) (P : position) : list bool :=
  (gote (side P) ++ seven (king_number P Sente) ++ seven (king_number P Gote) ++
   flat_map (fun s => sq (at_square P s)) all_squares ++
   flat_map (fun c => flat_map (fun k => copies (in_hand P c k) (hand c k)) hand_kinds) [Sente; Gote] ++
   flat_map (fun k => copies (full_set k - total P k) (box k)) hand_kinds)%list.
Definition hcp_bits : position -> list bool := layout hcp_square hcp_hand hcp_box.
Definition psfen_bits : position -> list bool := layout psfen_square psfen_hand psfen_box.
(* the bits of a list of bytes, the lowest bit of each byte first *)
Definition bits_of_bytes (d : list N) : list bool := flat_map (fun x => map (fun i => N.testbit x i) [0; 1; 2; 3; 4; 5; 6; 7]%N) d.
