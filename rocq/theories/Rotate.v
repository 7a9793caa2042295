(* Model of rotate_sfen (cshogi.h:512-696, _cshogi.pyx:1158-1166).  Texts are lists of characters; the Python
   wrapper only passes ASCII.  No proofs. *)
From Verif Require Export Command.
Local Open Scope N_scope.

(* c >= lo && c <= hi *)
Definition inRange (lo hi c : ascii) : bool := (N_of_ascii lo <=? N_of_ascii c) && (N_of_ascii c <=? N_of_ascii hi).
(* flipPiece, cshogi.h:516-524 *)
Definition flipPiece (c : N) : N :=
  if (65 <=? c) && (c <=? 90) then c - 65 + 97 else if (97 <=? c) && (c <=? 122) then c - 97 + 65 else c.
Definition flipChar (c : ascii) : ascii := ascii_of_N (flipPiece (N_of_ascii c)).
(* expandRank, cshogi.h:527-553: nine numbers, 0 for an empty square, 128 added for a promoted piece *)
Fixpoint expandRank (l : list ascii) (result : list N) (pos : N) : list N :=
  match l with
  | [] => result
  | c :: l =>
      if 9 <=? pos then result
      else if inRange "1" "9" c then expandRank l result (pos + (N_of_ascii c - 48))
      else if Ascii.eqb c "+" then
        match l with
        | c' :: l => expandRank l (updN result pos ((N_of_ascii c' + 128) mod 256)) (pos + 1)
        | [] => result
        end
      else expandRank l (updN result pos (N_of_ascii c)) (pos + 1)
  end.
(* compressRank, cshogi.h:557-590 *)
Fixpoint compressRank (rank : list N) (emptyCount : N) : list ascii :=
  match rank with
  | [] => if emptyCount =? 0 then [] else printN emptyCount
  | piece :: rank =>
      if piece =? 0 then compressRank rank (emptyCount + 1)
      else (if emptyCount =? 0 then [] else printN emptyCount) ++
           (if 128 <=? piece then ["+"%char; ascii_of_N (flipPiece (piece - 128))] else [ascii_of_N (flipPiece piece)]) ++ compressRank rank 0
  end.
(* reverseRank, cshogi.h:593-602 *)
Definition reverseRank (l : list ascii) : list ascii := compressRank (rev (expandRank l (repeat 0 9) 0)) 0.
(* the loop of flipHand, cshogi.h:612-638: what is added to senteHand and goteHand *)
Fixpoint splitHand (l : list ascii) : list ascii * list ascii :=
  match l with
  | [] => ([], [])
  | c :: l =>
      if inRange "2" "9" c then
        match l with
        | piece :: l => let x := splitHand l in if inRange "A" "Z" piece then (c :: piece :: fst x, snd x) else (fst x, c :: piece :: snd x)
        | [] => ([], [])
        end
      else
        let x := splitHand l in
        if inRange "A" "Z" c then (c :: fst x, snd x) else if inRange "a" "z" c then (fst x, c :: snd x) else x
  end.
(* flipHand, cshogi.h:605-652 *)
Definition flipHand (l : list ascii) : list ascii :=
  if String.eqb (string_of_list_ascii l) "-" then ["-"%char]
  else let x := splitHand l in
       let result := map flipChar (snd x) ++ map flipChar (fst x) in
       match result with [] => ["-"%char] | _ => result end.
(* the division of the board into ranks, cshogi.h:661-673 *)
Fixpoint splitRanks (l : list ascii) : list (list ascii) :=
  match l with
  | [] => [[]]
  | c :: l => if Ascii.eqb c "/" then [] :: splitRanks l else match splitRanks l with r :: rs => (c :: r) :: rs | [] => [[c]] end
  end.
Fixpoint joinRanks (rs : list (list ascii)) : list ascii :=
  match rs with
  | [] => []
  | [r] => r
  | r :: rs => r ++ "/"%char :: joinRanks rs
  end.
(* iss >> boardPart >> turn >> hand >> moveNumber: a missing token leaves its string empty *)
Definition tokenOf (l : list ascii) : list ascii * list ascii :=
  match nextToken l with Some (w, r) => (list_ascii_of_string w, r) | None => ([], []) end.
(* __rotate_sfen, cshogi.h:512-696 *)
Definition rotateSfen (s : string) : string :=
  let b := tokenOf (list_ascii_of_string s) in
  let t := tokenOf (snd b) in
  let h := tokenOf (snd t) in
  let m := tokenOf (snd h) in
  let board := joinRanks (map reverseRank (rev (splitRanks (fst b)))) in
  let turn := if String.eqb (string_of_list_ascii (fst t)) "b" then "w"%char else "b"%char in
  string_of_list_ascii (board ++ " "%char :: turn :: " "%char :: flipHand (fst h) ++ " "%char :: fst m).
