(* Model of Board.set_position (cshogi.h:108-134, _cshogi.pyx:386-404), Board.push_usi (_cshogi.pyx:501-513)
   and Board.reset (cshogi.h:148-151).  No proofs. *)
From Verif Require Export Sfen.
Local Open Scope N_scope.

(* istringstream >> string: skips white space and takes the characters up to the next one; None when there are none *)
Fixpoint takeWord (l : list ascii) : list ascii * list ascii :=
  match l with
  | c :: r => if isSpace c then ([], l) else let x := takeWord r in (c :: fst x, snd x)
  | [] => ([], [])
  end.
Definition nextToken (l : list ascii) : option (string * list ascii) :=
  match skipSpaces l with
  | [] => None
  | r => let x := takeWord r in Some (string_of_list_ascii (fst x), snd x)
  end.

(* doMove writes byTypeBB_[piece type after the move] and, for a capture, the hand slot of the captured piece:
   a promoted gold or king and a captured king are outside these tables *)
Definition inTables (m : N) : bool :=
  if mvDrop m then true else (mvPtToOf m (mvPtFrom m) <? 15) && negb (mvCap m =? King).
(* push_usi, _cshogi.pyx:501-513: the board and the number returned *)
Definition pushUsi (z : Zob) (b : Board) (s : string) : outcome (Board * N) :=
  match usiToMove (bpos b) s with
  | None => Undefined
  | Some m => if m =? 0 then Done (b, 0) else if inTables m then Done (push z b m, m) else Undefined
  end.

(* DefaultStartPositionSFEN, usi.hpp:28 *)
Definition startSfen : string := "lnsgkgsnl/1r5b1/ppppppppp/9/9/9/PPPPPPPPP/1B5R1/LNSGKGSNL b - 1".
(* reset, cshogi.h:148-151, and Board(), cshogi.h:89 *)
Definition resetBoard (z : Zob) : outcome Board := setSfen z startSfen.

(* while (ss >> token && token != "moves") sfen += token + " ", cshogi.h:121-122.  The fuel is the number of
   characters left, of which every token takes at least one. *)
Fixpoint collect (fuel : nat) (l : list ascii) (sfen : string) : string * list ascii :=
  match fuel with
  | O => (sfen, l)
  | S fuel =>
      match nextToken l with
      | None => (sfen, [])
      | Some (token, r) => if String.eqb token "moves" then (sfen, r) else collect fuel r (sfen ++ token ++ " ")
      end
  end.
(* while (ss >> token) { usiToMove ... push }, cshogi.h:129-133; fuel as above *)
Fixpoint pushTokens (fuel : nat) (z : Zob) (b : Board) (l : list ascii) : outcome Board :=
  match fuel with
  | O => Done b
  | S fuel =>
      match nextToken l with
      | None => Done b
      | Some (token, r) =>
          match usiToMove (bpos b) token with
          | None => Undefined
          | Some m => if m =? 0 then Thrown else if inTables m then pushTokens fuel z (push z b m) r else Undefined
          end
      end
  end.
(* set_position, cshogi.h:108-134.  Thrown is the std::runtime_error, which _cshogi.pyx:264 turns into a
   Python exception; the board it leaves behind is not modelled. *)
Definition setPosition (z : Zob) (s : string) : outcome Board :=
  let l := list_ascii_of_string s in
  match nextToken l with
  | None => Thrown
  | Some (token, r) =>
      if String.eqb token "startpos" then
        obind (setSfen z startSfen) (fun b =>
        match nextToken r with Some (_, r) => pushTokens (List.length r) z b r | None => Done b end)
      else if String.eqb token "sfen" then
        let x := collect (List.length r) r "" in
        obind (setSfen z (fst x)) (fun b => pushTokens (List.length (snd x)) z b (snd x))
      else Thrown
  end.
