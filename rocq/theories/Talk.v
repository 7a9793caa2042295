(* Model of the other exchanges of usi/Engine.py: the loops of connect, usi, isready and go_mate and the text of go.
   As in Engine.v the end of the engine's output gives empty lines for ever, since b'' is compared with ''.  No proofs. *)
From Verif Require Export Engine.

(* the loop of connect, Engine.py:214-223: the name of the engine *)
Fixpoint connectLoop (rounds : nat) (ls : list txt) (name : option txt) : option (option txt * list txt) :=
  match rounds with
  | O => None
  | S rounds =>
      let line := pyStrip (hd [] ls) in
      match tailOf (tx "id name") line with
      | Some _ => connectLoop rounds (tl ls) (Some (skipn 8 line))
      | None => if same line (tx "usiok") then Some (name, tl ls) else connectLoop rounds (tl ls) name
      end
  end.
(* the loop of usi, Engine.py:240-252: the lines returned, what the listener has heard, what has not been read *)
Fixpoint usiLoop (rounds : nat) (ls lines heard : list txt) : option (list txt * list txt * list txt) :=
  match rounds with
  | O => None
  | S rounds =>
      let line := pyStrip (hd [] ls) in
      if same line (tx "usiok") then Some (lines, heard ++ [line], tl ls) else usiLoop rounds (tl ls) (lines ++ [line]) (heard ++ [line])
  end.
(* the loop of isready, Engine.py:280-288 *)
Fixpoint readyLoop (rounds : nat) (ls heard : list txt) : option (list txt * list txt) :=
  match rounds with
  | O => None
  | S rounds =>
      let line := pyStrip (hd [] ls) in
      if same line (tx "readyok") then Some (heard ++ [line], tl ls) else readyLoop rounds (tl ls) (heard ++ [line])
  end.
(* the loop of go_mate, Engine.py:386-396 *)
Fixpoint mateLoop (rounds : nat) (ls heard : list txt) : option (txt * list txt * list txt) :=
  match rounds with
  | O => None
  | S rounds =>
      let line := pyStrip (hd [] ls) in
      match tailOf (tx "checkmate") line with
      | Some _ => Some (skipn 10 line, heard ++ [line], tl ls)
      | None => mateLoop rounds (tl ls) (heard ++ [line])
      end
  end.
(* the text of go, Engine.py:333-349 *)
Record limits := mkLimits { gPonder : bool; gBtime : option Z; gWtime : option Z; gByoyomi : option Z; gBinc : option Z; gWinc : option Z; gNodes : option Z }.
Definition option_text (name : string) (v : option Z) : txt := match v with Some n => tx name ++ printZ n | None => [] end.
Definition goCommand (a : limits) : txt :=
  tx "go" ++ (if gPonder a then tx " ponder" else []) ++ option_text " btime " (gBtime a) ++ option_text " wtime " (gWtime a) ++
  match gByoyomi a with Some n => tx " byoyomi " ++ printZ n | None => option_text " binc " (gBinc a) ++ option_text " winc " (gWinc a) end ++
  option_text " nodes " (gNodes a).
