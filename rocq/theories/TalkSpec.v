(* What the theorems on the other exchanges with a USI engine say, apart from the model. *)
From Verif Require Export Talk EngineSpec.

Definition all_space (l : txt) : Prop := Forall (fun c => isSpace c = true) l.
(* a line that, without the white space around it, is not this word; that does not begin with it *)
Definition not_word (w : string) (line : txt) : Prop := pyStrip line <> tx w.
Definition not_begun (w : string) (line : txt) : Prop := forall r, pyStrip line <> tx w ++ r.
(* what an engine says when it is started: its name, or other lines *)
Inductive greeting := Name (ws : list txt) | Remark (line : txt).
Definition greeting_line (x : greeting) : txt := match x with Name ws => join (tx "id" :: tx "name" :: ws) | Remark line => line end.
Definition proper_greeting (x : greeting) : Prop := match x with Name ws => ws <> [] /\ Forall token ws | Remark line => not_begun "id name" line /\ not_word "usiok" line end.
Fixpoint last_name (xs : list greeting) : option txt :=
  match xs with [] => None | x :: xs => match last_name xs with Some n => Some n | None => match x with Name ws => Some (join ws) | Remark _ => None end end end.
(* the words of a go command *)
Definition given (name : string) (v : option Z) : list txt := match v with Some n => [tx name; printZ n] | None => [] end.
Definition go_words (a : limits) : list txt :=
  [tx "go"] ++ (if gPonder a then [tx "ponder"] else []) ++ given "btime" (gBtime a) ++ given "wtime" (gWtime a) ++ given "byoyomi" (gByoyomi a) ++
  match gByoyomi a with Some _ => [] | None => given "binc" (gBinc a) ++ given "winc" (gWinc a) end ++ given "nodes" (gNodes a).
