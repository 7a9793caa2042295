(* Model of usi/Engine.py: the text of Engine.position, the loop of Engine.go over the lines of the engine, and InfoListener.
   A text is the list of its characters.  Bytes are decoded as ASCII, and white space is that of ASCII.  No proofs. *)
From Verif Require Export Command.
Local Open Scope N_scope.

Notation txt := (list ascii).
Definition tx (s : string) : txt := list_ascii_of_string s.
Definition gap : ascii := " "%char.
(* str.strip, str.split(' '), ' '.join *)
Definition pyStrip (l : txt) : txt := rev (skipSpaces (rev (skipSpaces l))).
Fixpoint split1 (l : txt) : list txt :=
  match l with [] => [[]] | c :: r => if Ascii.eqb c gap then [] :: split1 r else match split1 r with w :: ws => (c :: w) :: ws | [] => [[c]] end end.
Fixpoint join (ws : list txt) : txt := match ws with [] => [] | [w] => w | w :: ws => w ++ gap :: join ws end.
Fixpoint same (a b : txt) : bool := match a, b with [], [] => true | x :: a, y :: b => Ascii.eqb x y && same a b | _, _ => false end.
Fixpoint tailOf (w l : txt) : option txt := match w, l with [], _ => Some l | x :: w, y :: l => if Ascii.eqb x y then tailOf w l else None | _, [] => None end.

(* Engine.position, Engine.py:311-314 *)
Definition positionCommand (sfen : txt) (moves : list txt) : txt := tx "position " ++ sfen ++ match moves with [] => [] | _ => tx " moves " ++ join moves end.

(* the answer taken from a line, Engine.py:362-367 *)
Definition answer (line : txt) : txt * option txt :=
  match split1 (skipn 9 line) with
  | [m; w; p] => (m, if same w (tx "ponder") then Some p else None)
  | m :: _ => (m, None)
  | [] => ([], None)
  end.
(* the loop of Engine.go, Engine.py:353-367; heard is what the listener has been given.  ls are the lines the engine writes
   before it closes its output; after them readline gives b'', which is not equal to '', so that EOFError is not raised.
   None: the loop is still running after so many rounds. *)
Fixpoint goLoop (rounds : nat) (ls : list txt) (heard : list txt) : option ((txt * option txt) * list txt * list txt) :=
  match rounds with
  | O => None
  | S rounds =>
      let line := pyStrip (hd [] ls) in
      match tailOf (tx "bestmove") line with
      | Some _ => Some (answer line, heard ++ [line], tl ls)
      | None => goLoop rounds (tl ls) (heard ++ [line])
      end
  end.

(* re_info.match, Engine.py:24: the last "pv " at the beginning or after a space that is followed by a word; what is before
   it (group 1) and what is from that word on (groups 2 and 3) *)
Fixpoint lastPv (free : bool) (l : txt) : option (txt * txt) :=
  match l with
  | [] => None
  | c :: r =>
      match lastPv (Ascii.eqb c gap) r with
      | Some (a, p) => Some (c :: a, p)
      | None => if free then match tailOf (tx "pv ") l with Some (d :: p) => if isSpace d then None else Some ([], d :: p) | _ => None end else None
      end
  end.
Record info := mkInfo { iBefore : txt; iFirst : txt; iPv : txt }. (* groups 1, 2, and 2 with 3 *)
Definition matchInfo (line : txt) : option info :=
  match tailOf (tx "info ") line with
  | Some l => match lastPv true l with Some (a, p) => Some (mkInfo a (fst (takeWord p)) p) | None => None end
  | None => None
  end.
(* int of a text: a sign and digits.  (Python also takes underscores between digits.) *)
Definition digitsInt (l : txt) : option Z := match l with [] => None | _ => if forallb isDigit l then Some (Z.of_N (readDigits l 0)) else None end.
Definition pyInt (l : txt) : option Z :=
  match l with
  | c :: r => if Ascii.eqb c "-" then option_map Z.opp (digitsInt r) else if Ascii.eqb c "+" then digitsInt r else digitsInt l
  | [] => None
  end.
Inductive value := Number (n : Z) | Word (w : txt).
(* info_dict, the newest entry first *)
Definition dict := list (txt * value).
Fixpoint dictGet (k : txt) (d : dict) : option value := match d with [] => None | (k', v) :: d => if same k k' then Some v else dictGet k d end.
(* _split_info, Engine.py:35-55; Thrown is IndexError.  The entries "string" and "pv" do not hold numbers and are left out. *)
Fixpoint splitItems (fuel : nat) (items : list txt) (d : dict) : outcome dict :=
  match fuel, items with
  | O, _ | _, [] => Done d
  | S fuel, name :: r =>
      if same name (tx "pv") || same name (tx "string") then Done d
      else
        obind (if same name (tx "score") then match r with n :: r => Done (n, r, (tx "score", Word n) :: d) | [] => Thrown end else Done (name, r, d)) (fun x =>
        let '(name, r, d) := x in
        match r with
        | [] => Thrown
        | v :: r =>
            match pyInt v with
            | Some n => splitItems fuel r ((name, Number n) :: d)
            | None => match r with [] => Thrown | v' :: r => splitItems fuel r ((name, Word v') :: d) end
            end
        end)
  end.
Definition splitInfo (i : info) : outcome dict := let items := split1 (pyStrip (iBefore i)) in splitItems (List.length items) items [].
(* InfoListener.__call__, Engine.py:57-63: the entries, the newest first, and the last line *)
Record listener := mkListener { lInfo : list (txt * info); lLast : txt }.
Definition hear (l : listener) (line : txt) : listener :=
  mkListener (match matchInfo line with Some i => (iFirst i, i) :: lInfo l | None => lInfo l end) line.
Definition listen : listener := mkListener [] [].
Fixpoint entry (k : txt) (l : list (txt * info)) : option info := match l with [] => None | (k', i) :: l => if same k k' then Some i else entry k l end.
(* bestmove, Engine.py:75-82; None[1] raises TypeError *)
Fixpoint upToGap (l : txt) : txt := match l with c :: r => if Ascii.eqb c gap then [] else c :: upToGap r | [] => [] end.
Definition bestmove (l : listener) : outcome txt :=
  match tailOf (tx "bestmove ") (lLast l) with Some r => match upToGap r with [] => Thrown | m => Done m end | None => Thrown end.
(* score, Engine.py:104-123; TypeError and ValueError are Thrown *)
Definition score (mateScore : Z) (l : listener) : outcome (option Z) :=
  obind (bestmove l) (fun m =>
  match entry m (lInfo l) with
  | None => Done None
  | Some i =>
      obind (splitInfo i) (fun d =>
      match dictGet (tx "cp") d with
      | Some (Number n) => Done (Some n)
      | Some (Word w) => match pyInt w with Some n => Done (Some n) | None => Thrown end
      | None =>
          match dictGet (tx "mate") d with
          | None => Done None
          | Some (Number n) => Done (Some (if (0 <? n)%Z then mateScore else (- mateScore)%Z))
          | Some (Word w) => if same w (tx "+") then Done (Some mateScore) else Thrown
          end
      end)
  end).
(* pv, Engine.py:126-135 *)
Definition pv (l : listener) : outcome (option (list txt)) :=
  obind (bestmove l) (fun m => match entry m (lInfo l) with None => Done None | Some i => Done (Some (split1 (iPv i))) end).
