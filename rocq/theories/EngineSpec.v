(* What the theorems on usi.Engine say, apart from the model. *)
From Verif Require Export Engine CommandSpec.

(* a word: not empty, no white space *)
Definition token (w : txt) : Prop := w <> [] /\ Forall (fun c => isSpace c = false) w.
(* the line an engine ends its search with *)
Definition best_line (m : txt) (p : option txt) : txt := join (tx "bestmove" :: m :: match p with Some p => [tx "ponder"; p] | None => [] end).
Definition ends_search (line : txt) : Prop := exists r, pyStrip line = tx "bestmove" ++ r.
(* an info line of the protocol: numbers with names, a score, more of them, and the moves expected *)
Inductive worth := Cp (n : Z) | Mate (n : Z).
Record report := mkReport { rFirst : list (txt * Z); rScore : worth; rThen : list (txt * Z); rMove : txt; rRest : list txt }.
Definition named (x : txt * Z) : list txt := [fst x; printZ (snd x)].
Definition worth_words (w : worth) : list txt := tx "score" :: match w with Cp n => [tx "cp"; printZ n] | Mate n => [tx "mate"; printZ n] end.
Definition report_line (r : report) : txt :=
  join (tx "info" :: List.concat (map named (rFirst r)) ++ worth_words (rScore r) ++ List.concat (map named (rThen r)) ++ tx "pv" :: rMove r :: rRest r).
Definition plain_name (w : txt) : Prop := token w /\ ~ In w [tx "pv"; tx "string"; tx "score"; tx "cp"; tx "mate"].
Definition proper_report (r : report) : Prop :=
  Forall (fun x => plain_name (fst x)) (rFirst r) /\ Forall (fun x => plain_name (fst x)) (rThen r) /\ Forall (fun w => token w /\ w <> tx "pv") (rMove r :: rRest r).
Definition points (mateScore : Z) (w : worth) : Z := match w with Cp n => n | Mate n => if (0 <? n)%Z then mateScore else (- mateScore)%Z end.
(* what an engine says during a search: reports, and lines that do not begin with "info " *)
Inductive said := Report (r : report) | Other (line : txt).
Definition line_of (x : said) : txt := match x with Report r => report_line r | Other l => l end.
Definition proper_said (x : said) : Prop := match x with Report r => proper_report r | Other l => forall r, l <> tx "info " ++ r end.
(* the last report on a move *)
Definition about (m : txt) (x : said) : option report := match x with Report r => if list_eq_dec ascii_dec (rMove r) m then Some r else None | Other _ => None end.
Fixpoint last_report (m : txt) (xs : list said) : option report :=
  match xs with [] => None | x :: xs => match last_report m xs with Some r => Some r | None => about m x end end.
