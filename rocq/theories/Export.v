(* Model of CSA.Exporter (cshogi/CSA.py:16-124), which writes game records.  The file is the text written so far (the
   bytes; opening, buffering and encoding are left out).  An argument that is None and one that is empty are the same
   to the code; both are the empty string or list here.  No proofs. *)
From Verif Require Export Csa.
Local Open Scope string_scope.

(* init_board: None, a str, or a Board, CSA.py:44 *)
Inductive startOf := NoBoard | FromSfen (s : string) | FromBoard (b : Board).
(* self.f and self.turn, which only info sets *)
Record Exporter := mkExporter { fText : string; fTurn : option N }.
(* a new file, CSA.py:24-28, 40 *)
Definition newExporter : Exporter := mkExporter "" None.
Definition write (e : Exporter) (s : string) : Exporter := mkExporter (fText e ++ s) (fTurn e).
Definition setTurnOf (e : Exporter) (c : N) : Exporter := mkExporter (fText e) (Some c).
Definition nl : string := String newline "".
(* the text csa_pos is compared with, CSA.py:85 *)
Definition initialCsa : string :=
  "P1-KY-KE-GI-KI-OU-KI-GI-KE-KY" ++ nl ++ "P2 * -HI *  *  *  *  * -KA * " ++ nl ++ "P3-FU-FU-FU-FU-FU-FU-FU-FU-FU" ++ nl ++
  "P4 *  *  *  *  *  *  *  *  * " ++ nl ++ "P5 *  *  *  *  *  *  *  *  * " ++ nl ++ "P6 *  *  *  *  *  *  *  *  * " ++ nl ++
  "P7+FU+FU+FU+FU+FU+FU+FU+FU+FU" ++ nl ++ "P8 * +KA *  *  *  *  * +HI * " ++ nl ++ "P9+KY+KE+GI+KI+OU+KI+GI+KE+KY" ++ nl ++ "+" ++ nl.
Definition initialLines : string := "PI" ++ nl ++ "+" ++ nl.
(* zip(names, ['+', '-']), CSA.py:60-63 *)
Fixpoint nameLines (names : list string) (turns : list string) (e : Exporter) : Exporter :=
  match names, turns with
  | name :: names, turn :: turns => nameLines names turns (write (write e ("N" ++ turn ++ name)) nl)
  | _, _ => e
  end.
(* var_info.items(), CSA.py:71-74 *)
Fixpoint infoLines (vars : list (string * string)) (e : Exporter) : Exporter :=
  match vars with
  | [] => e
  | (k, v) :: vars => infoLines vars (write (write e ("$" ++ k ++ ":" ++ v)) nl)
  end.
(* CSA.py:64-70: a comment that begins with an apostrophe is written without a line feed *)
Definition commentLines (comment : string) (e : Exporter) : Exporter :=
  match comment with
  | "" => e
  | String c _ => if Ascii.eqb c "'" then write e comment else write (write (write e "'") comment) nl
  end.
(* Exporter.info, CSA.py:44-91.  For a str that is not the starting SFEN, init_board.turn at the end raises
   AttributeError (after the text has been written). *)
Definition exportInfo (z : Zob) (init : startOf) (names : list string) (vars : list (string * string)) (comment version : string) (e : Exporter) : outcome Exporter :=
  let e := if String.eqb (fText e) "" then e else write e ("/" ++ nl) in
  let e := if String.eqb version "" then e else write (write e version) nl in
  let e := nameLines names ["+"; "-"] e in
  let e := commentLines comment e in
  let e := infoLines vars e in
  let plain := setTurnOf (write e initialLines) Black in
  match init with
  | NoBoard => Done plain
  | FromSfen s =>
      if String.eqb s "" then Done plain
      else if String.eqb s startSfen then Done plain
      else obind (setSfen z s) (fun _ => Thrown)
  | FromBoard b =>
      let text := csaPos b in
      Done (setTurnOf (write e (if String.eqb text initialCsa then initialLines else text)) (turn (bpos b)))
  end.
(* Exporter.move, CSA.py:93-110.  COLOR_SYMBOLS[self.turn] raises when info has not been called. *)
Definition exportMove (m : N) (time : option Z) (comment sep : string) (e : Exporter) : outcome Exporter :=
  match fTurn e with
  | None => Thrown
  | Some c =>
      let e := write (write e (if N.eqb c Black then "+" else "-")) (toCSA m) in
      let e := match time with Some t => write (write e sep) ("T" ++ string_of_list_ascii (printZ t)) | None => e end in
      let e := if String.eqb comment "" then e else write (write e sep) ("'" ++ comment) in
      Done (setTurnOf (write e nl) (opp c))
  end.
(* Exporter.endgame, CSA.py:112-124 *)
Definition exportEnd (endgame : string) (time : option Z) (e : Exporter) : Exporter :=
  let e := write (write e endgame) nl in
  match time with Some t => write (write e ("T" ++ string_of_list_ascii (printZ t))) nl | None => e end.
