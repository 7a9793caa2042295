(* A game a program hands to CSA.Exporter, the calls it makes, and what the reader must report of it.  No proofs. *)
From Verif Require Export Export CsaSpec CommandSpec.
From Verif Require Export Claims Gen.
Local Open Scope string_scope.

(* what a program says about a move: nothing; a comment on a line of its own; a score with a remark, on a line of its
   own; a comment behind a comma *)
Inductive note := Silent | Remarked (c : string) | Scored (n : Z) (t : string) | Beside (c : string).
Definition note_comment (x : note) : string := match x with Silent => "" | Remarked c => c | Scored _ t => "** " ++ t | Beside c => c end.
Definition note_sep (x : note) : string := match x with Beside _ => "," | _ => String line_feed "" end.
(* a move (the integer), the seconds it took *)
Record told := mkTold { t_code : N; t_time : option Z; t_note : note }.
(* the whole game; x_end is the word at the end, as "%TORYO", and the seconds *)
Record exported := mkExported { x_version : string; x_names : list string; x_vars : list (string * string); x_comment : string;
  x_moves : list told; x_end : option (string * option Z) }.

(* the calls: info, move for every move, endgame if there is one *)
Fixpoint export_moves (ms : list told) (e : Exporter) : outcome Exporter :=
  match ms with
  | [] => Done e
  | m :: ms => obind (exportMove (t_code m) (t_time m) (note_comment (t_note m)) (note_sep (t_note m)) e) (export_moves ms)
  end.
Definition export_game (z : Zob) (init : startOf) (x : exported) (e : Exporter) : outcome Exporter :=
  obind (exportInfo z init (x_names x) (x_vars x) (x_comment x) (x_version x) e) (fun e =>
  obind (export_moves (x_moves x) e) (fun e => Done (match x_end x with Some (w, t) => exportEnd w t e | None => e end))).

(* the game begins on the board b: by default, and for the starting SFEN, what that SFEN gives *)
Definition begins_on (z : Zob) (init : startOf) (b : Board) : Prop :=
  match init with NoBoard => setSfen z startSfen = Done b | FromSfen s => s = startSfen /\ setSfen z s = Done b | FromBoard b' => b' = b end.
(* each integer is in the list of legal moves of the board it is pushed on *)
Fixpoint plays (z : Zob) (b : Board) (ms : list N) : Prop :=
  match ms with [] => True | m :: ms => In m (legalMoves (bpos b)) /\ plays z (push z b m) ms end.
Fixpoint pushes (z : Zob) (b : Board) (ms : list N) : Board := match ms with [] => b | m :: ms => pushes z (push z b m) ms end.

(* texts are single lines; comments have no special meaning to the reader; times fit *)
Definition time_ok (t : option Z) : Prop := forall n, t = Some n -> (0 <= n <= int_max)%Z.
Definition note_ok (x : note) : Prop :=
  match x with
  | Silent => True
  | Remarked c => one_line c /\ c <> "" /\ comment_line ("'" ++ c)
  | Scored n t => one_line t /\ extra_text (Score n t) ("'** " ++ t)
  | Beside c => one_line c /\ c <> ""
  end.
Definition told_ok (t : told) : Prop := time_ok (t_time t) /\ note_ok (t_note t) /\ forall c, t_note t = Beside c -> t_time t = None.
Record exported_ok (x : exported) : Prop := {
  xo_version : one_line (x_version x) /\ (x_version x = "" \/ begins "V" (x_version x));
  xo_names : Forall one_line (x_names x) /\ (length (x_names x) <= 2)%nat;
  xo_vars : Forall (fun kv => one_line (fst kv) /\ one_line (snd kv)) (x_vars x);
  xo_comment : one_line (x_comment x) /\ ~ begins "'" (x_comment x) /\ (x_comment x = "" \/ comment_line ("'" ++ x_comment x));
  xo_moves : Forall told_ok (x_moves x);
  xo_end : forall w t, x_end x = Some (w, t) -> one_line w /\ begins "%" w /\ no_comma w /\ time_ok t }.

(* what the reader reports *)
Definition told_time (t : told) : Z := match t_time t with Some n => n | None => 0 end.
Definition told_score (t : told) : Z := match t_note t with Scored n _ => n | _ => 0 end.
Definition told_comment (t : told) : string := match t_note t with Scored _ c => c | Beside c => c | _ => "" end.
Definition told_remark (t : told) : list string := match t_note t with Remarked c => ["'" ++ c] | _ => [] end.
Record reported (z : Zob) (b : Board) (x : exported) (g : Record_) : Prop := {
  rp_sfen : sfen_denotes (gSfen g) (abs (bpos b)) 1;
  rp_moves : gMoves g = map t_code (x_moves x);
  rp_times : gTimes g = (map told_time (x_moves x) ++ match x_end x with Some (_, Some t) => [t] | _ => [] end)%list;
  rp_scores : gScores g = map told_score (x_moves x);
  rp_comments : gComments g = map told_comment (x_moves x);
  rp_version : gVersion g = x_version x;
  rp_names : gNames g = (nth 0 (x_names x) "", nth 1 (x_names x) "");
  rp_infos : gInfos g = map (fun kv => "$" ++ fst kv ++ ":" ++ snd kv) (x_vars x);
  rp_comment : gComment g = ended ((if String.eqb (x_comment x) "" then [] else ["'" ++ x_comment x]%string) ++ flat_map told_remark (x_moves x))%list;
  rp_end : gEndgame g = match x_end x with Some (w, _) => w | None => "" end;
  rp_win : gWin g = win_code match x_end x with Some (w, _) => winner (side (abs (bpos (pushes z b (map t_code (x_moves x)))))) w | None => None end }.

(* a game together with where it begins and the board its moves are pushed on *)
Record session := mkSession { s_init : startOf; s_board : Board; s_game : exported }.
Record session_ok (z : Zob) (s : session) : Prop := {
  so_reachable : reachable z (s_board s);
  so_wf : well_formed (abs (bpos (s_board s)));
  so_begins : begins_on z (s_init s) (s_board s);
  so_plays : plays z (s_board s) (map t_code (x_moves (s_game s)));
  so_ok : exported_ok (s_game s) }.
(* games written one after the other into the same file *)
Fixpoint export_games (z : Zob) (ss : list session) (e : Exporter) : outcome Exporter :=
  match ss with
  | [] => Done e
  | s :: ss => obind (export_game z (s_init s) (s_game s) e) (export_games z ss)
  end.
