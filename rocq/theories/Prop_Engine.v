(* C55: talking to a USI engine.  EngineSpec.v says what is claimed; the proofs are in EngineFinal.v. *)
From Verif Require Import EngineExamples.
Local Open Scope N_scope.

(* go returns the move, and the move to ponder on, of the first line that ends the search; the listener has heard every line
   up to it, once and in order, and nothing after it has been read. *)
Theorem C55_go : forall cmd ls m p end_ rest, Forall (fun l => ~ ends_search l) ls -> token m -> (forall q, p = Some q -> token q) -> Forall (fun c => isSpace c = true) end_ ->
  exists n, forall k, goLoop (n + S k) (ls ++ (best_line m p ++ end_) :: rest) [cmd] = Some ((m, p), cmd :: map pyStrip ls ++ [best_line m p], rest).
Proof. exact (fun cmd ls m p e rest F T P S => ex_intro _ (List.length ls) (go_answer ls F m p e rest [cmd] T (match p as p0 return (forall q, p0 = Some q -> token q) -> match p0 with Some p1 => token p1 | None => True end with Some q => fun H => H q eq_refl | None => fun _ => I end P) S)). Qed.
Print Assumptions C55_go.
Example C55_case_go : Forall (fun l => ~ ends_search l) (map line_of search) /\ token (tx "7g7f") /\ best_line (tx "7g7f") (Some (tx "3c3d")) = tx "bestmove 7g7f ponder 3c3d".
Proof. exact (conj search_goes_on (conj move_token eq_refl)). Qed.
(* When the engine ends without an answer, go should raise EOFError; it goes on reading for ever. *)
Theorem C55_eof_refuted : forall ls heard, Forall (fun l => ~ ends_search l) ls -> forall rounds, goLoop rounds ls heard = None.
Proof. exact (fun ls heard F rounds => go_waits ls F rounds heard). Qed.
Print Assumptions C55_eof_refuted.

(* After a search the listener gives the score and the line of play of the last report on the move that was chosen. *)
Theorem C55_score_partial : forall mateScore cmd xs m p, (forall r, cmd <> tx "info " ++ r) -> Forall proper_said xs -> token m -> let l := fold_left hear (cmd :: map line_of xs ++ [best_line m p]) listen in
  bestmove l = Done m /\ score mateScore l = Done (option_map (fun r => points mateScore (rScore r)) (last_report m xs)) /\ pv l = Done (option_map (fun r => rMove r :: rRest r) (last_report m xs)).
Proof. exact (fun ms cmd xs m p C F T => conj (proj1 (search_heard cmd xs m p C F T)) (score_heard ms cmd xs m p C F T)). Qed.
Print Assumptions C55_score_partial.
Example C55_case_score : (forall r, tx "go btime 0" <> tx "info " ++ r) /\ Forall proper_said search /\ token (tx "7g7f") /\ last_report (tx "7g7f") search = Some report3 /\
  report_line report1 = tx "info depth 5 score cp -30 nodes 1200 pv 7g7f 3c3d".
Proof. exact (conj go_no_info (conj search_proper (conj move_token (conj search_last search_line)))). Qed.
(* The protocol also has "mate +" and "mate -", and reports without a score: these raise. *)
Theorem C55_mate_refuted : forall mateScore, score mateScore (fold_left hear [tx "info depth 5 score mate + pv 7g7f"; tx "bestmove 7g7f"] listen) = Thrown /\
  score mateScore (fold_left hear [tx "info depth 5 score mate - nodes 20 pv 7g7f"; tx "bestmove 7g7f"] listen) = Thrown.
Proof. exact mate_unknown. Qed.
Print Assumptions C55_mate_refuted.
Theorem C55_pv_alone_refuted : forall mateScore, let l := fold_left hear [tx "info pv 7g7f"; tx "bestmove 7g7f"] listen in score mateScore l = Thrown /\ pv l = Done (Some [tx "7g7f"]).
Proof. exact pv_alone. Qed.
Print Assumptions C55_pv_alone_refuted.

(* The command position sends, given to Board.set_position, sets up the board on which the moves have been played. *)
Theorem C55_position : forall rp rh s P n ms, let z := initZobrist rp rh in sfen_denotes s P n -> well_formed P -> (n <= intMax)%Z -> legal_moves P ms -> ms <> [] ->
  exists line b, positionCommand (tx ("sfen " ++ s)) (map tx (map usi_text ms)) = tx ("position " ++ line) /\ setPosition z line = Done b /\
    same_position (abs (bpos b)) (play_all P ms) /\ map toUSI (getHistory b) = map usi_text ms.
Proof. exact (fun rp rh s P n ms => position_agrees (initZobrist rp rh) s P n ms (okZob_init rp rh)). Qed.
Print Assumptions C55_position.
Example C55_case_position : sfen_denotes startSfen (abs (bpos start1)) 1 /\ well_formed (abs (bpos start1)) /\ legal_moves (abs (bpos start1)) twoMoves /\ twoMoves <> [].
Proof. exact (conj start1_denotes (conj start1_wf (conj two_legal1 two_moves))). Qed.
