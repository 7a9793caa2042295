(* C54: whole games in KI2.  Ki2GameSpec.v says what is claimed; the proofs are in Ki2GameProofs.v. *)
From Verif Require Import Ki2GameExamples.
Local Open Scope N_scope.

(* The lines written for a game with comments are read as its moves and comments, and the board is the last of the game.
   The full statement is for all legal games; C51_confused_refuted and C51_straight_refuted show why it is only for clear ones. *)
Theorem C54_game_partial : forall rp rh b ms, let z := initZobrist rp rh in reachable z b -> well_formed (abs (bpos b)) -> clear_game z b (played ms) ->
  exists ls, exportNotes z b ms = Done ls /\ forall n, parseKi2 (S (S n)) z b [] [] ls = Done (mkKi2Read (played ms) (map comment_of ms) None "" (ki2_board z b (played ms))).
Proof. exact (fun rp rh b ms R W C => match ki2_game_read _ b ms (okZob_init rp rh) R W C with ex_intro _ ls (conj E (conj P _)) => ex_intro _ ls (conj E P) end). Qed.
Print Assumptions C54_game_partial.
(* With the line written for its end, the winner and the way the game ended are read too, for every end but one. *)
Theorem C54_end_partial : forall rp rh b ms r, let z := initZobrist rp rh in reachable z b -> well_formed (abs (bpos b)) -> (0 < gamePly (bpos b))%Z -> clear_game z b (played ms) ->
  r <> IllegalWin -> exists ls, exportNotes z b ms = Done ls /\ let last := ki2_board z b (played ms) in forall n, parseKi2 (S (S n)) z b [] [] (ls ++ [ki2End r last]) =
    Done (mkKi2Read (played ms) (map comment_of ms) (end_win r (abs (bpos last))) (end_code r (abs (bpos last))) last).
Proof. exact (fun rp rh b ms r R W Y => ki2_end_as_meant _ b ms r (okZob_init rp rh) R W Y). Qed.
Print Assumptions C54_end_partial.
Example C54_case : (reachable z0 start1 /\ well_formed (abs (bpos start1)) /\ (0 < gamePly (bpos start1))%Z /\ clear_game z0 start1 (played twoNoted)) /\
  exportNotes z0 start1 twoNoted = Done [u "▲７六歩"; u "**定跡"; u "△３四歩"] /\ map comment_of twoNoted = [Some (u "定跡"); None].
Proof. exact (conj (conj start1_reachable (conj start1_wf (conj start1_ply two_noted))) (conj two_texts two_comments)). Qed.

(* After a win by the opponent's illegal action the winner is right and the sign is that of the winner. *)
Theorem C54_illegal_refuted : forall rp rh b ms, let z := initZobrist rp rh in reachable z b -> well_formed (abs (bpos b)) -> (0 < gamePly (bpos b))%Z -> clear_game z b (played ms) ->
  exists ls, exportNotes z b ms = Done ls /\ let last := ki2_board z b (played ms) in forall n, exists q, parseKi2 (S (S n)) z b [] [] (ls ++ [ki2End IllegalWin last]) = Done q /\
    kWin q = end_win IllegalWin (abs (bpos last)) /\ kEndgame q <> end_code IllegalWin (abs (bpos last)).
Proof. exact (fun rp rh b ms R W Y => ki2_illegal _ b ms (okZob_init rp rh) R W Y). Qed.
Print Assumptions C54_illegal_refuted.
(* On a board whose move number is not positive the end is written with a negative number and is not read. *)
Theorem C54_number_refuted : forall z b r n, (gamePly (bpos b) <= 0)%Z -> r <> Jishogi -> r <> IllegalLose -> parseKi2 (S n) z b [] [] [ki2End r b] = Done (mkKi2Read [] [] None "" b).
Proof. exact (fun z b r n Y J L => ki2_negative n z b r J L Y). Qed.
Print Assumptions C54_number_refuted.
Example C54_case_number : reachable z0 handicap /\ well_formed (abs (bpos handicap)) /\ (gamePly (bpos handicap) <= 0)%Z.
Proof. exact (conj handicap_reachable (conj handicap_wf handicap_ply)). Qed.
