(* C53: KIF move lines.  KifSpec.v says what is claimed; the proofs are in KifFinal.v and KifExamples.v. *)
From Verif Require Import KifExamples.
Local Open Scope N_scope.

(* The line written for a legal move, with any number and any times, is neither a comment nor a header and is read as the move and the time spent on it. *)
Theorem C53_move : forall rp rh b mv number sec sum, let z := initZobrist rp rh in reachable z b -> legal (abs (bpos b)) mv ->
  let m := code (bpos b) mv in let l := moveLine number m (peek b) sec sum in passedOver l = false /\ parseKifMove b l = Done (mkRead (Some m) (Some sec) None).
Proof. exact (fun rp rh b mv number sec sum R => move_line b mv number sec sum (proj1 (reachable_ok _ b (okZob_init rp rh) R))). Qed.
Print Assumptions C53_move.
Example C53_case_move : reachable z0 twoGolds /\ legal (abs (bpos twoGolds)) goldDrop.
Proof. exact (conj (proj1 two_golds_playable) gold_drop_legal). Qed.

(* The lines written for a game are read as its moves and times and lead to its last board. *)
Theorem C53_game : forall rp rh b ms, let z := initZobrist rp rh in reachable z b -> well_formed (abs (bpos b)) -> peek b = 0 -> kif_game z b ms ->
  parseKif z b (exportKif 1 0 ms) = Done (mkParsed (map tMove ms) (map tSec ms) None None (kif_board z b ms)).
Proof. exact (fun rp rh b ms R W P H => game_read_back _ b ms (okZob_init rp rh) H R W P). Qed.
Print Assumptions C53_game.
Example C53_case_game : reachable z0 start1 /\ well_formed (abs (bpos start1)) /\ peek start1 = 0 /\ kif_game z0 start1 tenTimed /\ side (abs (bpos start1)) = Sente /\
  firstn 4 (skipn 1 (exportKif 1 0 tenTimed)) =
  [u "   2 ３四歩(33)        ( 1:15/01:01:40)"; u "   3 ２二角(88)        ( 1:15/01:01:40)"; u "   4 同　銀(31)        ( 1:15/01:01:40)"; u "   5 ５五角打          ( 1:15/01:01:40)"].
Proof. exact (conj start1_reachable (conj start1_wf (conj start1_new (conj ten_kif (conj start1_black ten_lines))))). Qed.

(* The full statement is for every reason and every board; the refutations below show where it fails. *)
Theorem C53_end_partial : forall rp rh b ms r sec sum, let z := initZobrist rp rh in reachable z b -> well_formed (abs (bpos b)) -> peek b = 0 -> kif_game z b ms ->
  side (abs (bpos b)) = Sente -> r = Resign \/ r = Sennichite \/ r = IllegalLose -> let P := abs (bpos (kif_board z b ms)) in
  parseKif z b (with_end ms r sec sum) = Done (mkParsed (map tMove ms) (map tSec ms ++ [sec]) (end_win r P) (Some (end_code r P)) (kif_board z b ms)).
Proof. exact (fun rp rh b ms r sec sum R W P H => end_as_meant _ b ms r sec sum (okZob_init rp rh) H R W P). Qed.
Print Assumptions C53_end_partial.
(* When White moves first, as in a handicap game, the wrong side is written as the winner by resignation. *)
Theorem C53_handicap_refuted : forall rp rh b ms sec sum, let z := initZobrist rp rh in reachable z b -> well_formed (abs (bpos b)) -> peek b = 0 -> kif_game z b ms ->
  side (abs (bpos b)) = Gote -> exists q, parseKif z b (with_end ms Resign sec sum) = Done q /\ pWin q <> end_win Resign (abs (bpos (kif_board z b ms))).
Proof. exact (fun rp rh b ms sec sum R W P H => handicap_end _ b ms sec sum (okZob_init rp rh) H R W P). Qed.
Print Assumptions C53_handicap_refuted.
Example C53_case_handicap : reachable z0 handicap /\ well_formed (abs (bpos handicap)) /\ peek handicap = 0 /\ kif_game z0 handicap (kif_of handicap [kingMove]) /\ side (abs (bpos handicap)) = Gote.
Proof. exact (conj handicap_reachable (conj handicap_wf (conj handicap_new (conj king_kif handicap_white)))). Qed.
(* A draw by impasse is read as one by repetition. *)
Theorem C53_jishogi_refuted : forall rp rh b ms sec sum, let z := initZobrist rp rh in reachable z b -> well_formed (abs (bpos b)) -> peek b = 0 -> kif_game z b ms ->
  exists q, parseKif z b (with_end ms Jishogi sec sum) = Done q /\ pEndgame q <> Some (end_code Jishogi (abs (bpos (kif_board z b ms)))).
Proof. exact (fun rp rh b ms sec sum R W P H => jishogi_end _ b ms sec sum (okZob_init rp rh) H R W P). Qed.
Print Assumptions C53_jishogi_refuted.
(* After a win by the opponent's illegal action the sign is that of the winner. *)
Theorem C53_illegal_refuted : forall rp rh b ms sec sum, let z := initZobrist rp rh in reachable z b -> well_formed (abs (bpos b)) -> peek b = 0 -> kif_game z b ms -> side (abs (bpos b)) = Sente ->
  exists q, parseKif z b (with_end ms IllegalWin sec sum) = Done q /\ pWin q = end_win IllegalWin (abs (bpos (kif_board z b ms))) /\
    pEndgame q <> Some (end_code IllegalWin (abs (bpos (kif_board z b ms)))).
Proof. exact (fun rp rh b ms sec sum R W P H => illegal_end _ b ms sec sum (okZob_init rp rh) H R W P). Qed.
Print Assumptions C53_illegal_refuted.
(* A declared win is not read at all. *)
Theorem C53_declared_refuted : exists rp rh b ms sec sum, let z := initZobrist rp rh in reachable z b /\ well_formed (abs (bpos b)) /\ peek b = 0 /\ kif_game z b ms /\
  exists q, parseKif z b (with_end ms Win sec sum) = Done q /\ pWin q = None /\ pEndgame q = None.
Proof. exact (ex_intro _ _ (ex_intro _ _ (ex_intro _ start1 (ex_intro _ tenTimed (ex_intro _ 9 (ex_intro _ 3800 (conj start1_reachable (conj start1_wf (conj start1_new (conj ten_kif declared)))))))))). Qed.
Print Assumptions C53_declared_refuted.
(* A move from "05" makes the reader look before the start of the board. *)
Theorem C53_origin_refuted : forall b, parseKifMove b (u "   1 ７六歩(05)") = Undefined.
Proof. exact no_square. Qed.
Print Assumptions C53_origin_refuted.
