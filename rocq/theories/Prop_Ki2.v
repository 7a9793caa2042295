(* C51: KI2 move texts.  Ki2Spec.v says what is claimed; the proofs are in Ki2Final.v and Ki2Examples.v. *)
From Verif Require Import Ki2Examples.
Local Open Scope N_scope.

(* The text of a legal drop is read as that drop, and the drop is played. *)
Theorem C51_drop : forall rp rh b k t, let z := initZobrist rp rh in reachable z b -> playable (abs (bpos b)) -> legal (abs (bpos b)) (Drop k t) ->
  let m := code (bpos b) (Drop k t) in exists txt, moveToKi2 b m = Done txt /\ forall n, parseMoveStr (S (S n)) z b txt = Done ([m], push z b m).
Proof. exact (fun rp rh b k t R K L => move_read (initZobrist rp rh) b (okZob_init rp rh) R K (Drop k t) L I). Qed.
Print Assumptions C51_drop.
Example C51_case_drop : (reachable z0 twoGolds /\ playable (abs (bpos twoGolds))) /\ legal (abs (bpos twoGolds)) goldDrop.
Proof. exact (conj two_golds_playable gold_drop_legal). Qed.

(* The full statement leaves out clear_move; C51_confused_refuted and C51_straight_refuted show that it fails then. *)
Theorem C51_move_partial : forall rp rh b mv, let z := initZobrist rp rh in reachable z b -> playable (abs (bpos b)) -> legal (abs (bpos b)) mv -> clear_move (abs (bpos b)) mv ->
  let m := code (bpos b) mv in exists txt, moveToKi2 b m = Done txt /\ forall n, parseMoveStr (S (S n)) z b txt = Done ([m], push z b m).
Proof. exact (fun rp rh b mv R K => move_read (initZobrist rp rh) b (okZob_init rp rh) R K mv). Qed.
Print Assumptions C51_move_partial.
Example C51_case_move : ((reachable z0 twoGoldsOnly /\ playable (abs (bpos twoGoldsOnly))) /\ legal (abs (bpos twoGoldsOnly)) goldMove) /\ clear_move (abs (bpos twoGoldsOnly)) goldMove.
Proof. exact (conj (conj two_only_playable gold_only_legal) gold_only_clear). Qed.

(* Every legal move has a text, and reading it raises or gives a legal move of a piece of the same kind to the same square. *)
Theorem C51_near : forall rp rh b mv, let z := initZobrist rp rh in reachable z b -> playable (abs (bpos b)) -> legal (abs (bpos b)) mv -> let p := bpos b in
  exists txt, moveToKi2 b (code p mv) = Done txt /\ forall n, parseMoveStr (S (S n)) z b txt = Thrown \/
    exists mv', legal (abs p) mv' /\ piece_to (abs p) mv' = piece_to (abs p) mv /\ parseMoveStr (S (S n)) z b txt = Done ([code p mv'], push z b (code p mv')).
Proof. exact (fun rp rh b mv R K => near_read (initZobrist rp rh) b (okZob_init rp rh) R K mv). Qed.
Print Assumptions C51_near.
Example C51_case_near : (reachable z0 threeGolds /\ playable (abs (bpos threeGolds))) /\ legal (abs (bpos threeGolds)) goldUp.
Proof. exact (conj three_golds_playable gold_up_legal). Qed.

(* The lines written for a game of clear moves are read as its moves and lead to its last board. *)
Theorem C51_game_partial : forall rp rh b ms, let z := initZobrist rp rh in reachable z b -> well_formed (abs (bpos b)) -> clear_game z b ms ->
  exists ls, exportKi2 z b ms = Done ls /\ forall n, parseMoveLines (S (S n)) z b ls = Done (ms, ki2_board z b ms).
Proof. exact (fun rp rh b ms R W C => game_read (initZobrist rp rh) b ms (okZob_init rp rh) C R W). Qed.
Print Assumptions C51_game_partial.
Example C51_case_game : (reachable z0 start1 /\ well_formed (abs (bpos start1))) /\ clear_game z0 start1 (ki2_codes z0 start1 twoMoves).
Proof. exact (conj (conj (set_up_reachable _ _ start1_set_up) start1_wf) two_clear). Qed.

(* Two gold generals can go to a square and a third can be dropped there: the text of one of the moves is read as the drop. *)
Theorem C51_confused_refuted : exists rp rh b mv mv', let z := initZobrist rp rh in reachable z b /\ playable (abs (bpos b)) /\ legal (abs (bpos b)) mv /\ code (bpos b) mv <> code (bpos b) mv' /\
  exists txt, moveToKi2 b (code (bpos b) mv) = Done txt /\ exists b', parseMoveStr 9 z b txt = Done ([code (bpos b) mv'], b').
Proof. exact (ex_intro _ _ (ex_intro _ _ (ex_intro _ twoGolds (ex_intro _ goldMove (ex_intro _ goldDrop (conj (proj1 two_golds_playable) (conj (proj2 two_golds_playable) (conj gold_move_legal (conj gold_differ gold_confused0))))))))). Qed.
Print Assumptions C51_confused_refuted.
(* Three gold generals can go to a square: the text of one of the moves cannot be read. *)
Theorem C51_straight_refuted : exists rp rh b mv, let z := initZobrist rp rh in reachable z b /\ playable (abs (bpos b)) /\ legal (abs (bpos b)) mv /\
  exists txt, moveToKi2 b (code (bpos b) mv) = Done txt /\ parseMoveStr 9 z b txt = Thrown.
Proof. exact (ex_intro _ _ (ex_intro _ _ (ex_intro _ threeGolds (ex_intro _ goldUp (conj (proj1 three_golds_playable) (conj (proj2 three_golds_playable) (conj gold_up_legal gold_straight0))))))). Qed.
Print Assumptions C51_straight_refuted.
(* Three moves that are read when each is on a line of its own are refused on one line (Ki2Examples.v has the two texts). *)
Theorem C51_line_refuted : exists rp rh b, let z := initZobrist rp rh in reachable z b /\ well_formed (abs (bpos b)) /\
  (exists r, parseMoveLines 9 z b eachOnALine = Done r /\ List.length (fst r) = 3%nat) /\ parseMoveStr 9 z b threeOnALine = Thrown.
Proof. exact (ex_intro _ _ (ex_intro _ _ (ex_intro _ start1 (conj (set_up_reachable _ _ start1_set_up) (conj start1_wf (conj three_each three_one)))))). Qed.
Print Assumptions C51_line_refuted.
