(* C52: PGN texts.  PgnSpec.v says what is claimed; the proofs are in PgnProofs.v, PgnFinal.v and PgnExamples.v. *)
From Verif Require Import PgnExamples.
Local Open Scope N_scope.

(* move_to_san gives for a legal move the piece, the square it comes from or "@", the square it goes to and "+" if it promotes; a promoted knight is written "+K". *)
Theorem C52_text : forall rp rh b mv, let z := initZobrist rp rh in reachable z b -> legal (abs (bpos b)) mv -> moveToSan (code (bpos b) mv) = Done (san_text "+K" (abs (bpos b)) mv).
Proof. exact (fun rp rh b mv R => san_written (bpos b) mv (proj1 (reachable_ok _ b (okZob_init rp rh) R))). Qed.
Print Assumptions C52_text.
Example C52_case_text : reachable z0 narikei /\ legal (abs (bpos narikei)) narikeiMove.
Proof. exact (conj narikei_reachable narikei_legal). Qed.

(* The full statement leaves out the condition on promoted knights, whose name ought to be "+N"; C52_knight_refuted shows that it fails then. *)
Theorem C52_names_partial : forall rp rh b mv, let z := initZobrist rp rh in reachable z b -> legal (abs (bpos b)) mv ->
  (forall s t pr, mv = Go s t pr -> at_square (abs (bpos b)) s <> Some (side (abs (bpos b)), NK)) -> moveToSan (code (bpos b) mv) = Done (san_text "+N" (abs (bpos b)) mv).
Proof. exact (fun rp rh b mv R => named (bpos b) mv (proj1 (reachable_ok _ b (okZob_init rp rh) R))). Qed.
Print Assumptions C52_names_partial.
Example C52_case_names : reachable z0 start1 /\ legal (abs (bpos start1)) (Go (7, 7)%Z (7, 6)%Z false) /\
  (forall s t pr, Go (7, 7)%Z (7, 6)%Z false = Go s t pr -> at_square (abs (bpos start1)) s <> Some (side (abs (bpos start1)), NK)).
Proof. exact (conj (set_up_reachable _ _ start1_set_up) (conj (proj1 two_legal1) first_move_named)). Qed.
Theorem C52_knight_refuted : exists rp rh b mv, let z := initZobrist rp rh in reachable z b /\ legal (abs (bpos b)) mv /\ moveToSan (code (bpos b) mv) <> Done (san_text "+N" (abs (bpos b)) mv).
Proof. exact (ex_intro _ _ (ex_intro _ _ (ex_intro _ narikei (ex_intro _ narikeiMove (conj narikei_reachable (conj narikei_legal narikei_text)))))). Qed.
Print Assumptions C52_knight_refuted.

(* No two legal moves on a board have the same text. *)
Theorem C52_distinct : forall rp rh b mv mv', let z := initZobrist rp rh in reachable z b -> legal (abs (bpos b)) mv -> legal (abs (bpos b)) mv' ->
  moveToSan (code (bpos b) mv) = moveToSan (code (bpos b) mv') -> mv = mv'.
Proof. exact (fun rp rh b mv mv' R => moves_told_apart (bpos b) mv mv' (proj1 (reachable_ok _ b (okZob_init rp rh) R))). Qed.
Print Assumptions C52_distinct.
Example C52_case_distinct : reachable z0 twoGolds /\ legal (abs (bpos twoGolds)) goldMove /\ legal (abs (bpos twoGolds)) goldDrop.
Proof. exact (conj (proj1 two_golds_playable) (conj gold_move_legal gold_drop_legal)). Qed.

(* The words of the text written for a game are, in order: before each first move of two its number and a full stop, the texts of the moves, the result. *)
Theorem C52_movetext : forall rp rh b ms ts result, let z := initZobrist rp rh in reachable z b -> pgn_game z b ms ts -> ms <> [] ->
  exists t, movetext result ms = Done t /\ game_words (result_mark result) 0 ts (words_of t).
Proof. exact (fun rp rh b ms ts result R H => game_marked _ b ms ts result (okZob_init rp rh) H R). Qed.
Print Assumptions C52_movetext.
(* Two games from one board with the same text are the same game with the same result. *)
Theorem C52_game_distinct : forall rp rh b ms ts ms' ts' result result', let z := initZobrist rp rh in reachable z b -> pgn_game z b ms ts -> pgn_game z b ms' ts' -> ms <> [] -> ms' <> [] ->
  result <= 2 -> result' <= 2 -> movetext result ms = movetext result' ms' -> ms = ms' /\ result = result'.
Proof. exact (fun rp rh b ms ts ms' ts' r r' => game_marked_apart _ b ms ts ms' ts' r r' (okZob_init rp rh)). Qed.
Print Assumptions C52_game_distinct.
(* No line has more than 81 characters. *)
Theorem C52_lines : forall rp rh b ms ts result t, let z := initZobrist rp rh in reachable z b -> pgn_game z b ms ts -> N.of_nat (List.length ms) < 2 ^ 60 ->
  movetext result ms = Done t -> Forall (fun n => (n <= 81)%nat) (line_lengths 0 t).
Proof. exact (fun rp rh b ms ts r t R H => game_lines _ b ms ts r t (okZob_init rp rh) H R). Qed.
Print Assumptions C52_lines.
Example C52_case_game : reachable z0 start1 /\ pgn_game z0 start1 tenCodes (pgn_texts start1 tenMoves) /\ tenCodes <> [] /\
  movetext 0 tenCodes = Done (chars "1. Pc3c4 Pg7g6 2. Bb2h8 Sg9h8 3. B@e5 Pb7b6 4. Ph3h4 Pb6b5 5. Ph4h5 Gf9g8 1/2-1/2" ++ [lf; lf]).
Proof. exact (conj (set_up_reachable _ _ start1_set_up) (conj ten_game (conj ten_some ten_text))). Qed.
(* The lines are not held to the 80 characters that are tested for. *)
Theorem C52_width_refuted : exists rp rh b ms ts, let z := initZobrist rp rh in reachable z b /\ pgn_game z b ms ts /\ exists t, movetext 0 ms = Done t /\ In 81%nat (line_lengths 0 t).
Proof. exact (ex_intro _ _ (ex_intro _ _ (ex_intro _ start1 (ex_intro _ tenCodes (ex_intro _ _ (conj (set_up_reachable _ _ start1_set_up) (conj ten_game ten_wide))))))). Qed.
Print Assumptions C52_width_refuted.
(* Without moves the result is not written. *)
Theorem C52_no_moves_refuted : forall result, exists t, movetext result [] = Done t /\ ~ In (result_mark result) (words_of t).
Proof. exact no_moves_marked. Qed.
Print Assumptions C52_no_moves_refuted.
