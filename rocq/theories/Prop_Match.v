(* C56: matches between engines.  MatchSpec.v says how a game is judged and counted; the proofs are in MatchProofs.v. *)
From Verif Require Import MatchExamples.
Local Open Scope Z_scope.

(* Whatever the engines reply, the game ends with the verdict of the rules in MatchSpec.v, on the board on which the legal moves
   up to its end have been played.  The full statement would have the first position counted among the repeated ones, a
   declaration checked and a repetition by the last move allowed judged as such; the first two are refuted below.  Replies
   that are not move texts of the protocol, pondering and mate_win are not covered. *)
Theorem C56_game_partial : forall rp rh b0 g clocks replies v ms, let z := initZobrist rp rh in set_up z b0 -> well_formed (abs (bpos b0)) ->
  judged z g (abs (bpos b0)) (gamePly (bpos b0)) [] clocks replies v ms ->
  exists b f, gameLoop z g replies b0 [] clocks = Done (Some (b, f)) /\ winOf g b f = verdict_code v /\ calls z b0 (map Play ms) = Some b.
Proof. exact (fun rp rh b0 g cl rs v ms => game_from_start (initZobrist rp rh) g (okZob_init rp rh) b0 cl rs v ms). Qed.
Print Assumptions C56_game_partial.
Example C56_case_game : set_up z0 start1 /\ well_formed (abs (bpos start1)) /\
  judged z0 shortTerms (abs (bpos start1)) (gamePly (bpos start1)) [] minute shortReplies (Won Sente) [Go (7, 7) (7, 6) false].
Proof. exact (conj start1_set_up (conj start1_wf short_judged)). Qed.

(* Every game of a match is counted once for each engine, by its verdict and the side the engine had. *)
Theorem C56_count : forall keep vs, let c := countMatch keep 0 (map verdict_code vs) (noGames, noGames) in
  c = (tally keep (fun s => s) 0 vs, tally keep other 0 vs) /\ games_of (fst c) = N.of_nat (List.length vs) /\ games_of (snd c) = N.of_nat (List.length vs).
Proof. exact match_count. Qed.
Print Assumptions C56_count.
Example C56_case_count : countMatch false 0 (map verdict_code [Won Sente; Won Sente; Drawn; Won Gote]) (noGames, noGames) = (mkStanding 1 1 0 1 1 0, mkStanding 1 0 1 1 0 1).
Proof. exact eq_refl. Qed.

(* From the initial position the players come back to it three times, so that it stands for the fourth time; the game goes on. *)
Theorem C56_start_refuted : exists rp rh b0, let z := initZobrist rp rh in set_up z b0 /\ same_position (abs (bpos b0)) startArray /\ same_position (play_all (abs (bpos b0)) cycle) (abs (bpos b0)) /\
  gameLoop z openTerms (map say (cycle ++ cycle ++ cycle)) b0 [] (None, None) = Done None.
Proof. exact (ex_intro _ rp1 (ex_intro _ rh1 (ex_intro _ (startIn z1) (conj (proj1 (start_in z1)) (conj (proj2 (start_in z1)) (conj cycle_back not_counted)))))). Qed.
Print Assumptions C56_start_refuted.
(* An engine that says "win" wins, also in the initial position, where it may not declare. *)
Theorem C56_declared_refuted : exists rp rh b0, let z := initZobrist rp rh in set_up z b0 /\ ~ may_declare (abs (bpos b0)) /\
  exists f, gameLoop z openTerms [mkReply "win" 100 None] b0 [] (None, None) = Done (Some (b0, f)) /\ winOf openTerms b0 f = verdict_code (Won Sente).
Proof. exact (ex_intro _ _ (ex_intro _ _ (ex_intro _ start1 (conj start1_set_up (conj not_declarable (ex_intro _ Nyugyoku believed)))))). Qed.
Print Assumptions C56_declared_refuted.
