(* C42: set_position.  Command.v has "setPosition", which reads its text token by token and is Done, Thrown (C++
   exception) or Undefined (access outside an array), "pushUsi" and "resetBoard"; CommandSpec.v has the words of
   a text ("words_of"), pushing texts one by one ("push_each") and the command text ("command").  Proofs in
   CommandProofs.v and CommandFinal.v. *)
From Verif Require Import CommandExamples.
Local Open Scope N_scope.

(* C42.  On every text: every text has one list of words, and these decide. *)
Theorem C42_words : forall s, exists ws, words_of s ws /\ forall ws', words_of s ws' -> ws' = ws.
Proof. exact (fun s => match words_exist s with ex_intro _ ws H => ex_intro _ ws (conj H (fun ws' H' => words_unique s ws' H' ws H)) end). Qed.
Print Assumptions C42_words.
Theorem C42_sfen_moves : forall z s ws ms, words_of s ("sfen"%string :: ws ++ "moves"%string :: ms) -> ~ In "moves"%string ws ->
  setPosition z s = obind (setSfen z (String.concat " " ws)) (fun b => push_each z b ms).
Proof. exact position_sfen. Qed.
Print Assumptions C42_sfen_moves.
Theorem C42_sfen : forall z s ws, words_of s ("sfen"%string :: ws) -> ~ In "moves"%string ws -> setPosition z s = setSfen z (String.concat " " ws).
Proof. exact position_sfen_only. Qed.
Print Assumptions C42_sfen.
Theorem C42_startpos_moves : forall z s w ms, words_of s ("startpos"%string :: w :: ms) -> setPosition z s = obind (resetBoard z) (fun b => push_each z b ms).
Proof. exact position_start. Qed.
Print Assumptions C42_startpos_moves.
Theorem C42_startpos : forall z s, words_of s ["startpos"%string] -> setPosition z s = resetBoard z.
Proof. exact position_start_only. Qed.
Print Assumptions C42_startpos.
Theorem C42_other : forall z s ws, words_of s ws -> hd ""%string ws <> "startpos"%string -> hd ""%string ws <> "sfen"%string -> setPosition z s = Thrown.
Proof. exact position_other. Qed.
Print Assumptions C42_other.
Example C42_words_case : words_of "startpos  moves 7g7f 3c3d" ["startpos"; "moves"; "7g7f"; "3c3d"]%string.
Proof. exact two_words. Qed.
(* the board of reset() and Board() *)
Theorem C42_initial : forall rp rh, let z := initZobrist rp rh in exists b, resetBoard z = Done b /\ same_position (abs (bpos b)) (abs (bpos (startBoard z))) /\ gamePly (bpos b) = 1%Z /\
  set_up z b /\ well_formed (abs (bpos b)).
Proof. exact (fun rp rh => reset_initial (initZobrist rp rh) (okZob_init rp rh)). Qed.
Print Assumptions C42_initial.

(* With an SFEN text of the notation and legal moves: the board on which the moves have been pushed ... *)
Theorem C42_legal_moves : forall rp rh s P n ms, let z := initZobrist rp rh in sfen_denotes s P n -> well_formed P -> (n <= intMax)%Z -> legal_moves P ms ->
  exists b b', setSfen z s = Done b /\ calls z b (map Play ms) = Some b' /\ setPosition z (command s (map usi_text ms)) = Done b' /\
    same_position (abs (bpos b')) (play_all P ms) /\ gamePly (bpos b') = (n + Z.of_nat (List.length ms))%Z /\ map toUSI (getHistory b') = map usi_text ms /\ reachable z b'.
Proof. exact (fun rp rh s P n ms => position_legal (initZobrist rp rh) s P n ms (okZob_init rp rh)). Qed.
Print Assumptions C42_legal_moves.
(* ... and an illegal move among them is rejected, whatever follows it. *)
Theorem C42_illegal_move : forall rp rh s P n ms m rest, let z := initZobrist rp rh in sfen_denotes s P n -> well_formed P -> (n <= intMax)%Z -> legal_moves P ms ->
  fits (play_all P ms) m -> ~ legal (play_all P ms) m -> Forall word rest -> setPosition z (command s (map usi_text ms ++ usi_text m :: rest)) = Thrown.
Proof. exact (fun rp rh s P n ms m rest => position_illegal (initZobrist rp rh) s P n ms m rest (okZob_init rp rh)). Qed.
Print Assumptions C42_illegal_move.
(* The text of a game, made with sfen() and the history, gives back the same board object: position, hash,
   repetition data and history. *)
Theorem C42_replay : forall rp rh b0 ms b, let z := initZobrist rp rh in set_up z b0 -> well_formed (abs (bpos b0)) -> (0 <= gamePly (bpos b0) <= intMax)%Z -> legal_moves (abs (bpos b0)) ms ->
  calls z b0 (map Play ms) = Some b -> setPosition z (command (toSfen b0) (map toUSI (getHistory b))) = Done b.
Proof. exact (fun rp rh b0 ms b => position_replay (initZobrist rp rh) b0 ms b (okZob_init rp rh)). Qed.
Print Assumptions C42_replay.
Example C42_moves_case : sfen_denotes startSfen (abs (bpos start1)) 1 /\ well_formed (abs (bpos start1)) /\ legal_moves (abs (bpos start1)) twoMoves /\
  command startSfen (map usi_text twoMoves) = "sfen lnsgkgsnl/1r5b1/ppppppppp/9/9/9/PPPPPPPPP/1B5R1/LNSGKGSNL b - 1 moves 7g7f 3c3d"%string.
Proof. exact (conj start1_denotes (conj start1_wf (conj two_legal1 two_text))). Qed.
Example C42_illegal_case : fits (play_all (abs (bpos start1)) twoMoves) noMove /\ ~ legal (play_all (abs (bpos start1)) twoMoves) noMove.
Proof. exact (conj third_fits third_illegal). Qed.
Example C42_replay_case : set_up z0 start1 /\ exists b, calls z0 start1 (map Play twoMoves) = Some b.
Proof. exact (conj start1_set_up two_called). Qed.
(* an unacceptable move is not always rejected: a gold that promotes is pushed, and push then writes outside its tables *)
Theorem C42_memory_refuted : setPosition z0 "startpos moves 4i4h+" = Undefined.
Proof. exact gold_undefined. Qed.
Print Assumptions C42_memory_refuted.
