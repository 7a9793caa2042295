(* C35, C36, C43, C44, C45: CSA positions and game records.  Csa.v has "csaPos" (Board.csa_pos), "parseCsa"
   (Parser.parse_csa_str) and "parseStr" (Parser.parse_str); CsaSpec.v has the CSA notation ("csa_position",
   "csa_block", "record_text" and what a record says) for the positions of Spec.v.  stof stands for std::stof.
   Proofs in CsaBlock.v, CsaGame.v, CsaRecord.v and CsaFinal.v, concrete records in CsaExamples.v. *)
From Verif Require Import CsaExamples.
Local Open Scope N_scope.

(* C35.  csa_pos writes the lines of the position; the reader reports the same position. *)
Theorem C35_text : forall rp rh b, let z := initZobrist rp rh in reachable z b -> csaPos b = ended (csa_position (abs (bpos b))).
Proof. exact (fun rp rh b R => proj1 (csa_pos_read (initZobrist rp rh) (fun _ => Thrown) b (okZob_init rp rh) R)). Qed.
Print Assumptions C35_text.
Theorem C35_read : forall rp rh stof b, let z := initZobrist rp rh in reachable z b ->
  exists g b', parseCsa z stof (csaPos b) = Done g /\ sfen_denotes (gSfen g) (abs (bpos b)) 1 /\ gMoves g = [] /\ setSfen z (gSfen g) = Done b' /\ same_position (abs (bpos b')) (abs (bpos b)) /\ getKey (bpos b') = getKey (bpos b).
Proof. exact (fun rp rh stof b R => proj2 (csa_pos_read (initZobrist rp rh) stof b (okZob_init rp rh) R)). Qed.
Print Assumptions C35_read.
Example C35_case : reachable z0 someHands /\ csa_hands (abs (bpos someHands)) = [(Sente, repeat FU 9); (Sente, [KE]); (Sente, [KA]); (Gote, [KE; KE]); (Gote, [GI; GI; GI])].
Proof. exact (conj some_reachable some_csa_hands). Qed.

(* C36.  The piece of a "P+" or "P-" line is put on file 10 - y, rank x where xy is written: the claim is refuted
   for every square but 55.  (partial: the pieces of the board are given by the nine rank lines) *)
Theorem C36_placed_partial : forall rp rh stof P c l, let z := initZobrist rp rh in (forall d k, in_hand P d k = 0%Z) -> Forall (fun x => on_board (fst x)) l ->
  let Q := with_pieces (fun s => (10 - snd s, fst s)%Z) P c l in proper Q ->
  exists g, parseCsa z stof (ended (map (csa_rank P) [1; 2; 3; 4; 5; 6; 7; 8; 9]%Z ++ [csa_placed c l; csa_sign (side P)])) = Done g /\ sfen_denotes (gSfen g) Q 1 /\ gMoves g = [].
Proof. exact (fun rp rh stof P c l => placed_read (initZobrist rp rh) stof P c l (okZob_init rp rh)). Qed.
Print Assumptions C36_placed_partial.
Theorem C36_center_partial : forall rp rh stof P c k, let z := initZobrist rp rh in (forall d k, in_hand P d k = 0%Z) ->
  let Q := with_pieces (fun s => s) P c [((5, 5)%Z, k)] in proper Q ->
  exists g, parseCsa z stof (ended (map (csa_rank P) [1; 2; 3; 4; 5; 6; 7; 8; 9]%Z ++ [csa_placed c [((5, 5)%Z, k)]; csa_sign (side P)])) = Done g /\ sfen_denotes (gSfen g) Q 1 /\ gMoves g = [].
Proof. exact (fun rp rh stof P c k => placed_center (initZobrist rp rh) stof P c k (okZob_init rp rh)). Qed.
Print Assumptions C36_center_partial.
Theorem C36_elsewhere_refuted : forall rp rh stof P c s k, let z := initZobrist rp rh in (forall d k, in_hand P d k = 0%Z) -> on_board s -> s <> (5, 5)%Z -> at_square P s = None ->
  proper (with_pieces (fun s => (10 - snd s, fst s)%Z) P c [(s, k)]) ->
  exists g b, parseCsa z stof (ended (map (csa_rank P) [1; 2; 3; 4; 5; 6; 7; 8; 9]%Z ++ [csa_placed c [(s, k)]; csa_sign (side P)])) = Done g /\ setSfen z (gSfen g) = Done b /\ at_square (abs (bpos b)) s = None.
Proof. exact (fun rp rh stof P c s k => placed_elsewhere (initZobrist rp rh) stof P c s k (okZob_init rp rh)). Qed.
Print Assumptions C36_elsewhere_refuted.
Example C36_case : (forall d k, in_hand kingsArray d k = 0%Z) /\ Forall (fun x => on_board (fst x)) onePlaced /\ proper (with_pieces (fun s => (10 - snd s, fst s)%Z) kingsArray Sente onePlaced) /\ csa_placed Sente onePlaced = "P+27FU"%string.
Proof. exact (conj kings_hand (conj one_board (conj one_proper eq_refl))). Qed.
Example C36_refuted_case : on_board (2, 7)%Z /\ at_square kingsArray (2, 7)%Z = None. Proof. exact one_elsewhere. Qed.

(* C43.  A record in CSA notation of a legal game is read as that game. *)
Theorem C43_record : forall rp rh stof P r ls, let z := initZobrist rp rh in record_text P r ls -> well_formed P -> legal_moves P (map e_move (c_entries r)) ->
  exists g b0 b, parseCsa z stof (joined ls) = Done g /\ sfen_denotes (gSfen g) P 1 /\ setSfen z (gSfen g) = Done b0 /\ set_up z b0 /\ calls z b0 (map Play (map e_move (c_entries r))) = Some b /\ gMoves g = getHistory b /\
    gTimes g = map time_of (c_entries r) ++ flat_map spent (after_end (c_ending r)) /\ gScores g = map score_of (c_entries r) /\ gComments g = map comment_of (c_entries r) /\
    gVersion g = last (flat_map versions (c_headers r)) ""%string /\ gNames g = (last (flat_map (names_of Sente) (c_headers r)) ""%string, last (flat_map (names_of Gote) (c_headers r)) ""%string) /\
    gInfos g = flat_map informations (c_headers r) /\ gComment g = ended (all_comments r) /\ gEndgame g = end_word (c_ending r) /\
    gWin g = win_code (end_winner (side (play_all P (map e_move (c_entries r)))) (c_ending r)).
Proof. exact (fun rp rh stof P r ls => record_read (initZobrist rp rh) stof P r ls (okZob_init rp rh)). Qed.
Print Assumptions C43_record.
Example C43_case : record_text startArray someRecord someLines /\ well_formed startArray /\ legal_moves startArray (map e_move (c_entries someRecord)).
Proof. exact some_good. Qed.
Example C43_says_case : time_of entry1 = 15%Z /\ comment_of entry2 = "-30 3334FU"%string /\
  all_comments someRecord = ["'hello"; "'go"; "'well"]%string /\ end_winner (side (play_all startArray (map e_move (c_entries someRecord)))) (c_ending someRecord) = Some Gote.
Proof. exact some_says. Qed.
(* an illegal move is recorded as 0 and the reader goes on *)
Theorem C43_illegal_refuted : forall stof, exists g, parseCsa z0 stof (joined ["PI"; "+"; "+7775FU"; "-3334FU"]%string) = Done g /\ gMoves g = [0; 68117] /\ gEndgame g = ""%string.
Proof. exact illegal_recorded. Qed.
Print Assumptions C43_illegal_refuted.
(* lines that end with carriage return and line feed are not read *)
Theorem C43_crlf_refuted : forall stof, parseCsa z0 stof (joined ["PI"; String "+" (String (ascii_of_nat 13) "")]%string) = Thrown.
Proof. exact crlf_thrown. Qed.
Print Assumptions C43_crlf_refuted.

(* C44.  Records separated by lines with "/" alone are read one by one. *)
Theorem C44_matches : forall z stof ts gs, ts <> [] -> Forall match_text ts -> Forall2 (fun t g => parseCsa z stof t = Done g) ts gs -> parseStr z stof (String.concat match_mark ts) = Done gs.
Proof. exact matches_read. Qed.
Print Assumptions C44_matches.
Example C44_case : forall stof, [joined someLines; joined ["PI"; "+"]%string] <> [] /\ Forall match_text [joined someLines; joined ["PI"; "+"]%string] /\
  exists gs, Forall2 (fun t g => parseCsa z0 stof t = Done g) [joined someLines; joined ["PI"; "+"]%string] gs.
Proof. exact (fun stof => conj (fun E => match nil_cons (eq_sym E) with end) (conj two_matches (both_matches z0 stof okZob0))). Qed.

(* C45.  Some texts make the reader leave its arrays or use variables before they are set. *)
Theorem C45_undefined_refuted : forall stof,
  parseCsa z0 stof (joined ["PI"; "+"; "'** 5"]%string) = Undefined /\
  parseCsa z0 stof (joined ["P+59OU"; "P-51OU"; "+"]%string) = Undefined /\
  parseCsa z0 stof (joined ["PI82XX"; "+"]%string) = Undefined /\
  parseCsa z0 stof (joined ["PI"; "P+05FU"; "+"]%string) = Undefined /\
  parseCsa z0 stof "'summary:illegal move:x" = Undefined.
Proof. exact (fun stof => conj (score_undefined stof) (conj (cells_undefined stof) (conj (name_undefined stof) (conj (zero_undefined stof) (summary_undefined stof))))). Qed.
Print Assumptions C45_undefined_refuted.
