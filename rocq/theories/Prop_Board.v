(* C04-C08, C14, C29, C39, C41: boards and their histories.
   Spec.v has the rules and "game", Claims.v has set_up / reachable / agree; proofs in BoardFinal.v. *)
From Verif Require Import BoardFinal.
Local Open Scope N_scope.

(* C04: whatever moves, take-backs, passes and pass take-backs are made, the board shows the position the
   rules give, and every index of the position object agrees with it *)
Theorem C04_views_consistent : forall rp rh b0 es line, let z := initZobrist rp rh in set_up z b0 -> game any_pass (abs (bpos b0)) es line ->
  exists b, calls z b0 es = Some b /\ same_position (abs (bpos b)) (after (abs (bpos b0)) line) /\ agree (bpos b) /\ lists_show (bpos b).
Proof. exact views_history. Qed.
Print Assumptions C04_views_consistent.
Theorem C04_views_after_setup : forall z b pieces inHand, turn (bpos b) < 2 -> length pieces = 81%nat -> Forall piece_code pieces ->
  proper (array_position pieces inHand (turn (bpos b))) ->
  let b' := boardSetPieces z b pieces inHand in
  same_position (abs (bpos b')) (array_position pieces inHand (turn (bpos b))) /\ agree (bpos b') /\ lists_show (bpos b').
Proof. exact setup_position. Qed.
Print Assumptions C04_views_after_setup.
Example C04_case : set_up z0 (startBoard z0) /\ game any_pass (abs (bpos (startBoard z0))) demoGame demoLine.
Proof. split; [exact (start_set_up z0)|exact demo_game_any]. Qed.

(* C05: pop takes back exactly what push did *)
Theorem C05_pop_push : forall rp rh b m, let z := initZobrist rp rh in reachable z b -> legal_but_drop_mate (abs (bpos b)) m ->
  pop (push z b (code (bpos b) m)) = Some (b, code (bpos b) m).
Proof. exact (fun rp rh b m => pop_push (initZobrist rp rh) b m (okZob_init rp rh)). Qed.
Print Assumptions C05_pop_push.
Theorem C05_pops_pushes : forall rp rh ms b, let z := initZobrist rp rh in reachable z b -> legal_sequence (abs (bpos b)) ms ->
  exists b', calls z b (map Play ms) = Some b' /\ reachable z b' /\ calls z b' (repeat Unplay (length ms)) = Some b.
Proof. exact (fun rp rh ms b => pushes_pops (initZobrist rp rh) ms (okZob_init rp rh) b). Qed.
Print Assumptions C05_pops_pushes.
(* any interleaving of moves, passes and take-backs leaves the board object of the remaining line *)
Theorem C05_history_exact : forall rp rh b0 es line, let z := initZobrist rp rh in set_up z b0 -> game no_double_pass (abs (bpos b0)) es line ->
  calls z b0 es = Some (replay z b0 line).
Proof. exact (fun rp rh b0 es line => history_exact (initZobrist rp rh) b0 es line (okZob_init rp rh)). Qed.
Print Assumptions C05_history_exact.
Example C05_case : reachable z0 demo2 /\ legal_but_drop_mate (abs (bpos demo2)) demo2_takes.
Proof. split; [exact demo2_reachable|exact demo2_takes_legal]. Qed.

(* C06: the hash kept by push, pop and pass is the hash of the position, computed from nothing else *)
Theorem C06_hash_from_scratch : forall rp rh b, let z := initZobrist rp rh in reachable z b -> Z.of_N (getKey (bpos b)) = scratch_hash z (abs (bpos b)).
Proof. exact (fun rp rh b => hash_reachable (initZobrist rp rh) b (okZob_init rp rh)). Qed.
Print Assumptions C06_hash_from_scratch.
Theorem C06_transpositions : forall rp rh b b', let z := initZobrist rp rh in reachable z b -> reachable z b' ->
  same_position (abs (bpos b)) (abs (bpos b')) -> getKey (bpos b) = getKey (bpos b').
Proof. exact (fun rp rh b b' => hash_transposition (initZobrist rp rh) b b' (okZob_init rp rh)). Qed.
Print Assumptions C06_transpositions.
Example C06_case : reachable z0 demoBoard /\ getKey (bpos demoBoard) <> getKey (bpos (startBoard z0)).
Proof. split; [exact demo_reachable|]. intros H. apply N.eqb_eq in H. vm_compute in H. discriminate H. Qed.

(* C07: predicted keys *)
Theorem C07_predicted_keys : forall rp rh zb b m, let z := initZobrist rp rh in reachable z b -> legal_but_drop_mate (abs (bpos b)) m ->
  let p := bpos b in let p' := bpos (push z b (code p m)) in
  bookKeyAfter zb p (bookKey zb p) (code p m) = bookKey zb p' /\ getKeyAfter z p (code p m) = getKey p'.
Proof. exact (fun rp rh zb b m => keys_after (initZobrist rp rh) zb b m (okZob_init rp rh)). Qed.
Print Assumptions C07_predicted_keys.
Example C07_case : reachable z0 demo2 /\ legal_but_drop_mate (abs (bpos demo2)) demo2_takes.
Proof. split; [exact demo2_reachable|exact demo2_takes_legal]. Qed.

(* C08: check status *)
Theorem C08_check_status : forall rp rh b, let z := initZobrist rp rh in reachable z b -> let p := bpos b in
  (inCheck p = true <-> in_check (abs p) (side (abs p))) /\
  forall s k, on_board s -> on_board k -> at_square (abs p) k = Some (side (abs p), OU) ->
    (isSet (checkers p) (nsquare s) = true <-> piece_attacks (abs p) (other (side (abs p))) s k).
Proof. exact (fun rp rh b => check_status (initZobrist rp rh) b (okZob_init rp rh)). Qed.
Print Assumptions C08_check_status.
Theorem C08_check_after_push : forall rp rh b m, let z := initZobrist rp rh in reachable z b -> legal_but_drop_mate (abs (bpos b)) m ->
  let p := bpos b in let p' := bpos (push z b (code p m)) in
  same_position (abs p') (play (abs p) m) /\
  (inCheck p' = true <-> in_check (play (abs p) m) (other (side (abs p)))) /\
  moveGivesCheck p (code p m) (checkInfo p) = inCheck p' /\
  forall s k, on_board s -> on_board k -> at_square (play (abs p) m) k = Some (other (side (abs p)), OU) ->
    (isSet (checkers p') (nsquare s) = true <-> piece_attacks (play (abs p) m) (side (abs p)) s k).
Proof. exact (fun rp rh b m => check_after_push (initZobrist rp rh) b m (okZob_init rp rh)). Qed.
Print Assumptions C08_check_after_push.
Example C08_case : reachable z0 demo2 /\ legal_but_drop_mate (abs (bpos demo2)) demo2_checks /\ inCheck (bpos (push z0 demo2 (code (bpos demo2) demo2_checks))) = true.
Proof. split; [exact demo2_reachable|]. split; [exact demo2_checks_legal|]. vm_compute. reflexivity. Qed.

(* C14: no piece is created or lost *)
Theorem C14_pieces_conserved : forall rp rh b0 es line, let z := initZobrist rp rh in set_up z b0 -> game any_pass (abs (bpos b0)) es line ->
  exists b, calls z b0 es = Some b /\ forall k, total (abs (bpos b)) k = total (abs (bpos b0)) k.
Proof. exact pieces_conserved. Qed.
Print Assumptions C14_pieces_conserved.
Example C14_case : set_up z0 (startBoard z0) /\ game any_pass (abs (bpos (startBoard z0))) demoGame demoLine /\ total (abs (bpos (startBoard z0))) FU = 18%Z.
Proof. split; [exact (start_set_up z0)|]. split; [exact demo_game_any|vm_compute; reflexivity]. Qed.

(* C29: a pass changes the side to move only and can be taken back exactly, unless it follows a pass
   (missing for the full property: a pass taken back after a pass) *)
Theorem C29_pass_undone_partial : forall rp rh b0 es line, let z := initZobrist rp rh in set_up z b0 -> game no_double_pass (abs (bpos b0)) es line ->
  let P := after (abs (bpos b0)) line in ~ in_check P (side P) -> no_double_pass line ->
  exists b b', calls z b0 es = Some b /\ pushPass b = Some b' /\ same_position (abs (bpos b')) (pass (abs (bpos b))) /\
    gamePly (bpos b') = gamePly (bpos b) /\ popPass b' = Some b.
Proof. exact (fun rp rh b0 es line => pass_undo (initZobrist rp rh) b0 es line (okZob_init rp rh)). Qed.
Print Assumptions C29_pass_undone_partial.
(* after any history, passes upon passes included, everything comes back except perhaps the two counters of
   consecutive checks (C29_two_passes_refuted in Prop_Draw.v shows that these may not) *)
Theorem C29_pass_undone_any_partial : forall rp rh b, let z := initZobrist rp rh in reachable z b -> ~ in_check (abs (bpos b)) (side (abs (bpos b))) ->
  exists b' b'' cc, pushPass b = Some b' /\ same_position (abs (bpos b')) (pass (abs (bpos b))) /\ gamePly (bpos b') = gamePly (bpos b) /\
    popPass b' = Some b'' /\ bhist b'' = bhist b /\ bpos b'' = with_counters (bpos b) cc.
Proof. exact (fun rp rh b => pass_undo_any (initZobrist rp rh) b (okZob_init rp rh)). Qed.
Print Assumptions C29_pass_undone_any_partial.
Example C29_case : set_up z0 (startBoard z0) /\ game no_double_pass (abs (bpos (startBoard z0))) [Play (Go (7, 7) (7, 6) false); Play (Go (3, 3) (3, 4) false)]%Z demo2_line /\
  (let P := after (abs (bpos (startBoard z0))) demo2_line in ~ in_check P (side P)) /\ no_double_pass demo2_line.
Proof. split; [exact (start_set_up z0)|]. split; [exact demo2_game|]. split; [exact demo2_quiet|exact I]. Qed.

(* C39: set_pieces with what pieces and pieces_in_hand report *)
Theorem C39_set_pieces_restores : forall rp rh b, let z := initZobrist rp rh in reachable z b ->
  let p := bpos b in let q := bpos (boardSetPieces z b (piecesList p) [piecesInHand p 0; piecesInHand p 1]) in
  same_position (abs q) (abs p) /\ board q = board p /\ hands q = hands p /\ turn q = turn p /\ gamePly q = gamePly p /\
  getKey q = getKey p /\ inCheck q = inCheck p /\ checkers q = checkers p.
Proof. exact (fun rp rh b => set_pieces_restores (initZobrist rp rh) b (okZob_init rp rh)). Qed.
Print Assumptions C39_set_pieces_restores.
Example C39_case : reachable z0 demoBoard. Proof. exact demo_reachable. Qed.

(* C41: legal play keeps positions well-formed *)
Theorem C41_well_formed_play : forall rp rh b0 es line, let z := initZobrist rp rh in set_up z b0 -> well_formed (abs (bpos b0)) -> game any_pass (abs (bpos b0)) es line ->
  exists b, calls z b0 es = Some b /\ well_formed (abs (bpos b)).
Proof. exact well_formed_history. Qed.
Print Assumptions C41_well_formed_play.
Theorem C41_initial_position : forall z, set_up z (startBoard z) /\ well_formed (abs (bpos (startBoard z))).
Proof. exact start_well_formed. Qed.
Print Assumptions C41_initial_position.
Example C41_case : game any_pass (abs (bpos (startBoard z0))) demoGame demoLine. Proof. exact demo_game_any. Qed.
