(* C13, C21-C24, C26, C33: move texts, 16-bit moves, turned moves, labels, move codes.
   TextSpec.v has the USI and CSA notations ("usi_text", "csa_text", "usi_reads") and the board turned by
   180 degrees ("turn_position", "turn_move"); "code p mv" is the integer of the move mv (Abs.v);
   proofs in TextProofs.v, MoveCodes.v, Turn.v, Labels.v.  In usiToMove and csaToMove None is a read
   outside an object and Some 0 is the answer "no move". *)
From Verif Require Import MoveExamples.
Local Open Scope N_scope.

(* C13.  What is accepted denotes a move that passes is_legal, and a legal one unless its promotion flag or
   dropped piece breaks the form the rules want.  (partial: the unrestricted claim is refuted below) *)
Theorem C13_usi_partial : forall rp rh b s m, let z := initZobrist rp rh in reachable z b -> playable (abs (bpos b)) -> usiToMove (bpos b) s = Some m -> m <> 0 ->
  exists mv, usi_reads s mv /\ m = code (bpos b) mv /\ boardMoveIsLegal (bpos b) m = true /\ (fits (abs (bpos b)) mv -> legal (abs (bpos b)) mv).
Proof. exact (fun rp rh b s m => usi_partial (initZobrist rp rh) b s m (okZob_init rp rh)). Qed.
Print Assumptions C13_usi_partial.
Theorem C13_csa_partial : forall rp rh b s m, let z := initZobrist rp rh in reachable z b -> playable (abs (bpos b)) -> csaToMove (bpos b) s = Some m -> m <> 0 ->
  exists mv, s = csa_text (abs (bpos b)) mv /\ m = code (bpos b) mv /\ boardMoveIsLegal (bpos b) m = true /\ (fits (abs (bpos b)) mv -> legal (abs (bpos b)) mv).
Proof. exact (fun rp rh b s m => csa_partial (initZobrist rp rh) b s m (okZob_init rp rh)). Qed.
Print Assumptions C13_csa_partial.
(* the text of a move in that form is answered with its code if it is legal, else with 0 *)
Theorem C13_usi_decides : forall rp rh b mv, let z := initZobrist rp rh in let P := abs (bpos b) in reachable z b -> playable P -> fits P mv ->
  (legal P mv /\ usiToMove (bpos b) (usi_text mv) = Some (code (bpos b) mv)) \/ (~ legal P mv /\ usiToMove (bpos b) (usi_text mv) = Some 0).
Proof. exact (fun rp rh b mv => usi_decides (initZobrist rp rh) b mv (okZob_init rp rh)). Qed.
Print Assumptions C13_usi_decides.
Theorem C13_csa_decides : forall rp rh b mv, let z := initZobrist rp rh in let P := abs (bpos b) in reachable z b -> playable P -> fits P mv ->
  (legal P mv /\ csaToMove (bpos b) (csa_text P mv) = Some (code (bpos b) mv)) \/ (~ legal P mv /\ csaToMove (bpos b) (csa_text P mv) = Some 0).
Proof. exact (fun rp rh b mv => csa_decides (initZobrist rp rh) b mv (okZob_init rp rh)). Qed.
Print Assumptions C13_csa_decides.
(* memory: USI reads out of bounds at most for texts of length 0 or 2 and texts that begin with K or k,
   CSA exactly for king drops *)
Theorem C13_usi_memory_partial : forall p s, usiToMove p s = None -> s = EmptyString \/ String.length s = 2%nat \/ exists rest, s = String "K" rest \/ s = String "k" rest.
Proof. exact usi_unsafe. Qed.
Print Assumptions C13_usi_memory_partial.
Theorem C13_csa_memory_partial : forall p s, csaToMove p s = None <-> exists t, on_board t /\ s = ("00" ++ csa_square t ++ "OU")%string.
Proof. exact csa_unsafe. Qed.
Print Assumptions C13_csa_memory_partial.
Theorem C13_memory_refuted : forall p, usiToMove p "7g" = None /\ usiToMove p "K*5e" = None /\ csaToMove p "0055OU" = None.
Proof. exact (fun p => conj eq_refl (conj eq_refl eq_refl)). Qed.
Print Assumptions C13_memory_refuted.
Theorem C13_usi_refuted : exists b s m, reachable z0 b /\ playable (abs (bpos b)) /\ usiToMove (bpos b) s = Some m /\ m <> 0 /\ ~ In m (legalMoves (bpos b)).
Proof. exact (accepts_text usiToMove (startBoard z0) "7g7f+" start_playable usi_bad_promotion_run). Qed.
Print Assumptions C13_usi_refuted.
Theorem C13_csa_refuted : exists b s m, reachable z0 b /\ playable (abs (bpos b)) /\ csaToMove (bpos b) s = Some m /\ m <> 0 /\ ~ In m (legalMoves (bpos b)).
Proof. exact (accepts_text csaToMove openBoard "0055TO" open_playable csa_promoted_drop_run). Qed.
Print Assumptions C13_csa_refuted.
Example C13_case : ((reachable z0 (startBoard z0) /\ playable (abs (bpos (startBoard z0)))) /\ legal (abs (bpos (startBoard z0))) (Go (7, 7)%Z (7, 6)%Z false)) /\
  on_board (7, 6)%Z /\ fits (abs (bpos (startBoard z0))) (Go (7, 7)%Z (7, 6)%Z false).
Proof. exact (conj opening_legal opening_fits). Qed.

(* C21 *)
Theorem C21_usi_round_trip : forall rp rh b mv, let z := initZobrist rp rh in reachable z b -> playable (abs (bpos b)) -> legal (abs (bpos b)) mv ->
  toUSI (code (bpos b) mv) = usi_text mv /\ usiToMove (bpos b) (usi_text mv) = Some (code (bpos b) mv).
Proof. exact (fun rp rh b mv => usi_round_trip (initZobrist rp rh) b mv (okZob_init rp rh)). Qed.
Print Assumptions C21_usi_round_trip.
Theorem C21_usi_distinct : forall rp rh b m m', let z := initZobrist rp rh in reachable z b -> playable (abs (bpos b)) ->
  In m (legalMoves (bpos b)) -> In m' (legalMoves (bpos b)) -> toUSI m = toUSI m' -> m = m'.
Proof. exact (fun rp rh b m m' => usi_distinct (initZobrist rp rh) b m m' (okZob_init rp rh)). Qed.
Print Assumptions C21_usi_distinct.
(* C22 *)
Theorem C22_csa_round_trip : forall rp rh b mv, let z := initZobrist rp rh in reachable z b -> playable (abs (bpos b)) -> legal (abs (bpos b)) mv ->
  toCSA (code (bpos b) mv) = csa_text (abs (bpos b)) mv /\ csaToMove (bpos b) (csa_text (abs (bpos b)) mv) = Some (code (bpos b) mv).
Proof. exact (fun rp rh b mv => csa_round_trip (initZobrist rp rh) b mv (okZob_init rp rh)). Qed.
Print Assumptions C22_csa_round_trip.
Theorem C22_csa_distinct : forall rp rh b m m', let z := initZobrist rp rh in reachable z b -> playable (abs (bpos b)) ->
  In m (legalMoves (bpos b)) -> In m' (legalMoves (bpos b)) -> toCSA m = toCSA m' -> m = m'.
Proof. exact (fun rp rh b m m' => csa_distinct (initZobrist rp rh) b m m' (okZob_init rp rh)). Qed.
Print Assumptions C22_csa_distinct.
Example C21_C22_case : toUSI (code (bpos (startBoard z0)) (Go (7, 7)%Z (7, 6)%Z false)) = "7g7f"%string /\ toCSA (code (bpos (startBoard z0)) (Go (7, 7)%Z (7, 6)%Z false)) = "7776FU"%string.
Proof. exact text_runs. Qed.

(* C23 *)
Theorem C23_move16 : forall rp rh b mv, let z := initZobrist rp rh in reachable z b -> legal (abs (bpos b)) mv ->
  moveFromMove16 (bpos b) (move16 (code (bpos b) mv)) = code (bpos b) mv /\ moveFromPsv (bpos b) (move16ToPsv (move16 (code (bpos b) mv))) = code (bpos b) mv.
Proof. exact (fun rp rh b mv R => move16_round_trip (bpos b) mv (proj1 (reachable_ok _ b (okZob_init rp rh) R))). Qed.
Print Assumptions C23_move16.
Theorem C23_psv : forall x, x < 32768 -> move16FromPsv (move16ToPsv x) = x.
Proof. exact psv_round_trip. Qed.
Print Assumptions C23_psv.
(* what the PSV form keeps where *)
Theorem C23_psv_layout : forall x, x < 32768 -> let y := move16ToPsv x in
  y mod 128 = mvTo x /\ (y / 128) mod 128 = (if mvDrop x then mvPtDropped x else mvFrom x) /\ (y / 16384) mod 2 = (if mvDrop x then 1 else 0) /\ y / 32768 = (if mvPromo x then 1 else 0).
Proof. exact psv_layout. Qed.
Print Assumptions C23_psv_layout.
Example C23_case : exists x, x < 32768 /\ mvDrop x = true /\ move16ToPsv x <> x. Proof. exists (1 + 128 * 81). split; [reflexivity|]. split; [reflexivity|discriminate]. Qed.

(* C24 *)
Theorem C24_rotate_involution : forall m, m < 2 ^ 32 -> mvTo m <= 80 -> moveRotate (moveRotate m) = m.
Proof. exact rotate_involution. Qed.
Print Assumptions C24_rotate_involution.
Theorem C24_rotate_fields : forall m, m < 2 ^ 32 -> mvTo m <= 80 -> let m' := moveRotate m in
  mvTo m' = 80 - mvTo m /\ mvFrom m' = (if mvDrop m then mvFrom m else 80 - mvFrom m) /\ mvDrop m' = mvDrop m /\ mvPromo m' = mvPromo m /\ mvPtFrom m' = mvPtFrom m /\ mvCap m' = mvCap m.
Proof. exact rotate_fields. Qed.
Print Assumptions C24_rotate_fields.
Theorem C24_rotate_legal : forall rp rh b b' m, let z := initZobrist rp rh in reachable z b -> reachable z b' -> playable (abs (bpos b)) -> same_position (abs (bpos b')) (turn_position (abs (bpos b))) ->
  m < 2 ^ 32 -> mvTo m <= 80 -> (In m (legalMoves (bpos b)) <-> In (moveRotate m) (legalMoves (bpos b'))).
Proof. exact (fun rp rh b b' m => rotate_moves_iff (initZobrist rp rh) b b' m (okZob_init rp rh)). Qed.
Print Assumptions C24_rotate_legal.
(* on the level of the rules *)
Theorem C24_rules_are_symmetric : forall P m, legal P m <-> legal (turn_position P) (turn_move m).
Proof. exact turn_legal. Qed.
Print Assumptions C24_rules_are_symmetric.
Example C24_case : (reachable z0 openBoard /\ playable (abs (bpos openBoard))) /\ (reachable z0 openTurned /\ playable (abs (bpos openTurned))) /\ same_position (abs (bpos openTurned)) (turn_position (abs (bpos openBoard))).
Proof. exact (conj open_playable (conj openTurned_playable openTurned_same)). Qed.

(* C26: 27 * 81 = 2187 labels *)
Theorem C26_label_range : forall m c, mvTo m <= 80 -> mvFrom m <= 87 -> makeMoveLabel m c < 2187.
Proof. exact label_range_any. Qed.
Print Assumptions C26_label_range.
Theorem C26_label_unique : forall rp rh b mv mv', let z := initZobrist rp rh in let p := bpos b in reachable z b -> legal (abs p) mv -> legal (abs p) mv' ->
  makeMoveLabel (code p mv) (turn p) = makeMoveLabel (code p mv') (turn p) -> mv = mv'.
Proof. exact (fun rp rh b mv mv' R => label_unique (bpos b) mv mv' (proj1 (reachable_ok _ b (okZob_init rp rh) R))). Qed.
Print Assumptions C26_label_unique.
Example C26_case : (reachable z0 (startBoard z0) /\ playable (abs (bpos (startBoard z0)))) /\ legal (abs (bpos (startBoard z0))) (Go (7, 7)%Z (7, 6)%Z false).
Proof. exact opening_legal. Qed.

(* C33 *)
Theorem C33_board_move : forall p from to pr, from < 81 -> to < 81 -> let m := boardMove p from to pr in
  mvTo m = to /\ mvFrom m = from /\ mvPromo m = pr /\ mvDrop m = false /\ mvPtFrom m = pieceAt p from mod 16 /\ mvCap m = pieceAt p to mod 16.
Proof. exact board_move_fields. Qed.
Print Assumptions C33_board_move.
Theorem C33_drop_move : forall to pt, to < 81 -> 1 <= pt <= 7 -> let m := boardDropMove to pt in
  mvTo m = to /\ mvDrop m = true /\ mvPtDropped m = pt /\ mvPromo m = false /\ mvPtFrom m = 0 /\ mvCap m = 0 /\ moveDropHandPiece m = ptToHand pt.
Proof. exact board_drop_fields. Qed.
Print Assumptions C33_drop_move.
