(* C46: is_ok.  "isOK z p" (Ok.v) is the answer of Board.is_ok; "sound" (OkSpec.v) says in terms of the position
   what the answer means.  Proofs in OkProofs.v. *)
From Verif Require Import OkExamples.
Local Open Scope N_scope.

(* C46.  On a board filled by set_pieces with any pieces whatever, proper or not (only no more of a kind in a
   hand than a shogi set has), is_ok answers exactly whether the position is sound. *)
Theorem C46_set_pieces : forall z b pieces inHand, turn (bpos b) < 2 -> length pieces = 81%nat -> Forall piece_code pieces ->
  (forall c k, In k hand_kinds -> (in_hand (array_position pieces inHand (turn (bpos b))) c k <= full_set k)%Z) ->
  (isOK z (bpos (boardSetPieces z b pieces inHand)) = true <-> sound (array_position pieces inHand (turn (bpos b)))).
Proof. exact set_pieces_isOK. Qed.
Print Assumptions C46_set_pieces.
(* The same on every board reached by moves, passes and take-backs from a proper position. *)
Theorem C46_reachable : forall rp rh b, let z := initZobrist rp rh in reachable z b -> (isOK z (bpos b) = true <-> sound (abs (bpos b))).
Proof. exact (fun rp rh b => reachable_isOK (initZobrist rp rh) b (okZob_init rp rh)). Qed.
Print Assumptions C46_reachable.
(* In play it never fails: after any legal move is_ok is true, as long as there is a king at all. *)
Theorem C46_play : forall rp rh b m, let z := initZobrist rp rh in reachable z b -> legal_but_drop_mate (abs (bpos b)) m ->
  (exists c s, on_board s /\ at_square (play (abs (bpos b)) m) s = Some (c, OU)) ->
  isOK z (bpos (push z b (code (bpos b) m))) = true.
Proof. exact (fun rp rh b m => push_isOK (initZobrist rp rh) b m (okZob_init rp rh)). Qed.
Print Assumptions C46_play.
(* is_ok does not mean well-formed: two pawns on a file, one of them on the last rank, pass. *)
Theorem C46_well_formed_refuted : exists b, set_up z0 b /\ isOK z0 (bpos b) = true /\ ~ well_formed (abs (bpos b)).
Proof. exact ok_not_wf. Qed.
Print Assumptions C46_well_formed_refuted.
(* two checks; two pawns on a file; three checks; two kings; a king that can be taken; no king *)
Example C46_case : map okOf [twoChecks; deadPawns; threeChecks; twoKings; takeable; sparse []] = [true; true; false; false; false; false].
Proof. exact isOK_answers. Qed.
Example C46_play_case : reachable z0 demo2 /\ legal_but_drop_mate (abs (bpos demo2)) demo2_takes.
Proof. split; [exact demo2_reachable|exact demo2_takes_legal]. Qed.
