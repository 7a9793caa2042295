(* C37: the mate search.  MateSearchSpec.v says what it means to force mate; proofs in CheckGenProofs.v, CheckGenFinal.v,
   MateMoves.v, MateProofs.v and MateFinal.v. *)
From Verif Require Import MateFinal MateHeld.
Local Open Scope Z_scope.

(* When mate_move(ply) returns a move, the move is legal, it checks, and the opponent cannot avoid being mated within the
   remaining plies.  Missing for the full property: defences that refuse a promotion (held_back), and a loss by the rule
   of repetition, as is_draw(16) reports it, counts as a mate. *)
Theorem C37_mate_move_partial : forall rp rh b ply m, let z := initZobrist rp rh in reachable z b -> well_formed (abs (bpos b)) ->
  mateMove z b ply = Some m -> m <> 0%N ->
  exists mv, m = code (bpos b) mv /\ legal (abs (bpos b)) mv /\ in_check (play (abs (bpos b)) mv) (other (side (abs (bpos b)))) /\
    lost (is_draw_says z b) (abs (bpos b)) (Z.to_nat (ply - 1)) [mv].
Proof. exact (fun rp rh b ply m => mate_move_sound (initZobrist rp rh) b ply m (okZob_init rp rh)). Qed.
Print Assumptions C37_mate_move_partial.
(* When is_mate(ply) is true, ply being positive, the side to move cannot avoid being mated within ply plies. *)
Theorem C37_is_mate_partial : forall rp rh b ply, let z := initZobrist rp rh in reachable z b -> well_formed (abs (bpos b)) -> 2 <= ply ->
  isMate z b ply = Some true -> lost (is_draw_says z b) (abs (bpos b)) (Z.to_nat ply) [].
Proof. exact (fun rp rh b ply => is_mate_sound (initZobrist rp rh) b ply (okZob_init rp rh)). Qed.
Print Assumptions C37_is_mate_partial.

(* On a board just set up, for the short searches, repetition plays no part: mate on the board is forced. *)
Theorem C37_mate_move_fresh_partial : forall rp rh b ply m, let z := initZobrist rp rh in set_up z b -> well_formed (abs (bpos b)) -> ply <= 5 ->
  mateMove z b ply = Some m -> m <> 0%N ->
  exists mv, m = code (bpos b) mv /\ legal (abs (bpos b)) mv /\ in_check (play (abs (bpos b)) mv) (other (side (abs (bpos b)))) /\
    lost no_rule (abs (bpos b)) (Z.to_nat (ply - 1)) [mv].
Proof. exact (fun rp rh b ply m => mate_move_fresh (initZobrist rp rh) b ply m (okZob_init rp rh)). Qed.
Print Assumptions C37_mate_move_fresh_partial.
Theorem C37_is_mate_fresh_partial : forall rp rh b ply, let z := initZobrist rp rh in set_up z b -> well_formed (abs (bpos b)) -> 2 <= ply <= 6 ->
  isMate z b ply = Some true -> lost no_rule (abs (bpos b)) (Z.to_nat ply) [].
Proof. exact (fun rp rh b ply => is_mate_fresh (initZobrist rp rh) b ply (okZob_init rp rh)). Qed.
Print Assumptions C37_is_mate_fresh_partial.
Example C37_case_fresh : (set_up z0 threeBoard /\ well_formed (abs (bpos threeBoard))) /\ mateMove z0 threeBoard 3 = Some 413314%N /\
  (set_up z0 twoBoard /\ well_formed (abs (bpos twoBoard))) /\ isMate z0 twoBoard 2 = Some true /\ andMoves (bpos twoBoard) = [524297%N].
Proof. exact (conj three_set_up (conj three_runs (conj two_set_up two_runs))). Qed.

(* With a history, where the verdicts are those of the rule of repetition (DrawSpec.v), provided the positions
   compared have different hashes. *)
Theorem C37_mate_move_rule_partial : forall rp rh b0 es line ply, let z := initZobrist rp rh in set_up z b0 -> let P0 := abs (bpos b0) in well_formed P0 ->
  game no_double_pass P0 es line ->
  (forall ms, legal_line no_double_pass P0 (map Some ms ++ line) -> Z.of_nat (length ms) <= Z.max 2 (ply - 3) -> no_collision z P0 (map Some ms ++ line) 16) ->
  exists b, calls z b0 es = Some b /\ forall m, mateMove z b ply = Some m -> m <> 0%N ->
  exists mv, m = code (bpos b) mv /\ legal (abs (bpos b)) mv /\ in_check (play (abs (bpos b)) mv) (other (side (abs (bpos b)))) /\
    lost (fun ms => repetition P0 (map Some ms ++ line) 16) (abs (bpos b)) (Z.to_nat (ply - 1)) [mv].
Proof. exact (fun rp rh b0 es line ply => mate_move_rule (initZobrist rp rh) b0 es line ply (okZob_init rp rh)). Qed.
Print Assumptions C37_mate_move_rule_partial.
Theorem C37_is_mate_rule_partial : forall rp rh b0 es line ply, let z := initZobrist rp rh in set_up z b0 -> let P0 := abs (bpos b0) in well_formed P0 ->
  game no_double_pass P0 es line -> 2 <= ply ->
  (forall ms, legal_line no_double_pass P0 (map Some ms ++ line) -> Z.of_nat (length ms) <= Z.max 1 (ply - 3) -> no_collision z P0 (map Some ms ++ line) 16) ->
  exists b, calls z b0 es = Some b /\ (isMate z b ply = Some true -> lost (fun ms => repetition P0 (map Some ms ++ line) 16) (abs (bpos b)) (Z.to_nat ply) []).
Proof. exact (fun rp rh b0 es line ply => is_mate_rule (initZobrist rp rh) b0 es line ply (okZob_init rp rh)). Qed.
Print Assumptions C37_is_mate_rule_partial.
Example C37_case_rule : forall ms, legal_line no_double_pass (abs (bpos threeBoard)) (map Some ms ++ []) -> Z.of_nat (length ms) <= Z.max 2 (3 - 3) ->
  no_collision z0 (abs (bpos threeBoard)) (map Some ms ++ []) 16.
Proof. exact (fun ms _ H => short_no_collision _ _ ms 16 (proj2 (Nat2Z.inj_lt (length ms) 4) (Z.le_lt_trans (Z.of_nat (length ms)) 2 4 H eq_refl))). Qed.

(* For every admissible ply both calls end with an answer, and no state outside the history is read. *)
Theorem C37_search_ends : forall rp rh b0 es line ply, let z := initZobrist rp rh in set_up z b0 -> well_formed (abs (bpos b0)) -> game no_double_pass (abs (bpos b0)) es line ->
  exists b, calls z b0 es = Some b /\ (ply mod 2 = 1 -> 3 <= ply -> exists m, mateMove z b ply = Some m) /\ (ply mod 2 = 0 -> 2 <= ply -> exists r, isMate z b ply = Some r).
Proof. exact (fun rp rh b0 es line ply => search_defined (initZobrist rp rh) b0 es line ply (okZob_init rp rh)). Qed.
Print Assumptions C37_search_ends.
(* The attacker's moves the search looks at are legal and give check; the defender's are legal. *)
Theorem C37_moves_legal : forall rp rh b m, let z := initZobrist rp rh in reachable z b -> well_formed (abs (bpos b)) ->
  (In m (orMoves (inCheck (bpos b)) (bpos b)) ->
     exists mv, m = code (bpos b) mv /\ legal (abs (bpos b)) mv /\ in_check (play (abs (bpos b)) mv) (other (side (abs (bpos b))))) /\
  (inCheck (bpos b) = true -> In m (andMoves (bpos b)) -> exists mv, m = code (bpos b) mv /\ legal (abs (bpos b)) mv).
Proof.
  exact (fun rp rh b m R W => conj (or_sound (initZobrist rp rh) b m (okZob_init rp rh) R (wf_playable _ W)) (and_sound (initZobrist rp rh) b m (okZob_init rp rh) R (wf_playable _ W))).
Qed.
Print Assumptions C37_moves_legal.

(* The restriction on the defences is needed: on this board is_mate(4) is true, and the king is not mated within four plies,
   for gote takes the checking gold with the bishop and does not promote. *)
Theorem C37_every_defence_refuted : exists rp rh b, let z := initZobrist rp rh in set_up z b /\ well_formed (abs (bpos b)) /\
  isMate z b 4 = Some true /\ ~ lost_by_force (abs (bpos b)) 4 [].
Proof. exact (ex_intro _ _ (ex_intro _ _ (ex_intro _ heldBoard (conj (proj1 held_set_up) (conj (proj2 held_set_up) (conj held_claimed held_not_lost)))))). Qed.
Print Assumptions C37_every_defence_refuted.
