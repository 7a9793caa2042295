(* C01, C02, C03: attack sets.  See AttackFinal.v for the proofs, Spec.v for "attacks". *)
From Verif Require Import AttackFinal Examples.
Local Open Scope N_scope.

(* C01: for any occupancy (a bitboard occ), a sliding piece attacks exactly the squares of the rules *)
Theorem C01_sliding_attacks_exact : forall (c : color) (k : kind) (s t : square) (occ : BB),
  In k [KY; KA; HI; UM; RY] -> on_board s -> on_board t ->
  (isSet (attacksFrom (nkind k) (ncolor c) (nsquare s) occ) (nsquare t) = true <-> attacks (fun q => isSet occ (nsquare q) = true) c k s t).
Proof. exact (fun c k s t occ _ Hs Ht => attacks_from c k s t occ Hs Ht). Qed.
Print Assumptions C01_sliding_attacks_exact.
(* a rook on 5e with pieces on 5c and 3e sees 5c but not 5b, and 3e but not 2e *)
Example C01_case : let occ := setBit (setBit allZeroBB (nsquare (5, 3)%Z)) (nsquare (3, 5)%Z) in
  map (fun t => isSet (attacksFrom (nkind HI) (ncolor Gote) (nsquare (5, 5)%Z) occ) (nsquare t)) [(5, 3); (5, 2); (3, 5); (2, 5); (9, 5); (4, 4)]%Z
  = [true; false; true; false; true; false].
Proof. vm_compute. reflexivity. Qed.

(* C02: step movers attack exactly the squares of their diagram that exist, whatever the occupancy *)
Theorem C02_step_attacks_exact : forall (c : color) (k : kind) (s t : square) (occ : BB),
  In k [FU; KE; GI; KI; OU; TO; NY; NK; NG] -> on_board s -> on_board t ->
  (isSet (attacksFrom (nkind k) (ncolor c) (nsquare s) occ) (nsquare t) = true <-> exists d, In d (steps k) /\ t = displaced c s d 1).
Proof. exact step_attacks. Qed.
Print Assumptions C02_step_attacks_exact.
(* C01, C02: no attack set has a bit that is not a square *)
Theorem C02_attacks_on_board : forall (c : color) (k : kind) (s : square) (occ : BB), on_board s -> only_squares (attacksFrom (nkind k) (ncolor c) (nsquare s) occ).
Proof. exact attacks_from_only. Qed.
Print Assumptions C02_attacks_on_board.
(* a knight on 1c reaches 2a only; a pawn on 5a nothing *)
Example C02_case : map (fun t => isSet (attacksFrom (nkind KE) (ncolor Sente) (nsquare (1, 3)%Z) allZeroBB) (nsquare t)) [(2, 1); (1, 9); (9, 1); (1, 1)]%Z = [true; false; false; false]
  /\ attacksFrom (nkind FU) (ncolor Sente) (nsquare (5, 1)%Z) allZeroBB = allZeroBB.
Proof. vm_compute. split; reflexivity. Qed.

(* C03: the attackers of a square on any board a client can reach, for any assumed occupancy *)
Theorem C03_attackers_exact : forall rp rh (b : Board) (c : color) (s t : square) (occ : BB),
  reachable (initZobrist rp rh) b -> on_board s -> on_board t ->
  (isSet (attackersTo (bpos b) (ncolor c) (nsquare t) occ) (nsquare s) = true <->
   exists k, at_square (abs (bpos b)) s = Some (c, k) /\ attacks (fun q => isSet occ (nsquare q) = true) c k s t).
Proof. exact (fun rp rh b c s t occ => attackers_exact (initZobrist rp rh) b c s t occ (okZob_init rp rh)). Qed.
Print Assumptions C03_attackers_exact.
(* the same for both colours at once *)
Theorem C03_attackers_both_exact : forall rp rh (b : Board) (s t : square) (occ : BB),
  reachable (initZobrist rp rh) b -> on_board s -> on_board t ->
  (isSet (attackersToAll (bpos b) (nsquare t) occ) (nsquare s) = true <->
   exists c k, at_square (abs (bpos b)) s = Some (c, k) /\ attacks (fun q => isSet occ (nsquare q) = true) c k s t).
Proof. exact (fun rp rh b s t occ => attackers_both (initZobrist rp rh) b s t occ (okZob_init rp rh)). Qed.
Print Assumptions C03_attackers_both_exact.
Example C03_case : reachable z0 demo2 /\ isSet (attackersTo (bpos demo2) (ncolor Sente) (nsquare (2, 2)%Z) (occBB (bpos demo2))) (nsquare (8, 8)%Z) = true.
Proof. split; [exact demo2_reachable|vm_compute; reflexivity]. Qed.
