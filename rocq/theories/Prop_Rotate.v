(* C25: rotate_sfen.  Rotate.v has "rotateSfen"; SfenSpec.v has "sfen_denotes s P n" (the text s denotes the
   position P at move number n) and TextSpec.v "turn_position" (the board turned by 180 degrees with colours
   exchanged).  Proofs in RotateProofs.v and RotateFinal.v. *)
From Verif Require Import RotateFinal.
Local Open Scope N_scope.

(* C25.  (partial: no side holds ten or more of a kind; with ten pawns the claim is refuted below) *)
Theorem C25_text_partial : forall s P n, sfen_denotes s P n -> (forall c k, (in_hand P c k <= 9)%Z) -> sfen_denotes (rotateSfen s) (turn_position P) n.
Proof. exact rotate_text. Qed.
Print Assumptions C25_text_partial.
Theorem C25_twice_partial : forall s P n, sfen_denotes s P n -> (forall c k, (in_hand P c k <= 9)%Z) -> sfen_denotes (rotateSfen (rotateSfen s)) P n.
Proof. exact rotate_twice. Qed.
Print Assumptions C25_twice_partial.
Theorem C25_set_partial : forall rp rh s P n, let z := initZobrist rp rh in sfen_denotes s P n -> proper P -> (n <= intMax)%Z -> (forall c k, (in_hand P c k <= 9)%Z) ->
  exists b, setSfen z (rotateSfen s) = Done b /\ same_position (abs (bpos b)) (turn_position P) /\ gamePly (bpos b) = n /\ set_up z b.
Proof. exact (fun rp rh s P n => rotate_set (initZobrist rp rh) s P n (okZob_init rp rh)). Qed.
Print Assumptions C25_set_partial.
(* with the text of a board *)
Theorem C25_board_partial : forall rp rh b, let z := initZobrist rp rh in reachable z b -> (0 <= gamePly (bpos b) <= intMax)%Z -> (forall c k, (in_hand (abs (bpos b)) c k <= 9)%Z) ->
  exists b1 b2, setSfen z (rotateSfen (toSfen b)) = Done b1 /\ same_position (abs (bpos b1)) (turn_position (abs (bpos b))) /\
    setSfen z (rotateSfen (rotateSfen (toSfen b))) = Done b2 /\ same_position (abs (bpos b2)) (abs (bpos b)) /\ getKey (bpos b2) = getKey (bpos b).
Proof. exact (fun rp rh b => rotate_board (initZobrist rp rh) b (okZob_init rp rh)). Qed.
Print Assumptions C25_board_partial.
Example C25_case : sfen_denotes "4k1+P2/9/9/9/6+R2/9/9/9/4K4 b BN9P3s2n 0" (abs (bpos someHands)) 0 /\ proper (abs (bpos someHands)) /\ (forall c k, (in_hand (abs (bpos someHands)) c k <= 9)%Z) /\
  rotateSfen "4k1+P2/9/9/9/6+R2/9/9/9/4K4 b BN9P3s2n 0" = "4k4/9/9/9/2+r6/9/9/9/2+p1K4 w 3S2Nbn9p 0"%string.
Proof. exact (conj (proj1 some_denotes) (conj (proj2 some_denotes) (conj some_few some_rotated))). Qed.
Example C25_board_case : reachable z0 someHands /\ (0 <= gamePly (bpos someHands) <= intMax)%Z. Proof. exact (conj some_reachable some_ply). Qed.
(* ten pawns in hand are turned into one *)
Theorem C25_ten_refuted : exists b b1, reachable z0 b /\ (0 <= gamePly (bpos b) <= intMax)%Z /\ setSfen z0 (rotateSfen (toSfen b)) = Done b1 /\
  ~ same_position (abs (bpos b1)) (turn_position (abs (bpos b))).
Proof. exact ten_refuted. Qed.
Print Assumptions C25_ten_refuted.
