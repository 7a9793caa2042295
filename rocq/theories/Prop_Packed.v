(* C17-C20: the 32-byte position formats HuffmanCodedPos (HCP) and PackedSfen.  Packed.v has the encoders and
   decoders: "toHcp b = Some s" means the bits were written inside the 32-byte buffer "sdata s", None is a
   write outside it; "setHcp z d" is Done, Thrown (C++ exception) or Undefined (access outside the data or
   the board).  PackClaims.v has "both_kings", "buffer32", "bits_written", "hands_fit"; "same_position"
   (Spec.v) compares squares, hands and side to move; proofs in PackFinal.v. *)
From Verif Require Import PackExamples.
Local Open Scope N_scope.

(* C17.  Loading what to_hcp wrote gives the same position, with the same hash, ready for play; the ply is 1
   and the history is empty. *)
Theorem C17_hcp_round_trip : forall rp rh b, let z := initZobrist rp rh in reachable z b -> both_kings (abs (bpos b)) ->
  exists s p, toHcp b = Some s /\ setHcp z (sdata s) = Done (mkBoard p []) /\ same_position (abs p) (abs (bpos b)) /\ getKey p = getKey (bpos b) /\
    gamePly p = 1%Z /\ set_up z (mkBoard p []) /\ agree p.
Proof. exact (fun rp rh b => hcp_round_trip (initZobrist rp rh) b (okZob_init rp rh)). Qed.
Print Assumptions C17_hcp_round_trip.
(* two positions with the same bytes are the same position *)
Theorem C17_hcp_distinct : forall rp rh b b' s s', let z := initZobrist rp rh in reachable z b -> reachable z b' -> both_kings (abs (bpos b)) -> both_kings (abs (bpos b')) ->
  toHcp b = Some s -> toHcp b' = Some s' -> sdata s = sdata s' -> same_position (abs (bpos b)) (abs (bpos b')).
Proof. exact (fun rp rh b b' s s' => hcp_distinct (initZobrist rp rh) b b' s s' (okZob_init rp rh)). Qed.
Print Assumptions C17_hcp_distinct.
Example C17_start_case : reachable z0 (startBoard z0) /\ both_kings (abs (bpos (startBoard z0))).
Proof. exact (conj (proj1 start_playable) start_kings). Qed.
(* pieces outside the game are kept apart from pieces in hand *)
Example C17_sparse_case : reachable z0 mateBoard /\ both_kings (abs (bpos mateBoard)).
Proof. exact (conj (proj1 mate_playable) mate_kings). Qed.

(* C18.  With both kings on the board to_hcp writes exactly 256 bits, all inside its 32 bytes. *)
Theorem C18_hcp_size : forall rp rh b, let z := initZobrist rp rh in reachable z b -> both_kings (abs (bpos b)) ->
  exists s, toHcp b = Some s /\ buffer32 (sdata s) /\ bits_written s = 256.
Proof. exact (fun rp rh b => hcp_size (initZobrist rp rh) b (okZob_init rp rh)). Qed.
Print Assumptions C18_hcp_size.
(* Without one of the kings it always writes past the buffer ... *)
Theorem C18_hcp_overflow : forall rp rh b c, let z := initZobrist rp rh in reachable z b -> (forall s, at_square (abs (bpos b)) s <> Some (c, OU)) -> toHcp b = None.
Proof. exact (fun rp rh b c => hcp_overflow (initZobrist rp rh) b c (okZob_init rp rh)). Qed.
Print Assumptions C18_hcp_overflow.
(* ... and such positions can be set up. *)
Theorem C18_hcp_size_refuted : exists b, reachable z0 b /\ toHcp b = None.
Proof. exact (ex_intro _ tsumeBoard (conj tsume_reachable (hcp_overflow z0 tsumeBoard Sente okZob0 tsume_reachable tsume_no_king))). Qed.
Print Assumptions C18_hcp_size_refuted.
Example C18_overflow_case : reachable z0 tsumeBoard /\ forall s, at_square (abs (bpos tsumeBoard)) s <> Some (Sente, OU).
Proof. exact (conj tsume_reachable tsume_no_king). Qed.

(* C19.  The same for PackedSfen. *)
Theorem C19_psfen_round_trip : forall rp rh b, let z := initZobrist rp rh in reachable z b -> both_kings (abs (bpos b)) ->
  exists s p, toPsfen b = Some s /\ setPsfen z (sdata s) = Done (mkBoard p []) /\ same_position (abs p) (abs (bpos b)) /\ getKey p = getKey (bpos b) /\
    gamePly p = 1%Z /\ set_up z (mkBoard p []) /\ agree p.
Proof. exact (fun rp rh b => psfen_round_trip (initZobrist rp rh) b (okZob_init rp rh)). Qed.
Print Assumptions C19_psfen_round_trip.
Theorem C19_psfen_distinct : forall rp rh b b' s s', let z := initZobrist rp rh in reachable z b -> reachable z b' -> both_kings (abs (bpos b)) -> both_kings (abs (bpos b')) ->
  toPsfen b = Some s -> toPsfen b' = Some s' -> sdata s = sdata s' -> same_position (abs (bpos b)) (abs (bpos b')).
Proof. exact (fun rp rh b b' s s' => psfen_distinct (initZobrist rp rh) b b' s s' (okZob_init rp rh)). Qed.
Print Assumptions C19_psfen_distinct.
Theorem C19_psfen_size : forall rp rh b, let z := initZobrist rp rh in reachable z b -> both_kings (abs (bpos b)) ->
  exists s, toPsfen b = Some s /\ buffer32 (sdata s) /\ bits_written s = 256.
Proof. exact (fun rp rh b => psfen_size (initZobrist rp rh) b (okZob_init rp rh)). Qed.
Print Assumptions C19_psfen_size.
Theorem C19_psfen_overflow : forall rp rh b c, let z := initZobrist rp rh in reachable z b -> (forall s, at_square (abs (bpos b)) s <> Some (c, OU)) -> toPsfen b = None.
Proof. exact (fun rp rh b c => psfen_overflow (initZobrist rp rh) b c (okZob_init rp rh)). Qed.
Print Assumptions C19_psfen_overflow.
Example C19_case : reachable z0 openBoard /\ both_kings (abs (bpos openBoard)).
Proof. exact (conj (proj1 open_playable) open_kings). Qed.

(* C20.  Data that is accepted and whose result shows both kings, keeps to the piece set and did not overrun
   a hand counter gives a consistent position that is ready for play, whatever the bytes were.  (partial:
   the decoders do not check these three conditions, and do not stay inside the data; see below) *)
Theorem C20_hcp_accepted_partial : forall rp rh d b, let z := initZobrist rp rh in setHcp z d = Done b -> both_kings (abs (bpos b)) -> proper (abs (bpos b)) -> hands_fit (bpos b) ->
  bhist b = [] /\ set_up z b /\ agree (bpos b) /\ gamePly (bpos b) = 1%Z.
Proof. exact (fun rp rh => hcp_accepted (initZobrist rp rh)). Qed.
Print Assumptions C20_hcp_accepted_partial.
Theorem C20_psfen_accepted_partial : forall rp rh d b, let z := initZobrist rp rh in setPsfen z d = Done b -> both_kings (abs (bpos b)) -> proper (abs (bpos b)) -> hands_fit (bpos b) ->
  bhist b = [] /\ set_up z b /\ agree (bpos b) /\ gamePly (bpos b) = 1%Z.
Proof. exact (fun rp rh => psfen_accepted (initZobrist rp rh)). Qed.
Print Assumptions C20_psfen_accepted_partial.
(* 32 bytes of 255: the king squares are outside the board.  With king squares on the board: the data ends
   within a code. *)
Theorem C20_memory_refuted : exists d d', buffer32 d /\ buffer32 d' /\ d <> d' /\ setHcp z0 d = Undefined /\ setPsfen z0 d = Undefined /\ setHcp z0 d' = Undefined /\ setPsfen z0 d' = Undefined.
Proof. exact corrupt_memory. Qed.
Print Assumptions C20_memory_refuted.
(* both kings on one square: accepted, and the views of the board contradict each other *)
Theorem C20_consistent_refuted : exists d b, buffer32 d /\ setHcp z0 d = Done b /\ ~ agree (bpos b).
Proof. exact corrupt_accepted. Qed.
Print Assumptions C20_consistent_refuted.
(* two kings and 54 pawns in hand: accepted *)
Theorem C20_pieces_refuted : exists d b b', buffer32 d /\ setHcp z0 d = Done b /\ ~ proper (abs (bpos b)) /\ setPsfen z0 d = Done b' /\ ~ proper (abs (bpos b')).
Proof. exact corrupt_pieces. Qed.
Print Assumptions C20_pieces_refuted.
Example C20_case : exists d b, buffer32 d /\ setHcp z0 d = Done b /\ both_kings (abs (bpos b)) /\ proper (abs (bpos b)) /\ hands_fit (bpos b).
Proof. exact accepted_case. Qed.
