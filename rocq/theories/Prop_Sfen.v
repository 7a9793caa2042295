(* C15, C16: SFEN texts.  Sfen.v has the printer "toSfen" and the reader "setSfen", which is Done, Thrown (C++
   exception) or Undefined (access outside an array, overflow of int).  SfenSpec.v describes the notation:
   "sfen_denotes s P n" says that the text s denotes the position P at move number n.  Proofs in SfenFinal.v
   and SfenInput.v. *)
From Verif Require Import SfenExamples.
Local Open Scope N_scope.

(* C15.  sfen() is a text of the notation for the position and its move number ... *)
Theorem C15_sfen_written : forall rp rh b, let z := initZobrist rp rh in reachable z b -> (0 <= gamePly (bpos b))%Z -> sfen_denotes (toSfen b) (abs (bpos b)) (gamePly (bpos b)).
Proof. exact (fun rp rh b => sfen_written (initZobrist rp rh) b (okZob_init rp rh)). Qed.
Print Assumptions C15_sfen_written.
(* ... reading it gives the same position, move number (any int) and hash, ready for play ... *)
Theorem C15_sfen_round_trip : forall rp rh b, let z := initZobrist rp rh in reachable z b -> (- intMax - 1 <= gamePly (bpos b) <= intMax)%Z ->
  exists p, setSfen z (toSfen b) = Done (mkBoard p []) /\ same_position (abs p) (abs (bpos b)) /\ gamePly p = gamePly (bpos b) /\ getKey p = getKey (bpos b) /\ set_up z (mkBoard p []) /\ agree p.
Proof. exact (fun rp rh b => sfen_round_trip (initZobrist rp rh) b (okZob_init rp rh)). Qed.
Print Assumptions C15_sfen_round_trip.
(* ... so that different positions have different texts. *)
Theorem C15_sfen_distinct : forall rp rh b b', let z := initZobrist rp rh in reachable z b -> reachable z b' -> (- intMax - 1 <= gamePly (bpos b) <= intMax)%Z -> (- intMax - 1 <= gamePly (bpos b') <= intMax)%Z ->
  toSfen b = toSfen b' -> same_position (abs (bpos b)) (abs (bpos b')) /\ gamePly (bpos b) = gamePly (bpos b').
Proof. exact (fun rp rh b b' => sfen_distinct (initZobrist rp rh) b b' (okZob_init rp rh)). Qed.
Print Assumptions C15_sfen_distinct.
Example C15_start_case : reachable z0 (startBoard z0) /\ (0 <= gamePly (bpos (startBoard z0)) <= intMax)%Z /\ toSfen (startBoard z0) = "lnsgkgsnl/1r5b1/ppppppppp/9/9/9/PPPPPPPPP/1B5R1/LNSGKGSNL b - 0"%string.
Proof. exact (conj (proj1 start_playable) (conj start_ply start_text)). Qed.
Example C15_hand_case : reachable z0 openBoard /\ (0 <= gamePly (bpos openBoard) <= intMax)%Z /\ toSfen openBoard = "8k/9/8G/9/9/9/9/9/K8 b P 0"%string.
Proof. exact (conj (proj1 open_playable) (conj open_ply open_text)). Qed.
Example C15_negative_case : reachable z0 negativeBoard /\ (- intMax - 1 <= gamePly (bpos negativeBoard) <= intMax)%Z /\ toSfen negativeBoard = "8k/9/8G/9/9/9/9/9/K8 b P -7"%string.
Proof. exact negative_case. Qed.

(* C16.  Every text of the notation for a proper position is accepted and gives that position, however it
   writes its gaps, counts and hand order. *)
Theorem C16_denoted : forall rp rh s P n, let z := initZobrist rp rh in sfen_denotes s P n -> proper P -> (n <= intMax)%Z ->
  exists b, setSfen z s = Done b /\ same_position (abs (bpos b)) P /\ gamePly (bpos b) = n /\ set_up z b /\ agree (bpos b).
Proof. exact (fun rp rh s P n => sfen_denoted (initZobrist rp rh) s P n (okZob_init rp rh)). Qed.
Print Assumptions C16_denoted.
Example C16_denoted_case : sfen_denotes "lnsgkgsnl/1r5b1/ppppppppp/9/9/9/PPPPPPPPP/1B5R1/LNSGKGSNL b - 0" (abs (bpos (startBoard z0))) 0 /\ proper (abs (bpos (startBoard z0))) /\ (0 <= intMax)%Z.
Proof. exact (conj start_denotes (conj start_proper int0)). Qed.
(* Any accepted text with at most eight slashes whose result has only proper piece numbers, keeps to the
   piece set and did not overrun a hand counter gives a consistent position.  (partial: the reader does not
   check these conditions; see the refutations) *)
Theorem C16_accepted_partial : forall rp rh s b, let z := initZobrist rp rh in setSfen z s = Done b -> (count_occ ascii_dec (list_ascii_of_string s) "/"%char <= 8)%nat ->
  (forall x, on_board x -> piece_code (pieceAt (bpos b) (nsquare x))) -> proper (abs (bpos b)) -> hands_fit (bpos b) -> bhist b = [] /\ set_up z b /\ agree (bpos b).
Proof. exact (fun rp rh => sfen_accept (initZobrist rp rh)). Qed.
Print Assumptions C16_accepted_partial.
Example C16_accepted_case : exists s b, setSfen z0 s = Done b /\ (count_occ ascii_dec (list_ascii_of_string s) "/"%char <= 8)%nat /\ (forall x, on_board x -> piece_code (pieceAt (bpos b) (nsquare x))) /\
  proper (abs (bpos b)) /\ hands_fit (bpos b).
Proof. exact start_accepted. Qed.
(* The reader stays inside its arrays on every text whose board field has "+" only before a piece that
   promotes, and whose hand field has no king and no count of ten digits.  (partial: other texts can make it
   leave them; see the refutation) *)
Theorem C16_memory_partial : forall rp rh s, plus_ok (field 0 s) -> hand_field_ok (field 2 s) -> setSfen (initZobrist rp rh) s <> Undefined.
Proof. exact (fun rp rh => sfen_memory (initZobrist rp rh)). Qed.
Print Assumptions C16_memory_partial.
Example C16_memory_case : plus_ok (field 0 "+Pk7/9/9/9/9/9/9/9/4K4 b 18p2G 1") /\ hand_field_ok (field 2 "+Pk7/9/9/9/9/9/9/9/4K4 b 18p2G 1").
Proof. exact fields_ok. Qed.
(* a promoted gold, a promoted king, a king in hand, a count beyond int *)
Theorem C16_memory_refuted : setSfen z0 "+G8/9/9/9/9/9/9/9/9 b - 1" = Undefined /\ setSfen z0 "+k8/9/9/9/9/9/9/9/9 b - 1" = Undefined /\
  setSfen z0 "4k4/9/9/9/9/9/9/9/4K4 b K 1" = Undefined /\ setSfen z0 "4k4/9/9/9/9/9/9/9/4K4 b 2147483648P 1" = Undefined.
Proof. exact (conj plus_gold (conj plus_king (conj king_in_hand long_count))). Qed.
Print Assumptions C16_memory_refuted.
(* accepted, and the views of the board contradict each other: nine slashes return to the first row *)
Theorem C16_consistent_refuted : exists s b, setSfen z0 s = Done b /\ ~ agree (bpos b).
Proof. exact twice_disagrees. Qed.
Print Assumptions C16_consistent_refuted.
(* accepted with nineteen pawns in one hand *)
Theorem C16_pieces_refuted : exists s b, setSfen z0 s = Done b /\ ~ proper (abs (bpos b)).
Proof. exact pawns_improper. Qed.
Print Assumptions C16_pieces_refuted.
