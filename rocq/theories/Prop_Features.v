(* C30 and C38: the declaration test and the feature planes.  FeaturesSpec.v says what they should be;
   proofs in FeaturesProofs.v, PlaneProofs.v, Features1.v and Features2.v. *)
From Verif Require Import FeatureExamples.
Local Open Scope Z_scope.

(* C30: is_nyugyoku is the declaration rule *)
Theorem C30_declaration : forall rp rh b, reachable (initZobrist rp rh) b -> (nyugyoku (bpos b) = true <-> may_declare (abs (bpos b))).
Proof. exact (fun rp rh b => nyugyoku_exact (initZobrist rp rh) b (okZob_init rp rh)). Qed.
Print Assumptions C30_declaration.
Example C30_case : reachable z0 campBoard /\ nyugyoku (bpos campBoard) = true /\ reachable z0 shortBoard /\ nyugyoku (bpos shortBoard) = false.
Proof. exact (conj (set_up_reachable _ _ camp_set_up) (conj camp_declares (conj (set_up_reachable _ _ short_set_up) short_not))). Qed.

(* C38: piece_planes writes 1 exactly where a piece stands (28 planes: black kinds, then white kinds) and
   nothing else *)
Theorem C38_piece_planes : forall rp rh b m, reachable (initZobrist rp rh) b -> 28 * 81 <= Z.of_nat (length m) ->
  exists m', piecePlanes (bpos b) m = Some m' /\
    marked m m' (fun i => exists c k s, on_board s /\ at_square (abs (bpos b)) s = Some (c, k) /\ i = (14 * whose Sente c + kind_no k) * 81 + cell s).
Proof. exact (fun rp rh b m => piece_planes_exact (initZobrist rp rh) b m (okZob_init rp rh)). Qed.
Print Assumptions C38_piece_planes.
(* piece_planes_rotate: the planes of the side to move first, on the board as that side sees it *)
Theorem C38_piece_planes_rotate : forall rp rh b m, reachable (initZobrist rp rh) b -> 28 * 81 <= Z.of_nat (length m) -> let P := abs (bpos b) in
  exists m', piecePlanesRotate (bpos b) m = Some m' /\
    marked m m' (fun i => exists c k s, on_board s /\ at_square P s = Some (c, k) /\ i = (14 * whose (side P) c + kind_no k) * 81 + cell (seen (side P) s)).
Proof. exact (fun rp rh b m => piece_planes_rotate_exact (initZobrist rp rh) b m (okZob_init rp rh)). Qed.
Print Assumptions C38_piece_planes_rotate.
(* the input features, without and with the declaration planes *)
Theorem C38_features1 : forall rp rh b m, reachable (initZobrist rp rh) b -> 62 * 81 <= Z.of_nat (length m) ->
  exists m', makeFeatures1 (bpos b) m = Some m' /\ buffer1 (abs (bpos b)) m m'.
Proof. exact (fun rp rh b m => features1_exact (initZobrist rp rh) b m (okZob_init rp rh)). Qed.
Print Assumptions C38_features1.
Theorem C38_features2 : forall rp rh b m, reachable (initZobrist rp rh) b -> 57 * 81 <= Z.of_nat (length m) ->
  exists m', makeFeatures2 false (bpos b) m = Some m' /\ buffer2 (abs (bpos b)) m m'.
Proof. exact (fun rp rh b m => features2_exact (initZobrist rp rh) b m (okZob_init rp rh)). Qed.
Print Assumptions C38_features2.
Theorem C38_features2_declaration : forall rp rh b m, reachable (initZobrist rp rh) b -> 119 * 81 <= Z.of_nat (length m) ->
  exists m', makeFeatures2 true (bpos b) m = Some m' /\ buffer2_more (abs (bpos b)) m m'.
Proof. exact (fun rp rh b m => features2_more (initZobrist rp rh) b m (okZob_init rp rh)). Qed.
Print Assumptions C38_features2_declaration.
(* With more than ten pieces in the camp none of the ten planes is written, although the code means to
   write the first of them (the test compares a negative number as unsigned). *)
Theorem C38_declaration_clamp_refuted : exists b, reachable z0 b /\ 10 <= camp_count (abs (bpos b)) Sente /\ side (abs (bpos b)) = Sente /\
  exists m', makeFeatures2 true (bpos b) zeros = Some m' /\ forall j s, 0 <= j < 10 -> on_board s -> entry m' ((57 + (1 + j)) * 81 + cell s) = 0.
Proof. exists campBoard. split; [exact (set_up_reachable _ _ camp_set_up)|]. split; [rewrite (proj1 camp_numbers); discriminate|]. split; [reflexivity|exact camp_unmarked]. Qed.
Print Assumptions C38_declaration_clamp_refuted.
(* The declaration planes are not cleared: a buffer used before keeps old entries, here "the king has
   entered" in the initial position. *)
Theorem C38_declaration_stale_refuted : exists b m m', reachable z0 b /\ makeFeatures2 true (bpos b) zeros = Some m /\
  makeFeatures2 true (bpos (startBoard z0)) m = Some m' /\ forall s, on_board s -> entry m' (57 * 81 + cell s) = 1.
Proof. destruct camp_stale as (m & m' & H). exists campBoard, m, m'. split; [exact (set_up_reachable _ _ camp_set_up)|exact H]. Qed.
Print Assumptions C38_declaration_stale_refuted.
Example C38_case : reachable z0 demo2 /\ 119 * 81 <= Z.of_nat (length zeros).
Proof. split; [exact demo2_reachable|]. rewrite zeros_len. discriminate. Qed.
