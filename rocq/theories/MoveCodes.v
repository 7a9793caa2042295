(* Move codes: fields, 16-bit and PSV forms, rotation. *)
From Verif Require Export TextProofs.
Local Open Scope N_scope.

Lemma word_field a b c n k : a < 2 ^ n -> b < 2 ^ k -> let m := a + 2 ^ n * (b + 2 ^ k * c) in N.land (N.shiftr m n) (N.ones k) = b.
Proof.
  intros A B m. rewrite N.shiftr_div_pow2, N.land_ones. unfold m. rewrite (div_of _ (2 ^ n) (b + 2 ^ k * c) a) by (auto; apply N.add_comm). apply mod_of with c; auto. apply N.add_comm.
Qed.
Lemma ones7 : 127 = N.ones 7. Proof. reflexivity. Qed.
Definition bitN (b : bool) : N := if b then 1 else 0.
Lemma bitN_lt b : bitN b < 2. Proof. destruct b; cbn; lia. Qed.
Lemma land_bit m k x r : m = x + 2 ^ k * (bitN r + 2 * (m / 2 ^ k / 2)) -> x < 2 ^ k -> negb (N.land m (2 ^ k) =? 0) = r.
Proof.
  intros E X. assert (T : N.testbit m k = r).
  { rewrite testbit_arith. rewrite E. rewrite (div_of _ (2 ^ k) (bitN r + 2 * (m / 2 ^ k / 2)) x) by (auto; apply N.add_comm). rewrite (mod_of _ 2 (m / 2 ^ k / 2) (bitN r)) by (pose proof (bitN_lt r); lia). now destruct r. }
  destruct r; [apply negb_true_iff, N.eqb_neq|apply negb_false_iff, N.eqb_eq]; rewrite land_bit_zero, T; [discriminate|reflexivity].
Qed.
(* 16-bit words of four fields *)
Definition word4 (a b : N) (q r : bool) : N := a + 128 * (b + 128 * (bitN q + 2 * bitN r)).
Lemma word4_fields a b q r : a < 128 -> b < 128 -> let m := word4 a b q r in
  N.land m 0x7f = a /\ N.land (N.shiftr m 7) 0x7f = b /\ negb (N.land m 16384 =? 0) = q /\ negb (N.land m 32768 =? 0) = r /\ m < 65536.
Proof.
  intros A B m. pose proof (bitN_lt q). pose proof (bitN_lt r). change 0x7f with (N.ones 7).
  split; [rewrite N.land_ones; apply mod_of with (b + 128 * (bitN q + 2 * bitN r)); unfold m, word4; change (2 ^ 7) with 128; lia|].
  split; [apply (word_field a b (bitN q + 2 * bitN r) 7 7); auto|].
  split; [|split].
  - change 16384 with (2 ^ 14). assert (D : m / 2 ^ 14 = bitN q + 2 * bitN r) by (apply div_of with (a + 128 * b); unfold m, word4; change (2 ^ 14) with 16384; lia).
    apply land_bit with (a + 128 * b); [|change (2 ^ 14) with 16384; lia]. rewrite D. rewrite (div_of _ 2 (bitN r) (bitN q)) by lia. unfold m, word4. change (2 ^ 14) with 16384. lia.
  - change 32768 with (2 ^ 15). assert (D : m / 2 ^ 15 = bitN r) by (apply div_of with (a + 128 * b + 16384 * bitN q); unfold m, word4; change (2 ^ 15) with 32768; lia).
    apply land_bit with (a + 128 * b + 16384 * bitN q); [|change (2 ^ 15) with 32768; lia]. rewrite D. rewrite (div_of _ 2 0 (bitN r)) by lia. unfold m, word4. change (2 ^ 15) with 32768. lia.
  - unfold m, word4. lia.
Qed.
Lemma word4_of m : m < 65536 -> exists a b q r, a < 128 /\ b < 128 /\ m = word4 a b q r.
Proof.
  intros H. exists (m mod 128), (m / 128 mod 128), (1 <=? m / 16384 mod 2), (1 <=? m / 32768). split; [apply N.mod_lt; lia|]. split; [apply N.mod_lt; lia|].
  unfold word4, bitN. assert (D : m / 32768 < 2) by (apply N.div_lt_upper_bound; lia). assert (M : m / 16384 mod 2 < 2) by (apply N.mod_lt; lia).
  assert (E2 : m / 32768 = m / 16384 / 2) by (rewrite N.div_div by lia; reflexivity). assert (E1 : m / 16384 = m / 128 / 128) by (rewrite N.div_div by lia; reflexivity).
  pose proof (N.div_mod m 128 ltac:(lia)). pose proof (N.div_mod (m / 128) 128 ltac:(lia)). pose proof (N.div_mod (m / 16384) 2 ltac:(lia)). rewrite <- E1 in *. rewrite <- E2 in *.
  destruct (N.leb_spec 1 (m / 16384 mod 2)), (N.leb_spec 1 (m / 32768)); lia.
Qed.
Lemma pair_or a b : a < 128 -> N.lor a (N.shiftl b 7) = a + 128 * b.
Proof. intros H. rewrite N.lor_comm, lor_shift by auto. reflexivity. Qed.
Lemma high_or a n : a < 2 ^ n -> N.lor a (2 ^ n) = a + 2 ^ n.
Proof. intros H. replace (2 ^ n) with (N.shiftl 1 n) at 1 by (rewrite N.shiftl_mul_pow2; lia). rewrite N.lor_comm, lor_shift by auto. lia. Qed.
Lemma word4_or a b (q r : bool) : a < 128 -> b < 128 -> N.lor (N.lor (N.lor a (N.shiftl b 7)) (if q then 16384 else 0)) (if r then 32768 else 0) = word4 a b q r.
Proof.
  intros A B. rewrite pair_or by auto. change 16384 with (2 ^ 14). change 32768 with (2 ^ 15). destruct q; [rewrite (high_or _ 14) by (change (2 ^ 14) with 16384; lia)|rewrite N.lor_0_r]; (destruct r; [rewrite (high_or _ 15) by (change (2 ^ 14) with 16384; change (2 ^ 15) with 32768; lia)|rewrite N.lor_0_r]); unfold word4, bitN; change (2 ^ 14) with 16384; change (2 ^ 15) with 32768; lia.
Qed.
(* YaneuraOu's 16-bit form *)
Lemma to_psv_word a b q r : a < 128 -> b < 128 -> move16ToPsv (word4 a b q r) = word4 a (if 81 <=? b then b - 80 else b) (81 <=? b) q.
Proof.
  intros A B. destruct (word4_fields a b q r A B) as (E1 & E2 & E3 & _). unfold move16ToPsv. cbv zeta. unfold PromoteFlag. change 0x4000 with 16384. rewrite E1, E2, E3.
  rewrite word4_or by (auto; destruct (81 <=? b); lia). apply N.mod_small. apply word4_fields; auto. destruct (81 <=? b); lia.
Qed.
Lemma from_psv_word a b q r : a < 128 -> b + 80 < 128 \/ q = false -> b < 128 -> move16FromPsv (word4 a b q r) = word4 a (if q then b + 80 else b) r false.
Proof.
  intros A Q B. destruct (word4_fields a b q r A B) as (E1 & E2 & E3 & E4 & _). unfold move16FromPsv. cbv zeta. unfold PromoteFlag. change 0x4000 with 16384. rewrite E1, E2, E3, E4.
  pose proof (word4_or a (if q then b + 80 else b) r false A) as W. rewrite N.lor_0_r in W. assert (B' : (if q then b + 80 else b) < 128) by (destruct q, Q as [Q|Q]; try discriminate; lia). rewrite W by auto. apply N.mod_small. now apply word4_fields.
Qed.
Theorem psv_round_trip x : x < 32768 -> move16FromPsv (move16ToPsv x) = x.
Proof.
  intros H. destruct (word4_of x ltac:(lia)) as (a & b & q & r & A & B & ->). assert (r = false) as ->. { destruct r; auto. unfold word4, bitN in H. lia. }
  rewrite to_psv_word by auto. rewrite from_psv_word; auto; [|destruct (N.leb_spec 81 b); [left; lia|auto]|destruct (81 <=? b); lia].
  destruct (N.leb_spec 81 b); [|reflexivity]. f_equal. lia.
Qed.
(* the fields YaneuraOu's format keeps: destination, source or dropped kind, drop and promotion flags *)
Theorem psv_layout x : x < 32768 -> let y := move16ToPsv x in
  y mod 128 = mvTo x /\ (y / 128) mod 128 = (if mvDrop x then mvPtDropped x else mvFrom x) /\ (y / 16384) mod 2 = bitN (mvDrop x) /\ y / 32768 = bitN (mvPromo x).
Proof.
  intros H. destruct (word4_of x ltac:(lia)) as (a & b & q & r & A & B & ->). cbv zeta. rewrite to_psv_word by auto. destruct (word4_fields a b q r A B) as (E1 & E2 & E3 & _).
  unfold mvTo, mvDrop, mvPtDropped, mvPromo, PromoteFlag, mvFrom. change 0x4000 with 16384. rewrite E1, E2, E3. set (b' := if 81 <=? b then b - 80 else b). assert (B' : b' < 128) by (unfold b'; destruct (81 <=? b); lia). set (q' := 81 <=? b).
  pose proof (bitN_lt q). pose proof (bitN_lt q'). unfold word4.
  split; [apply mod_of with (b' + 128 * (bitN q' + 2 * bitN q)); lia|]. split; [rewrite (div_of _ 128 (b' + 128 * (bitN q' + 2 * bitN q)) a) by lia; apply mod_of with (bitN q' + 2 * bitN q); lia|].
  split; [rewrite (div_of _ 16384 (bitN q' + 2 * bitN q) (a + 128 * b')) by lia; apply mod_of with (bitN q); lia|]. apply div_of with (a + 128 * b' + 16384 * bitN q'); lia.
Qed.
(* the lower 16 bits of a move *)
Lemma move16_code a b pr c d : a < 128 -> b < 128 -> c < 16 -> d < 16 -> move16 (codeOf a b pr c d) = codeOf a b pr 0 0 /\ codeOf a b pr 0 0 = word4 a b pr false.
Proof.
  intros A B C D. unfold move16, codeOf, word4, bitN. split; [|destruct pr; lia]. apply mod_of with (c + 16 * d); destruct pr; lia.
Qed.
Lemma move16_to a b pr c d p : a < 81 -> b < 81 -> a <> b -> c = ptOf (pieceAt p b) -> d = ptOf (pieceAt p a) -> move16toMove p (codeOf a b pr 0 0) = codeOf a b pr c d.
Proof.
  intros A B AB -> ->. pose proof (ptOf_lt (pieceAt p a)). pose proof (ptOf_lt (pieceAt p b)). destruct (code_fields a b pr 0 0) as (E1 & E2 & _); try lia.
  unfold move16toMove. destruct (N.eqb_spec (codeOf a b pr 0 0) 0) as [Z|_]; [exfalso; unfold codeOf in Z; lia|]. unfold mvDrop. rewrite E1, E2. destruct (N.leb_spec 81 b); [lia|].
  unfold pieceType2Move, captured2Move, from2Move. rewrite N.lor_comm. rewrite (N.lor_comm _ (N.shiftl _ 16)). set (c := ptOf (pieceAt p b)) in *. set (d := ptOf (pieceAt p a)) in *.
  rewrite (lor_shift _ _ 16) by (change (2 ^ 16) with 65536; unfold codeOf; destruct pr; lia). rewrite (lor_shift _ _ 20) by (change (2 ^ 16) with 65536; change (2 ^ 20) with 1048576; unfold codeOf; destruct pr; lia).
  change (2 ^ 16) with 65536; change (2 ^ 20) with 1048576. unfold codeOf. lia.
Qed.
Lemma legal_moves_away p s t pr : good p -> legal (abs p) (Go s t pr) -> s <> t.
Proof.
  intros G [[PL _] _] ->. cbn [pseudo_legal] in PL. cbv zeta in PL. destruct PL as (_ & _ & k & At & _ & N & _). now apply (N k).
Qed.
Theorem move16_round_trip p mv : good p -> legal (abs p) mv -> moveFromMove16 p (move16 (code p mv)) = code p mv /\ moveFromPsv p (move16ToPsv (move16 (code p mv))) = code p mv.
Proof.
  intros G L. assert (X : moveFromMove16 p (move16 (code p mv)) = code p mv /\ move16 (code p mv) < 32768).
  { destruct mv as [k t|s t pr].
    - destruct (legal_drop_kind p k t G L) as [On _]. pose proof (nsquare_lt t On). pose proof (nkind_lt k). rewrite code_drop. destruct (move16_code (nsquare t) (80 + nkind k) false 0 0) as [-> _]; try lia. split; [|unfold codeOf; lia].
      unfold moveFromMove16, move16toMove. rewrite drop_nonzero. destruct (drop_fields p k t On) as (_ & D & _). rewrite code_drop in D. now rewrite D.
    - destruct (legal_piece p s t pr G L) as (k & _ & _ & _ & A & B). pose proof (nsquare_lt t B). pose proof (nsquare_lt s A). rewrite code_go. pose proof (ptOf_lt (pieceAt p (nsquare s))). pose proof (ptOf_lt (pieceAt p (nsquare t))).
      destruct (move16_code (nsquare t) (nsquare s) pr (ptOf (pieceAt p (nsquare s))) (ptOf (pieceAt p (nsquare t)))) as [-> _]; try lia. split; [|unfold codeOf; destruct pr; lia].
      apply move16_to; auto. intros E. apply (legal_moves_away p s t pr G L). rewrite <- (square_inv' s A), <- (square_inv' t B). now rewrite E. }
  destruct X as [X Y]. split; auto. unfold moveFromPsv. rewrite psv_round_trip by auto. exact X.
Qed.
(* building and taking apart *)
Theorem board_move_fields p from to pr : from < 81 -> to < 81 -> let m := boardMove p from to pr in
  mvTo m = to /\ mvFrom m = from /\ mvPromo m = pr /\ mvDrop m = false /\ mvPtFrom m = pieceAt p from mod 16 /\ mvCap m = pieceAt p to mod 16.
Proof.
  intros F T m. pose proof (ptOf_lt (pieceAt p from)). pose proof (ptOf_lt (pieceAt p to)). assert (E : m = codeOf to from pr (ptOf (pieceAt p from)) (ptOf (pieceAt p to))).
  { unfold m, boardMove. destruct pr; rewrite ?promote_code, ?nonpromote_code by auto; unfold enc; rewrite (proj2 (N.ltb_lt _ _)) by auto; reflexivity. }
  destruct (code_fields to from pr (ptOf (pieceAt p from)) (ptOf (pieceAt p to))) as (A & B & C & D & X); try lia. rewrite E. unfold mvDrop. rewrite A, B, C, D, X, !ptOf_arith. destruct (N.leb_spec 81 from); [lia|]. auto 10.
Qed.
Theorem board_drop_fields to pt : to < 81 -> 1 <= pt <= 7 -> let m := boardDropMove to pt in
  mvTo m = to /\ mvDrop m = true /\ mvPtDropped m = pt /\ mvPromo m = false /\ mvPtFrom m = 0 /\ mvCap m = 0 /\ moveDropHandPiece m = ptToHand pt.
Proof.
  intros T P m. assert (E : m = codeOf to (80 + pt) false 0 0).
  { unfold m, boardDropMove, makeDropMove, drop2From, from2Move, to2Move. rewrite (lor_shift to (80 + pt) 7) by (change (2^7) with 128; lia). unfold codeOf. change (2^7) with 128. lia. }
  destruct (code_fields to (80 + pt) false 0 0) as (A & B & C & D & X); try lia. rewrite E. unfold moveDropHandPiece, mvDrop, mvPtDropped. rewrite A, B, C, D, X. replace (80 + pt - 80) with pt by lia. destruct (N.leb_spec 81 (80 + pt)); [|lia]. auto 10.
Qed.
