(* The board turned by 180 degrees: a symmetry of the rules. *)
From Verif Require Export MoveCodes.
Local Open Scope Z_scope.

Lemma turn_turn s : turn_square (turn_square s) = s. Proof. destruct s. unfold turn_square. cbn [fst snd]. f_equal; lia. Qed.
Lemma turn_on s : on_board s -> on_board (turn_square s). Proof. unfold on_board, turn_square. cbn [fst snd]. lia. Qed.
Lemma turn_inj s t : turn_square s = turn_square t -> s = t. Proof. intros H. rewrite <- (turn_turn s), <- (turn_turn t). now rewrite H. Qed.
Lemma other_other c : other (other c) = c. Proof. now destruct c. Qed.
Lemma turn_displaced c s d n : displaced (other c) (turn_square s) (- fst d, snd d) n = turn_square (displaced c s d n).
Proof. unfold displaced, turn_square. destruct c; cbn [fst snd other forward]; f_equal; lia. Qed.
Lemma mirror_steps k d : In d (steps k) -> In (- fst d, snd d) (steps k).
Proof. destruct k; cbn; intros H; decompose [or] H; subst; cbn; tauto. Qed.
Lemma mirror_slides k d : In d (slides k) -> In (- fst d, snd d) (slides k).
Proof. destruct k; cbn; intros H; decompose [or] H; subst; cbn; tauto. Qed.
Lemma turn_attacks (o o' : square -> Prop) c k s t : (forall x, o' (turn_square x) -> o x) -> attacks o c k s t -> attacks o' (other c) k (turn_square s) (turn_square t).
Proof.
  intros O [(d & D & ->)|(d & n & D & N & -> & F)].
  - left. exists (- fst d, snd d). split; [now apply mirror_steps|]. symmetry. apply turn_displaced.
  - right. exists (- fst d, snd d), n. split; [now apply mirror_slides|]. split; auto. split; [symmetry; apply turn_displaced|]. intros i I X. rewrite turn_displaced in X. now apply (F i I), O.
Qed.
Definition turn_piece (x : option (color * kind)) : option (color * kind) := match x with Some (c, k) => Some (other c, k) | None => None end.
Lemma turn_piece_some x c k : turn_piece x = Some (c, k) <-> x = Some (other c, k).
Proof. destruct x as [[c' k']|]; cbn; split; intros H; try discriminate; injection H as H1 H2; subst; now rewrite other_other. Qed.
Lemma turn_at P s : at_square (turn_position P) s = turn_piece (at_square P (turn_square s)). Proof. reflexivity. Qed.
Lemma turn_position_turn P : same_position (turn_position (turn_position P)) P.
Proof.
  split; [|split].
  - intros s. rewrite !turn_at, turn_turn. destruct (at_square P s) as [[c k]|]; cbn; [|reflexivity]. now rewrite other_other.
  - intros c k. cbn. now rewrite other_other.
  - cbn. apply other_other.
Qed.
Lemma turn_move_turn m : turn_move (turn_move m) = m. Proof. destruct m; cbn; now rewrite !turn_turn. Qed.
Lemma turn_occupied P x : occupied (turn_position P) (turn_square x) -> occupied P x.
Proof. unfold occupied. rewrite turn_at, turn_turn. intros H E. rewrite E in H. now apply H. Qed.
Lemma turn_piece_attacks P c s t : piece_attacks P c s t -> piece_attacks (turn_position P) (other c) (turn_square s) (turn_square t).
Proof.
  intros (k & A & B). exists k. split; [rewrite turn_at, turn_turn, A; reflexivity|]. eapply turn_attacks; eauto. apply turn_occupied.
Qed.
Lemma turn_attacked P c t : attacked_by P c t -> attacked_by (turn_position P) (other c) (turn_square t).
Proof. intros (s & On & A). exists (turn_square s). split; [now apply turn_on|]. now apply turn_piece_attacks. Qed.
Lemma turn_in_check P c : in_check P c -> in_check (turn_position P) (other c).
Proof. intros (s & On & A & B). exists (turn_square s). split; [now apply turn_on|]. split; [rewrite turn_at, turn_turn, A; reflexivity|]. now apply turn_attacked. Qed.
Lemma turn_in_check' P c : in_check (turn_position P) (other c) -> in_check P c.
Proof. intros H. apply turn_in_check in H. rewrite other_other in H. eapply in_check_same; [|exact H]. apply turn_position_turn. Qed.
Lemma turn_rank c t : rank_for (other c) (turn_square t) = rank_for c t.
Proof. destruct c; unfold rank_for, turn_square; cbn [other fst snd]; lia. Qed.
Lemma turn_dead c k t : dead_end (other c) k (turn_square t) <-> dead_end c k t.
Proof. unfold dead_end. rewrite turn_rank. reflexivity. Qed.
Lemma turn_zone c t : in_zone (other c) (turn_square t) <-> in_zone c t.
Proof. unfold in_zone. rewrite turn_rank. reflexivity. Qed.
Lemma turn_pseudo P m : pseudo_legal P m -> pseudo_legal (turn_position P) (turn_move m).
Proof.
  destruct m as [k t|s t pr]; cbn [pseudo_legal turn_move]; cbv zeta; cbn [side turn_position].
  - intros (On & E & H & D & N). split; [now apply turn_on|]. split; [cbn; rewrite turn_turn, E; reflexivity|]. split; [cbn; now rewrite other_other|]. split; [now rewrite turn_dead|].
    intros K x Ox F X. rewrite turn_at in X. apply (proj1 (turn_piece_some _ _ _)) in X. rewrite other_other in X. apply (N K (turn_square x)); auto using turn_on. unfold turn_square in *. cbn [fst] in *. lia.
  - intros (Os & Ot & k & A & At & N & Pr & Np). split; [now apply turn_on|]. split; [now apply turn_on|]. exists k. split; [cbn; rewrite turn_turn, A; reflexivity|].
    split; [eapply turn_attacks; eauto; apply turn_occupied|]. split; [intros k' X; rewrite turn_at in X; apply (proj1 (turn_piece_some _ _ _)) in X; rewrite turn_turn, other_other in X; now apply (N k')|].
    split; [intros E; rewrite !turn_zone; now apply Pr|]. intros E. rewrite turn_dead. now apply Np.
Qed.
Lemma turn_put (b b' : square -> option (color * kind)) t x : (forall s, b' s = turn_piece (b (turn_square s))) -> forall s, put b' (turn_square t) (turn_piece x) s = turn_piece (put b t x (turn_square s)).
Proof.
  intros H s. unfold put. assert (E : square_eqb s (turn_square t) = square_eqb (turn_square s) t). { unfold square_eqb, turn_square. cbn [fst snd]. destruct (Z.eqb_spec (fst s) (10 - fst t)), (Z.eqb_spec (snd s) (10 - snd t)), (Z.eqb_spec (10 - fst s) (fst t)), (Z.eqb_spec (10 - snd s) (snd t)); try reflexivity; lia. }
  rewrite E. destruct (square_eqb (turn_square s) t); auto.
Qed.
Lemma turn_add h c k n c' k' : add_hand (fun c k => h (other c) k) (other c) k n c' k' = add_hand h c k n (other c') k'.
Proof. unfold add_hand. f_equal. destruct c, c'; reflexivity. Qed.
Lemma turn_play P m : same_position (play (turn_position P) (turn_move m)) (turn_position (play P m)).
Proof.
  destruct m as [k t|s t pr]; cbn [turn_move play]; cbv zeta; split; [|split| |split]; cbn [side turn_position at_square in_hand]; auto.
  - intros s. change (Some (other (side P), k)) with (turn_piece (Some (side P, k))). now apply turn_put.
  - intros c k'. apply turn_add.
  - intros x. rewrite turn_turn.
    assert (E : match turn_piece (at_square P s) with Some (c', k) => Some (c', if pr then match promote k with Some k' => k' | None => k end else k) | None => None end
              = turn_piece match at_square P s with Some (c', k) => Some (c', if pr then match promote k with Some k' => k' | None => k end else k) | None => None end).
    { destruct (at_square P s) as [[c k]|]; reflexivity. }
    fold (turn_piece (at_square P s)). rewrite E. apply turn_put. intros y. exact (turn_put (at_square P) _ s None (fun _ => eq_refl) y).
  - intros c k'. rewrite turn_turn. destruct (at_square P t) as [[c0 k0]|]; [|reflexivity]. apply turn_add.
Qed.
Lemma turn_legal0 P m : legal_but_drop_mate P m -> legal_but_drop_mate (turn_position P) (turn_move m).
Proof.
  intros [A B]. split; [now apply turn_pseudo|]. intros X. apply B. apply turn_in_check'. eapply in_check_same; [apply turn_play|exact X].
Qed.
Lemma turn_legal0' P m : legal_but_drop_mate (turn_position P) (turn_move m) -> legal_but_drop_mate P m.
Proof. intros H. apply turn_legal0 in H. rewrite turn_move_turn in H. eapply legal0_same; [apply turn_position_turn|exact H]. Qed.
Lemma turn_mate P m : pawn_drop_mate P m -> pawn_drop_mate (turn_position P) (turn_move m).
Proof.
  intros ((t & ->) & C & N). split; [now exists (turn_square t)|]. split.
  - cbn [side turn_position]. apply turn_in_check in C. eapply in_check_same; [apply same_sym, turn_play|exact C].
  - intros m' L. apply (legal0_same _ _ _ (turn_play P (Drop FU t))) in L. rewrite <- (turn_move_turn m') in L. apply turn_legal0' in L. now apply (N (turn_move m')).
Qed.
Lemma turn_mate' P m : pawn_drop_mate (turn_position P) (turn_move m) -> pawn_drop_mate P m.
Proof. intros H. apply turn_mate in H. rewrite turn_move_turn in H. eapply pawn_drop_mate_same; [apply turn_position_turn|exact H]. Qed.
Theorem turn_legal P m : legal P m <-> legal (turn_position P) (turn_move m).
Proof.
  split; intros [A B]; (split; [|intros X; apply B]); auto using turn_legal0, turn_legal0', turn_mate, turn_mate'.
Qed.

(* the code of the turned move *)
Local Open Scope N_scope.
Lemma nsquare_turn s : on_board s -> nsquare (turn_square s) = 80 - nsquare s.
Proof. intros (A & B). unfold nsquare, turn_square. cbn [fst snd]. lia. Qed.
Lemma high_mask m : m < 2 ^ 32 -> N.land m 0xffffC000 = 16384 * (m / 16384).
Proof.
  intros H. change 16384 with (2 ^ 14) at 1 2. rewrite N.mul_comm, <- N.shiftr_div_pow2, <- N.shiftl_mul_pow2. apply N.bits_inj. intros i. rewrite N.land_spec.
  destruct (N.ltb_spec i 14) as [L|L].
  - rewrite N.shiftl_spec_low by auto. assert (X : N.testbit 0xffffC000 i = false) by (assert (E : i = 0 \/ i = 1 \/ i = 2 \/ i = 3 \/ i = 4 \/ i = 5 \/ i = 6 \/ i = 7 \/ i = 8 \/ i = 9 \/ i = 10 \/ i = 11 \/ i = 12 \/ i = 13) by lia; decompose [or] E; subst; reflexivity).
    rewrite X. apply andb_false_r.
  - rewrite N.shiftl_spec_high' by auto. rewrite N.shiftr_spec'. replace (i - 14 + 14) with i by lia. destruct (N.ltb_spec i 32) as [L'|L'].
    + change 0xffffC000 with (N.shiftl (N.ones 18) 14). rewrite N.shiftl_spec_high', N.ones_spec_low by lia. apply andb_true_r.
    + rewrite (lt_bits 32 m i) by auto. reflexivity.
Qed.
Lemma rotate_word a b r : a <= 80 -> b < 128 -> r < 2 ^ 18 -> moveRotate (a + 128 * b + 16384 * r) = (80 - a) + 128 * (if 81 <=? b then b else 80 - b) + 16384 * r.
Proof.
  intros A B R. change (2 ^ 18) with 262144 in R. set (m := a + 128 * b + 16384 * r). assert (To : mvTo m = a) by (unfold mvTo; change 0x7f with (N.ones 7); rewrite N.land_ones; apply mod_of with (b + 128 * r); unfold m; change (2 ^ 7) with 128; lia).
  assert (Fr : mvFrom m = b). { unfold mvFrom. change 0x7f with (N.ones 7). rewrite N.shiftr_div_pow2, N.land_ones. change (2 ^ 7) with 128. rewrite (div_of m 128 (b + 128 * r) a) by (unfold m; lia). apply mod_of with r; lia. }
  unfold moveRotate. cbv zeta. unfold mvDrop. rewrite To, Fr. rewrite high_mask by (unfold m; change (2 ^ 32) with 4294967296; lia). rewrite (div_of m 16384 r (a + 128 * b)) by (unfold m; lia).
  set (b' := if negb (81 <=? b) then 80 - b else b). assert (E : b' = if 81 <=? b then b else 80 - b) by (unfold b'; now destruct (81 <=? b)). rewrite <- E. assert (B' : b' < 128) by (rewrite E; destruct (N.leb_spec 81 b); lia).
  rewrite <- N.lor_assoc, pair_or by lia. replace (16384 * r) with (N.shiftl r 14) by (rewrite N.shiftl_mul_pow2; change (2 ^ 14) with 16384; lia). rewrite lor_shift by (change (2 ^ 14) with 16384; lia). rewrite N.shiftl_mul_pow2. change (2 ^ 14) with 16384. lia.
Qed.
Lemma word3_of m : m < 2 ^ 32 -> mvTo m <= 80 -> exists a b r, a <= 80 /\ b < 128 /\ r < 2 ^ 18 /\ m = a + 128 * b + 16384 * r /\ mvTo m = a /\ mvFrom m = b.
Proof.
  change (2 ^ 32) with 4294967296. change (2 ^ 18) with 262144. intros M T. exists (m mod 128), (m / 128 mod 128), (m / 128 / 128).
  unfold mvTo, mvFrom in *. change 0x7f with (N.ones 7) in *. rewrite N.shiftr_div_pow2, !N.land_ones in *. change (2 ^ 7) with 128 in *.
  pose proof (N.div_mod m 128 ltac:(lia)). pose proof (N.div_mod (m / 128) 128 ltac:(lia)). pose proof (N.mod_lt (m / 128) 128 ltac:(lia)).
  split; auto. split; auto. split; [rewrite N.div_div by lia; apply N.div_lt_upper_bound; lia|]. split; [lia|]. auto.
Qed.
Theorem rotate_involution m : m < 2 ^ 32 -> mvTo m <= 80 -> moveRotate (moveRotate m) = m.
Proof.
  intros M T. destruct (word3_of m M T) as (a & b & r & A & B & R & -> & _). rewrite rotate_word by auto. rewrite rotate_word; auto; [|lia|destruct (N.leb_spec 81 b); lia].
  destruct (N.leb_spec 81 b) as [L|L]; [rewrite (proj2 (N.leb_le _ _)) by auto|destruct (N.leb_spec 81 (80 - b)); [lia|]]; lia.
Qed.
Theorem rotate_fields m : m < 2 ^ 32 -> mvTo m <= 80 -> let m' := moveRotate m in
  mvTo m' = 80 - mvTo m /\ mvFrom m' = (if mvDrop m then mvFrom m else 80 - mvFrom m) /\ mvDrop m' = mvDrop m /\ mvPromo m' = mvPromo m /\ mvPtFrom m' = mvPtFrom m /\ mvCap m' = mvCap m.
Proof.
  intros M T. destruct (word3_of m M T) as (a & b & r & A & B & R & E & Ea & Eb). cbv zeta. unfold mvDrop at 1. rewrite Ea, Eb. set (b' := if 81 <=? b then b else 80 - b).
  assert (Em : moveRotate m = (80 - a) + 128 * b' + 16384 * r) by (rewrite E; now apply rotate_word). assert (B' : b' < 128) by (unfold b'; destruct (N.leb_spec 81 b); lia).
  assert (To : mvTo (moveRotate m) = 80 - a) by (rewrite Em; unfold mvTo; change 0x7f with (N.ones 7); rewrite N.land_ones; apply mod_of with (b' + 128 * r); change (2 ^ 7) with 128; lia).
  assert (Fr : mvFrom (moveRotate m) = b'). { rewrite Em. unfold mvFrom. change 0x7f with (N.ones 7). rewrite N.shiftr_div_pow2, N.land_ones. change (2 ^ 7) with 128. rewrite (div_of _ 128 (b' + 128 * r) (80 - a)) by lia. apply mod_of with r; lia. }
  assert (Hi : forall k, 14 <= k -> N.shiftr (moveRotate m) k = N.shiftr m k).
  { intros k K. replace k with (14 + (k - 14)) by lia. rewrite <- !N.shiftr_shiftr. f_equal. rewrite !N.shiftr_div_pow2. change (2 ^ 14) with 16384. rewrite (div_of (moveRotate m) 16384 r ((80 - a) + 128 * b')) by lia. symmetry. apply div_of with (a + 128 * b); lia. }
  split; auto. split; [exact Fr|]. split. { unfold mvDrop. rewrite Fr, Eb. unfold b'. destruct (N.leb_spec 81 b); [now rewrite (proj2 (N.leb_le _ _))|]. apply N.leb_gt. lia. }
  unfold mvPromo, mvPtFrom, mvCap. rewrite !Hi by lia. split; auto. unfold PromoteFlag. change 16384 with (2 ^ 14).
  assert (X : N.testbit (moveRotate m) 14 = N.testbit m 14) by (rewrite <- (N.add_0_l 14), <- !N.shiftr_spec', Hi by lia; reflexivity).
  f_equal. destruct (N.eqb_spec (N.land m (2 ^ 14)) 0) as [Y|Y]; [apply N.eqb_eq|apply N.eqb_neq; intros Z; apply Y]; rewrite land_bit_zero in *; congruence.
Qed.
Lemma code_turn p p' m : same_position (abs p') (turn_position (abs p)) -> good p -> good p' -> match m with Drop _ t => on_board t | Go s t _ => on_board s /\ on_board t end -> code p' (turn_move m) = moveRotate (code p m).
Proof.
  intros S G G' On. assert (K : forall s, on_board s -> ptOf (pieceAt p' (nsquare (turn_square s))) = ptOf (pieceAt p (nsquare s))).
  { intros s B. pose proof (turn_on s B) as B'. pose proof (nsquare_lt s B) as L. pose proof (nsquare_lt _ B') as L'. pose proof (proj1 S (turn_square s)) as E. rewrite turn_at, turn_turn in E.
    rewrite <- (square_inv' _ B') in E at 1. rewrite abs_at in E by auto. rewrite <- (square_inv' s B) in E at 2. rewrite abs_at in E by auto.
    pose proof (okB_at p _ (good_ok p G) L) as V. pose proof (okB_at p' _ (good_ok p' G') L') as V'. revert E V V'. generalize (pieceAt p (nsquare s)) (pieceAt p' (nsquare (turn_square s))). intros u v E V V'.
    unfold pieceN in E. destruct (N.eqb_spec u 0) as [U|N1]; destruct (N.eqb_spec v 0) as [W|N2]; cbn [turn_piece] in E; subst; try discriminate; auto. injection E as _ E.
    destruct (vpc_facts u V N1) as (R & _). destruct (vpc_facts v V' N2) as (R' & _). rewrite !ptOf_arith in *. rewrite <- (kind_inv' (u mod 16)), <- (kind_inv' (v mod 16)) by auto. now rewrite E. }
  destruct m as [k t|s t pr]; cbn [turn_move].
  - rewrite !code_drop, nsquare_turn by auto. pose proof (nsquare_lt t On). pose proof (nkind_lt k). unfold codeOf. replace (nsquare t + 128 * (80 + nkind k) + 0 + 65536 * 0 + 1048576 * 0) with (nsquare t + 128 * (80 + nkind k) + 16384 * 0) by lia.
    rewrite rotate_word by (change (2 ^ 18) with 262144; lia). destruct (N.leb_spec 81 (80 + nkind k)); lia.
  - destruct On as [Bs Bt]. rewrite !code_go, !K, !nsquare_turn by auto. pose proof (nsquare_lt t Bt). pose proof (nsquare_lt s Bs). pose proof (ptOf_lt (pieceAt p (nsquare s))). pose proof (ptOf_lt (pieceAt p (nsquare t))).
    generalize dependent (ptOf (pieceAt p (nsquare s))). intros c C. generalize dependent (ptOf (pieceAt p (nsquare t))). intros d D. unfold codeOf.
    replace (nsquare t + 128 * nsquare s + (if pr then 16384 else 0) + 65536 * c + 1048576 * d) with (nsquare t + 128 * nsquare s + 16384 * (bitN pr + 4 * (c + 16 * d))) by (destruct pr; cbn [bitN]; lia).
    rewrite rotate_word by (change (2 ^ 18) with 262144; pose proof (bitN_lt pr); lia). destruct (N.leb_spec 81 (nsquare s)); [lia|]. destruct pr; cbn [bitN]; lia.
Qed.
Lemma legal_on p m : good p -> legal (abs p) m -> match m with Drop _ t => on_board t | Go s t _ => on_board s /\ on_board t end.
Proof. intros G L. destruct m as [k t|s t pr]; [now apply (legal_drop_kind p k t)|]. destruct (legal_piece p s t pr G L) as (_ & _ & _ & _ & A & B). auto. Qed.
Theorem rotate_moves z b b' : okZob z -> reachable z b -> reachable z b' -> playable (abs (bpos b)) -> playable (abs (bpos b')) -> same_position (abs (bpos b')) (turn_position (abs (bpos b))) ->
  forall m, In m (legalMoves (bpos b)) -> In (moveRotate m) (legalMoves (bpos b')).
Proof.
  intros Z R R' K K' S m I. destruct (reachable_ok z b Z R) as [G _]. destruct (reachable_ok z b' Z R') as [G' _]. destruct (moves_sound z b Z R K m I) as (mv & L & ->). rewrite <- (code_turn (bpos b) (bpos b')) by first [exact S|exact G|exact G'|exact (legal_on _ _ G L)].
  apply (moves_complete z b' Z R' K'). apply turn_legal in L. eapply legal_same; [apply same_sym; exact S|exact L].
Qed.
Lemma turn_same P Q : same_position P Q -> same_position (turn_position P) (turn_position Q).
Proof. intros (A & B & C). split; [intros s; rewrite !turn_at; now rewrite A|split; [intros c k; cbn; apply B|cbn; now rewrite C]]. Qed.
Lemma turn_playable P Q : playable P -> same_position Q (turn_position P) -> playable Q.
Proof.
  intros [K D] (A & _ & C). split.
  - intros c. destruct (K (other c)) as (s & E). exists (turn_square s). rewrite A, turn_at, turn_turn, E. cbn. now rewrite other_other.
  - intros s. rewrite A, C. cbn [side turn_position]. rewrite turn_at. intros E X. apply (proj1 (turn_piece_some _ _ _)) in E. rewrite other_other in E. apply (D _ E). revert X. rewrite <- (turn_turn s) at 1. now rewrite turn_dead.
Qed.
Theorem rotate_moves_iff z b b' m : okZob z -> reachable z b -> reachable z b' -> playable (abs (bpos b)) -> same_position (abs (bpos b')) (turn_position (abs (bpos b))) ->
  m < 2 ^ 32 -> mvTo m <= 80 -> (In m (legalMoves (bpos b)) <-> In (moveRotate m) (legalMoves (bpos b'))).
Proof.
  intros Z R R' K S M T. pose proof (turn_playable _ _ K S) as K'. assert (S' : same_position (abs (bpos b)) (turn_position (abs (bpos b')))).
  { eapply same_trans; [apply same_sym, turn_position_turn|]. apply turn_same, same_sym. exact S. }
  split; intros I; [exact (rotate_moves z b b' Z R R' K K' S m I)|]. pose proof (rotate_moves z b' b Z R' R K' K S' _ I) as J. rewrite rotate_involution in J by assumption. exact J.
Qed.
