(* Packed positions: the claims. *)
From Verif Require Export PackClaims PackDec.
Local Open Scope N_scope.

Lemma kings_here p : good p -> both_kings (abs p) <-> kingSquare p 0 < 81 /\ kingSquare p 1 < 81.
Proof.
  intros G. pose proof (v_board p (g_views p G)) as Ok. rewrite !kingSquare_of by (auto; lia). split.
  - intros B. assert (X : forall c, c < 2 -> kingOf (board p) c < 81).
    { intros c Hc. destruct (B (colorN c)) as (s & On & E). rewrite <- (square_inv' s On) in E. apply king_iff in E; auto; [|now apply nsquare_lt]. rewrite (kingOf_here _ _ _ (g_one p G) Hc (nsquare_lt s On) E). now apply nsquare_lt. }
    split; apply X; lia.
  - intros [K0 K1] c. assert (X : kingOf (board p) (ncolor c) < 81) by (destruct c; cbn [ncolor]; [exact K0|exact K1]). destruct (kingOf_cases (board p) (ncolor c)) as [[L K]|[E _]]; [|lia].
    exists (squareN (kingOf (board p) (ncolor c))). split; [now apply on_board_N|]. pose proof (proj2 (king_iff p (ncolor c) _ Ok (ncolor_lt c) L) K) as E. rewrite color_inv' in E. exact E.
Qed.
Lemma king_code x : vpc x = true -> pieceN x = Some (Sente, OU) -> ptOf x = King.
Proof. intros V E. apply pieceN_iff in E; auto. subst x. reflexivity. Qed.
Section fmt.
Variable T : Tables.
Hypothesis OK : tablesOK T = true.
Lemma pack_round_trip z p : good p -> both_kings (abs p) -> exists s q, toPacked T p = Some s /\ buffer32 (sdata s) /\ bits_written s = 256 /\
  setPacked T z (sdata s) = Done q /\ fresh z q /\ same_position (abs q) (abs p) /\ gamePly q = 1%Z.
Proof.
  intros G B. apply kings_here in B as [K0 K1]; auto. destruct (packed_write T OK p G K0 K1) as (s & E & L & F & P & C & A). destruct (packed_decodes T OK z p (sdata s) G K0 K1 A) as (q & X).
  exists s, q. split; [exact E|]. split; [split; auto|]. split; [|exact X]. unfold bits_written. rewrite P, C. reflexivity.
Qed.
Lemma pack_overflow p c : good p -> (forall s, at_square (abs p) s <> Some (c, OU)) -> toPacked T p = None.
Proof.
  intros G H. apply packed_overflow; auto. pose proof (v_board p (g_views p G)) as Ok. rewrite !kingSquare_of by (auto; lia).
  assert (X : kingOf (board p) (ncolor c) = 81).
  { destruct (kingOf_cases (board p) (ncolor c)) as [[L K]|[E _]]; [|exact E]. pose proof (proj2 (king_iff p (ncolor c) _ Ok (ncolor_lt c) L) K) as E. rewrite color_inv' in E. now apply H in E. }
  destruct c; cbn [ncolor] in X; [left|right]; exact X.
Qed.
(* ---- arbitrary data ---- *)
Lemma readCode_value h fuel : forall s c pc s', readCode fuel h s c = Done (pc, s') -> In pc (map snd h).
Proof.
  induction fuel as [|fuel IH]; intros s c pc s' E; cbn [readCode] in E; [discriminate|]. destruct (getBit s) as [[b s1]|]; [|discriminate].
  destruct (hashValue h _) as [x|] eqn:Hx; [|now apply IH in E]. injection E as -> ->. unfold hashValue in Hx. destruct (find _ h) as [e|] eqn:F; [|discriminate]. injection Hx as <-.
  apply find_some in F as [F _]. now apply in_map.
Qed.
Lemma board_value pc : In pc (map snd (boardHash T)) -> vpc pc = true /\ ptOf pc <> King.
Proof.
  unfold boardHash. rewrite map_rev, <- in_rev, map_map. cbn [snd]. rewrite map_id, filter_In, in_app_iff, !in_seqN. intros [A B]. apply negb_true_iff, N.eqb_neq in B. split; auto.
  unfold vpc. change (0 + N.of_nat 15) with 15 in A. change (17 + N.of_nat 14) with 31 in A. lia.
Qed.
Lemma pieceAt_setPiece q pc a t : a < N.of_nat (length (board q)) -> pieceAt (setPiece q pc a) t = if a =? t then pc else pieceAt q t.
Proof. intros H. unfold pieceAt. cbn [setPiece board]. now apply nthN_updN. Qed.
Lemma readSquares_any l : forall q s q' s', NoDup l -> length (board q) = 81%nat -> (forall t, In t l -> t < 81) -> readSquares (boardHash T) l q s = Done (q', s') ->
  length (board q') = 81%nat /\ (forall t, ~ In t l -> pieceAt q' t = pieceAt q t) /\ (forall t, ptOf (pieceAt q t) = King -> pieceAt q' t = pieceAt q t) /\
  (forall t, In t l -> ptOf (pieceAt q t) <> King -> ptOf (pieceAt q' t) <> King) /\ (forall t, vpc (pieceAt q t) = true -> vpc (pieceAt q' t) = true) /\ hands q' = hands q /\ turn q' = turn q /\ st q' = st q /\ prev q' = prev q.
Proof.
  induction l as [|a l IH]; intros q s q' s' ND L Hl E; cbn [readSquares] in E.
  - injection E as <- <-. do 2 (split; [assumption || reflexivity|]). split; [reflexivity|]. split; [intros t []|]. split; [auto|]. repeat split.
  - inversion ND as [|? ? Na ND']; subst. pose proof (Hl a (or_introl eq_refl)) as La. destruct (N.eqb_spec (ptOf (pieceAt q a)) King) as [K|K].
    + destruct (IH q s q' s' ND' L ltac:(intros; apply Hl; now right) E) as (A & B & C & D & F). split; [exact A|]. split; [intros t Ht; apply B; intros X; apply Ht; now right|]. split; [exact C|]. split; [|exact F].
      intros t [->|Ht] N; [contradiction|]. now apply D.
    + destruct (readCode 9 (boardHash T) s (0, 0)) as [[pc s1]| |] eqn:R; cbn [obind fst snd] in E; try discriminate. destruct (board_value pc (readCode_value _ _ _ _ _ _ R)) as [V NK].
      set (q1 := if pc =? Empty then q else setPiece q pc a) in *.
      assert (Q1 : forall t, pieceAt q1 t = if (a =? t) && negb (pc =? 0) then pc else pieceAt q t).
      { intros t. unfold q1, Empty. destruct (N.eqb_spec pc 0); cbn [negb]; [now rewrite andb_false_r|]. rewrite andb_true_r. apply pieceAt_setPiece. rewrite L. cbn. lia. }
      assert (L1 : length (board q1) = 81%nat) by (unfold q1; destruct (pc =? Empty); [exact L|]; cbn [setPiece board]; now rewrite length_updN).
      destruct (IH q1 s1 q' s' ND' L1 ltac:(intros; apply Hl; now right) E) as (A & B & C & D & W & F1 & F2 & F3 & F4). split; [exact A|].
      split; [|split; [|split; [|split]]].
      * intros t Ht. rewrite B by (intros X; apply Ht; now right). rewrite Q1. destruct (N.eqb_spec a t) as [->|]; [exfalso; apply Ht; now left|reflexivity].
      * intros t Kt. destruct (N.eq_dec a t) as [->|D']; [contradiction|]. assert (Et : pieceAt q1 t = pieceAt q t) by (rewrite Q1; destruct (N.eqb_spec a t); [contradiction|reflexivity]). rewrite C by (now rewrite Et). exact Et.
      * intros t [->|Ht] N.
        -- rewrite B by exact Na. rewrite Q1. destruct (_ && _); assumption.
        -- apply D; auto. rewrite Q1. destruct (_ && _); assumption.
      * intros t Vt. apply W. rewrite Q1. destruct (_ && _); assumption.
      * assert (S1 : hands q1 = hands q /\ turn q1 = turn q /\ st q1 = st q /\ prev q1 = prev q) by (unfold q1; destruct (pc =? Empty); repeat split). destruct S1 as (S1 & S2 & S3 & S4). repeat split; congruence.
Qed.
Lemma readSquares_pre l : forall bd q s q' s', pre bd q -> NoDup l -> (forall t, In t l -> t < 81 /\ (at_ bd t = 0 \/ ptOf (at_ bd t) = King)) -> readSquares (boardHash T) l q s = Done (q', s') -> exists bd', pre bd' q'.
Proof.
  induction l as [|a l IH]; intros bd q s q' s' P ND Hl E; cbn [readSquares] in E.
  - injection E as <- <-. eauto.
  - inversion ND as [|? ? Na ND']; subst. destruct (Hl a (or_introl eq_refl)) as [La Ha]. assert (PA : pieceAt q a = at_ bd a) by (unfold pieceAt; rewrite (pre_bd _ _ P); reflexivity). rewrite PA in E.
    destruct (N.eqb_spec (ptOf (at_ bd a)) King) as [K|K].
    + apply (IH bd q s q' s' P ND'); auto. intros; apply Hl; now right.
    + destruct Ha as [Z|Z]; [|contradiction]. destruct (readCode 9 (boardHash T) s (0, 0)) as [[pc s1]| |] eqn:R; cbn [obind fst snd] in E; try discriminate. destruct (board_value pc (readCode_value _ _ _ _ _ _ R)) as [V NK].
      unfold Empty in E. destruct (N.eqb_spec pc 0) as [Zp|Zp].
      * apply (IH bd q s1 q' s' P ND'); auto. intros; apply Hl; now right.
      * destruct (vpc_facts pc V Zp) as (B1 & B2 & B3). assert (P1 : pre (updN bd a pc) (setPiece q pc a)) by (rewrite B3; apply pre_setPiece; auto).
        apply (IH _ _ s1 q' s' P1 ND'); auto. intros t Ht. destruct (Hl t (or_intror Ht)) as [Lt X]. split; auto. rewrite at_updN by (rewrite (proj1 (pre_ok _ _ P)); lia).
        destruct (N.eqb_spec a t) as [->|]; [contradiction|exact X].
Qed.
Lemma readHands_any fuel : forall q s q', readHands fuel (handHash T) q s = Done q' -> board q' = board q /\ byType q' = byType q /\ byColor q' = byColor q /\ turn q' = turn q /\ st q' = st q /\ prev q' = prev q /\ length (hands q') = length (hands q).
Proof.
  induction fuel as [|fuel IH]; intros q s q' E; cbn [readHands] in E; destruct (spos s =? sLen s); try discriminate; try (injection E as <-; repeat split).
  destruct (readCode 9 (handHash T) s (0, 0)) as [[pc s1]| |]; cbn [obind fst snd] in E; try discriminate. apply IH in E as (A & B & C & D & F & G & H). destruct (pc =? Empty); [repeat split; assumption|].
  cbn [handPlusOne board byType byColor turn st prev hands] in *. rewrite length_updN in H. repeat split; assumption.
Qed.
Lemma getBit_lt s b s' : getBit s = Some (b, s') -> b < 2.
Proof. unfold getBit. destruct (spos s <? sLen s); [|discriminate]. intros E. injection E as <- <-. destruct (_ =? 0); lia. Qed.
Lemma setPacked_inv z d q : setPacked T z d = Done q -> exists t k0 k1 s3 q2 s4 q5, t < 2 /\ k0 < 81 /\ k1 < 81 /\
  readSquares (boardHash T) squares (setPiece (setPiece (setTurnField clearPos t) (mkPiece 0 King) k0) (mkPiece 1 King) k1) s3 = Done (q2, s4) /\
  readHands 257 (handHash T) q2 s4 = Done q5 /\ q = refreshState z (setGamePly (setKingsGolds q5) 1).
Proof.
  unfold setPacked. destruct (getBit _) as [[t s1]|] eqn:E1; [|discriminate]. destruct (getBits s1 7) as [[k0 s2]|]; [|discriminate]. destruct (getBits s2 7) as [[k1 s3]|]; [|discriminate].
  unfold setPieceAt, Black, White. destruct (N.ltb_spec k0 81); cbn [obind]; [|discriminate]. destruct (N.ltb_spec k1 81); cbn [obind]; [|discriminate].
  destruct (readSquares _ squares _ s3) as [[q2 s4]| |] eqn:E4; cbn [obind fst snd]; try discriminate. destruct (readHands 257 _ q2 s4) as [q5| |] eqn:E5; cbn [obind]; try discriminate.
  intros E. injection E as <-. exists t, k0, k1, s3, q2, s4, q5. apply getBit_lt in E1. auto 10.
Qed.
Lemma accepted_fresh z d q : setPacked T z d = Done q -> both_kings (abs q) -> proper (abs q) -> hands_fit q -> fresh z q /\ gamePly q = 1%Z.
Proof.
  intros E B Pr Hf. apply setPacked_inv in E as (t & k0 & k1 & s3 & q2 & s4 & q5 & Ht & L0 & L1 & E1 & E2 & E3).
  pose proof (clear_turn t) as P0. set (qa := setPiece (setTurnField clearPos t) (mkPiece 0 King) k0) in *. set (qb := setPiece qa (mkPiece 1 King) k1) in *.
  assert (P1 : pre (updN (repeat 0 81) k0 (mkPiece 0 King)) qa) by (apply pre_setPiece; auto; try lia; [unfold King; lia|apply at_repeat0]).
  assert (Lb : length (board qb) = 81%nat).
  { unfold qb. cbn [setPiece board]. rewrite length_updN. rewrite (pre_bd _ _ P1), length_updN. apply repeat_length. }
  destruct (kings_placed t k0 k1) as (X1 & X2 & X3 & X4). fold qa in X1, X2, X3, X4. fold qb in X1, X2, X3, X4.
  destruct (readSquares_any squares qb s3 q2 s4 NoDup_squares Lb (fun x Hx => proj1 (in_squares x) Hx) E1) as (L2 & A1 & A2 & A3 & A4 & Y1 & Y2 & Y3 & Y4).
  destruct (readHands_any 257 q2 s4 q5 E2) as (B1 & B2 & B3 & B4 & B5 & B6 & B7).
  assert (QB : forall s, pieceAt qb s = if k1 =? s then mkPiece 1 King else if k0 =? s then mkPiece 0 King else 0).
  { intros s. unfold qb. rewrite pieceAt_setPiece by (rewrite (pre_bd _ _ P1), length_updN, repeat_length; cbn; lia). destruct (k1 =? s); [reflexivity|]. unfold pieceAt. rewrite (pre_bd _ _ P1).
    fold (at_ (updN (repeat 0 81) k0 (mkPiece 0 King)) s). rewrite at_updN by (rewrite repeat_length; cbn; lia). now rewrite at_repeat0. }
  assert (D : k0 <> k1).
  { intros <-. destruct (B Sente) as (s & On & Es). pose proof (nsquare_lt s On) as Ls. rewrite E3 in Es. cbn [abs at_square] in Es. rewrite (proj2 (on_boardb_iff s) On) in Es.
    change (pieceAt (refreshState z (setGamePly (setKingsGolds q5) 1)) (nsquare s)) with (nthN 0 (board q5) (nsquare s)) in Es. rewrite B1 in Es. fold (pieceAt q2 (nsquare s)) in Es.
    destruct (N.eq_dec k0 (nsquare s)) as [Eq|Nq].
    - rewrite A2, QB, Eq, N.eqb_refl in Es by (rewrite QB, Eq, N.eqb_refl; reflexivity). discriminate.
    - assert (Z : pieceAt qb (nsquare s) = 0) by (rewrite QB; destruct (N.eqb_spec k0 (nsquare s)); [contradiction|reflexivity]).
      apply (A3 (nsquare s)); [now apply in_squares|rewrite Z; discriminate|]. apply king_code; [apply A4; rewrite Z; reflexivity|exact Es]. }
  assert (P2 : pre (updN (updN (repeat 0 81) k0 (mkPiece 0 King)) k1 (mkPiece 1 King)) qb).
  { apply pre_setPiece; auto; try lia; [unfold King; lia|]. rewrite at_updN by (rewrite repeat_length; cbn; lia). destruct (N.eqb_spec k0 k1); [contradiction|apply at_repeat0]. }
  destruct (readSquares_pre squares _ qb s3 q2 s4 P2 NoDup_squares) as (bd' & P3); [|exact E1|].
  { intros x Hx. apply in_squares in Hx. split; [exact Hx|]. rewrite at_updN by (rewrite length_updN, repeat_length; cbn; lia). rewrite at_updN by (rewrite repeat_length; cbn; lia). rewrite at_repeat0.
    destruct (k1 =? x); [right; reflexivity|]. destruct (k0 =? x); [right; reflexivity|left; reflexivity]. }
  assert (P5 : pre bd' q5) by (destruct P3 as [U1 U2 U3 U4]; constructor; congruence).
  assert (O5 : okHands q5).
  { split; [rewrite B7, Y1, X1; reflexivity|]. intros c Hc. destruct (Hf c Hc) as (f & Cf & Ef). rewrite E3 in Ef. change (handOf q5 c = packed f) in Ef. rewrite Ef. now apply packed_ok. }
  assert (Ab : abs q = abs q5) by (rewrite E3; reflexivity). rewrite Ab in *.
  assert (T5 : turn q5 < 2) by (rewrite B4, Y2, X2; exact Ht).
  destruct (setup_good z bd' q5 1 P5 T5 O5 Pr) as (Gq & Cq & _ & R1 & R2 & R3 & R4 & R5). cbv zeta in *. rewrite <- E3 in *. split; [|exact R1]. constructor; auto.
  - rewrite R2, B6, Y4, X4. reflexivity.
  - rewrite R4, B5, Y3, X3. reflexivity.
  - rewrite R5, B5, Y3, X3. reflexivity.
Qed.
End fmt.

Lemma same_key z p q : good p -> good q -> cached z p -> cached z q -> same_position (abs q) (abs p) -> getKey q = getKey p.
Proof.
  intros G G' C C' S. destruct (good_same_eq q p G' G S) as (A1 & A2 & A3 & _). destruct (c_keys z p C) as [K1 K2], (c_keys z q C') as [K1' K2'].
  unfold getKey, stKey. now rewrite K1, K2, K1', K2', (boardKey_ext z q p A1 A3), (handKey_ext z q p A2).
Qed.
Lemma fmt_round_trip T z b : tablesOK T = true -> okZob z -> reachable z b -> both_kings (abs (bpos b)) ->
  exists s p, toPacked T (bpos b) = Some s /\ buffer32 (sdata s) /\ bits_written s = 256 /\ setPacked T z (sdata s) = Done p /\
    same_position (abs p) (abs (bpos b)) /\ getKey p = getKey (bpos b) /\ gamePly p = 1%Z /\ set_up z (mkBoard p []) /\ agree p.
Proof.
  intros OK Z R B. destruct (reachable_ok z b Z R) as [G C]. destruct (pack_round_trip T OK z (bpos b) G B) as (s & p & E & L & W & D & F & S & N).
  exists s, p. do 5 (split; [assumption|]). split; [apply (same_key z); auto; apply F|]. split; [exact N|]. split; [now apply fresh_set_up|]. apply (good_agree z); apply F.
Qed.
Lemma fmt_distinct T z b b' : tablesOK T = true -> okZob z -> reachable z b -> reachable z b' -> both_kings (abs (bpos b)) -> both_kings (abs (bpos b')) ->
  option_map sdata (toPacked T (bpos b)) = option_map sdata (toPacked T (bpos b')) -> same_position (abs (bpos b)) (abs (bpos b')).
Proof.
  intros OK Z R R' B B' E. destruct (fmt_round_trip T z b OK Z R B) as (s & p & E1 & _ & _ & D1 & S1 & _). destruct (fmt_round_trip T z b' OK Z R' B') as (s' & p' & E2 & _ & _ & D2 & S2 & _).
  rewrite E1, E2 in E. cbn [option_map] in E. injection E as E. rewrite E, D2 in D1. injection D1 as ->. eapply same_trans; [apply same_sym; exact S1|exact S2].
Qed.
Lemma fmt_accepted T z d p : tablesOK T = true -> setPacked T z d = Done p -> both_kings (abs p) -> proper (abs p) -> hands_fit p -> set_up z (mkBoard p []) /\ agree p /\ gamePly p = 1%Z.
Proof. intros OK E B Pr H. destruct (accepted_fresh T z d p E B Pr H) as [F N]. split; [now apply fresh_set_up|]. split; [|exact N]. apply (good_agree z); apply F. Qed.

(* ---- the two formats ---- *)
Lemma toHcp_eq b : toHcp b = toPacked hcpTables (bpos b). Proof. reflexivity. Qed.
Lemma toPsfen_eq b : toPsfen b = toPacked psfenTables (bpos b). Proof. reflexivity. Qed.
Lemma hcp_round_trip z b : okZob z -> reachable z b -> both_kings (abs (bpos b)) ->
  exists s p, toHcp b = Some s /\ setHcp z (sdata s) = Done (mkBoard p []) /\ same_position (abs p) (abs (bpos b)) /\ getKey p = getKey (bpos b) /\
    gamePly p = 1%Z /\ set_up z (mkBoard p []) /\ agree p.
Proof.
  intros Z R B. destruct (fmt_round_trip hcpTables z b hcp_ok Z R B) as (s & p & E & _ & _ & D & X). exists s, p. rewrite toHcp_eq. split; [exact E|]. split; [unfold setHcp; now rewrite D|exact X].
Qed.
Lemma psfen_round_trip z b : okZob z -> reachable z b -> both_kings (abs (bpos b)) ->
  exists s p, toPsfen b = Some s /\ setPsfen z (sdata s) = Done (mkBoard p []) /\ same_position (abs p) (abs (bpos b)) /\ getKey p = getKey (bpos b) /\
    gamePly p = 1%Z /\ set_up z (mkBoard p []) /\ agree p.
Proof.
  intros Z R B. destruct (fmt_round_trip psfenTables z b psfen_ok Z R B) as (s & p & E & _ & _ & D & X). exists s, p. rewrite toPsfen_eq. split; [exact E|]. split; [unfold setPsfen; now rewrite D|exact X].
Qed.
Lemma hcp_size z b : okZob z -> reachable z b -> both_kings (abs (bpos b)) -> exists s, toHcp b = Some s /\ buffer32 (sdata s) /\ bits_written s = 256.
Proof. intros Z R B. destruct (fmt_round_trip hcpTables z b hcp_ok Z R B) as (s & p & E & L & W & _). exists s. rewrite toHcp_eq. auto. Qed.
Lemma psfen_size z b : okZob z -> reachable z b -> both_kings (abs (bpos b)) -> exists s, toPsfen b = Some s /\ buffer32 (sdata s) /\ bits_written s = 256.
Proof. intros Z R B. destruct (fmt_round_trip psfenTables z b psfen_ok Z R B) as (s & p & E & L & W & _). exists s. rewrite toPsfen_eq. auto. Qed.
Lemma hcp_distinct z b b' s s' : okZob z -> reachable z b -> reachable z b' -> both_kings (abs (bpos b)) -> both_kings (abs (bpos b')) ->
  toHcp b = Some s -> toHcp b' = Some s' -> sdata s = sdata s' -> same_position (abs (bpos b)) (abs (bpos b')).
Proof. intros Z R R' B B' E E' D. apply (fmt_distinct hcpTables z b b' hcp_ok Z R R' B B'). rewrite <- !toHcp_eq, E, E'. cbn [option_map]. now rewrite D. Qed.
Lemma psfen_distinct z b b' s s' : okZob z -> reachable z b -> reachable z b' -> both_kings (abs (bpos b)) -> both_kings (abs (bpos b')) ->
  toPsfen b = Some s -> toPsfen b' = Some s' -> sdata s = sdata s' -> same_position (abs (bpos b)) (abs (bpos b')).
Proof. intros Z R R' B B' E E' D. apply (fmt_distinct psfenTables z b b' psfen_ok Z R R' B B'). rewrite <- !toPsfen_eq, E, E'. cbn [option_map]. now rewrite D. Qed.
Lemma hcp_overflow z b c : okZob z -> reachable z b -> (forall s, at_square (abs (bpos b)) s <> Some (c, OU)) -> toHcp b = None.
Proof. intros Z R N. rewrite toHcp_eq. exact (pack_overflow hcpTables hcp_ok (bpos b) c (proj1 (reachable_ok z b Z R)) N). Qed.
Lemma psfen_overflow z b c : okZob z -> reachable z b -> (forall s, at_square (abs (bpos b)) s <> Some (c, OU)) -> toPsfen b = None.
Proof. intros Z R N. rewrite toPsfen_eq. exact (pack_overflow psfenTables psfen_ok (bpos b) c (proj1 (reachable_ok z b Z R)) N). Qed.
Lemma hcp_accepted z d b : setHcp z d = Done b -> both_kings (abs (bpos b)) -> proper (abs (bpos b)) -> hands_fit (bpos b) ->
  bhist b = [] /\ set_up z b /\ agree (bpos b) /\ gamePly (bpos b) = 1%Z.
Proof.
  unfold setHcp. destruct (setPacked hcpTables z d) as [p| |] eqn:E; cbn [obind]; intros H; try discriminate. injection H as <-. cbn [bpos bhist]. intros B P F.
  split; [reflexivity|]. exact (fmt_accepted hcpTables z d p hcp_ok E B P F).
Qed.
Lemma psfen_accepted z d b : setPsfen z d = Done b -> both_kings (abs (bpos b)) -> proper (abs (bpos b)) -> hands_fit (bpos b) ->
  bhist b = [] /\ set_up z b /\ agree (bpos b) /\ gamePly (bpos b) = 1%Z.
Proof.
  unfold setPsfen. destruct (setPacked psfenTables z d) as [p| |] eqn:E; cbn [obind]; intros H; try discriminate. injection H as <-. cbn [bpos bhist]. intros B P F.
  split; [reflexivity|]. exact (fmt_accepted psfenTables z d p psfen_ok E B P F).
Qed.
Lemma good_hands_fit p : good p -> hands_fit p.
Proof.
  intros G c L. destruct (g_hands p G) as [_ O]. specialize (O c L). exists (numOf (handOf p c)).
  assert (C : counts (numOf (handOf p c))) by (intros hp H; rewrite limit_pow by exact H; now apply numOf_lt).
  split; [exact C|]. destruct (packed_ok _ C) as [O' E]. apply handOk_ext; auto. intros hp H. symmetry. now apply E.
Qed.
