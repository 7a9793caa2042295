(* Proofs about is_ok. *)
From Verif Require Export Ok OkSpec Features1 SetProofs SafeN.
Local Open Scope N_scope.
Local Opaque N.mul N.add N.sub N.div N.modulo.

(* ---- the bitboards ---- *)
Lemma bbEq_refl a : bbEq a a = true.
Proof. unfold bbEq. now rewrite !N.eqb_refl. Qed.
Lemma noneAny a : wfBB a -> (forall s, s < 81 -> isSet a s = false) -> isAny a = false.
Proof.
  intros W H. rewrite isAny_spec by exact W. apply not_true_is_false. intros E. apply existsb_exists in E as (s & I & E).
  apply in_squares in I. rewrite H in E by exact I. discriminate.
Qed.
Lemma isSet_xorAll p bd : pre bd p -> forall l b s, (forall pt, In pt l -> pt < 15) -> s < 81 ->
  isSet (fold_left (fun b pt => bbXor b (bbT p pt)) l b) s = fold_left (fun x pt => xorb x (isPt bd pt s)) l (isSet b s).
Proof.
  intros P. induction l as [|pt l IH]; intros b s H Hs; cbn [fold_left]; [reflexivity|]. rewrite IH; auto; [|intros; apply H; now right].
  rewrite isSet_xor by auto. rewrite (pre_bbT bd p pt P) by (apply H; now left). now rewrite isSet_fbb.
Qed.
Lemma wf_xorAll p bd : pre bd p -> forall l b, (forall pt, In pt l -> pt < 15) -> wfBB b -> wfBB (fold_left (fun b pt => bbXor b (bbT p pt)) l b).
Proof.
  intros P. induction l as [|pt l IH]; intros b H W; cbn [fold_left]; [exact W|]. apply IH; [intros; apply H; now right|]. apply wf_xor; auto.
  rewrite (pre_bbT bd p pt P) by (apply H; now left). apply wf_fbb.
Qed.
Definition typeSum (x : N) : bool := fold_left (fun b pt => xorb b (ptOf x =? pt)) (tl okTypes) (ptOf x =? 1).
Lemma typeSum_ok x : vpc x = true -> typeSum x = negb (x =? 0).
Proof.
  intros V. destruct (vpc_cases x V) as [->|(c & pt & Hc & Hp & ->)]; [reflexivity|]. unfold typeSum. rewrite pt_mk, mk_nz by auto. cbn [negb].
  assert (E : forallb (fun pt => fold_left (fun b q => xorb b (pt =? q)) (tl okTypes) (pt =? 1)) (seqN 1 14) = true) by reflexivity.
  rewrite forallb_forall in E. apply E. apply in_seqN. change (N.of_nat 14) with 14. lia.
Qed.
Lemma bitboards_pre bd p : pre bd p -> bitboardsOk p = true.
Proof.
  intros P. pose proof (pre_ok _ _ P) as Ok. unfold bitboardsOk. rewrite !andb_true_iff. split; [split; [split|]|].
  - apply negb_true_iff. apply noneAny.
    + unfold Black. rewrite (pre_bbC bd p 0 P) by lia. apply wf_and_l, wf_fbb.
    + intros s Hs. unfold Black, White. rewrite isSet_and, (pre_bbC bd p 0 P), (pre_bbC bd p 1 P), !isSet_fbb by (auto; lia). unfold isCol.
      destruct (N.eqb_spec (colorOf (at_ bd s)) 0) as [E|E]; [rewrite E|]; rewrite ?andb_false_r; reflexivity.
  - assert (E : bbOr (bbC p Black) (bbC p White) = occBB p); [|rewrite E; apply bbEq_refl].
    unfold occBB, Occupied, Black, White. rewrite (pre_bbC bd p 0 P), (pre_bbC bd p 1 P), (pre_bbT bd p 0 P) by lia. apply BB_ext; [apply wf_or; apply wf_fbb|apply wf_fbb|].
    intros s Hs. rewrite isSet_or, !isSet_fbb by auto. unfold isCol, isPt. change (0 =? 0) with true. cbv iota.
    destruct (N.eqb_spec (at_ bd s) 0) as [Z|NZ]; [reflexivity|]. destruct (vpc_facts _ (proj2 Ok s Hs) NZ) as (_ & C & _). cbn [negb andb].
    assert (colorOf (at_ bd s) = 0 \/ colorOf (at_ bd s) = 1) as [->| ->] by lia; reflexivity.
  - assert (Hl : forall pt, In pt (tl okTypes) -> pt < 15) by (intros pt I; change (tl okTypes) with (seqN 2 13) in I; apply in_seqN in I; change (N.of_nat 13) with 13 in I; lia).
    assert (E : fold_left (fun b pt => bbXor b (bbT p pt)) (tl okTypes) (bbT p Pawn) = occBB p); [|rewrite E; apply bbEq_refl].
    assert (W1 : wfBB (bbT p Pawn)) by (unfold Pawn; rewrite (pre_bbT bd p 1 P) by lia; apply wf_fbb).
    apply BB_ext; [now apply (wf_xorAll p bd P)|unfold occBB, Occupied; rewrite (pre_bbT bd p 0 P) by lia; apply wf_fbb|]. intros s Hs.
    rewrite (isSet_xorAll p bd P _ _ s Hl Hs). unfold occBB, Occupied, Pawn. rewrite (pre_bbT bd p 0 P), (pre_bbT bd p 1 P), !isSet_fbb by (auto; lia).
    transitivity (typeSum (at_ bd s)); [reflexivity|]. now rewrite typeSum_ok by now apply Ok.
  - apply forallb_forall. intros a Ia. apply forallb_forall. intros b Ib. apply in_seqN in Ia, Ib. change (N.of_nat 14) with 14 in Ia. rewrite N2Nat.id in Ib. apply negb_true_iff. apply noneAny.
    + rewrite (pre_bbT bd p a P) by lia. apply wf_and_l, wf_fbb.
    + intros s Hs. rewrite isSet_and, (pre_bbT bd p a P), (pre_bbT bd p b P), !isSet_fbb by (auto; lia). unfold isPt.
      destruct (N.eqb_spec a 0); [lia|]. destruct (N.eqb_spec b 0); [lia|]. destruct (N.eqb_spec (ptOf (at_ bd s)) a) as [->|]; [|reflexivity]. cbn [andb]. apply N.eqb_neq. lia.
Qed.
Lemma pieces_pre bd p : pre bd p -> pieceOk p = true.
Proof.
  intros P. pose proof (pre_ok _ _ P) as Ok. unfold pieceOk. apply forallb_forall. intros s Is. apply in_squares in Is. cbv zeta. unfold pieceAt. rewrite (pre_bd _ _ P). change (nthN 0 bd s) with (at_ bd s).
  unfold Empty. destruct (N.eqb_spec (at_ bd s) 0) as [Z|NZ].
  - unfold emptyBB, occBB, Occupied. rewrite isSet_xor, isSet_ones, (pre_bbT bd p 0 P), isSet_fbb by (auto; lia). unfold isPt. rewrite Z. reflexivity.
  - destruct (vpc_facts _ (proj2 Ok s Is) NZ) as (T & C & _). unfold bbTC. rewrite isSet_and, (pre_bbT bd p _ P), (pre_bbC bd p _ P), !isSet_fbb by (auto; lia). unfold isPt, isCol.
    rewrite !N.eqb_refl. destruct (N.eqb_spec (ptOf (at_ bd s)) 0); [lia|]. destruct (N.eqb_spec (at_ bd s) 0); [contradiction|reflexivity].
Qed.

(* ---- the kings ---- *)
Definition kings (bd : list N) (c : N) : list N := filter (isKing bd c) squares.
Lemma pop_kings bd p c : pre bd p -> c < 2 -> popCount (bbTC p King c) = N.of_nat (length (kings bd c)).
Proof.
  intros P Hc. rewrite popCount_filter.
  - f_equal. apply filter_len_ext. intros s I. apply in_squares in I. now apply king_bit.
  - unfold bbTC, King. rewrite (pre_bbT bd) by (auto; lia). apply wf_and_l, wf_fbb.
Qed.
Lemma split_kings bd l : (forall s, In s l -> vpc (at_ bd s) = true) ->
  length (filter (isPt bd 8) l) = (length (filter (isKing bd 0) l) + length (filter (isKing bd 1) l))%nat.
Proof.
  induction l as [|s l IH]; intros H; [reflexivity|]. cbn [filter]. specialize (IH (fun x I => H x (or_intror I))).
  pose proof (H s (or_introl eq_refl)) as V.
  assert (E8 : isPt bd 8 s = (ptOf (at_ bd s) =? 8)) by reflexivity.
  assert (EK : forall c, isKing bd c s = (at_ bd s =? mkPiece c King)) by reflexivity. rewrite E8, !EK.
  destruct (vpc_cases _ V) as [E|(c & pt & Hc & Hp & E)]; rewrite E.
  - change (ptOf 0 =? 8) with false. change (0 =? mkPiece 0 King) with false. change (0 =? mkPiece 1 King) with false. exact IH.
  - rewrite pt_mk, !isKing_mk by (auto; lia). destruct (pt =? 8).
    + rewrite !andb_true_r. assert (c = 0 \/ c = 1) as [->| ->] by lia; [change (0 =? 0) with true; change (0 =? 1) with false|change (1 =? 0) with false; change (1 =? 1) with true]; cbv iota; cbn [length]; lia.
    + rewrite !andb_false_r. exact IH.
Qed.
Lemma pop_all_kings bd p : pre bd p -> popCount (bbT p King) = N.of_nat (length (kings bd 0) + length (kings bd 1)).
Proof.
  intros P. pose proof (pre_ok _ _ P) as Ok. unfold King. rewrite (pre_bbT bd p 8 P) by lia. rewrite popCount_filter by apply wf_fbb. f_equal.
  unfold kings. rewrite <- split_kings by (intros s I; apply in_squares in I; now apply Ok). apply filter_len_ext. intros s I. apply in_squares in I. now apply isSet_fbb.
Qed.
Lemma kingCount_ok bd p c : pre bd p -> kingCount p c = N.of_nat (length (kings bd c)).
Proof. intros P. unfold kingCount, kings, pieceAt. now rewrite (pre_bd _ _ P). Qed.
Lemma kings_one bd c : (length (kings bd c) <= 1)%nat <-> (forall s t, s < 81 -> t < 81 -> isKing bd c s = true -> isKing bd c t = true -> s = t).
Proof.
  assert (I : forall s, In s (kings bd c) <-> s < 81 /\ isKing bd c s = true) by (intros s; unfold kings; rewrite filter_In, in_squares; tauto).
  assert (ND : NoDup (kings bd c)) by (apply NoDup_filter, NoDup_squares). revert I ND. generalize (kings bd c) as l. intros l I ND. split.
  - intros L s t Hs Ht Ks Kt. pose proof (proj2 (I s) (conj Hs Ks)) as Is. pose proof (proj2 (I t) (conj Ht Kt)) as It.
    destruct l as [|a [|b l]]; cbn in L; try lia; [destruct Is|]. destruct Is as [<-|[]], It as [<-|[]]. reflexivity.
  - intros H. destruct l as [|a [|b l]]; cbn; try lia. exfalso. destruct (proj1 (I a) (or_introl eq_refl)) as [A1 A2]. destruct (proj1 (I b) (or_intror (or_introl eq_refl))) as [B1 B2].
    inversion ND as [|? ? X _]. apply X. rewrite (H a b A1 B1 A2 B2). now left.
Qed.
Lemma kings_some bd c : (0 < length (kings bd c))%nat <-> exists s, s < 81 /\ isKing bd c s = true.
Proof.
  assert (I : forall s, In s (kings bd c) <-> s < 81 /\ isKing bd c s = true) by (intros s; unfold kings; rewrite filter_In, in_squares; tauto).
  revert I. generalize (kings bd c) as l. intros l I. split.
  - intros L. destruct l as [|a l]; [cbn in L; lia|]. exists a. apply I. now left.
  - intros (s & H). apply I in H. destruct l; [destruct H|cbn; lia].
Qed.
Lemma kingCountOk_iff bd p : pre bd p -> (kingCountOk p = true <-> (exists c s, c < 2 /\ s < 81 /\ isKing bd c s = true) /\ oneKing bd).
Proof.
  intros P. unfold kingCountOk. unfold Black, White. rewrite !(pop_kings bd p), (pop_all_kings bd p), !(kingCount_ok bd p) by (auto; lia). rewrite !N.eqb_refl, !andb_true_r.
  rewrite !andb_true_iff, !negb_true_iff, orb_false_iff, N.eqb_neq, !N.ltb_ge.
  pose proof (kings_one bd 0) as O0. pose proof (kings_one bd 1) as O1. pose proof (kings_some bd 0) as S0. pose proof (kings_some bd 1) as S1. split.
  - intros [[[A B] C] D]. split.
    + assert (0 < length (kings bd 0) \/ 0 < length (kings bd 1))%nat as [L|L] by lia; [apply S0 in L as (s & H)|apply S1 in L as (s & H)]; [exists 0, s|exists 1, s]; repeat split; try lia; apply H.
    + intros c s t Hc. assert (c = 0 \/ c = 1) as [->| ->] by lia; [apply O0|apply O1]; lia.
  - intros [(c & s & Hc & Hs & K) O]. assert (L0 : (length (kings bd 0) <= 1)%nat) by (apply O0; intros x y; apply O; lia). assert (L1 : (length (kings bd 1) <= 1)%nat) by (apply O1; intros x y; apply O; lia).
    assert (0 < length (kings bd 0) \/ 0 < length (kings bd 1))%nat.
    { assert (c = 0 \/ c = 1) as [->| ->] by lia; [left; apply S0|right; apply S1]; eauto. }
    lia.
Qed.

(* ---- attacks on the kings ---- *)
Lemma attackers_views p c s t occ : views p -> on_board s -> on_board t ->
  (isSet (attackersTo p (ncolor c) (nsquare t) occ) (nsquare s) = true <->
   exists k, at_square (abs p) s = Some (c, k) /\ attacks (fun q => isSet occ (nsquare q) = true) c k s t).
Proof.
  intros V Hs Ht. pose proof (v_board p V) as Ok.
  pose proof (nsquare_lt s Hs) as Ls. pose proof (nsquare_lt t Ht) as Lt. pose proof (ncolor_lt c) as Hc.
  rewrite isSet_attackersTo by auto. unfold attOcc. change (at_ (board p) (nsquare s)) with (pieceAt p (nsquare s)). assert (AT : at_square (abs p) s = pieceN (pieceAt p (nsquare s))) by (rewrite <- (square_inv' s Hs) at 1; now apply abs_at). rewrite AT. clear AT.
  destruct (vpc_cases _ (okB_at p _ Ok Ls)) as [E|(c' & pt & Hc' & Hp & E)]; rewrite E.
  - split; [|intros (k & X & _); discriminate X]. rewrite andb_true_iff. intros [_ H]. discriminate H.
  - rewrite mk_nz, pt_mk, col_mk, pieceN_mk by auto. rewrite andb_true_iff, N.eqb_eq. cbn [negb andb].
    rewrite (attacks_N (isSet occ) (fun q => isSet occ (nsquare q) = true)) by (auto; intros x Hx; now rewrite square_inv). rewrite !square_inv' by auto. split.
    + intros [-> A]. exists (kindN pt). replace (colorN (ncolor c)) with c in * by (now destruct c). auto.
    + intros (k & X & A). injection X as X <-. assert (c' = ncolor c) by (rewrite <- X, color_inv; auto). subst c'. replace (colorN (ncolor c)) with c in * by (now destruct c). auto.
Qed.
Lemma attackers_col p c k s : views p -> c < 2 -> k < 81 -> s < 81 -> isSet (attackersTo p c k (occBB p)) s = isCol (board p) c s && att (board p) s k.
Proof.
  intros V Hc Hk Hs. rewrite isSet_attackersTo by auto. rewrite (attOcc_ext _ _ (occOf (board p))) by now apply isSet_occ_fun.
  unfold isCol, att, attOcc, pieceAt. change (nthN 0 (board p) s) with (at_ (board p) s). destruct (at_ (board p) s =? 0); cbn [negb andb]; [now rewrite andb_false_r|reflexivity].
Qed.
Lemma capture_iff p : views p -> (kingCaptureOk p = true <-> (kingOf (board p) (turn p) < 81 -> inCheckB (board p) (opp (turn p)) = false)).
Proof.
  intros V. pose proof (v_turn p V) as Ht. pose proof (opp_lt (turn p) Ht) as Ho. unfold kingCaptureOk. cbv zeta. rewrite !kingSquare_view by auto. unfold isInSquare, inCheckB. rewrite opp_opp by auto.
  destruct (N.ltb_spec (kingOf (board p) (turn p)) 81) as [L|L]; cbn [andb]; [|split; [intros _ X; lia|reflexivity]].
  destruct (N.ltb_spec (kingOf (board p) (opp (turn p))) 81) as [L'|L']; cbn [andb]; [|split; reflexivity].
  rewrite isAny_spec by (unfold attackersTo; apply wf_and_r, wf_bbC; auto).
  assert (E : existsb (isSet (attackersTo p (turn p) (kingOf (board p) (opp (turn p))) (occBB p))) squares = existsb (fun s => isCol (board p) (turn p) s && att (board p) s (kingOf (board p) (opp (turn p)))) squares).
  { apply existsb_ext_in. intros s I. apply in_squares in I. now apply attackers_col. }
  rewrite E, negb_true_iff. tauto.
Qed.
Lemma kings_apart' bd us k s : okBoard bd -> oneKing bd -> us < 2 -> inCheckB bd (opp us) = false -> k < 81 -> isKing bd us k = true -> s < 81 -> isCol bd (opp us) s = true ->
  ptOf (at_ bd s) = 8 -> att bd s k = false.
Proof.
  intros Ok O Ht Sf Hk K0 Hs Hc Hp. destruct (att bd s k) eqn:A; [|reflexivity]. exfalso. assert (K := K0). unfold isKing in K. apply N.eqb_eq in K.
  unfold isCol in Hc. apply andb_prop in Hc as [H0 Hc]. apply N.eqb_eq in Hc.
  assert (Ks : isKing bd (opp us) s = true).
  { apply N.eqb_eq. apply negb_true_iff, N.eqb_neq in H0. destruct (vpc_facts _ (proj2 Ok s Hs) H0) as (_ & _ & E). rewrite Hc, Hp in E. exact E. }
  apply (inCheckB_no bd us k s O Ht Hk Hs Ks); [| |exact Sf].
  - unfold isCol. rewrite K. rewrite mk_nz, col_mk, N.eqb_refl by (auto; unfold King; lia). reflexivity.
  - unfold att, attOcc in *. rewrite K, Hp, Hc in *. rewrite mk_nz, col_mk, pt_mk by (auto; unfold King; lia). rewrite H0, andb_true_l in A. rewrite andb_true_l.
    rewrite clear_sym by auto. unfold King. rewrite reach_sym by (auto; lia). exact A.
Qed.
Lemma findCheckers_attackers p : views p -> oneKing (board p) -> kingOf (board p) (turn p) < 81 -> inCheckB (board p) (opp (turn p)) = false ->
  findCheckersBB p = attackersTo p (opp (turn p)) (kingOf (board p) (turn p)) (occBB p).
Proof.
  intros V O L Sf. pose proof (v_turn p V) as Ht. pose proof (opp_lt (turn p) Ht) as Ho.
  assert (W : wfBB (attackersTo p (opp (turn p)) (kingOf (board p) (turn p)) (occBB p))) by (unfold attackersTo; apply wf_and_r, wf_bbC; auto).
  apply BB_ext; [|exact W|].
  - unfold findCheckersBB. rewrite kingSquare_view by auto. unfold isInSquare. rewrite (proj2 (N.ltb_lt _ _) L). unfold attackersToExceptKing. apply wf_and_r, wf_bbC; auto.
  - intros s Hs. rewrite isSet_findCheckers by auto. rewrite (proj2 (N.ltb_lt _ _) L), andb_true_l. rewrite attackers_col by auto. unfold chk.
    destruct (isCol (board p) (opp (turn p)) s) eqn:E1; [|reflexivity]. cbn [andb]. destruct (N.eqb_spec (ptOf (at_ (board p) s)) 8) as [E8|]; [|reflexivity].
    cbn [negb andb]. symmetry. destruct (kingOf_cases (board p) (turn p)) as [[_ K]|[E _]]; [|lia]. apply (kings_apart' (board p) (turn p)); auto. apply V.
Qed.
Lemma checkers_iff p : views p -> oneKing (board p) -> checkersBB (st p) = findCheckersBB p -> (kingOf (board p) (turn p) < 81 -> inCheckB (board p) (opp (turn p)) = false) ->
  (checkerCountOk p = true <-> (forall k, on_board k -> at_square (abs p) k = Some (side (abs p), OU) -> ~ attacked_times (abs p) (other (side (abs p))) k 3)).
Proof.
  intros V O C Sf. pose proof (v_turn p V) as Ht. pose proof (opp_lt (turn p) Ht) as Ho. pose proof (v_board p V) as Ok.
  unfold checkerCountOk, checkers. rewrite C, negb_true_iff, N.ltb_ge.
  assert (Kk : forall k, on_board k -> (at_square (abs p) k = Some (side (abs p), OU) <-> isKing (board p) (turn p) (nsquare k) = true)).
  { intros k Hk. rewrite <- (king_iff p (turn p)) by (auto using nsquare_lt). now rewrite square_inv' by auto. }
  assert (Co : ncolor (other (side (abs p))) = opp (turn p)) by (cbn [abs side]; rewrite <- colorN_opp, color_inv by auto; reflexivity).
  destruct (kingOf_cases (board p) (turn p)) as [[L K]|[E K]].
  - rewrite findCheckers_attackers by auto. split.
    + intros H k Hk A. apply Kk in A; auto. pose proof (kingOf_here _ _ _ O Ht (nsquare_lt k Hk) A) as Ek. rewrite (attacked_iff p V) by (auto; intros; now apply attackers_views). rewrite Co. rewrite <- Ek. lia.
    + intros H. pose proof (on_board_N _ L) as B. specialize (H (squareN (kingOf (board p) (turn p))) B). rewrite (Kk _ B), square_inv in H by auto. specialize (H K).
      rewrite (attacked_iff p V) in H by (auto; intros; now apply attackers_views). rewrite Co, square_inv in H by auto. lia.
  - split.
    + intros _ k Hk A. apply Kk in A; auto. rewrite (K _ (nsquare_lt k Hk)) in A. discriminate.
    + intros _. unfold findCheckersBB. rewrite kingSquare_view by auto. rewrite E. change (isInSquare 81) with false. cbv iota. discriminate.
Qed.

(* ---- the answer ---- *)
Lemma king_on p c s : okBoard (board p) -> c < 2 -> on_board s -> (at_square (abs p) s = Some (colorN c, OU) <-> isKing (board p) c (nsquare s) = true).
Proof. intros Ok Hc Hs. rewrite <- (king_iff p c) by (auto using nsquare_lt). now rewrite square_inv' by auto. Qed.
Lemma color_N c : exists n, n < 2 /\ colorN n = c.
Proof. exists (ncolor c). destruct c; split; reflexivity || lia. Qed.
Lemma so_kings p : okBoard (board p) ->
  ((exists c s, on_board s /\ at_square (abs p) s = Some (c, OU)) <-> (exists c s, c < 2 /\ s < 81 /\ isKing (board p) c s = true)) /\
  ((forall c s t, on_board s -> on_board t -> at_square (abs p) s = Some (c, OU) -> at_square (abs p) t = Some (c, OU) -> s = t) <-> oneKing (board p)).
Proof.
  intros Ok. split; split.
  - intros (c & s & Hs & A). destruct (color_N c) as (n & Hn & <-). apply king_on in A; auto. exists n, (nsquare s). auto using nsquare_lt.
  - intros (c & s & Hc & Hs & K). exists (colorN c), (squareN s). split; [now apply on_board_N|]. now apply king_iff.
  - intros H c s t Hc Hs Ht K K'. apply squareN_inj; auto. apply (H (colorN c)); auto using on_board_N; now apply king_iff.
  - intros O c s t Hs Ht A B. destruct (color_N c) as (n & Hn & <-). apply king_on in A, B; auto.
    rewrite <- (square_inv' s Hs), <- (square_inv' t Ht). f_equal. apply (O n); auto using nsquare_lt.
Qed.
Theorem isOK_iff z p : pre (board p) p -> (oneKing (board p) -> views p) -> cached z p -> (isOK z p = true <-> sound (abs p)).
Proof.
  intros P V C. pose proof (pre_ok _ _ P) as Ok. destruct (so_kings p Ok) as [K1 K2]. unfold isOK.
  rewrite (bitboards_pre _ p P), (pieces_pre _ p P). assert (Ek : keyOk z p = true).
  { unfold keyOk, getKey, stKey, computeKey. destruct (c_keys z p C) as [-> ->]. apply N.eqb_refl. }
  assert (Eh : stateHandOk p = true) by (unfold stateHandOk; rewrite (c_hand z p C); apply N.eqb_refl).
  rewrite Ek, Eh, !andb_true_r, andb_true_l, !andb_true_iff, (kingCountOk_iff _ p P), <- K1, <- K2.
  assert (Tail : oneKing (board p) -> (kingCaptureOk p = true /\ checkerCountOk p = true <->
     ((exists s, on_board s /\ at_square (abs p) s = Some (side (abs p), OU)) -> ~ in_check (abs p) (other (side (abs p)))) /\
     forall k, on_board k -> at_square (abs p) k = Some (side (abs p), OU) -> ~ attacked_times (abs p) (other (side (abs p))) k 3)).
  { intros O. specialize (V O). pose proof (v_turn p V) as Ht. pose proof (opp_lt (turn p) Ht) as Ho.
    assert (Cap : kingCaptureOk p = true <-> ((exists s, on_board s /\ at_square (abs p) s = Some (side (abs p), OU)) -> ~ in_check (abs p) (other (side (abs p))))).
    { rewrite capture_iff by auto. cbn [abs side]. rewrite <- colorN_opp by auto. rewrite in_check_abs by auto. split.
      - intros H (s & Hs & A) X. apply king_on in A; auto. pose proof (kingOf_here _ _ _ O Ht (nsquare_lt s Hs) A) as E. rewrite H in X by (rewrite E; now apply nsquare_lt). discriminate.
      - intros H L. apply not_true_is_false. apply H. exists (squareN (kingOf (board p) (turn p))). split; [now apply on_board_N|]. apply king_iff; auto. destruct (kingOf_cases (board p) (turn p)) as [[_ K]|[E _]]; [exact K|lia]. }
    rewrite <- Cap. rewrite (capture_iff p V). split; intros [A B]; (split; [exact A|]); now apply (checkers_iff p V O (c_check z p C) A). }
  split.
  - intros [[[A B] D] F]. destruct (proj1 (Tail (proj1 K2 B)) (conj D F)) as [X Y]. constructor; assumption.
  - intros [A B D F]. destruct (proj2 (Tail (proj1 K2 B)) (conj D F)) as [X Y]. auto.
Qed.

(* ---- a legal move never gives more than two checks ---- *)
Local Open Scope Z_scope.
Lemma square_eqb_neq s t : s <> t -> square_eqb s t = false.
Proof. intros H. destruct (square_eqb s t) eqn:E; [|reflexivity]. apply sq_eqb_iff in E. contradiction. Qed.
Lemma search (f : Z -> square) x n : (exists i, 1 <= i < n /\ f i = x) \/ (forall i, 1 <= i < n -> f i <> x).
Proof.
  assert (H : forall k, (exists i, 1 <= i < 1 + Z.of_nat k /\ f i = x) \/ (forall i, 1 <= i < 1 + Z.of_nat k -> f i <> x)).
  { induction k as [|k IH]; [right; intros; lia|]. destruct IH as [(i & A & B)|IH]; [left; exists i; split; [lia|exact B]|].
    destruct (square_eqb (f (1 + Z.of_nat k)) x) eqn:E.
    - left. exists (1 + Z.of_nat k). split; [lia|now apply sq_eqb_iff].
    - right. intros i Hi. destruct (Z.eq_dec i (1 + Z.of_nat k)) as [->|]; [intros X; apply sq_eqb_iff in X; congruence|apply IH; lia]. }
  destruct (H (Z.to_nat (n - 1))) as [(i & A & B)|X]; [left; exists i; split; [lia|exact B]|right; intros i Hi; apply X; lia].
Qed.
Lemma slide_unit k d : In d (slides k) -> -1 <= fst d <= 1 /\ -1 <= snd d <= 1 /\ (fst d <> 0 \/ snd d <> 0).
Proof. destruct k; cbn; intros H; repeat (destruct H as [<-|H]; [cbn; lia|]); contradiction. Qed.
Lemma forward_unit c : forward c = 1 \/ forward c = -1.
Proof. destruct c; cbn; auto. Qed.
(* the places a move leaves alone *)
Lemma play_other P m s : pseudo_legal P m -> (forall k, at_square (play P m) s = Some (other (side P), k) -> at_square P s = Some (other (side P), k)).
Proof.
  intros L k. destruct m as [kd t|f t pr]; cbn [play at_square]; unfold put.
  - destruct (square_eqb s t); [|auto]. intros E. injection E as E _. destruct (side P); discriminate.
  - destruct L as (_ & _ & kd & A & _). destruct (square_eqb s t); [rewrite A; intros E; injection E as E _; destruct (side P); discriminate|]. destruct (square_eqb s f); [discriminate|auto].
Qed.
Definition target_of (m : move) : square := match m with Drop _ t => t | Go _ t _ => t end.
Lemma discovered P m s k : pseudo_legal P m -> on_board s -> ~ attacked_by P (side P) k -> s <> target_of m -> piece_attacks (play P m) (side P) s k ->
  exists kd d n i f, In d (slides kd) /\ 1 <= i < n /\ k = displaced (side P) s d n /\ (exists t pr, m = Go f t pr) /\ displaced (side P) s d i = f /\
    forall j, 1 <= j < n -> ~ occupied (play P m) (displaced (side P) s d j).
Proof.
  intros L Hs Na Nt (kd & E & A).
  assert (E' : at_square P s = Some (side P, kd)).
  { destruct m as [k' t|f t pr]; cbn [play at_square target_of] in *; unfold put in E; rewrite (square_eqb_neq s t) in E by auto; [exact E|]. destruct (square_eqb s f); [discriminate|exact E]. }
  destruct A as [X|(d & n & I & N1 & K & B)]; [exfalso; apply Na; exists s; split; [exact Hs|]; exists kd; split; [exact E'|now left]|].
  assert (Br : (exists f t pr, m = Go f t pr /\ exists i, 1 <= i < n /\ displaced (side P) s d i = f) \/ (forall i, 1 <= i < n -> ~ occupied P (displaced (side P) s d i))).
  { destruct m as [k' t|f t pr].
    - right. intros i Hi O. apply (B i Hi). unfold occupied in *. cbn [play at_square]. unfold put. destruct (square_eqb _ t); [discriminate|exact O].
    - destruct (search (fun i => displaced (side P) s d i) f n) as [(i & Hi & F)|F]; [left; exists f, t, pr; split; [reflexivity|now exists i]|]. right. intros i Hi O. apply (B i Hi).
      destruct L as (_ & _ & k0 & A0 & _). unfold occupied in *. cbn [play at_square]. unfold put. destruct (square_eqb _ t); [rewrite A0; discriminate|]. rewrite square_eqb_neq by now apply F. exact O. }
  destruct Br as [(f & t & pr & Em & i & Hi & F)|F].
  - exists kd, d, n, i, f. split; [exact I|]. split; [exact Hi|]. split; [exact K|]. split; [now exists t, pr|]. split; [exact F|exact B].
  - exfalso. apply Na. exists s. split; [exact Hs|]. exists kd. split; [exact E'|]. right. exists d, n. auto.
Qed.
Lemma discovered_one P m s s' k : pseudo_legal P m -> on_board s -> on_board s' -> ~ attacked_by P (side P) k -> s <> target_of m -> s' <> target_of m ->
  piece_attacks (play P m) (side P) s k -> piece_attacks (play P m) (side P) s' k -> s = s'.
Proof.
  intros L Hs Hs' Na N1 N2 A A'. pose proof A as (k1 & O1 & _). pose proof A' as (k2 & O2 & _).
  destruct (discovered P m s k L Hs Na N1 A) as (kd & d & n & i & f & I & Hi & K & (t & pr & Em) & F & B).
  destruct (discovered P m s' k L Hs' Na N2 A') as (kd' & d' & n' & i' & f' & I' & Hi' & K' & (t' & pr' & Em') & F' & B').
  assert (Ff : f' = f) by congruence. rewrite Ff in F'. apply slide_unit in I. apply slide_unit in I'. destruct I as (U1 & U2 & U3), I' as (U1' & U2' & U3').
  clear Em Em' Ff. destruct s as [a b], s' as [a' b'], d as [d1 d2], d' as [e1 e2], f as [f1 f2], k as [x y]. unfold displaced in *. cbn [fst snd] in *.
  remember (forward (side P)) as w eqn:Ew. assert (W : w = 1 \/ w = -1) by (subst w; apply forward_unit). clear Ew.
  injection K as K1 K2. injection K' as K1' K2'. injection F as F1 F2. injection F' as F1' F2'.
  assert (X1 : (n - i) * d1 = (n' - i') * e1) by nia. assert (X2 : (n - i) * d2 = (n' - i') * e2) by (destruct W; subst w; nia).
  assert (D : d1 = e1 /\ d2 = e2).
  { assert (D1 : d1 = -1 \/ d1 = 0 \/ d1 = 1) by lia. assert (D2 : d2 = -1 \/ d2 = 0 \/ d2 = 1) by lia. assert (E1 : e1 = -1 \/ e1 = 0 \/ e1 = 1) by lia. assert (E2 : e2 = -1 \/ e2 = 0 \/ e2 = 1) by lia.
    clear - X1 X2 D1 D2 E1 E2 Hi Hi' U3 U3'. destruct D1 as [->|[->| ->]], D2 as [->|[->| ->]], E1 as [->|[->| ->]], E2 as [->|[->| ->]]; lia. }
  destruct D as [<- <-]. destruct (Z.lt_trichotomy n n') as [Lt|[<-|Lt]].
  - exfalso. apply (B' (n' - n)); [lia|]. replace (a' + (n' - n) * d1, b' + (n' - n) * (w * d2)) with (a, b) by (f_equal; lia). unfold occupied. rewrite O1. discriminate.
  - f_equal; lia.
  - exfalso. apply (B (n - n')); [lia|]. replace (a + (n - n') * d1, b + (n - n') * (w * d2)) with (a', b') by (f_equal; lia). unfold occupied. rewrite O2. discriminate.
Qed.
Lemma two_checks P m : pseudo_legal P m -> ~ in_check P (other (side P)) -> forall k, on_board k -> at_square (play P m) k = Some (other (side P), OU) -> ~ attacked_times (play P m) (side P) k 3.
Proof.
  intros L Nc k Hk K (l & Nd & Ln & A). assert (Na : ~ attacked_by P (side P) k).
  { intros X. apply Nc. exists k. split; [exact Hk|]. split; [now apply (play_other P m)|]. replace (other (other (side P))) with (side P) by (now destruct (side P)). exact X. }
  destruct l as [|x [|y [|w [|? l]]]]; cbn [length] in Ln; try lia. inversion Nd as [|? ? I1 Nd1]; subst. inversion Nd1 as [|? ? I2 _]; subst. cbn [In] in I1, I2.
  assert (Pick : forall u v, In u [x; y; w] -> In v [x; y; w] -> u <> v -> u <> target_of m -> v <> target_of m -> False).
  { intros u v Iu Iv Ne T1 T2. apply Ne. destruct (A u Iu) as [B1 C1], (A v Iv) as [B2 C2]. now apply (discovered_one P m u v k). }
  assert (Ne1 : x <> y) by (intros ->; tauto). assert (Ne2 : x <> w) by (intros ->; tauto). assert (Ne3 : y <> w) by (intros ->; tauto).
  destruct (square_eqb x (target_of m)) eqn:Ex; [|destruct (square_eqb y (target_of m)) eqn:Ey].
  - apply sq_eqb_iff in Ex. apply (Pick y w); cbn [In]; auto; congruence.
  - apply sq_eqb_iff in Ey. assert (x <> target_of m) by (intros E; apply sq_eqb_iff in E; congruence). apply (Pick x w); cbn [In]; auto; congruence.
  - apply (Pick x y); cbn [In]; auto; intros E; apply sq_eqb_iff in E; congruence.
Qed.

(* ---- boards ---- *)
Local Open Scope N_scope.
Lemma views_pre p : views p -> pre (board p) p.
Proof. intros [A B C D E F]. constructor; auto. Qed.
Theorem good_isOK z p : good p -> cached z p -> (isOK z p = true <-> sound (abs p)).
Proof. intros G C. apply isOK_iff; auto using views_pre, g_views. Qed.
Theorem reachable_isOK z b : okZob z -> reachable z b -> (isOK z (bpos b) = true <-> sound (abs (bpos b))).
Proof. intros Z R. destruct (reachable_ok z b Z R) as [G C]. now apply good_isOK. Qed.
Lemma attacked_times_same P Q c s n : same_position P Q -> attacked_times P c s n -> attacked_times Q c s n.
Proof. intros S (l & A & B & C). exists l. split; [exact A|]. split; [exact B|]. intros t Ht. destruct (C t Ht). split; auto. eapply piece_attacks_same; eauto. Qed.
Lemma sound_same P Q : same_position P Q -> sound P -> sound Q.
Proof.
  intros S [A B C D]. pose proof S as (E & _ & F). constructor.
  - destruct A as (c & s & H & K). exists c, s. split; auto. now rewrite <- E.
  - intros c s t. rewrite <- !E. apply B.
  - rewrite <- F. intros (s & H & K) X. rewrite <- E in K. apply C; [now exists s|]. eapply in_check_same; [apply same_sym; exact S|exact X].
  - intros k Hk K X. rewrite <- E, <- F in K. rewrite <- F in X. apply (D k Hk K). eapply attacked_times_same; [apply same_sym; exact S|exact X].
Qed.
Theorem push_isOK z b m : okZob z -> reachable z b -> legal_but_drop_mate (abs (bpos b)) m ->
  (exists c s, on_board s /\ at_square (play (abs (bpos b)) m) s = Some (c, OU)) -> isOK z (bpos (push z b (code (bpos b) m))) = true.
Proof.
  intros Z R L K. pose proof (reachable_push z b m Z R L) as R'. apply (reachable_isOK z _ Z R').
  destruct (reachable_ok z b Z R) as [G C]. destruct (reachable_ok z _ Z R') as [G' C'].
  pose proof (abs_doMoveCI z (bpos b) m (checkInfo (bpos b)) (moveGivesCheck (bpos b) (code (bpos b) m) (checkInfo (bpos b))) G (proj1 L)) as SP.
  change (same_position (abs (bpos (push z b (code (bpos b) m)))) (play (abs (bpos b)) m)) in SP. pose proof (good_proper _ G) as Pr. pose proof (good_proper _ G') as Pr'.
  apply (sound_same (play (abs (bpos b)) m)); [now apply same_sym|]. pose proof (proper_same _ _ SP Pr') as Pp.
  assert (Sd : side (play (abs (bpos b)) m) = other (side (abs (bpos b)))) by now destruct m.
  constructor.
  - exact K.
  - intros c s t _ _. apply (pr_kings _ Pp).
  - intros _. apply (pr_safe _ Pp).
  - rewrite Sd. replace (other (other (side (abs (bpos b))))) with (side (abs (bpos b))) by (now destruct (side (abs (bpos b)))). apply two_checks; [apply L|]. apply (pr_safe _ Pr).
Qed.
(* set_pieces with any pieces, proper or not *)
Theorem setPieces_isOK z p pieces inHand : turn p < 2 -> length pieces = 81%nat -> (forall s, s < 81 -> vpc (nthN 0 pieces s) = true) ->
  (forall c hp, c < 2 -> hp < 7 -> nthN 0 (nthN [] inHand c) hp <= fullSet hp) -> let q := setPieces z p pieces inHand in
  (isOK z q = true <-> sound (array_position pieces inHand (turn p))).
Proof.
  intros Ht L V Hh q. unfold q, setPieces. cbv zeta.
  destruct (pre_fold (fun s => nthN 0 pieces s) V squares _ _ pre_clear NoDup_squares) as (bd & P1 & A1); [intros s Hs; apply in_squares in Hs; split; auto; apply at_repeat0|].
  pose proof (setPieces_fold_same (fun s => nthN 0 pieces s) squares clearPos) as (B1 & B2 & B3 & B4). cbv beta zeta in *.
  assert (Ef : fold_left (fun q sq => if nthN 0 pieces sq =? Empty then q else setPiece q (nthN 0 pieces sq) sq) squares clearPos
    = fold_left (fun q sq => if nthN 0 pieces sq =? 0 then q else setPiece q (nthN 0 pieces sq) sq) squares clearPos) by reflexivity.
  rewrite Ef. clear Ef. revert P1 A1 B1 B2 B3 B4. generalize (fold_left (fun q sq => if nthN 0 pieces sq =? 0 then q else setPiece q (nthN 0 pieces sq) sq) squares clearPos) as p1. intros p1 P1 A1 B1 B2 B3 B4.
  cbn [fold_left]. unfold Black, White. destruct clearPos_hands as [C1 C2].
  assert (N0 : forall c hp, c < 2 -> hp < 7 -> numOf (handOf p1 c) hp = 0) by (intros; unfold handOf; rewrite B1; now apply C2).
  assert (F : forall c, c < 2 -> forall hp, hp < 7 -> nthN 0 (nthN [] inHand c) hp < 2 ^ handW hp) by (intros c Hc hp Hp; pose proof (Hh c hp Hc Hp); pose proof (fullSet_lt hp Hp); lia).
  destruct (setHands_fold (fun hp => nthN 0 (nthN [] inHand 0) hp) 0 ltac:(lia) (F 0 ltac:(lia)) (seqN 0 7) bd p1 P1 (okHands_ext clearPos p1 B1 C1) (NoDup_seqN _ _)) as (P2 & O2 & T2 & S2 & V2 & N2).
  { intros hp Hi. apply in_seqN in Hi. change (N.of_nat 7) with 7 in Hi. split; [lia|]. apply N0; lia. }
  revert P2 O2 T2 S2 V2 N2. generalize (fold_left (fun q hp => setHandN q hp 0 (nthN 0 (nthN [] inHand 0) hp)) (seqN 0 7) p1) as p2. intros p2 P2 O2 T2 S2 V2 N2.
  destruct (setHands_fold (fun hp => nthN 0 (nthN [] inHand 1) hp) 1 ltac:(lia) (F 1 ltac:(lia)) (seqN 0 7) bd p2 P2 O2 (NoDup_seqN _ _)) as (P3 & O3 & T3 & S3 & V3 & N3).
  { intros hp Hi. apply in_seqN in Hi. change (N.of_nat 7) with 7 in Hi. split; [lia|]. rewrite N2 by lia. change (0 =? 1) with false. cbn [andb]. apply N0; lia. }
  revert P3 O3 T3 S3 V3 N3. generalize (fold_left (fun q hp => setHandN q hp 1 (nthN 0 (nthN [] inHand 1) hp)) (seqN 0 7) p2) as p3. intros p3 P3 O3 T3 S3 V3 N3.
  assert (P4 : pre bd (setTurnField p3 (turn p))) by (destruct P3 as [X1 X2 X3 X4]; constructor; auto).
  assert (Sm : same_position (abs (setTurnField p3 (turn p))) (array_position pieces inHand (turn p))).
  { apply (abs_array (setTurnField p3 (turn p))).
    - intros s Hs. unfold pieceAt. rewrite (pre_bd _ _ P4). fold (at_ bd s). rewrite A1 by auto. now rewrite existsb_squares.
    - intros c hp Hc Hp. change (handOf (setTurnField p3 (turn p)) c) with (handOf p3 c). rewrite N3, N2, (existsb_seq7 hp Hp), !andb_true_r by auto.
      assert (c = 0 \/ c = 1) as [->| ->] by lia; reflexivity. }
  revert P4 Sm. generalize (setTurnField p3 (turn p)) (eq_refl : turn (setTurnField p3 (turn p)) = turn p). intros p4 E4 P4 Sm.
  assert (I : isOK z (refreshState z (setGamePly (setKingsGolds p4) (gamePly p))) = true <-> sound (abs (refreshState z (setGamePly (setKingsGolds p4) (gamePly p))))).
  { apply isOK_iff.
    - assert (Eb : board (refreshState z (setGamePly (setKingsGolds p4) (gamePly p))) = bd) by apply (pre_bd _ _ P4). rewrite Eb. destruct P4 as [X1 X2 X3 X4]. constructor; auto.
    - intros O. apply (views_ext (setKingsGolds p4)); auto. assert (Eb : board (refreshState z (setGamePly (setKingsGolds p4) (gamePly p))) = bd) by apply (pre_bd _ _ P4). rewrite Eb in O.
      apply (views_setKings bd); auto. rewrite E4. exact Ht.
    - apply cached_refresh. }
  assert (E : abs (refreshState z (setGamePly (setKingsGolds p4) (gamePly p))) = abs p4) by reflexivity. rewrite E in I. rewrite I. split; apply sound_same; [exact Sm|now apply same_sym].
Qed.
Theorem set_pieces_isOK z b pieces inHand : turn (bpos b) < 2 -> length pieces = 81%nat -> Forall piece_code pieces ->
  (forall c k, In k hand_kinds -> (in_hand (array_position pieces inHand (turn (bpos b))) c k <= full_set k)%Z) ->
  (isOK z (bpos (boardSetPieces z b pieces inHand)) = true <-> sound (array_position pieces inHand (turn (bpos b)))).
Proof.
  intros Ht L F Hh. apply setPieces_isOK; auto.
  - intros s Hs. apply piece_code_vpc. rewrite Forall_forall in F. apply F. unfold nthN. apply nth_In. lia.
  - intros c hp Hc Hp. destruct (slotKind_ok hp Hp) as (E & I & Fs). specialize (Hh (colorN c) _ I). cbn [array_position in_hand] in Hh. rewrite E, (color_inv c Hc), Fs in Hh. lia.
Qed.
