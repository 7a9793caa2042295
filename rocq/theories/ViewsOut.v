(* What the board reports: pieces, pieces_in_hand, and set_pieces applied to them. *)
From Verif Require Export ClaimProofs.
Local Open Scope N_scope.

Lemma bbToVector_at bb pc : wfBB bb -> forall bd s, length bd = 81%nat -> s < 81 ->
  nthN 0 (bbToVector bb pc bd) s = (if isSet bb s then pc else nthN 0 bd s) /\ length (bbToVector bb pc bd) = 81%nat.
Proof.
  intros W bd s L Hs. unfold bbToVector.
  assert (G : forall l bd, length bd = 81%nat -> nthN 0 (fold_left (fun l sq => updN l sq pc) l bd) s = (if existsb (N.eqb s) l then pc else nthN 0 bd s) /\
    length (fold_left (fun l sq => updN l sq pc) l bd) = 81%nat).
  { induction l as [|a l IH]; intros d Ld; cbn [fold_left existsb]; [auto|]. destruct (IH (updN d a pc)) as [A B]; [now rewrite length_updN|]. split; auto. rewrite A.
    destruct (existsb (N.eqb s) l); [now rewrite orb_true_r|]. rewrite orb_false_r. destruct (N.eqb_spec s a) as [->|NE]; [apply nthN_updN_eq; lia|now rewrite nthN_updN_neq by auto]. }
  destruct (G (bbList bb) bd L) as [A B]. split; auto. rewrite A. clear A B G.
  replace (existsb (N.eqb s) (bbList bb)) with (isSet bb s); [reflexivity|]. apply eq_true_iff_eq. rewrite existsb_exists. split.
  - intros H. exists s. split; [|apply N.eqb_refl]. apply in_bbList; auto.
  - intros (x & Hx & E). apply N.eqb_eq in E. subst x. now apply in_bbList in Hx.
Qed.
Theorem piecesList_board p : views p -> piecesList p = board p.
Proof.
  intros V. pose proof (v_board p V) as Ok. unfold piecesList.
  assert (G : forall l bd, (forall x, In x l -> fst x < 2 /\ 1 <= snd x < 15) -> length bd = 81%nat -> (forall s, s < 81 -> nthN 0 bd s = 0 \/ nthN 0 bd s = pieceAt p s) ->
     let r := fold_left (fun bd x => bbToVector (bbTC p (snd x) (fst x)) (mkPiece (fst x) (snd x)) bd) l bd in
     length r = 81%nat /\ forall s, s < 81 -> (nthN 0 r s = 0 \/ nthN 0 r s = pieceAt p s) /\
       ((nthN 0 bd s = pieceAt p s \/ exists x, In x l /\ pieceAt p s = mkPiece (fst x) (snd x)) -> nthN 0 r s = pieceAt p s)).
  { induction l as [|x l IH]; intros bd Hl L Hb; cbv zeta; cbn [fold_left].
    - split; auto. intros s Hs. split; auto. intros [H|(? & [] & _)]; auto.
    - destruct (Hl x (or_introl eq_refl)) as [C P].
      assert (W : wfBB (bbTC p (snd x) (fst x))) by (unfold bbTC; apply wf_and_l, wf_bbT; auto; lia).
      assert (B : forall s, s < 81 -> isSet (bbTC p (snd x) (fst x)) s = (pieceAt p s =? mkPiece (fst x) (snd x))).
      { intros s Hs. unfold bbTC. rewrite isSet_and, isSet_bbT, isSet_bbC by (auto; lia). destruct (vpc_cases _ (okB_at p s Ok Hs)) as [E|(c & pt & Hc & Hp & E)]; rewrite E.
        - change (0 =? 0) with true. cbn [negb andb]. rewrite andb_false_r. symmetry. apply N.eqb_neq. intros X. pose proof (mk_nz _ _ C P) as Y. rewrite <- X in Y. discriminate Y.
        - rewrite pt_mk, mk_nz, col_mk by auto. cbn [negb andb]. apply eq_true_iff_eq. rewrite andb_true_iff, !N.eqb_eq. split; [intros [<- <-]; reflexivity|].
          intros X. pose proof (pt_mk _ _ Hc Hp) as A1. pose proof (col_mk _ _ Hc Hp) as A2. rewrite X in A1, A2. rewrite pt_mk in A1 by auto. rewrite col_mk in A2 by auto. auto. }
      set (bd' := bbToVector (bbTC p (snd x) (fst x)) (mkPiece (fst x) (snd x)) bd).
      assert (L' : length bd' = 81%nat) by (apply (bbToVector_at _ (mkPiece (fst x) (snd x)) W bd 0 L); lia).
      assert (A' : forall s, s < 81 -> nthN 0 bd' s = if pieceAt p s =? mkPiece (fst x) (snd x) then pieceAt p s else nthN 0 bd s).
      { intros s Hs. destruct (bbToVector_at _ (mkPiece (fst x) (snd x)) W bd s L Hs) as [X _]. fold bd' in X. rewrite X, B by auto. destruct (N.eqb_spec (pieceAt p s) (mkPiece (fst x) (snd x))); auto. }
      destruct (IH bd') as [R1 R2]; auto.
      { intros y Hy. apply Hl. now right. }
      { intros s Hs. rewrite A' by auto. destruct (_ =? _); auto. }
      split; auto. intros s Hs. destruct (R2 s Hs) as [R3 R4]. split; auto. intros H. apply R4. rewrite A' by auto.
      destruct (N.eqb_spec (pieceAt p s) (mkPiece (fst x) (snd x))) as [E|NE]; [now left|]. destruct H as [H|(y & [<-|Hy] & H)]; [now left|contradiction|right; eauto]. }
  destruct (G allPieces (repeat 0 81)) as [L R].
  { intros x Hx. unfold allPieces in Hx. apply in_app_iff in Hx as [Hx|Hx]; apply in_map_iff in Hx as (y & <- & Hy); apply in_seqN in Hy; cbn [fst snd]; lia. }
  { apply repeat_length. }
  { intros s Hs. left. unfold nthN. apply nth_repeat. }
  apply (nthN_ext 0); [rewrite L; symmetry; apply Ok|]. intros i Hi. rewrite L in Hi. assert (Li : i < 81) by lia. destruct (R i Li) as [_ H]. apply H.
  destruct (vpc_cases _ (okB_at p i Ok Li)) as [E|(c & pt & Hc & Hp & E)].
  - left. rewrite E. unfold nthN. apply nth_repeat.
  - right. exists (c, pt). split; [|exact E]. unfold allPieces. apply in_app_iff. assert (c = 0 \/ c = 1) as [->| ->] by lia; [left|right]; apply in_map_iff; exists pt; split; auto; apply in_seqN; lia.
Qed.
Lemma piecesInHand_num p c hp : okHands p -> c < 2 -> hp < 7 -> nthN 0 (piecesInHand p c) hp = numOf (handOf p c) hp.
Proof.
  intros [_ H] Hc Hh. unfold piecesInHand. rewrite nthN_map_seqN by (cbn; lia). apply numOfT_num; auto.
Qed.
Definition handLists (p : Position) : list (list N) := [piecesInHand p 0; piecesInHand p 1].
Lemma handLists_num p c hp : okHands p -> c < 2 -> hp < 7 -> nthN 0 (nthN [] (handLists p) c) hp = numOf (handOf p c) hp.
Proof. intros H Hc Hh. assert (c = 0 \/ c = 1) as [->| ->] by lia; now apply piecesInHand_num. Qed.
Lemma findCheckers_ext p q : turn q = turn p -> byType q = byType p -> byColor q = byColor p -> golds q = golds p -> kingSq q = kingSq p -> findCheckersBB q = findCheckersBB p.
Proof.
  destruct p as [p1 p2 p3 p4 p5 p6 p7 p8 p9 p10], q as [q1 q2 q3 q4 q5 q6 q7 q8 q9 q10]. cbn [turn byType byColor golds kingSq]. intros -> -> -> -> ->. reflexivity.
Qed.
(* set_pieces(b.pieces, b.pieces_in_hand) *)
Theorem setPieces_restores z p : good p -> cached z p -> let q := setPieces z p (piecesList p) (handLists p) in
  board q = board p /\ hands q = hands p /\ turn q = turn p /\ gamePly q = gamePly p /\ byType q = byType p /\ byColor q = byColor p /\ golds q = golds p /\ kingSq q = kingSq p /\
  getKey q = getKey p /\ checkersBB (st q) = checkersBB (st p) /\ stHand (st q) = stHand (st p) /\ good q /\ cached z q.
Proof.
  intros G C. pose proof (g_views p G) as V. pose proof (v_board p V) as Ok. pose proof (good_turn p G) as Ht. rewrite (piecesList_board p V).
  assert (S : same_position (abs p) (array_position (board p) (handLists p) (turn p))).
  { apply abs_array; [reflexivity|]. intros c hp Hc Hp. symmetry. apply handLists_num; auto. apply G. }
  destruct (setPieces_ok z p (board p) (handLists p) Ht (proj1 Ok) (proj2 Ok) (proper_same _ _ S (good_proper p G))) as (G' & C' & S' & Eg & Et & _). cbv zeta in *.
  set (q := setPieces z p (board p) (handLists p)) in *. destruct (good_same_eq q p G' G) as (A1 & A2 & A3 & A4 & A5 & A6 & A7); [eapply same_trans; [exact S'|apply same_sym; exact S]|].
  do 8 (split; auto). split.
  - destruct (c_keys z p C) as [K1 K2], (c_keys z q C') as [K1' K2']. unfold getKey, stKey. now rewrite K1, K2, K1', K2', (boardKey_ext z q p A1 A3), (handKey_ext z q p A2).
  - split; [|split; [|auto]].
    + rewrite (c_check z p C), (c_check z q C'). now apply findCheckers_ext.
    + rewrite (c_hand z p C), (c_hand z q C'). unfold handOf. now rewrite A2, A3.
Qed.
