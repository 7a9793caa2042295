(* undoMove restores exactly the position doMove started from. *)
From Verif Require Export DoMoveProofs.

Lemma mkPos_ext a b : byType a = byType b -> byColor a = byColor b -> golds a = golds b -> board a = board b ->
  kingSq a = kingSq b -> hands a = hands b -> turn a = turn b -> gamePly a = gamePly b -> st a = st b -> prev a = prev b -> a = b.
Proof. destruct a, b; cbn; intros; subst; reflexivity. Qed.

(* the fields of undoMove, named *)
Definition undoBC (q : Position) (m : N) : list BB :=
  if mvDrop m then xorAt (byColor q) (opp (turn q)) (mvTo m)
  else let bc1 := if negb (mvCap m =? 0) then xorAt (byColor q) (turn q) (mvTo m) else byColor q in
       updN bc1 (opp (turn q)) (xorBit2 (nthN allZeroBB bc1 (opp (turn q))) (mvFrom m) (mvTo m)).
Definition undoBT0 (q : Position) (m : N) : list BB :=
  if mvDrop m then xorAt (byType q) (mvPtDropped m) (mvTo m)
  else xorAt (xorAt (if negb (mvCap m =? 0) then xorAt (byType q) (mvCap m) (mvTo m) else byType q) (mvPtFrom m) (mvFrom m))
             (mvPtToOf m (mvPtFrom m)) (mvTo m).
Definition undoBT (q : Position) (m : N) : list BB :=
  updN (undoBT0 q m) Occupied (bbOr (nthN allZeroBB (undoBC q m) Black) (nthN allZeroBB (undoBC q m) White)).
Definition undoBd (q : Position) (m : N) : list N :=
  if mvDrop m then updN (board q) (mvTo m) Empty
  else updN (updN (board q) (mvTo m) (if negb (mvCap m =? 0) then mkPiece (turn q) (mvCap m) else Empty)) (mvFrom m) (mkPiece (opp (turn q)) (mvPtFrom m)).
Definition undoHd (q : Position) (m : N) : list N :=
  let us := opp (turn q) in
  if mvDrop m then updN (hands q) us (plusOne (handOf q us) (ptToHand (mvPtDropped m)))
  else if negb (mvCap m =? 0) then updN (hands q) us (minusOne (handOf q us) (ptToHand (mvCap m))) else hands q.
Definition undoKq (q : Position) (m : N) : list N :=
  if negb (mvDrop m) && (mvPtToOf m (mvPtFrom m) =? King) then updN (kingSq q) (opp (turn q)) (mvFrom m) else kingSq q.
Lemma undoMove_fields q m :
  undoMove q m = mkPos (undoBT q m) (undoBC q m) (goldsOf (undoBT q m)) (undoBd q m) (undoKq q m) (undoHd q m) (opp (turn q))
                       (gamePly q - 1)%Z (hd (st q) (prev q)) (tl (prev q)).
Proof. unfold undoMove, undoBT, undoBT0, undoBC, undoBd, undoHd, undoKq. destruct (mvDrop m); reflexivity. Qed.

Lemma pair_same {A} (f : N -> A) c : c < 2 -> [if 0 =? c then f c else f 0; if 1 =? c then f c else f 1] = [f 0; f 1].
Proof. intros H. assert (c = 0 \/ c = 1) as [->| ->] by lia; reflexivity. Qed.

Section U.
Variables (z : Zob) (p : Position) (m : N) (ci : CheckInfo) (b : bool).
Let q := doMoveCI z p m ci b.
Hypotheses (V : views p) (O : oneKing (board p)) (Hk : okHands p) (Mt : okMaterial p) (W : wfMove p m).

Lemma uVq : views q. Proof. now apply views_doMoveCI. Qed.
Lemma uT : opp (turn q) = turn p. Proof. unfold q. rewrite doMoveCI_turn. apply opp_opp, V. Qed.
Lemma uT' : turn q = opp (turn p). Proof. unfold q. now rewrite doMoveCI_turn. Qed.
Lemma uB : board q = newBoard p m. Proof. unfold q. now rewrite doMoveCI_board. Qed.
Lemma uTlt : turn p < 2. Proof. apply V. Qed.
Lemma uOlt : opp (turn p) < 2. Proof. apply opp_lt, V. Qed.

Lemma undo_board : undoBd q m = board p.
Proof.
  pose proof (len_board p V) as L. unfold undoBd. rewrite uT, uT', uB. destruct (v_board p V) as [Ln _].
  destruct W as [X|X]; pose proof X as (Hd & _); unfold newBoard; rewrite Hd.
  - pose proof X as (_ & Hp & Hto & He & _). rewrite updN_updN. apply (nthN_ext 0); [now rewrite length_updN|]. intros x Hx.
    rewrite nthN_updN by (rewrite L; auto). destruct (N.eqb_spec (mvTo m) x) as [<-|]; [|reflexivity]. symmetry. exact He.
  - pose proof (wfGo_from p m X) as Hf. pose proof X as (_ & Hne & Hto & Hpf & Hat & Hcap & Hpr). rewrite updN_updN.
    apply (nthN_ext 0); [now rewrite !length_updN|]. intros x Hx.
    rewrite nthN_updN by (rewrite !length_updN, L; auto). destruct (N.eqb_spec (mvFrom m) x) as [<-|E]; [symmetry; exact Hat|].
    rewrite nthN_updN by (rewrite !length_updN, L; auto). destruct (N.eqb_spec (mvTo m) x) as [<-|E'].
    + change (nthN 0 (board p) (mvTo m)) with (pieceAt p (mvTo m)). destruct Hcap as [[-> ->]|(-> & Hc & _)]; [reflexivity|].
      now replace (mvCap m =? 0) with false by lia.
    + rewrite nthN_updN by (rewrite L; auto). now rewrite (proj2 (N.eqb_neq _ _) E).
Qed.

Lemma undo_hands : undoHd q m = hands p.
Proof.
  pose proof uTlt as Ht. pose proof (material_doMoveCI z p m ci b V Hk Mt W) as [Hk' _]. fold q in Hk'.
  destruct (newHands_spec p m (turn p) V Hk Mt W Ht) as [Ok' Sp]. assert (Hn : nthN 0 (newHands p m) (turn p) = handOf q (turn p)) by (unfold handOf, q; now rewrite doMoveCI_hands).
  rewrite Hn in Ok', Sp. rewrite N.eqb_refl in Sp. destruct Hk as [L Ok].
  unfold undoHd. rewrite uT. cbv zeta. assert (Hq : hands q = newHands p m) by (unfold q; apply doMoveCI_hands). rewrite Hq. unfold newHands.
  assert (R : forall v w, v = handOf p (turn p) -> updN (updN (hands p) (turn p) w) (turn p) v = hands p).
  { intros v w ->. rewrite updN_updN. unfold handOf. apply (nthN_ext 0); [apply length_updN|]. intros i _.
    rewrite nthN_updN by (rewrite L; exact Ht). destruct (N.eqb_spec (turn p) i) as [<-|]; reflexivity. }
  destruct W as [X|X]; pose proof X as (Hd & _); rewrite Hd in *.
  - pose proof X as (_ & Hp & _ & _ & Hc). assert (Hh : ptToHand (mvPtDropped m) < 7) by (apply ptToHand_lt; lia).
    apply R. pose proof (Sp _ Hh) as S0. rewrite N.eqb_refl in S0. unfold b2z in S0.
    pose proof (numOf_lt (handOf p (turn p)) _ Hh).
    destruct (plusOne_spec (handOf q (turn p)) (ptToHand (mvPtDropped m)) Ok' Hh ltac:(lia)) as [A B].
    apply handOk_ext; auto. intros hp Hhp. rewrite B by auto. specialize (Sp hp Hhp). unfold b2z in Sp.
    destruct (ptToHand (mvPtDropped m) =? hp); lia.
  - destruct (N.eqb_spec (mvCap m) 0) as [E0|E0]; cbn [negb andb] in *; [reflexivity|].
    pose proof X as (_ & _ & _ & _ & _ & Hcap & _). assert (Hh : ptToHand (mvCap m) < 7) by (destruct Hcap as [[_ ?]|(_ & ? & ?)]; [congruence|now apply ptToHand_lt]).
    apply R. pose proof (Sp _ Hh) as S0. rewrite N.eqb_refl in S0. unfold b2z in S0.
    destruct (minusOne_spec (handOf q (turn p)) (ptToHand (mvCap m)) Ok' Hh ltac:(lia)) as [A B].
    apply handOk_ext; auto. intros hp Hhp. rewrite B by auto. specialize (Sp hp Hhp). unfold b2z in Sp.
    destruct (ptToHand (mvCap m) =? hp); lia.
Qed.

Lemma undo_kings : undoKq q m = kingSq p.
Proof.
  unfold undoKq. rewrite uT. unfold q. rewrite doMoveCI_kings. destruct W as [X|X].
  - destruct X as (-> & _). reflexivity.
  - pose proof (wfGo_from p m X) as Hf. pose proof X as (Hd & Hne & Hto & Hpf & Hat & Hcap & Hpr). pose proof (wfGo_ptTo p m X) as (_ & H8 & _).
    rewrite Hd. cbn [negb andb]. unfold King. destruct (N.eqb_spec (mvPtToOf m (mvPtFrom m)) 8) as [E|E]; [|reflexivity].
    rewrite updN_updN. rewrite (v_king p V). unfold kingsOf. rewrite updN_2 by apply uTlt.
    assert (K : kingOf (board p) (turn p) = mvFrom m).
    { apply kingOf_eq; auto; [apply uTlt|]. unfold isKing. change (at_ (board p) (mvFrom m)) with (pieceAt p (mvFrom m)). rewrite Hat, (proj1 H8 E). apply N.eqb_refl. }
    rewrite <- K. apply (pair_same (kingOf (board p))), uTlt.
Qed.

Lemma undo_byColor : undoBC q m = byColor p.
Proof.
  pose proof uVq as Vq. pose proof uTlt as Ht. pose proof uOlt as Ho. rewrite (v_color p V).
  unfold undoBC. rewrite uT, uT'. cbv zeta.
  destruct W as [X|X]; pose proof X as (Hd & _); rewrite Hd.
  - pose proof X as (_ & Hp & Hto & He & _). apply byColor_ext.
    + rewrite length_xorAt. now apply lenC_nat.
    + intros j Hj. apply wf_xorAt; rewrite ?len_C; auto; now apply view_wfC.
    + intros j x Hj Hx. rewrite isSet_xorAt, view_isCol by (rewrite ?len_C; auto). rewrite uB. unfold isCol. rewrite (at_newDrop p m x V X).
      change (at_ (board p) x) with (pieceAt p x). destruct (N.eqb_spec (mvTo m) x) as [E|E].
      * subst x. rewrite He, col_mk, mk_nz by (auto; lia). cbn [negb andb]. rewrite andb_true_r. apply xorb_nilpotent.
      * now rewrite andb_false_r, xorb_false_r.
  - pose proof (wfGo_from p m X) as Hf. pose proof X as (_ & Hne & Hto & Hpf & Hat & Hcap & Hpr). pose proof (wfGo_ptTo p m X) as (Hpt & _).
    set (bc1 := if negb (mvCap m =? 0) then xorAt (byColor q) (opp (turn p)) (mvTo m) else byColor q).
    assert (L1 : length bc1 = 2%nat) by (unfold bc1; destruct (negb _); rewrite ?length_xorAt; now apply lenC_nat).
    assert (W1 : forall j, j < 2 -> wfBB (nthN allZeroBB bc1 j)).
    { intros j Hj. unfold bc1. destruct (negb _); [apply wf_xorAt; rewrite ?len_C; auto|]; now apply view_wfC. }
    assert (S1 : forall j x, j < 2 -> x < 81 -> isSet (nthN allZeroBB bc1 j) x = xorb (isCol (newBoard p m) j x) (negb (mvCap m =? 0) && ((opp (turn p) =? j) && (mvTo m =? x)))).
    { intros j x Hj Hx. unfold bc1. destruct (negb _); cbn [andb]; [rewrite isSet_xorAt by (rewrite ?len_C; auto)|rewrite xorb_false_r]; rewrite view_isCol, uB; auto. }
    apply byColor_ext.
    + now rewrite length_updN.
    + intros j Hj. rewrite nthN_updN by (rewrite L1; exact Ht). destruct (turn p =? j); [apply wf_xorBit2; auto|now apply W1].
    + intros j x Hj Hx. rewrite nthN_updN by (rewrite L1; exact Ht).
      assert (G : isSet (if turn p =? j then xorBit2 (nthN allZeroBB bc1 (turn p)) (mvFrom m) (mvTo m) else nthN allZeroBB bc1 j) x
        = xorb (xorb (isCol (newBoard p m) j x) (negb (mvCap m =? 0) && ((opp (turn p) =? j) && (mvTo m =? x)))) ((turn p =? j) && ((mvFrom m =? x) || (mvTo m =? x)))).
      { destruct (N.eqb_spec (turn p) j) as [<-|E]; cbn [andb].
        - rewrite isSet_xorBit2 by auto. rewrite S1 by auto. destruct (xorb _ _), (N.eqb_spec (mvFrom m) x), (N.eqb_spec (mvTo m) x); try reflexivity; congruence.
        - rewrite xorb_false_r. now apply S1. }
      rewrite G. unfold isCol. rewrite (at_newGo p m x V X). change (at_ (board p) x) with (pieceAt p x).
      destruct (N.eqb_spec (mvTo m) x) as [E|E].
      * subst x. rewrite orb_true_r, !andb_true_r. rewrite col_mk, mk_nz by auto. cbn [negb andb].
        destruct Hcap as [[Hz ->]|(Hz & Hc & Hc8)].
        -- rewrite Hz. change (negb (0 =? 0)) with false. cbn [andb]. rewrite xorb_false_r. apply xorb_nilpotent.
        -- rewrite Hz. rewrite col_mk, mk_nz by auto. replace (mvCap m =? 0) with false by lia. cbn [negb andb].
           rewrite xorb_comm, <- xorb_assoc, xorb_nilpotent. apply xorb_false_l.
      * rewrite orb_false_r, !andb_false_r, xorb_false_r. destruct (N.eqb_spec (mvFrom m) x) as [E'|E'].
        -- subst x. rewrite Hat. rewrite col_mk, mk_nz by auto. change (negb (0 =? 0)) with false. cbn [negb andb]. rewrite andb_true_r. apply xorb_false_l.
        -- now rewrite andb_false_r, xorb_false_r.
Qed.

Lemma undo_byType : undoBT q m = byType p.
Proof.
  pose proof uVq as Vq. pose proof uTlt as Ht. pose proof uOlt as Ho. unfold undoBT. rewrite undo_byColor. rewrite (v_type p V).
  assert (L0 : length (undoBT0 q m) = 15%nat).
  { unfold undoBT0. destruct (mvDrop m); rewrite ?length_xorAt; [now apply lenT_nat|]. destruct (negb _); rewrite ?length_xorAt; now apply lenT_nat. }
  assert (Z : forall j, j < 15 -> wfBB (nthN allZeroBB (undoBT0 q m) j) /\ (1 <= j -> forall x, x < 81 -> isSet (nthN allZeroBB (undoBT0 q m) j) x = isPt (board p) j x)).
  { intros j Hj. unfold undoBT0. destruct W as [X|X]; pose proof X as (Hd & _); rewrite Hd.
    - pose proof X as (_ & Hp & Hto & He & _). split; [apply wf_xorAt; rewrite ?len_T; auto; try lia; apply view_wfT; auto; lia|].
      intros Hj1 x Hx. rewrite isSet_xorAt, view_isPt by (rewrite ?len_T; auto; lia). rewrite !isPt_pos by auto. rewrite uB, (at_newDrop p m x V X).
      change (at_ (board p) x) with (pieceAt p x). destruct (N.eqb_spec (mvTo m) x) as [E|E].
      + subst x. rewrite He, pt_mk by (auto; lia). change (ptOf 0) with 0. replace (0 =? j) with false by lia. rewrite andb_true_r. apply xorb_nilpotent.
      + now rewrite andb_false_r, xorb_false_r.
    - pose proof (wfGo_from p m X) as Hf. pose proof X as (_ & Hne & Hto & Hpf & Hat & Hcap & Hpr). pose proof (wfGo_ptTo p m X) as (Hpt & _).
      assert (Hc15 : mvCap m < 15) by (destruct Hcap as [[_ ->]|(_ & ? & _)]; lia).
      set (bt1 := if negb (mvCap m =? 0) then xorAt (byType q) (mvCap m) (mvTo m) else byType q).
      assert (L1 : N.of_nat (length bt1) = 15) by (unfold bt1; destruct (negb _); rewrite ?length_xorAt; now apply len_T).
      assert (W1 : forall j, j < 15 -> wfBB (nthN allZeroBB bt1 j)).
      { intros i Hi. unfold bt1. destruct (negb _); [apply wf_xorAt; rewrite ?len_T; auto|]; now apply view_wfT. }
      assert (S1 : forall x, x < 81 -> isSet (nthN allZeroBB bt1 j) x = xorb (isPt (newBoard p m) j x) (negb (mvCap m =? 0) && ((mvCap m =? j) && (mvTo m =? x)))).
      { intros x Hx. unfold bt1. destruct (negb _); cbn [andb]; [rewrite isSet_xorAt by (rewrite ?len_T; auto)|rewrite xorb_false_r]; rewrite view_isPt, uB; auto. }
      split.
      + apply wf_xorAt; rewrite ?length_xorAt, ?L1; auto; try lia; apply wf_xorAt; rewrite ?L1; auto; try lia; apply W1; lia.
      + intros Hj1 x Hx. rewrite !isSet_xorAt by (rewrite ?length_xorAt, ?L1; auto; lia). rewrite S1 by auto. rewrite !isPt_pos by auto.
        rewrite (at_newGo p m x V X). change (at_ (board p) x) with (pieceAt p x). destruct (N.eqb_spec (mvTo m) x) as [E|E].
        * subst x. rewrite (proj2 (N.eqb_neq _ _) Hne), andb_false_r, xorb_false_r, !andb_true_r. rewrite pt_mk by auto.
          destruct Hcap as [[Hz ->]|(Hz & Hc & Hc8)].
          -- rewrite Hz. change (negb (0 =? 0)) with false. cbn [andb]. rewrite xorb_false_r. change (ptOf 0) with 0. replace (0 =? j) with false by lia. apply xorb_nilpotent.
          -- rewrite Hz. rewrite pt_mk by auto. replace (mvCap m =? 0) with false by lia. cbn [negb andb].
             rewrite xorb_comm, <- xorb_assoc, xorb_nilpotent. apply xorb_false_l.
        * rewrite !andb_false_r, !xorb_false_r. destruct (N.eqb_spec (mvFrom m) x) as [E'|E'].
          -- subst x. rewrite Hat, pt_mk by auto. change (ptOf 0) with 0. replace (0 =? j) with false by lia. rewrite andb_true_r. apply xorb_false_l.
          -- now rewrite andb_false_r, xorb_false_r. }
  apply byType_ext.
  - now rewrite length_updN.
  - intros j Hj. rewrite nthN_updN by (rewrite L0; cbv; reflexivity). destruct (Occupied =? j); [|now apply Z].
    apply wf_or; apply view_wfC; auto; cbv; reflexivity.
  - intros j x Hj Hx. rewrite nthN_updN by (rewrite L0; cbv; reflexivity). unfold Occupied. destruct (N.eqb_spec 0 j) as [<-|E].
    + unfold Black, White. rewrite isSet_or, !view_isCol by (auto; cbv; reflexivity). rewrite isCol_or by (auto; apply V). reflexivity.
    + apply Z; auto. lia.
Qed.

Theorem undo_doMoveCI : undoMove q m = p.
Proof.
  rewrite undoMove_fields. apply mkPos_ext; cbn [byType byColor golds board kingSq hands turn gamePly st prev].
  - apply undo_byType.
  - apply undo_byColor.
  - rewrite undo_byType. symmetry. apply V.
  - apply undo_board.
  - apply undo_kings.
  - apply undo_hands.
  - apply uT.
  - unfold q. rewrite doMoveCI_ply. lia.
  - unfold q. now rewrite doMoveCI_prev.
  - unfold q. now rewrite doMoveCI_prev.
Qed.
End U.
