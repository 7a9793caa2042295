(* A position with one piece taken off: what the finder of mates in one works on. *)
From Verif Require Export Mate1Core.
Local Open Scope N_scope.

Definition off (p : Position) (pt from : N) : Position :=
  mkPos (xorAt (xorAt (byType p) Occupied from) pt from) (xorAt (byColor p) (turn p) from)
        (if isGoldLike pt then xorBit (golds p) from else golds p)
        (updN (board p) from 0) (kingSq p) (hands p) (turn p) (gamePly p) (st p) (prev p).
Lemma lift_off p pt from : lifted p pt from = mkPos (byType (off p pt from)) (byColor (off p pt from)) (golds (off p pt from)) (board p) (kingSq (off p pt from)) (hands p) (turn p) (gamePly p) (st p) (prev p).
Proof. reflexivity. Qed.
Lemma at_off p from x : views p -> from < 81 -> at_ (updN (board p) from 0) x = if from =? x then 0 else at_ (board p) x.
Proof. intros V H. apply at_upd. now rewrite len_board. Qed.
Lemma views_off p pt from : views p -> from < 81 -> at_ (board p) from = mkPiece (turn p) pt -> 1 <= pt < 15 -> pt <> 8 -> views (off p pt from).
Proof.
  intros V Hf A Hp N8. pose proof (v_turn p V) as Ht.
  assert (LT : N.of_nat (length (xorAt (byType p) Occupied from)) = 15) by (rewrite length_xorAt; now apply len_T).
  assert (OL : Occupied < N.of_nat (length (byType p))) by (rewrite len_T; auto; reflexivity).
  assert (WT : forall j, j < 15 -> wfBB (nthN allZeroBB (xorAt (xorAt (byType p) Occupied from) pt from) j)).
  { intros j Hj. apply wf_xorAt; rewrite ?LT; try lia; auto; apply wf_xorAt; auto; apply view_wfT; auto; try reflexivity; lia. }
  assert (ST : forall j s, j < 15 -> s < 81 -> isSet (nthN allZeroBB (xorAt (xorAt (byType p) Occupied from) pt from) j) s = isPt (updN (board p) from 0) j s).
  { intros j s Hj Hs. rewrite !isSet_xorAt, view_isPt by (rewrite ?LT; auto; lia). unfold isPt. rewrite at_off by auto. unfold Occupied. destruct (N.eqb_spec from s) as [<-|N].
    - rewrite A, !andb_true_r, pt_mk, mk_nz by auto. rewrite (N.eqb_sym 0 j). destruct (N.eqb_spec j 0) as [->|Nj].
      + replace (pt =? 0) with false by (symmetry; apply N.eqb_neq; lia). reflexivity.
      + change (ptOf 0) with 0. rewrite (proj2 (N.eqb_neq 0 j)) by auto. rewrite xorb_false_r. apply xorb_nilpotent.
    - now rewrite !andb_false_r, !xorb_false_r. }
  assert (OKB : okBoard (updN (board p) from 0)) by (apply DoMoveProofs.okBoard_upd; [apply V|reflexivity]).
  constructor; cbn [off board byType byColor golds kingSq turn].
  - exact OKB.
  - apply byType_ext; auto. rewrite !length_xorAt. now apply lenT_nat.
  - apply byColor_ext.
    + rewrite length_xorAt. now apply lenC_nat.
    + intros j Hj. apply wf_xorAt; rewrite ?len_C; auto; apply view_wfC; auto.
    + intros j s Hj Hs. rewrite isSet_xorAt, view_isCol by (rewrite ?len_C; auto). unfold isCol. rewrite at_off by auto. destruct (N.eqb_spec from s) as [<-|N].
      * rewrite A, mk_nz, col_mk, andb_true_r by auto. cbn [negb andb N.eqb]. apply xorb_nilpotent.
      * now rewrite andb_false_r, xorb_false_r.
  - apply BB_ext.
    + assert (W : wfBB (golds p)) by (rewrite golds_view by auto; apply wf_fbb). destruct (isGoldLike pt); auto. now apply wf_xorBit.
    + unfold goldsOf. repeat apply wf_or; apply WT; reflexivity.
    + intros s Hs. unfold goldsOf. rewrite !isSet_or. unfold Gold, ProPawn, ProLance, ProKnight, ProSilver. rewrite !ST by (auto; reflexivity). rewrite !isPt_pos by lia. rewrite at_off by auto.
      assert (E : isSet (if isGoldLike pt then xorBit (golds p) from else golds p) s = xorb (isGoldPt (ptOf (at_ (board p) s))) (isGoldPt pt && (from =? s))).
      { change (isGoldLike pt) with (isGoldPt pt). destruct (isGoldPt pt); [rewrite isSet_xorBit by auto|]; rewrite isSet_golds by auto; [reflexivity|now rewrite xorb_false_r]. }
      rewrite E. unfold isGoldPt. destruct (N.eqb_spec from s) as [<-|N].
      * rewrite A, pt_mk, andb_true_r by auto. change (ptOf 0) with 0. cbn. apply xorb_nilpotent.
      * now rewrite andb_false_r, xorb_false_r.
  - rewrite (v_king p V). unfold kingsOf. assert (K : forall c, c < 2 -> kingOf (board p) c = kingOf (updN (board p) from 0) c).
    { intros c Hc. apply kingOf_ext. intros s Hs. unfold isKing. rewrite at_off by auto. destruct (N.eqb_spec from s) as [<-|N]; [|reflexivity]. rewrite A, isKing_mk, isKing_0 by auto. rewrite (proj2 (N.eqb_neq pt 8)) by auto. apply andb_false_r. }
    rewrite !K by (cbv; reflexivity). reflexivity.
  - exact Ht.
Qed.

(* the squares a piece bars to the king it checks, as the finder passes them *)
Definition nbTab (pt us t : N) : BB :=
  match pt with
  | 2 => lanceAttackToEdge us t | 4 => silverAttack us t | 5 => bishopAttackToEdge t | 6 => rookAttackToEdge t
  | 7 | 9 | 10 | 11 | 12 => goldAttack us t | 13 => horseAttackToEdge t | _ => allZeroBB
  end.
Lemma nbTab_banned q us t ko : 1 <= ptOf (pieceAt q t) < 15 -> ptOf (pieceAt q t) <> 14 -> bannedBy q us t ko = nbTab (ptOf (pieceAt q t)) us t.
Proof.
  intros Hp N. unfold bannedBy. generalize dependent (ptOf (pieceAt q t)). intros pt Hp N.
  destruct (pt_cases pt Hp) as [->|[->|[->|[->|[->|[->|[->|[->|[->|[->|[->|[->|[->| ->]]]]]]]]]]]]]; try contradiction; reflexivity.
Qed.
