(* Book keys: the predicted key is the key after the move. *)
From Verif Require Export HistProofs Book.
Local Open Scope N_scope.

Fixpoint xsum (f : N -> N) (l : list N) : N := match l with | [] => 0 | a :: l => N.lxor (f a) (xsum f l) end.
Lemma xsum_fold f : forall l k, fold_left (fun k s => N.lxor k (f s)) l k = N.lxor k (xsum f l).
Proof. induction l as [|a l IH]; intros k; cbn [fold_left xsum]; [now rewrite N.lxor_0_r|]. now rewrite IH, N.lxor_assoc. Qed.
Lemma xsum_ext f g l : (forall x, In x l -> f x = g x) -> xsum f l = xsum g l.
Proof. intros H. induction l as [|a l IH]; cbn [xsum]; auto. rewrite (H a) by now left. f_equal. apply IH. intros x Hx. apply H. now right. Qed.
Lemma xsum_filter f (b : N -> bool) l : xsum f (filter b l) = xsum (fun s => if b s then f s else 0) l.
Proof. induction l as [|a l IH]; cbn [filter xsum]; auto. destruct (b a); cbn [xsum]; rewrite IH; [reflexivity|now rewrite N.lxor_0_l]. Qed.
Ltac xs := repeat rewrite N.lxor_assoc; repeat rewrite N.lxor_0_r; repeat rewrite N.lxor_0_l.
Lemma lxor_swap a b c : N.lxor a (N.lxor b c) = N.lxor b (N.lxor a c).
Proof. now rewrite <- !N.lxor_assoc, (N.lxor_comm a b). Qed.
Lemma lxor_twice a b : N.lxor a (N.lxor a b) = b.
Proof. now rewrite <- N.lxor_assoc, N.lxor_nilpotent, N.lxor_0_l. Qed.
(* changing the summand at one place *)
Lemma xsum_change f g a l : NoDup l -> In a l -> (forall x, In x l -> x <> a -> f x = g x) -> xsum g l = N.lxor (xsum f l) (N.lxor (f a) (g a)).
Proof.
  induction l as [|b l IH]; intros ND Hi H; [destruct Hi|]. inversion ND as [|? ? Nb ND']; subst. cbn [xsum]. destruct Hi as [->|Hi].
  - rewrite (xsum_ext f g l) by (intros x Hx; apply H; [now right|intros ->; contradiction]).
    rewrite (N.lxor_comm (f a) (g a)), (lxor_swap (N.lxor (f a) (xsum g l))). rewrite N.lxor_assoc, (N.lxor_comm (xsum g l)), lxor_twice. reflexivity.
  - assert (a <> b) by congruence. rewrite (H b) by (auto; now left). rewrite IH by (auto; intros x Hx; apply H; now right). now rewrite N.lxor_assoc.
Qed.

Definition sqv (z : BookZob) (bd : list N) (s : N) : N := if negb (at_ bd s =? 0) then bzPiece z (at_ bd s) s else 0.
Definition boardX (z : BookZob) (bd : list N) : N := xsum (sqv z bd) squares.
Definition handX (z : BookZob) (h : N) : N := xsum (fun hp => bzHand z hp (numOf h hp)) (seqN 0 7).
Lemma xorHand_eq z h k : xorHand z h k = N.lxor k (handX z h).
Proof. apply (xsum_fold (fun hp => bzHand z hp (numOf h hp))). Qed.
Lemma bookKey_eq z p : views p -> bookKey z p = N.lxor (N.lxor (boardX z (board p)) (handX z (handOf p (turn p)))) (if turn p =? 1 then bzTurn z else 0).
Proof.
  intros V. unfold bookKey. cbv zeta. rewrite (xsum_fold (fun sq => bzPiece z (pieceAt p sq) sq)), xorHand_eq, N.lxor_0_l.
  rewrite bbList_filter by now apply wf_occBB. rewrite xsum_filter.
  assert (E : xsum (fun s => if isSet (occBB p) s then bzPiece z (pieceAt p s) s else 0) squares = boardX z (board p)).
  { apply xsum_ext. intros x Hx. apply in_squares in Hx. rewrite isSet_occBB by auto. reflexivity. }
  rewrite E. unfold White. destruct (turn p =? 1); [reflexivity|now rewrite N.lxor_0_r].
Qed.
Lemma sqv_upd z bd s v : length bd = 81%nat -> s < 81 -> boardX z (updN bd s v) = N.lxor (boardX z bd) (N.lxor (sqv z bd s) (if negb (v =? 0) then bzPiece z v s else 0)).
Proof.
  intros L Hs. unfold boardX. rewrite (xsum_change (sqv z bd) (sqv z (updN bd s v)) s squares NoDup_squares).
  - f_equal. f_equal. unfold sqv, at_. now rewrite nthN_updN_eq by lia.
  - now apply in_squares.
  - intros x _ Hn. unfold sqv, at_. rewrite nthN_updN_neq by auto. reflexivity.
Qed.
Lemma mvIsCapture_eq m : mvIsCapture m = negb (mvCap m =? 0).
Proof.
  unfold mvIsCapture, mvCap. f_equal. change 0xf00000 with (N.shiftl 15 20). change 0xf with 15.
  assert (E : N.land m (N.shiftl 15 20) = N.shiftl (N.land (N.shiftr m 20) 15) 20).
  { apply N.bits_inj. intros i. rewrite N.land_spec. destruct (N.ltb_spec i 20) as [H|H].
    - rewrite !N.shiftl_spec_low by auto. apply andb_false_r.
    - rewrite !N.shiftl_spec_high' by auto. rewrite N.land_spec, N.shiftr_spec'. now rewrite N.sub_add by auto. }
  rewrite E. destruct (N.eqb_spec (N.land (N.shiftr m 20) 15) 0) as [X|X].
  - rewrite X. now rewrite N.shiftl_0_l.
  - apply N.eqb_neq. intros Y. apply X. apply N.shiftl_eq_0_iff in Y. exact Y.
Qed.
Theorem bookKeyAfter_ok zb z p m ci b : views p -> length (hands p) = 2%nat -> oneKing (board p) -> wfMove p m ->
  bookKeyAfter zb p (bookKey zb p) m = bookKey zb (doMoveCI z p m ci b).
Proof.
  intros V Lh O W. destruct (views_doMoveCI z p m ci b V O W) as [V' _]. rewrite (bookKey_eq zb p V), (bookKey_eq zb _ V'). rewrite doMoveCI_board, doMoveCI_turn. unfold handOf at 2. rewrite doMoveCI_hands.
  pose proof (v_turn p V) as Ht. pose proof (proj1 (v_board p V)) as Lb.
  assert (Eh : nthN 0 (newHands p m) (opp (turn p)) = handOf p (opp (turn p))).
  { unfold newHands. assert (N := opp_neq _ Ht). destruct (mvDrop m); [rewrite nthN_updN_neq by auto; reflexivity|]. destruct (negb _); [rewrite nthN_updN_neq by auto; reflexivity|reflexivity]. }
  rewrite Eh. unfold bookKeyAfter. cbv zeta. rewrite !xorHand_eq.
  assert (Et : (if opp (turn p) =? 1 then bzTurn zb else 0) = N.lxor (if turn p =? 1 then bzTurn zb else 0) (bzTurn zb)).
  { assert (turn p = 0 \/ turn p = 1) as [->| ->] by lia; [now rewrite N.lxor_0_l|]. change (opp 1 =? 1) with false. change (1 =? 1) with true. cbn [N.eqb]. symmetry. apply N.lxor_nilpotent. }
  rewrite Et. clear Et.
  assert (F : forall A H H' T Z X, N.lxor (N.lxor (N.lxor (N.lxor (N.lxor (N.lxor A H) T) X) H) H') Z = N.lxor (N.lxor (N.lxor A X) H') (N.lxor T Z)).
  { clear. intros. apply N.bits_inj. intros i. rewrite !N.lxor_spec. destruct (N.testbit A i), (N.testbit H i), (N.testbit H' i), (N.testbit T i), (N.testbit Z i), (N.testbit X i); reflexivity. }
  unfold newBoard. destruct W as [W|W].
  - destruct W as (Hd & Hp & Hto & He & Hn). rewrite Hd. rewrite sqv_upd by auto. rewrite mk_nz by (auto; lia). cbn [negb].
    change (sqv zb (board p) (mvTo m)) with (if negb (pieceAt p (mvTo m) =? 0) then bzPiece zb (pieceAt p (mvTo m)) (mvTo m) else 0). rewrite He. cbn [negb]. change (0 =? 0) with true. cbn [negb]. rewrite N.lxor_0_l. apply F.
  - destruct W as (Hd & Hne & Hto & Hp & Hfr & Hcap & Hpr). rewrite Hd.
    assert (Hf : mvFrom m < 81) by (unfold mvDrop in Hd; apply N.leb_gt in Hd; exact Hd).
    assert (Hpt : 1 <= mvPtToOf m (mvPtFrom m) < 15).
    { rewrite mvPtToOf_eq. destruct (mvPromo m) eqn:E; [specialize (Hpr eq_refl)|]; lia. }
    rewrite sqv_upd by (auto; now rewrite length_updN). rewrite sqv_upd by auto. rewrite mk_nz by auto. change (0 =? 0) with true. cbn [negb].
    assert (S1 : sqv zb (updN (board p) (mvFrom m) 0) (mvTo m) = sqv zb (board p) (mvTo m)) by (unfold sqv, at_; now rewrite nthN_updN_neq by auto).
    rewrite S1. assert (S2 : sqv zb (board p) (mvFrom m) = bzPiece zb (pieceAt p (mvFrom m)) (mvFrom m)).
    { unfold sqv. change (at_ (board p) (mvFrom m)) with (pieceAt p (mvFrom m)). rewrite Hfr, mk_nz by auto. reflexivity. }
    rewrite S2. unfold mvPtTo. rewrite Hd, mvIsCapture_eq. unfold sqv. change (at_ (board p) (mvTo m)) with (pieceAt p (mvTo m)).
    destruct Hcap as [[E1 E2]|(E1 & E2 & _)].
    + rewrite E1, E2. change (0 =? 0) with true. cbn [negb]. rewrite N.lxor_0_l, N.lxor_0_r. 
      apply N.bits_inj. clear. intros i. rewrite !N.lxor_spec.
      repeat match goal with |- context [N.testbit ?x i] => generalize (N.testbit x i); intros end. repeat match goal with b : bool |- _ => destruct b end; reflexivity.
    + assert (Q : negb (mvCap m =? 0) = true) by (apply negb_true_iff, N.eqb_neq; lia). rewrite Q. assert (Q' : negb (pieceAt p (mvTo m) =? 0) = true) by (rewrite E1, mk_nz by (auto using opp_lt); reflexivity). rewrite Q', ?N.lxor_0_r.
      apply N.bits_inj. clear. intros i. rewrite !N.lxor_spec.
      repeat match goal with |- context [N.testbit ?x i] => generalize (N.testbit x i); intros end. repeat match goal with b : bool |- _ => destruct b end; reflexivity.
Qed.
