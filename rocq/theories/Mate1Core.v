(* When a move mates: the conditions on the board after it, and the helper tests that establish them. *)
From Verif Require Export GenClaims Mate1 MateSpec.
Local Open Scope N_scope.

Definition noReply (q : Position) : Prop :=
  forall f y pr, f < 128 -> y < 81 -> plSet q f y pr -> inCheckB (newBoard q (enc q f y pr)) (turn q) = true.
Lemma newHands_other p m : length (hands p) = 2%nat -> turn p < 2 -> nthN 0 (newHands p m) (opp (turn p)) = handOf p (opp (turn p)).
Proof.
  intros L H. pose proof (opp_neq _ H) as N. unfold newHands. destruct (mvDrop m); [|destruct (negb (mvCap m =? 0)); [|reflexivity]].
  - rewrite handOf_upd by auto. rewrite (proj2 (N.eqb_neq _ _)); auto.
  - rewrite handOf_upd by auto. rewrite (proj2 (N.eqb_neq _ _)); auto.
Qed.
Lemma mates_N p f t pr : good p -> f < 128 -> f <> 81 -> t < 81 -> plSet p f t pr -> inCheckB (newBoard p (enc p f t pr)) (turn p) = false ->
  (forall q, good q -> turn q = opp (turn p) -> board q = newBoard p (enc p f t pr) -> handOf q (opp (turn p)) = handOf p (opp (turn p)) ->
     inCheckB (board q) (turn q) = true /\ noReply q) -> mates (abs p) (mvOf f t pr).
Proof.
  intros G Hf Nf Ht P S H. pose proof (good_turn p G) as Hu. set (z := mkZob (fun _ _ _ => 0) (fun _ _ => 0)).
  destruct (mvOf_pl p f t pr G Ht P) as [PL EC]. assert (L0 : legal_but_drop_mate (abs p) (mvOf f t pr)) by now apply legal0_N.
  pose proof (good_doMove z p _ G L0) as Gq. pose proof (abs_doMoveCI z p _ (checkInfo p) (moveGivesCheck p (code p (mvOf f t pr)) (checkInfo p)) G PL) as SP.
  change (doMoveCI z p (code p (mvOf f t pr)) (checkInfo p) (moveGivesCheck p (code p (mvOf f t pr)) (checkInfo p))) with (doMove z p (code p (mvOf f t pr))) in SP.
  assert (Eb : board (doMove z p (code p (mvOf f t pr))) = newBoard p (enc p f t pr)) by (unfold doMove; cbv zeta; rewrite doMoveCI_board, EC; reflexivity).
  assert (Et : turn (doMove z p (code p (mvOf f t pr))) = opp (turn p)) by (unfold doMove; cbv zeta; apply doMoveCI_turn).
  assert (Eh : handOf (doMove z p (code p (mvOf f t pr))) (opp (turn p)) = handOf p (opp (turn p))).
  { unfold doMove, handOf at 1. cbv zeta. rewrite doMoveCI_hands. apply newHands_other; auto. apply (g_hands p G). }
  revert Gq SP Eb Et Eh. generalize (doMove z p (code p (mvOf f t pr))) as q. intros q Gq SP Eb Et Eh.
  destruct (H q Gq Et Eb Eh) as [IC NR]. split; [split; [exact L0|]|split].
  - intros ((y & E) & _). unfold mvOf in E. destruct (N.ltb_spec f 81) as [L|L]; [discriminate E|]. injection E as Ek _. apply (f_equal nkind) in Ek. unfold plSet in P.
    assert (L' : (f <? 81) = false) by (apply N.ltb_ge; lia). rewrite L' in P. destruct P as (_ & F & _). rewrite kind_inv' in Ek by lia. change (nkind FU) with 1 in Ek. lia.
  - eapply in_check_same; [exact SP|]. pose proof (in_check_abs q (turn q) (good_ok q Gq) (g_one q Gq) (good_turn q Gq)) as IA. rewrite Et, colorN_opp in IA by auto. apply IA. rewrite <- Et. exact IC.
  - intros r [Lr _]. apply (legal0_same _ (abs q)) in Lr; [|apply same_sym; exact SP]. pose proof Lr as [PLr _]. destruct (pl_mvOf q _ Gq PLr) as (f' & y & pr' & Hf' & Hy & P' & EM). rewrite EM in Lr.
    apply legal0_N in Lr; auto. rewrite (NR f' y pr' Hf' Hy P') in Lr. discriminate Lr.
Qed.

Lemma clear_same (occ occ' : N -> bool) s t : (forall y, In y (betw s t) -> occ y = occ' y) -> clear occ s t = clear occ' s t.
Proof. intros H. apply eq_true_iff_eq. rewrite !clear_iff. split; intros C y Hy; specialize (C y Hy); [rewrite <- H|rewrite H]; auto. Qed.
(* equations to rewrite with: unfolding these in a hypothesis makes the kernel compute *)
Lemma canPieceCaptureDc_eq p them sq dc : canPieceCaptureDc p them sq dc = existsb (fun from => negb (isDiscoveredCheck from sq (kingSquare p them) dc)) (bbList (attackersToExceptKing p them sq)).
Proof. reflexivity. Qed.
Section Q.
(* q: the position of the side th in check; its king is on ko *)
Variables (q : Position) (us th ko : N) (bq : list N).
Hypotheses (Gq : good q) (Etq : turn q = th) (Eth : opp th = us) (Ebq : board q = bq) (king_q : kingOf bq th = ko) (Ho : ko < 81).
Lemma qU : th < 2. Proof. rewrite <- Etq. apply (good_turn q Gq). Qed.
Lemma check_by x : chkr th ko bq x -> inCheckB (board q) (turn q) = true.
Proof.
  intros (Hx & Cx & A). rewrite Etq, Ebq. unfold inCheckB. rewrite king_q, (proj2 (N.ltb_lt _ _) Ho), andb_true_l. apply existsb_exists. exists x. split; [now apply in_squares|]. now rewrite Cx, A.
Qed.
Lemma no_reply :
  (forall y, y < 81 -> reach 8 th ko y = true -> isCol bq th y = false -> exists x, x < 81 /\ isCol bq us x = true /\ attOcc bq (occGo bq ko y) x y = true) ->
  (forall f y pr, f < 81 -> f <> ko -> y < 81 -> plSet q f y pr -> isPinnedIllegal f y ko (pinnedBB q) = true \/ exists x, chkr th ko bq x /\ y <> x /\ ~ In y (betw x ko)) ->
  (forall f y pr, 81 <= f < 128 -> y < 81 -> plSet q f y pr -> exists x, chkr th ko bq x /\ ~ In y (betw x ko)) -> noReply q.
Proof.
  intros HK HG HD f y pr Hf Hy P. apply not_false_iff_true. intros S. rewrite Etq in S. destruct (N.ltb_spec f 81) as [L|L].
  - destruct (N.eq_dec f ko) as [->|Nf].
    + destruct (pl_wf q Gq ko y pr Hf Hy P) as (W & PG & Et & Ef & Ed). rewrite (proj2 (N.ltb_lt _ _) Ho) in Ed.
      assert (X : wfGo q (enc q ko y pr)) by (destruct W as [W|W]; auto; destruct W as (D & _); rewrite Ed in D; discriminate D).
      destruct (king_reach q (enc q ko y pr) th ko bq (g_views q Gq) PG Etq Ebq king_q Ho X Ef) as [R _]. rewrite Et in R.
      pose proof (proj1 (safe_king q (enc q ko y pr) th ko bq _ (g_views q Gq) (g_one q Gq) W Etq Ebq eq_refl king_q Ho X Ef) S) as SK. rewrite Et, Eth in SK.
      destruct (HK y Hy R) as (x & Hx & Cx & A); [exact (pl_col q th bq Etq Ebq ko y pr Hy P)|]. rewrite (SK x Hx Cx) in A. discriminate A.
    + apply (go_safe q th ko bq Gq Etq Ebq king_q Ho f y pr L Hy P Nf) in S as [S1 S2]. destruct (HG f y pr L Nf Hy P) as [E|(x & X & N1 & N2)]; [congruence|]. destruct (S2 x X); auto.
  - destruct (HD f y pr (conj L Hf) Hy P) as (x & X & N). apply (drop_safe q th ko bq Gq Etq Ebq king_q Ho f y pr (conj L Hf) Hy P) with (x := x) in S; auto.
Qed.
(* check from next to the king or by a knight *)
Lemma no_reply_near t : chkr th ko bq t -> (forall y, ~ In y (betw t ko)) ->
  (forall y, y < 81 -> reach 8 th ko y = true -> isCol bq th y = false -> exists x, x < 81 /\ isCol bq us x = true /\ attOcc bq (occGo bq ko y) x y = true) ->
  ((forall f, f < 81 -> f <> ko -> isCol bq th f = true -> att bq f t = true -> isPinnedIllegal f t ko (pinnedBB q) = true) \/ exists x, chkr th ko bq x /\ x <> t) -> noReply q.
Proof.
  intros C NB HK HC. apply no_reply; auto.
  - intros f y pr Hf Nf Hy P. destruct (N.eq_dec y t) as [->|Ny]; [|right; exists t; auto].
    destruct HC as [HC|(x & X & Nx)].
    + left. destruct (pl_own q th bq Etq Ebq f t pr Hf P) as [Cf A]. auto.
    + right. exists x. split; auto. split; auto. intros I. apply (two_checkers q th ko bq Ebq Ho t x t); auto.
  - intros f y pr Hf Hy P. exists t. auto.
Qed.
End Q.
Section L.
(* p2: the position with the moving piece taken off its square (for a drop, the position itself);
   q: the position after a piece pt of us has been put on t *)
Variables (p2 q : Position) (us th ko t pt : N) (bd2 bq : list N).
Hypotheses (V2 : views p2) (Et2 : turn p2 = us) (Eb2 : board p2 = bd2) (Eo2 : kingOf bd2 th = ko) (Ho : ko < 81).
Hypotheses (Gq : good q) (Etq : turn q = th) (Eth : opp th = us) (Eth' : opp us = th) (Ebq : board q = bq).
Hypotheses (Ht : t < 81) (Hpt : 1 <= pt < 15) (Ntk : t <> ko) (C2 : isCol bd2 us t = false).
Hypothesis At : forall x, at_ bq x = if t =? x then mkPiece us pt else at_ bd2 x.
Lemma lU : us < 2. Proof. rewrite <- Et2. apply (v_turn p2 V2). Qed.
Lemma lT : th < 2. Proof. rewrite <- Etq. apply (good_turn q Gq). Qed.
Lemma lNe : us <> th. Proof. rewrite <- Eth'. intros E. symmetry in E. revert E. apply opp_neq, lU. Qed.
Lemma lcol_us x : isCol bq us x = (t =? x) || isCol bd2 us x.
Proof. pose proof lU as Hu. unfold isCol. rewrite At. destruct (t =? x); [|reflexivity]. rewrite mk_nz, col_mk, N.eqb_refl by auto. reflexivity. Qed.
Lemma lcol_th x : isCol bq th x = negb (t =? x) && isCol bd2 th x.
Proof. pose proof lU as Hu. unfold isCol. rewrite At. destruct (t =? x); [|reflexivity]. rewrite mk_nz, col_mk by auto. rewrite (proj2 (N.eqb_neq us th)) by apply lNe. reflexivity. Qed.
Lemma locc x : occOf bq x = (t =? x) || occOf bd2 x.
Proof. pose proof lU as Hu. unfold occOf. rewrite At. destruct (t =? x); [|reflexivity]. rewrite mk_nz by auto. reflexivity. Qed.
Lemma lking : kingOf bq th = ko.
Proof.
  pose proof (g_one q Gq) as O. rewrite Ebq in O. apply kingOf_here; auto using lT. unfold isKing. rewrite At, (proj2 (N.eqb_neq t ko)) by auto. rewrite (kingOf_at bd2 th ko Eo2 Ho). apply N.eqb_refl.
Qed.
Lemma lown x : isCol bd2 us x = true -> t <> x. Proof. intros C ->. congruence. Qed.
Lemma att_move occ occ' x y : x <> t -> (forall w, In w (betw x y) -> occ' w = true -> occ w = true) -> attOcc bd2 occ x y = true -> attOcc bq occ' x y = true.
Proof.
  intros N H. unfold attOcc. rewrite At, (proj2 (N.eqb_neq t x)) by auto. rewrite !andb_true_iff. intros (A & B & D). do 2 (split; auto).
  rewrite clear_iff in *. intros w I. destruct (occ' w) eqn:O; auto. rewrite <- (D w I). symmetry. auto.
Qed.
Lemma escape_no bb y : canKingEscape p2 us t bb = false -> y < 81 -> reach 8 th ko y = true -> isCol bq th y = false -> y <> t -> isSet bb y = false ->
  exists x, x < 81 /\ isCol bq us x = true /\ attOcc bq (occGo bq ko y) x y = true.
Proof.
  intros H Hy R Cy Ny B. pose proof lU as Hu. pose proof lT as Hth. unfold canKingEscape in H. cbv zeta in H. rewrite Eth', kingSquare_view, Eb2, Eo2 in H by auto.
  assert (I : In y (bbList (clearBit (bbNotThisAnd bb (bbNotThisAnd (bbC p2 th) (kingAttack ko))) t))).
  { apply in_bbList; [unfold clearBit, bbAndNot; apply wf_and_l; repeat apply wf_notthisand; apply (wf_attacksFrom King th ko allZeroBB); auto; unfold King; lia|]. split; auto.
    rewrite isSet_clearBit, !isSet_notthisand, isSet_bbC, B by auto. rewrite (proj2 (N.eqb_neq t y)) by auto.
    change (negb (pieceAt p2 y =? 0) && (colorOf (pieceAt p2 y) =? th)) with (isCol (board p2) th y). rewrite Eb2. rewrite lcol_th, (proj2 (N.eqb_neq t y)) in Cy by auto. cbn [negb andb] in Cy. rewrite Cy.
    rewrite <- (af8 th ko allZeroBB), toEdge by (auto; lia). rewrite R. reflexivity. }
  apply (existsb_false_at _ _ y) in H; auto. cbv beta in H. apply negb_false_iff in H. rewrite isAny_attackers, Eb2 in H by auto. apply existsb_exists in H as (x & Ix & H). apply in_squares in Ix. apply andb_prop in H as [Cx A].
  exists x. split; auto. split; [rewrite lcol_us, Cx; apply orb_true_r|]. eapply att_move; [|intros w Iw O|exact A].
  - intros ->. congruence.
  - assert (Hw : w < 81) by now apply betw_lt in Iw. assert (Nw : w <> y) by (intros ->; now apply (proj2 (betw_ends x y Ix Hy))).
    rewrite isSet_clearBit, isSet_setBit, isSet_occ_fun, Eb2 by auto. unfold occGo in O. rewrite (proj2 (N.eqb_neq y w)), orb_false_l in O by auto. apply andb_prop in O as [O1 O2]. rewrite locc in O2. rewrite O1, O2. reflexivity.
Qed.
Lemma support_ok : attackersToIsAny p2 us t (occBB p2) = true -> exists x, x < 81 /\ isCol bq us x = true /\ attOcc bq (occGo bq ko t) x t = true.
Proof.
  intros H. pose proof lU as Hu. rewrite isAny_attackers, Eb2 in H by auto. apply existsb_exists in H as (x & Ix & H). apply in_squares in Ix. apply andb_prop in H as [Cx A].
  exists x. split; auto. split; [rewrite lcol_us, Cx; apply orb_true_r|]. eapply att_move; [|intros w Iw O|exact A].
  - intros ->. congruence.
  - assert (Hw : w < 81) by now apply betw_lt in Iw. assert (Nw : w <> t) by (intros ->; now apply (proj2 (betw_ends x t Ix Ht))).
    rewrite isSet_occ_fun, Eb2 by auto. unfold occGo in O. rewrite (proj2 (N.eqb_neq t w)), orb_false_l in O by auto. apply andb_prop in O as [O1 O2]. now rewrite locc, (proj2 (N.eqb_neq t w)), orb_false_l in O2 by auto.
Qed.
Lemma latt_t f : f < 81 -> f <> t -> att bq f t = att bd2 f t.
Proof.
  intros Hf N. unfold att, attOcc. rewrite At, (proj2 (N.eqb_neq t f)) by auto. f_equal. f_equal. apply clear_same. intros w I. rewrite locc, (proj2 (N.eqb_neq t w)); auto. intros <-. now apply (proj2 (betw_ends f t Hf Ht)).
Qed.
Lemma pin_kept f : f < 81 -> f <> t -> isCol bd2 th f = true -> att bd2 f t = true -> isDiscoveredCheck f t ko (discoveredCheckBB false p2) = true -> isPinnedIllegal f t ko (pinnedBB q) = true.
Proof.
  intros Hf N Cf A. pose proof lU as Hu. pose proof lT as Hth. unfold isPinnedIllegal, isDiscoveredCheck. destruct (isAligned f t ko) eqn:AL; [now rewrite !andb_false_r|]. rewrite !andb_true_r.
  rewrite (isSet_pinned q th ko bq (g_views q Gq) Etq Ebq lking Ho f Hf), lcol_th, Cf, (proj2 (N.eqb_neq t f)) by auto. cbn [negb andb].
  pose proof (isSet_hiddenCheckers false false p2 f V2 Hf) as H. cbv zeta in H. unfold discoveredCheckBB. rewrite H, Et2, Eth', Eb2, Eo2, (proj2 (N.ltb_lt _ _) Ho), Cf, !andb_true_l. clear H.
  rewrite Eth. rewrite !existsb_exists. intros (x & Hx & Hi). exists x. split; auto. apply in_squares in Hx. unfold hid in *. rewrite !andb_true_iff in Hi. destruct Hi as [[Cx Sx] S]. pose proof (lown x Cx) as Nx.
  rewrite lcol_us, Cx, orb_true_r, At, (proj2 (N.eqb_neq t x)), Sx by auto. rewrite !andb_true_l.
  assert (Ox : occOf bd2 x = true) by (unfold isCol in Cx; now apply andb_prop in Cx as [Cx _]). unfold att, attOcc in A. rewrite !andb_true_iff in A. destruct A as (_ & _ & CL).
  assert (MT : memN t (betw x ko) = false).
  { destruct (memN t (betw x ko)) eqn:MT; [|reflexivity]. exfalso. assert (AP : isAligned f t ko = memN t (betw x ko)); [|rewrite AL, MT in AP; discriminate].
    unfold sole in S. rewrite !andb_true_iff in S. destruct S as [[S _] _]. apply memN_betw in S; auto. apply (aligned_between (occOf bd2)); auto.
    unfold occOf. rewrite (kingOf_at bd2 th ko Eo2 Ho), mk_nz by (auto; unfold King; lia). reflexivity. }
  rewrite <- S. assert (NI : forall y, In y (betw x ko) -> (t =? y) = false) by (intros y I; apply N.eqb_neq; intros <-; apply memN_In in I; congruence).
  unfold sole. rewrite locc, (proj2 (N.eqb_neq t f)), orb_false_l by auto. f_equal. apply eq_true_iff_eq. rewrite !forallb_forall. split; intros H y I; specialize (H y I); rewrite locc, (NI y I), orb_false_l in *; auto.
Qed.
Lemma in_xking f : f < 81 -> isCol bd2 th f = true -> (ptOf (at_ bd2 f) =? 8) = false -> att bd2 f t = true -> isSet (attackersToExceptKing p2 th t) f = true.
Proof.
  intros Hf Cf K A. pose proof lT as Hth. rewrite isSet_attackersToExceptKing by auto. rewrite (attOcc_ext _ _ (occOf (board p2))) by (intros x Hx; now apply isSet_occ_fun). rewrite Eb2. change (attOcc bd2 (occOf bd2) f t) with (att bd2 f t). rewrite A, andb_true_r.
  rewrite (gAt p2 bd2 Eb2). change King with 8. rewrite K. unfold isCol in Cf. apply andb_prop in Cf as [_ Cf]. now rewrite Cf.
Qed.
Lemma capture_dc f dc : canPieceCaptureDc p2 th t dc = false -> f < 81 -> isSet (attackersToExceptKing p2 th t) f = true -> isDiscoveredCheck f t ko dc = true.
Proof.
  intros H Hf S. pose proof lT as Hth.
  assert (EK : kingSquare p2 th = ko) by (rewrite kingSquare_view by auto; rewrite Eb2; exact Eo2).
  assert (I : In f (bbList (attackersToExceptKing p2 th t))).
  { apply in_bbList; [|auto]. unfold attackersToExceptKing. cbv zeta. apply wf_and_r. now apply wf_bbC. }
  rewrite canPieceCaptureDc_eq, EK in H. revert H I. generalize (bbList (attackersToExceptKing p2 th t)). intros l H I.
  apply (existsb_false_at _ _ f) in H; [|exact I]. now apply negb_false_iff in H.
Qed.
Lemma capture_no : canPieceCaptureDc p2 th t (discoveredCheckBB false p2) = false ->
  forall f, f < 81 -> f <> ko -> isCol bq th f = true -> att bq f t = true -> isPinnedIllegal f t ko (pinnedBB q) = true.
Proof.
  intros H f Hf Nf Cf A. pose proof (own_king q th ko bq Gq Etq Ebq lking Ho f Hf Cf) as OK. rewrite (gAt q bq Ebq), At in OK.
  rewrite lcol_th in Cf. apply andb_prop in Cf as [N Cf]. apply negb_true_iff in N. rewrite N in OK. apply N.eqb_neq in N. rewrite (latt_t f) in A by auto.
  apply pin_kept; [exact Hf|auto|exact Cf|exact A|]. apply capture_dc; [exact H|exact Hf|]. apply in_xking; [exact Hf|exact Cf| |exact A]. rewrite OK. now apply N.eqb_neq.
Qed.
(* a check from next to the king, or by a knight *)
Lemma near_mates bb : reach pt us t ko = true -> (forall y, ~ In y (betw t ko)) -> 
  (forall y, y < 81 -> reach 8 th ko y = true -> y <> t -> isSet bb y = true -> attOcc bq (occGo bq ko y) t y = true) ->
  canKingEscape p2 us t bb = false -> (reach 8 th ko t = true -> attackersToIsAny p2 us t (occBB p2) = true) ->
  (canPieceCaptureDc p2 th t (discoveredCheckBB false p2) = false \/ exists x, chkr th ko bq x /\ x <> t) ->
  inCheckB (board q) (turn q) = true /\ noReply q.
Proof.
  intros R NB BB KE SU CP. pose proof lU as Hu.
  assert (CT : chkr th ko bq t).
  { split; auto. rewrite Eth, lcol_us, N.eqb_refl. split; auto. unfold att, attOcc. rewrite At, N.eqb_refl, mk_nz, pt_mk, col_mk, R by auto. cbn [negb andb]. apply clear_iff. intros y I. destruct (NB y I). }
  split; [apply (check_by q th ko bq Etq Ebq lking Ho t CT)|]. apply (no_reply_near q us th ko bq Gq Etq Eth Ebq lking Ho t CT NB).
  - intros y Hy Ry Cy. destruct (N.eq_dec y t) as [->|Ny]; [auto using support_ok|]. destruct (isSet bb y) eqn:B; [|now apply (escape_no bb)].
    exists t. split; auto. split; [rewrite lcol_us, N.eqb_refl; reflexivity|]. auto.
  - destruct CP as [CP|X]; auto. left. now apply capture_no.
Qed.
End L.
