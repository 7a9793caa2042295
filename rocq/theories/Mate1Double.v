(* Double checks found by the one-move search. *)
From Verif Require Export Mate1Basic.
Local Open Scope N_scope.

Lemma cangoto_eq p us from to avoid occ : canKingEscapeCangoto p us from to avoid occ =
  existsb (fun e => negb (isAny (bbAnd (attackersTo p (opp us) e (bbXor (bbOr occ (setMaskBB to)) (setMaskBB (kingSquare p us)))) (bbNot (setMaskBB from)))))
    (bbList (bbAnd (kingAttack (kingSquare p us)) (bbNot (bbAnd (bbOr avoid (bbC p us)) (bbNot (setMaskBB to)))))).
Proof. reflexivity. Qed.
Lemma att_by p c s occ x : views p -> c < 2 -> s < 81 -> x < 81 -> isSet (attackersTo p c s occ) x = isCol (board p) c x && attOcc (board p) (isSet occ) x s.
Proof.
  intros V Hc Hs Hx. rewrite isSet_attackersTo by auto. unfold isCol, attOcc. change (at_ (board p) x) with (pieceAt p x). destruct (pieceAt p x =? 0); cbn [negb andb]; [now rewrite andb_false_r|reflexivity].
Qed.
Lemma not_clear (occ : N -> bool) s t : clear occ s t = false -> exists w, In w (betw s t) /\ occ w = true.
Proof.
  unfold clear. generalize (betw s t). intros l H. induction l as [|a l IH]; [discriminate H|]. cbn [forallb] in H. destruct (occ a) eqn:E; [exists a; split; [now left|exact E]|].
  destruct (IH H) as (w & I & O). exists w. split; [now right|exact O].
Qed.
Lemma opposite ko f t y d e e1 dy b n1 a3 b3 : In d allDirs -> (fst d <> 0 /\ snd d <> 0)%Z -> In e allDirs -> (fst e <> 0 /\ snd e <> 0)%Z -> In e1 allDirs -> (fst e1 = 0 \/ snd e1 = 0)%Z ->
  In dy allDirs -> (fst dy = 0 \/ snd dy = 0)%Z -> (1 <= b)%Z -> (1 <= n1)%Z -> (1 <= a3)%Z -> (1 <= b3)%Z -> GeoProofs.off f d b ko -> GeoProofs.off t e 1 ko -> GeoProofs.off f e1 n1 t -> GeoProofs.off t dy (a3 + b3)%Z y ->
  (Z.abs (fz y - fz ko) <= 1)%Z -> (Z.abs (rz y - rz ko) <= 1)%Z -> (fz y <> fz f \/ rz y <> rz f)%Z -> GeoProofs.off ko d 1 y.
Proof.
  intros Hd Dd He De H1 D1 Hdy Dy Hb Hn Ha3 Hb3 [O2a O2b] [Oea Oeb] [O3a O3b] [Oya Oyb] A1 A2 NYF. unfold GeoProofs.off.
  dcase d Hd; try (exfalso; clear - Dd; lia); dcase e He; try (exfalso; clear - De; lia); dcase e1 H1; try (exfalso; clear - D1; lia); try (exfalso; clear - O2a O2b O3a O3b Oea Oeb Hb Hn; lia);
        dcase dy Hdy; try (exfalso; clear - Dy; lia); lia.
Qed.
Lemma diag_near ko f t d e b : In d allDirs -> (fst d <> 0 /\ snd d <> 0)%Z -> In e allDirs -> (fst e <> 0 /\ snd e <> 0)%Z -> (1 <= b)%Z -> b <> 1%Z -> GeoProofs.off f d b ko -> GeoProofs.off t e 1 ko ->
  (Z.abs (fz t - fz f) <= 1)%Z -> (Z.abs (rz t - rz f) <= 1)%Z -> GeoProofs.off f d (b - 1)%Z t.
Proof.
  intros Hd Dd He De Hb N1 [O2a O2b] [Oea Oeb] B1 B2. unfold GeoProofs.off. dcase d Hd; try (exfalso; clear - Dd; lia); dcase e He; try (exfalso; clear - De; lia); lia.
Qed.
(* legal and check, when nothing is known of the replies *)
Lemma checks_N p f t pr : good p -> f < 128 -> f <> 81 -> t < 81 -> plSet p f t pr -> inCheckB (newBoard p (enc p f t pr)) (turn p) = false ->
  (forall q, good q -> turn q = opp (turn p) -> board q = newBoard p (enc p f t pr) -> inCheckB (board q) (turn q) = true) ->
  legal (abs p) (mvOf f t pr) /\ in_check (play (abs p) (mvOf f t pr)) (other (side (abs p))).
Proof.
  intros G Hf Nf Ht P S H. pose proof (good_turn p G) as Hu. set (z := mkZob (fun _ _ _ => 0) (fun _ _ => 0)).
  destruct (mvOf_pl p f t pr G Ht P) as [PL EC]. assert (L0 : legal_but_drop_mate (abs p) (mvOf f t pr)) by now apply legal0_N.
  pose proof (good_doMove z p _ G L0) as Gq. pose proof (abs_doMoveCI z p _ (checkInfo p) (moveGivesCheck p (code p (mvOf f t pr)) (checkInfo p)) G PL) as SP.
  change (doMoveCI z p (code p (mvOf f t pr)) (checkInfo p) (moveGivesCheck p (code p (mvOf f t pr)) (checkInfo p))) with (doMove z p (code p (mvOf f t pr))) in SP.
  assert (Eb : board (doMove z p (code p (mvOf f t pr))) = newBoard p (enc p f t pr)) by (unfold doMove; cbv zeta; rewrite doMoveCI_board, EC; reflexivity).
  assert (Et : turn (doMove z p (code p (mvOf f t pr))) = opp (turn p)) by (unfold doMove; cbv zeta; apply doMoveCI_turn).
  revert Gq SP Eb Et. generalize (doMove z p (code p (mvOf f t pr))) as q. intros q Gq SP Eb Et.
  pose proof (H q Gq Et Eb) as IC. split; [split; [exact L0|]|].
  - intros ((y & E) & _). unfold mvOf in E. destruct (N.ltb_spec f 81) as [L|L]; [discriminate E|]. injection E as Ek _. apply (f_equal nkind) in Ek. unfold plSet in P.
    assert (L' : (f <? 81) = false) by (apply N.ltb_ge; lia). rewrite L' in P. destruct P as (_ & F & _). rewrite kind_inv' in Ek by lia. change (nkind FU) with 1 in Ek. lia.
  - eapply in_check_same; [exact SP|]. pose proof (in_check_abs q (turn q) (good_ok q Gq) (g_one q Gq) (good_turn q Gq)) as IA. rewrite Et, colorN_opp in IA by auto. apply IA. rewrite <- Et. exact IC.
Qed.
Section D.
Variables (p : Position) (us th k ko : N) (bd : list N).
Hypotheses (G : good p) (Eus : turn p = us) (Eth : opp us = th) (Ebd : board p = bd).
Hypotheses (Ek : kingOf bd us = k) (Hk : k < 81) (Eo : kingOf bd th = ko) (Ho : ko < 81).
Hypothesis NC : forall x, ~ chkr us k bd x.
Notation U := (sU p us G Eus).
Notation T := (sT p us th G Eus Eth).
Section M.
Variables (f t pt : N) (pr : bool).
Hypotheses (Hf : f < 81) (Ht : t < 81) (P : plSet p f t pr) (Ept : ptOf (at_ bd f) = pt) (N8 : pt <> 8).
Let pt' := pt + (if pr then 8 else 0).
(* the board after the move *)
Definition arrived (bq : list N) : Prop := forall x, at_ bq x = if t =? x then mkPiece us pt' else if f =? x then 0 else at_ bd x.
Lemma dAt : at_ bd f = mkPiece us pt /\ 1 <= pt < 15. Proof. exact (mAt p us bd G Eus Ebd f t pt pr Hf P Ept). Qed.
Lemma dPt : 1 <= pt' < 15. Proof. exact (mPt p us th k ko bd G Eus Eth Ebd Ek Hk Eo Ho NC f t pt pr Hf Ht P Ept N8). Qed.
Lemma dNt : t <> ko. Proof. apply (not_king p us th ko bd G Eus Eth Ebd Eo Ho f t); auto; [exact (mCol p us bd Eus Ebd f t pr Hf P)|exact (mAtt p us bd Eus Ebd f t pr Hf P)]. Qed.
Lemma dCt : isCol bd us t = false. Proof. exact (pl_col p us bd Eus Ebd f t pr Ht P). Qed.
Lemma arrived_q q : board q = newBoard p (enc p f t pr) -> arrived (board q).
Proof. intros Eb x. pose proof (at_go p f t pr G Hf Ht P x) as At. rewrite <- Eb, Eus, Ebd, Ept in At. exact At. Qed.
Lemma dKing bq : oneKing bq -> arrived bq -> kingOf bq th = ko.
Proof.
  intros O At. pose proof T as Hth. apply kingOf_here; auto. unfold isKing. rewrite At, (proj2 (N.eqb_neq t ko)) by apply dNt. destruct (N.eqb_spec f ko) as [E|_].
  - exfalso. pose proof dAt as [A H]. rewrite E, (kingOf_at bd th ko Eo Ho) in A. apply N8. apply (f_equal ptOf) in A. rewrite !pt_mk in A by (auto using U; unfold King; lia). symmetry. exact A.
  - rewrite (kingOf_at bd th ko Eo Ho). apply N.eqb_refl.
Qed.
(* pieces of the mover that stay, with the square f empty and t filled *)
Lemma stays_attack bq occ x y : arrived bq -> x < 81 -> y < 81 -> x <> f -> isCol bd us x = true -> attOcc bd occ x y = true ->
  (forall w, w < 81 -> w <> ko -> w <> f -> (w = t \/ occOf bd w = true) -> occ w = true) -> isCol bq us x = true /\ attOcc bq (occGo bq ko y) x y = true.
Proof.
  intros At Hx Hy Nf C A O. pose proof U as Hu. assert (Nt : t <> x) by (intros E; rewrite <- E, dCt in C; discriminate C).
  split; [unfold isCol in *; rewrite At, (proj2 (N.eqb_neq t x)), (proj2 (N.eqb_neq f x)) by auto; exact C|].
  unfold attOcc in *. rewrite At, (proj2 (N.eqb_neq t x)), (proj2 (N.eqb_neq f x)) by auto. rewrite !andb_true_iff in *. destruct A as (A & B & D). do 2 (split; auto).
  rewrite clear_iff in *. intros w I. assert (Hw : w < 81) by now apply betw_lt in I. assert (Nw : w <> y) by (intros ->; now apply (proj2 (betw_ends x y Hx Hy))).
  unfold occGo. rewrite (proj2 (N.eqb_neq y w)), orb_false_l by auto. destruct (N.eqb_spec ko w) as [|Nk]; [reflexivity|]. cbn [negb andb].
  destruct (occOf bq w) eqn:OQ; [|reflexivity]. rewrite <- (D w I). symmetry. unfold occOf in OQ. rewrite At in OQ. destruct (N.eqb_spec t w) as [E|N1].
  - apply O; auto. intros E'. pose proof (mNe p us bd Eus Ebd f t pr Hf Ht P) as NE. congruence.
  - destruct (N.eqb_spec f w) as [|N2]; [discriminate OQ|]. apply O; auto.
Qed.
Lemma cangoto_no bq bb y : arrived bq -> canKingEscapeCangoto p th f t bb (bbXor (occBB p) (setMaskBB f)) = false -> wfBB (kingAttack ko) ->
  y < 81 -> reach 8 th ko y = true -> isCol bq th y = false -> (y = t \/ isSet bb y = false) ->
  exists x, x < 81 /\ isCol bq us x = true /\ attOcc bq (occGo bq ko y) x y = true.
Proof.
  intros At H W Hy R Cy B. pose proof U as Hu. pose proof T as Hth. assert (V : views p) by apply G. rewrite cangoto_eq, (sOT p us th G Eus Eth), (bKo p us th ko bd G Eus Eth Ebd Eo) in H.
  assert (I : In y (bbList (bbAnd (kingAttack ko) (bbNot (bbAnd (bbOr bb (bbC p th)) (bbNot (setMaskBB t))))))).
  { apply in_bbList; [apply wf_and_l; auto|]. split; auto. rewrite isSet_and, isSet_not, isSet_and, isSet_or, isSet_not, isSet_mask, isSet_bbC by auto.
    change (negb (pieceAt p y =? 0) && (colorOf (pieceAt p y) =? th)) with (isCol (board p) th y). rewrite Ebd.
    rewrite <- (af8 th ko allZeroBB), toEdge by (auto; lia). rewrite R. cbn [andb]. destruct (N.eqb_spec t y) as [|N]; [cbn [negb]; now rewrite andb_false_r|].
    destruct B as [->|B]; [congruence|]. rewrite B. cbn [orb negb]. rewrite andb_true_r. apply negb_true_iff.
    unfold isCol in Cy. rewrite At, (proj2 (N.eqb_neq t y)) in Cy by auto. destruct (N.eqb_spec f y) as [<-|N2]; [|exact Cy].
    pose proof dAt as [Af Hp]. unfold isCol. rewrite Af, mk_nz, col_mk by auto. cbn [negb andb]. apply N.eqb_neq. rewrite <- Eth. intros E. symmetry in E. revert E. now apply opp_neq. }
  apply (existsb_false_at _ _ y) in H; [|exact I]. cbv beta in H. apply negb_false_iff in H. apply isAny_true_ex in H; [|apply wf_and_l; unfold attackersTo; apply wf_and_r; now apply wf_bbC].
  destruct H as (x & Hx & H). rewrite isSet_and, isSet_not, isSet_mask, att_by, Ebd in H by auto. rewrite !andb_true_iff in H. destruct H as [[Cx A] Nf]. apply negb_true_iff, N.eqb_neq in Nf.
  exists x. split; auto. eapply stays_attack; eauto. intros w Hw Nk Nw O. rewrite isSet_xor, isSet_or, isSet_xor, !isSet_mask by auto. rewrite (proj2 (N.eqb_neq ko w)), (proj2 (N.eqb_neq f w)), !xorb_false_r by auto.
  destruct O as [->|O]; [rewrite N.eqb_refl; apply orb_true_r|]. rewrite (bOcc p bd G Ebd w Hw), O. reflexivity.
Qed.
(* the piece on t checks *)
Lemma arrived_col bq : arrived bq -> isCol bq us t = true.
Proof. intros At. pose proof U as Hu. pose proof dPt as Hp. unfold isCol. rewrite At, N.eqb_refl, mk_nz, col_mk, N.eqb_refl by auto. reflexivity. Qed.
Lemma arrived_check bq : arrived bq -> reach pt' us t ko = true -> clear (occOf bd) t ko = true -> chkr th ko bq t.
Proof.
  intros At R C. pose proof U as Hu. pose proof dPt as Hp. split; auto. rewrite (sOT p us th G Eus Eth). split; [now apply arrived_col|].
  unfold att, attOcc. rewrite At, N.eqb_refl, mk_nz, pt_mk, col_mk, R by auto. cbn [negb andb]. rewrite clear_iff in *. intros w I. specialize (C w I). unfold occOf in *. rewrite At.
  destruct (N.eqb_spec t w) as [<-|_]; [destruct (proj1 (betw_ends t ko Ht Ho) I)|]. destruct (f =? w); auto.
Qed.
(* the squares it bars to the king, alone or with the piece it has uncovered *)
Definition bars (bb : BB) : Prop := forall q y, good q -> arrived (board q) -> chkr th ko (board q) t -> (exists x, chkr th ko (board q) x /\ x <> t /\ hid bd us ko f x = true) ->
  y < 81 -> reach 8 th ko y = true -> y <> t -> isSet bb y = true -> exists w, w < 81 /\ isCol (board q) us w = true /\ attOcc (board q) (occGo (board q) ko y) w y = true.
Lemma bars_banned bb : (forall q y, ptOf (pieceAt q t) = pt' -> y < 81 -> isSet bb y = true -> isSet (bannedBy q us t ko) y = true) -> bars bb.
Proof.
  intros H q y Gq At (_ & C & A) _ Hy Ry Ny S. pose proof (sOT p us th G Eus Eth) as Eot. pose proof U as Hu. pose proof T as Hth. pose proof dPt as Hp.
  exists t. split; [exact Ht|]. split; [now apply arrived_col|]. apply (ban_sound q th t ko y); auto; [apply Gq|]. rewrite Eot. apply H; auto.
  change (pieceAt q t) with (at_ (board q) t). rewrite At, N.eqb_refl, pt_mk by auto. reflexivity.
Qed.
(* a dragon on a diagonal of the king: what it does not bar, the uncovered piece does *)
Lemma bars_dragon : pt = 6 \/ pt = 14 -> pt' = 14 -> isAligned f t ko = false -> reach 14 us t ko = true -> (exists e, In e bishopDirs /\ GeoProofs.off t e 1 ko) -> bars (bbOr (rookAttackToEdge t) (kingAttack t)).
Proof.
  intros Hpt E14 AL R (e & He & Oe) q y Gq At CT (x & CX & Nx & HX) Hy Ry Ny S. pose proof U as Hu. pose proof T as Hth. pose proof (sOT p us th G Eus Eth) as Eot. pose proof dPt as Hp. pose proof dAt as [Af _].
  destruct (reach_unions us t y Hu Ht Hy) as (_ & _ & _ & _ & U14).
  assert (At' : at_ (board q) t = mkPiece us 14) by (rewrite At, N.eqb_refl, E14; reflexivity).
  destruct (reach 14 us t y && clear (occGo (board q) ko y) t y) eqn:Q.
  { exists t. split; [exact Ht|]. split; [now apply arrived_col|]. unfold attOcc. rewrite At', mk_nz, pt_mk, col_mk by (auto; lia). exact Q. }
  assert (B : reach 6 us t y = true /\ exists w, In w (betw t y) /\ occGo (board q) ko y w = true).
  { rewrite isSet_or in S. assert (R6 : reach 14 us t y = true).
    { rewrite U14. destruct (isSet (kingAttack t) y) eqn:SK.
      - rewrite <- (af8 us t allZeroBB), toEdge in SK by (auto; lia). now rewrite SK.
      - rewrite orb_false_r in S. unfold rookAttackToEdge in S. rewrite <- (af6 us t), toEdge in S by (auto; lia). rewrite S. apply orb_true_r. }
    rewrite R6, andb_true_l in Q. assert (EX : exists w, In w (betw t y) /\ occGo (board q) ko y w = true).
    { now apply not_clear. }
    split; [|exact EX]. destruct EX as (w & I & _). pose proof (reach_far 14 us t y w Hu ltac:(lia) Ht Hy R6 I) as SR. exact SR. }
  destruct B as (R6 & w & Iw & Ow). assert (R6' := R6). rewrite <- sreach6 in R6. apply sreach_iff in R6 as (dy & ny & Hdy & Hny & Oy); auto.
  unfold hid in HX. rewrite !andb_true_iff in HX. destruct HX as [[Cx Sx] SO]. assert (Hx : x < 81) by apply CX.
  assert (BT : isBetween x f ko) by (unfold sole in SO; rewrite !andb_true_iff in SO; destruct SO as [[SO _] _]; apply memN_betw in SO; auto).
  destruct BT as (d & a & b & Hd & Ha & Hb & O1 & O2). destruct (adj_N th ko y Hth Ho Hy Ry) as (A1 & A2 & A3).
  assert (CF : clear (occOf bd) f ko = true).
  { apply clear_iff. intros z Iz. destruct (occOf bd z) eqn:Oz; [|reflexivity]. exfalso. assert (Hz : z < 81) by now apply betw_lt in Iz. assert (z = f).
    { apply (sole_other (occOf bd) x ko f z SO); [|exact Oz]. apply memN_betw; auto. apply betw_iff in Iz as (_ & d2 & a2 & b2 & Hd2 & Ha2 & Hb2 & P1 & P2); auto.
      assert (d = d2 /\ (b = a2 + b2)%Z) as [<- E] by (apply (off_uniq f ko); auto; try lia; eapply off_add; eauto). exists d, (a + a2)%Z, b2. repeat split; auto; try lia; try apply P2; eapply off_add; eauto. }
    subst z. destruct (proj1 (betw_ends f ko Hf Ho) Iz). }
  pose proof (mCol p us bd Eus Ebd f t pr Hf P) as Cf. pose proof (mAtt p us bd Eus Ebd f t pr Hf P) as Aft.
  assert (NA : reach pt us f ko = false).
  { destruct (reach pt us f ko) eqn:RK; [|reflexivity]. exfalso. apply (not_king p us th ko bd G Eus Eth Ebd Eo Ho f ko); auto. unfold att, attOcc. rewrite Af, mk_nz, pt_mk, col_mk, RK, CF by (auto; lia). reflexivity. }
  assert (Dd : (fst d <> 0 /\ snd d <> 0)%Z).
  { apply bishop_dir. unfold allDirs in Hd. apply in_app_or in Hd as [Hd|Hd]; [|exact Hd]. exfalso. assert (SR : sreach pt us f ko = true) by (apply sreach_iff; auto; exists d, b; split; [destruct Hpt as [E|E]; rewrite E; exact Hd|auto]). apply sreach_reach in SR. congruence. }
  assert (FT : (exists e1 n1, (fst e1 = 0 \/ snd e1 = 0)%Z /\ In e1 allDirs /\ (1 <= n1)%Z /\ GeoProofs.off f e1 n1 t) \/ (pt = 14 /\ reach 8 us f t = true)).
  { unfold att, attOcc in Aft. rewrite Af, mk_nz, pt_mk, col_mk in Aft by (auto; lia). rewrite !andb_true_iff in Aft. destruct Aft as (_ & RF & _).
    assert (X : reach 6 us f t = true \/ (pt = 14 /\ reach 8 us f t = true)).
    { destruct Hpt as [E|E]; rewrite E in RF; [auto|]. destruct (reach_unions us f t Hu Hf Ht) as (_ & _ & _ & _ & UF). rewrite UF in RF. apply orb_prop in RF as [RF|RF]; auto. }
    destruct X as [X|X]; [left|auto]. rewrite <- sreach6 in X. apply sreach_iff in X as (e1 & n1 & H1 & H2 & H3); auto. exists e1, n1. apply rook_dir in H1 as [H1 H1']. auto. }
  assert (Y : GeoProofs.off ko d 1 y).
  { destruct (bishop_dir e) as [He' _]. destruct (He' He) as [Ha' Dn]. clear He'. apply rook_dir in Hdy as [Hdy Dy].
    assert (BW := Iw). apply betw_iff in Iw as (Hw & d3 & a3 & b3 & Hd3 & Ha3 & Hb3 & P1 & P2); auto. assert (dy = d3 /\ (ny = a3 + b3)%Z) as [<- E3] by (apply (off_uniq t y); auto; try lia; eapply off_add; eauto).
    assert (CFT : In w (betw f t) -> False).
    { intros I. unfold att, attOcc in Aft. rewrite !andb_true_iff in Aft. destruct Aft as (_ & _ & CL). rewrite clear_iff in CL. specialize (CL w I). unfold occGo in Ow.
      assert (Nyw : y <> w) by (intros ->; now apply (proj2 (betw_ends t w Ht Hy))). rewrite (proj2 (N.eqb_neq y w)), orb_false_l in Ow by auto. apply andb_prop in Ow as [_ Ow]. unfold occOf in Ow, CL. rewrite At in Ow.
      assert (Ntw : t <> w) by (intros ->; now apply (proj1 (betw_ends w y Hw Hy))). rewrite (proj2 (N.eqb_neq t w)) in Ow by auto. destruct (f =? w); [discriminate Ow|]. congruence. }
    assert (NYF : y <> f) by (intros E; apply CFT; rewrite <- E; apply memN_In; rewrite memN_betw_sym by auto; now apply memN_In).
    assert (NYF' : (fz y <> fz f \/ rz y <> rz f)%Z) by (destruct (Z.eq_dec (fz y) (fz f)); [right|left]; auto; intros Q2; apply NYF; apply sq_ext; auto).
    destruct FT as [(e1 & n1 & D1 & H1 & Hn1 & O3)|[E RF]].
    - rewrite E3 in Oy. exact (opposite ko f t y d e e1 dy b n1 a3 b3 Hd Dd Ha' Dn H1 D1 Hdy Dy Hb Hn1 Ha3 Hb3 O2 Oe O3 Oy A1 A2 NYF').
    - exfalso. destruct (adj_N us f t Hu Hf Ht RF) as (B1 & B2 & _). destruct (Z.eq_dec b 1) as [E1|N1].
      + assert (reach 14 us f ko = true); [|congruence]. destruct (reach_unions us f ko Hu Hf Ho) as (_ & _ & _ & _ & UF). rewrite UF. apply orb_true_iff. left. rewrite reach_eq. apply orb_true_iff. left. unfold stepIn. apply existsb_exists. exists d. split; [exact Hd|]. apply stepHits_iff; auto. rewrite <- E1. exact O2.
      + assert (O4 : GeoProofs.off f d (b - 1)%Z t).
        { exact (diag_near ko f t d e b Hd Dd Ha' Dn Hb N1 O2 Oe B1 B2). }
        unfold isAligned in AL. rewrite (rel_off f d (b - 1) t), (rel_off f d b ko), N.eqb_refl in AL; auto; [discriminate AL|lia]. }
  exists x. split; [exact Hx|]. destruct CX as (_ & CXc & CXa). rewrite Eot in CXc. split; [exact CXc|]. unfold att, attOcc in CXa. unfold attOcc. rewrite !andb_true_iff in CXa. destruct CXa as (Z0 & Z1 & Z2). rewrite Z0, andb_true_l.
  assert (OY : GeoProofs.off x d (a + b + 1)%Z y) by (eapply off_add; [eapply off_add|]; eauto). assert (OK : GeoProofs.off x d (a + b)%Z ko) by (eapply off_add; eauto).
  assert (NTX : (t =? x) = false) by (apply N.eqb_neq; auto). assert (NFX : (f =? x) = false) by (apply N.eqb_neq; intros E; rewrite E in O1; now apply (off_neq x d a x Hd Ha O1)).
  assert (AX : at_ (board q) x = at_ bd x) by (rewrite At, NTX, NFX; reflexivity). rewrite AX. assert (CO : colorOf (at_ bd x) = us) by (unfold isCol in Cx; apply andb_prop in Cx as [_ Cx]; now apply N.eqb_eq in Cx). rewrite CO.
  apply andb_true_intro. split.
  - apply sreach_reach. apply sreach_iff in Sx as (d4 & k4 & Hd4 & Hk4 & O4); auto. assert (d4 = d /\ (k4 = a + b)%Z) as [-> _] by (apply (off_uniq x ko); auto; [now apply slides_allDirs in Hd4|lia]).
    apply sreach_iff; auto. exists d, (a + b + 1)%Z. split; [exact Hd4|]. split; [lia|exact OY].
  - apply (ray_clear (board q) x d (a + b + 1) y d (a + b) ko); auto; try lia. right. split; [reflexivity|lia].
Qed.
Lemma double_ok bb : isPinnedIllegal f t k (pinnedBB p) = false -> isSet (discoveredCheckBB true p) f = true -> isAligned f t ko = false ->
  reach pt' us t ko = true -> clear (occOf bd) t ko = true -> canKingEscapeCangoto p th f t bb (bbXor (occBB p) (setMaskBB f)) = false ->
  (legal (abs p) (mvOf f t pr) /\ in_check (play (abs p) (mvOf f t pr)) (other (side (abs p)))) /\ (bars bb -> mates (abs p) (mvOf f t pr)).
Proof.
  intros PI S AL R CL H. pose proof U as Hu. pose proof T as Hth. assert (L : inCheckB (newBoard p (enc p f t pr)) (turn p) = false).
  { rewrite Eus. apply (own_safe p us k bd G Eus Ebd Ek Hk NC f t pr Hf Ht P); [exact (mFk p us th k ko bd G Eus Eth Ebd Ek Hk Eo Ho NC f t pt pr Hf Ht P Ept N8)|exact PI]. }
  split.
  - apply checks_N; [exact G|lia|lia|exact Ht|exact P|exact L|]. intros q Gq Etq Eb. rewrite Eus, Eth in Etq. pose proof (arrived_q q Eb) as At.
    apply (check_by q th ko (board q) Etq eq_refl) with (x := t); [apply dKing; [apply (g_one q Gq)|exact At]|exact Ho|now apply arrived_check].
  - intros B. apply mates_N; [exact G|lia|lia|exact Ht|exact P|exact L|]. intros q Gq Etq Eb _. rewrite Eus, Eth in Etq. pose proof (arrived_q q Eb) as At. pose proof (sOT p us th G Eus Eth) as Eot.
    assert (KQ : kingOf (board q) th = ko) by (apply dKing; [apply (g_one q Gq)|exact At]). pose proof (arrived_check (board q) At R CL) as CT.
    split; [exact (check_by q th ko (board q) Etq eq_refl KQ Ho t CT)|].
    destruct (uncovered p us th k ko bd G Eus Eth Ebd Ek Hk Eo Ho NC f t pt pr Hf Ht P Ept N8 (board q) At S AL) as (x & CX & Nx & HX).
    assert (TW : forall y, y < 81 -> exists w, chkr th ko (board q) w /\ y <> w /\ ~ In y (betw w ko)).
    { intros y Hy. destruct (N.eq_dec y t) as [->|N1].
      - exists x. split; [exact CX|]. split; [auto|]. intros I. exact (two_checkers q th ko (board q) eq_refl Ho t x t Ht CT CX (fun e => Nx (eq_sym e)) (or_introl eq_refl) (or_intror I)).
      - destruct (in_dec N.eq_dec y (betw t ko)) as [I|I]; [|exists t; auto]. exists x. split; [exact CX|]. split.
        + intros ->. exact (two_checkers q th ko (board q) eq_refl Ho t x x Hy CT CX (fun e => Nx (eq_sym e)) (or_intror I) (or_introl eq_refl)).
        + intros J. exact (two_checkers q th ko (board q) eq_refl Ho t x y Hy CT CX (fun e => Nx (eq_sym e)) (or_intror I) (or_intror J)). }
    apply (no_reply q us th ko (board q) Gq Etq Eot eq_refl KQ Ho).
    + intros y Hy Ry Cy. destruct (N.eq_dec y t) as [E|Ny].
      * apply (cangoto_no (board q) bb y At H); auto. apply wf_king; auto.
      * destruct (isSet bb y) eqn:SB; [|apply (cangoto_no (board q) bb y At H); auto; apply wf_king; auto].
        exact (B q y Gq At CT (ex_intro _ x (conj CX (conj Nx HX))) Hy Ry Ny SB).
    + intros f' y pr' _ _ Hy _. right. exact (TW y Hy).
    + intros f' y pr' _ Hy _. destruct (TW y Hy) as (w & A & _ & D). exists w. auto.
Qed.
End M.
(* what is known of a returned move m: its squares and promotion are those of a move that mates; its code is the right one unless the piece is
   a promoted pawn, lance, knight or silver *)
Definition isSmallPro (pt : N) : bool := (9 <=? pt) && (pt <=? 12).
Definition onDiag (t : N) : bool := negb (N.land (squareRelation t ko) DirecDiag =? 0).
Definition answer (m : N) : Prop := exists f t pr, f < 128 /\ t < 81 /\ plSet p f t pr /\ moveN m = mvOf f t pr /\
  (m = enc p f t pr \/ f < 81 /\ isSmallPro (ptOf (at_ bd f)) = true /\ pr = false /\ m = codeOf t f false 7 (ptOf (at_ bd t))) /\ mates (abs p) (mvOf f t pr).
Lemma moveN_enc f t pr : f < 128 -> t < 81 -> plSet p f t pr -> moveN (enc p f t pr) = mvOf f t pr.
Proof.
  intros Hf Ht P. destruct (mvOf_pl p f t pr G Ht P) as [PL E]. rewrite <- E. apply (wf_code p _ G PL).
Qed.
Lemma moveN_gold f t x : f < 81 -> t < 81 -> x < 16 -> moveN (codeOf t f false 7 x) = mvOf f t false.
Proof.
  intros Hf Ht Hx. destruct (code_fields t f false 7 x) as (A & B & C & _); [lia|lia|lia|lia|]. unfold moveN, mvDrop, mvOf. rewrite A, B, C. destruct (N.leb_spec 81 f); [lia|]. destruct (N.ltb_spec f 81); [reflexivity|lia].
Qed.
Lemma found_answer m : found p m -> answer m.
Proof. intros (f & t & pr & Hf & Ht & P & E & M). exists f, t, pr. do 3 (split; [assumption|]). split; [rewrite E; now apply moveN_enc|]. split; auto. Qed.

Lemma near_clear t : t < 81 -> isSet (kingAttack ko) t = true -> clear (occOf bd) t ko = true.
Proof.
  intros Ht S. destruct (bNear p us th k ko bd G Eus Eth Ek Hk Eo Ho NC t Ht S) as [R _]. apply clear_iff. intros y I. destruct (near_king th ko t T Ho Ht R y I).
Qed.
Lemma occ_clear t : t < 81 -> clear (isSet (occBB p)) t ko = clear (occOf bd) t ko.
Proof. intros Ht. apply clear_same. intros y I. apply (bOcc p bd G Ebd). now apply betw_lt in I. Qed.
Lemma slide_bishop t : t < 81 -> isSet (bishopAttack ko (occBB p)) t = true -> reach 5 us t ko = true /\ clear (occOf bd) t ko = true.
Proof. intros Ht S. rewrite (back_bishop us ko _ t), occ_clear in S by (auto; apply U). now apply andb_prop in S. Qed.
Lemma slide_rook t : t < 81 -> isSet (rookAttack ko (occBB p)) t = true -> reach 6 us t ko = true /\ clear (occOf bd) t ko = true.
Proof. intros Ht S. rewrite (back_rook us ko _ t), occ_clear in S by (auto; apply U). now apply andb_prop in S. Qed.

Definition promoted (ptv f t : N) : bool := (canPromote us f || canPromote us t) && (N.land ptv 8 =? 0) && negb (ptv =? Gold).
Definition dattacks (ptv f to : N) : BB := let promo := canPromote us f || canPromote us to in
  match ptv with
            | 7 => goldAttack us to
            | 5 => if promo then bbOr (bishopAttackToEdge to) (kingAttack to) else bishopAttackToEdge to
            | 13 => bbOr (bishopAttackToEdge to) (kingAttack to)
            | 6 => if promo then bbOr (rookAttackToEdge to) (kingAttack to) else rookAttackToEdge to
            | 14 => bbOr (rookAttackToEdge to) (kingAttack to)
            | _ => allZeroBB
            end.
Definition kindAs (pt ptv : N) : Prop := isGoldPt pt = true /\ ptv = 7 \/ pt = ptv /\ (pt = 5 \/ pt = 6 \/ pt = 13 \/ pt = 14).
Lemma general_sound pt ptv f bb m : f < 81 -> isCol bd us f = true -> isSet (discoveredCheckBB true p) f = true -> ptOf (at_ bd f) = pt -> kindAs pt ptv -> wfBB bb ->
  (forall t, t < 81 -> isSet bb t = true -> isSet (attacksFrom pt us f (occBB p)) t = true /\ reach (pt + (if promoted ptv f t then 8 else 0)) us t ko = true /\ clear (occOf bd) t ko = true) ->
  firstSome (fun to => if isAligned f to ko then None else if isPinnedIllegal f to k (pinnedBB p) then None else
    if canKingEscapeCangoto p th f to (dattacks ptv f to) (bbXor (occBB p) (setMaskBB f)) then None
    else Some (if (canPromote us f || canPromote us to) && (N.land ptv 8 =? 0) && negb (ptv =? Gold) then makePromoteMove p ptv f to else makeCaptureMove p ptv f to)) (bbList (bbAnd bb (bbNot (bbC p us)))) = Some m ->
  answer m.
Proof.
  intros Hf C S Ept KA W HT H. pose proof U as Hu. pose proof T as Hth. apply firstSome_in in H as (t & I & H). apply in_bbList in I as [Ht St]; [|now apply wf_and_l].
  rewrite isSet_and, isSet_not in St by auto. apply andb_prop in St as [St Ct]. apply negb_true_iff in Ct. rewrite (bCol p us bd G Eus Ebd t Ht) in Ct. destruct (HT t Ht St) as (A & R & CL). clear HT.
  destruct (isAligned f t ko) eqn:AL; [discriminate H|]. destruct (isPinnedIllegal f t k (pinnedBB p)) eqn:PI; [discriminate H|].
  match type of H with (if ?c then _ else _) = _ => destruct c eqn:KE; [discriminate H|] end. injection H as Em. fold (promoted ptv f t) in Em. set (pr := promoted ptv f t) in *.
  assert (PR : pr = true -> pt = ptv /\ (pt = 5 \/ pt = 6) /\ canPromote us f || canPromote us t = true).
  { unfold pr, promoted. rewrite !andb_true_iff. intros [[A1 A2] A3]. destruct KA as [[_ ->]|[-> [->|[->|[->| ->]]]]]; auto; discriminate. }
  assert (N8 : pt <> 8) by (intros ->; destruct KA as [[X _]|[_ X]]; [discriminate X|lia]).
  assert (P : plSet p f t pr).
  { unfold plSet. rewrite (proj2 (N.ltb_lt _ _) Hf). unfold plGoB. rewrite Ebd, Eus, C, Ct. rewrite <- Ept in A. rewrite (bAtt p us bd G Eus Ebd f t Hf Ht C A). cbn [andb negb]. unfold promoB. rewrite (gAt p bd Ebd), Eus, Ept.
    destruct pr eqn:Q; [|rewrite N.add_0_r in R; now rewrite (not_dead pt us t ko)]. destruct (PR eq_refl) as (_ & X & Z). rewrite !canPromote_zone in Z by auto. rewrite Z, (proj2 (N.leb_le pt 6)) by lia. reflexivity. }
  destruct (double_ok f t pt pr Hf Ht P Ept N8 (dattacks ptv f t) PI S AL R CL KE) as [L MM].
  exists f, t, pr. split; [lia|]. split; [exact Ht|]. split; [exact P|].
  assert (EM : m = enc p f t pr \/ f < 81 /\ isSmallPro (ptOf (at_ bd f)) = true /\ pr = false /\ m = codeOf t f false 7 (ptOf (at_ bd t))).
  { destruct pr eqn:Q.
    - left. destruct (PR eq_refl) as (<- & _). rewrite <- Em. apply promote_code; auto. now rewrite (gAt p bd Ebd).
    - assert (pt = ptv \/ isSmallPro pt = true /\ ptv = 7) as [<-|[SP ->]].
      { destruct KA as [[Q1 ->]|[-> _]]; auto. unfold isGoldPt in Q1. rewrite !orb_true_iff, !N.eqb_eq in Q1. destruct Q1 as [[[[->| ->]| ->]| ->]| ->]; auto. }
      + left. rewrite <- Em. apply nonpromote_code; auto. now rewrite (gAt p bd Ebd).
      + right. rewrite Ept. repeat split; auto. rewrite <- Em, capture_code by (auto; lia). now rewrite (gAt p bd Ebd). }
  split.
  { destruct EM as [->|(_ & _ & -> & ->)]; [apply moveN_enc; auto; lia|apply moveN_gold; auto; apply ptOf_lt]. }
  split; [exact EM|].
  assert (BARS : (pt + (if pr then 8 else 0) = 14 /\ onDiag t = true) \/ bars f t pt pr (dattacks ptv f t)).
  { destruct ((pt + (if pr then 8 else 0) =? 14) && onDiag t) eqn:Q; [left; apply andb_prop in Q as [Q1 Q2]; apply N.eqb_eq in Q1; auto|]. right.
    apply (bars_banned f t pt pr Hf Ht P Ept N8). intros q y Eq Hy Sy. unfold bannedBy. rewrite Eq. unfold dattacks in Sy. cbv zeta in Sy.
    assert (EP : pr = (canPromote us f || canPromote us t) && (N.land ptv 8 =? 0) && negb (ptv =? Gold)) by reflexivity. clearbody pr. clear MM KE Em EM L PR.
    destruct KA as [[HG ->]|[-> HP]].
    - change (N.land 7 8 =? 0) with true in EP. change (7 =? Gold) with true in EP. rewrite andb_false_r in EP. subst pr. rewrite N.add_0_r.
      unfold isGoldPt in HG. rewrite !orb_true_iff, !N.eqb_eq in HG. destruct HG as [[[[->| ->]| ->]| ->]| ->]; exact Sy.
    - destruct HP as [->|[->|[->| ->]]].
      + change (N.land 5 8 =? 0) with true in EP. change (5 =? Gold) with false in EP. cbn [negb] in EP. rewrite !andb_true_r in EP. rewrite <- EP in Sy. destruct pr; exact Sy.
      + change (N.land 6 8 =? 0) with true in EP. change (6 =? Gold) with false in EP. cbn [negb] in EP. rewrite !andb_true_r in EP. rewrite <- EP in Sy. destruct pr; [|exact Sy]. change (6 + 8) with 14 in Q |- *. change (14 =? 14) with true in Q. cbn [andb] in Q. unfold onDiag in Q. cbv iota. rewrite Q. exact Sy.
      + change (N.land 13 8 =? 0) with false in EP. rewrite andb_false_r in EP. cbn [andb] in EP. subst pr. exact Sy.
      + change (N.land 14 8 =? 0) with false in EP. rewrite andb_false_r in EP. cbn [andb] in EP. subst pr. rewrite N.add_0_r in Q |- *. change (14 =? 14) with true in Q. cbn [andb] in Q. unfold onDiag in Q. cbv iota. rewrite Q. exact Sy. }
  apply MM. destruct BARS as [[E14 D]|B]; [|exact B]. rewrite E14 in R.
  assert (H6 : pt = 6 \/ pt = 14) by (destruct pr eqn:Q; [destruct (PR eq_refl) as (_ & [X|X] & _); rewrite X in E14; [discriminate E14|auto]|right; rewrite N.add_0_r in E14; exact E14]).
  assert (ED : dattacks ptv f t = bbOr (rookAttackToEdge t) (kingAttack t)).
  { unfold dattacks. cbv zeta. destruct pr eqn:Q.
    - destruct (PR eq_refl) as (X1 & X2 & X3). rewrite <- X1. destruct H6 as [X|X]; rewrite X in *; [rewrite X3; reflexivity|discriminate E14].
    - destruct KA as [[X _]|[X _]]; destruct H6 as [Y|Y]; rewrite Y in *; try discriminate E14; try discriminate X. rewrite <- X. reflexivity. }
  rewrite ED. apply (bars_dragon f t pt pr Hf Ht P Ept N8 H6 E14 AL R).
  rewrite reach_eq in R. unfold onDiag in D. apply orb_prop in R as [R|R].
  - unfold stepIn in R. apply existsb_exists in R as (e & He & R). apply stepHits_iff in R; auto. exists e. split; [exact He|exact R].
  - exfalso. apply sreach_iff in R as (e & n & He & Hn & O); auto. cbn [slidesOf] in He. apply rook_dir in He as [He DE]. rewrite (rel_off t e n ko) in D by auto. unfold relOf in D. destruct DE as [DE|DE]; rewrite DE in D; cbn [Z.eqb] in D; [discriminate D|]. destruct (fst e =? 0)%Z; discriminate D.
Qed.

Lemma r13' t : t < 81 -> isSet (horseAttack ko (occBB p)) t = true -> reach 13 us t ko = true /\ clear (occOf bd) t ko = true.
Proof.
  intros Ht S. unfold horseAttack in S. rewrite isSet_or in S. apply orb_prop in S as [S|S].
  - destruct (slide_bishop t Ht S) as [R C]. split; auto. destruct (reach_unions us t ko U Ht Ho) as (_ & _ & _ & E & _). rewrite E, R. apply orb_true_r.
  - split; [exact (r13 p us th k ko bd G Eus Eth Ek Hk Eo Ho NC t Ht S)|now apply near_clear].
Qed.
Lemma r14' t : t < 81 -> isSet (dragonAttack ko (occBB p)) t = true -> reach 14 us t ko = true /\ clear (occOf bd) t ko = true.
Proof.
  intros Ht S. unfold dragonAttack in S. rewrite isSet_or in S. apply orb_prop in S as [S|S].
  - destruct (slide_rook t Ht S) as [R C]. split; auto. destruct (reach_unions us t ko U Ht Ho) as (_ & _ & _ & _ & E). rewrite E, R. apply orb_true_r.
  - split; [exact (r14 p us th k ko bd G Eus Eth Ek Hk Eo Ho NC t Ht S)|now apply near_clear].
Qed.
Lemma zone_part f t : f < 81 -> t < 81 -> isSet (if canPromote us f then allOneBB else enemyField us) t = true -> canPromote us f || canPromote us t = true.
Proof.
  intros Hf Ht S. pose proof U as Hu. destruct (canPromote us f) eqn:E; [reflexivity|]. cbn [orb].
  assert (X : forallb (fun c => forallb (fun t => eqb (isSet (enemyField c) t) (canPromote c t)) squares) [0; 1] = true) by (vm_compute; reflexivity).
  assert (Y := all2 _ X us t Hu Ht). cbv beta in Y. apply eqb_prop in Y. now rewrite <- Y.
Qed.
Lemma special_none pt f bb (att : N -> BB) pr m : wfBB bb -> (forall t, t < 81 -> isSet bb t = true -> isSet (att t) ko = true) ->
  firstSome (fun to => if isAligned f to ko then None else if pr && negb (canPromote2 us f to) then None else if isSet (att to) ko then None
    else if isPinnedIllegal f to k (pinnedBB p) then None else if canKingEscapeCangoto p th f to (att to) (bbXor (occBB p) (setMaskBB f)) then None
    else Some (if pr then makePromoteMove p pt f to else makeCaptureMove p pt f to)) (bbList bb) = Some m -> False.
Proof.
  intros W H E. apply firstSome_in in E as (t & I & E). apply in_bbList in I as [Ht S]; [|exact W]. rewrite (H t Ht S) in E.
  destruct (isAligned f t ko); [discriminate E|]. destruct (pr && negb (canPromote2 us f t)); discriminate E.
Qed.

(* attack tables seen from the other side *)
Lemma knight_back t : t < 81 -> isSet (knightAttack th ko) t = true -> isSet (knightAttack us t) ko = true.
Proof.
  intros Ht S. pose proof U as Hu. rewrite <- Eth, (back_knight us ko allZeroBB t) in S by auto. apply andb_prop in S as [S C]. rewrite <- (af3 us t allZeroBB), attacksFrom_spec by (auto; lia). now rewrite S, C.
Qed.
Lemma gold_back t : t < 81 -> isSet (goldAttack th ko) t = true -> isSet (goldAttack us t) ko = true.
Proof.
  intros Ht S. pose proof U as Hu. rewrite <- Eth, (back_gold us ko allZeroBB t) in S by auto. apply andb_prop in S as [S C]. rewrite <- (af7 us t allZeroBB), attacksFrom_spec by (auto; lia). now rewrite S, C.
Qed.
Lemma gold_forth t : t < 81 -> isSet (goldAttack us t) ko = true -> isSet (goldAttack th ko) t = true.
Proof.
  intros Ht S. pose proof U as Hu. rewrite <- (af7 us t allZeroBB), attacksFrom_spec in S by (auto; lia). now rewrite <- Eth, (back_gold us ko allZeroBB t) by auto.
Qed.
Lemma silver_back t : t < 81 -> isSet (silverAttack th ko) t = true -> isSet (silverAttack us t) ko = true.
Proof.
  intros Ht S. pose proof U as Hu. rewrite <- Eth, (back_silver us ko allZeroBB t) in S by auto. apply andb_prop in S as [S C]. rewrite <- (af4 us t allZeroBB), attacksFrom_spec by (auto; lia). now rewrite S, C.
Qed.
Lemma pawn_case f m : f < 81 -> isCol bd us f = true -> isSet (discoveredCheckBB true p) f = true -> ptOf (at_ bd f) = 1 ->
  (if makeFile f =? makeFile ko then None else let to := if us =? Black then f - 1 else f + 1 in
   if negb (pieceAt p to =? Empty) && negb (colorOf (pieceAt p to) =? th) then None else if negb (canPromote us to) then None else if negb (isSet (goldAttack us to) ko) then None
   else if isPinnedIllegal f to k (pinnedBB p) then None else if canKingEscapeCangoto p th f to (goldAttack us to) (bbXor (occBB p) (setMaskBB f)) then None
   else Some (makePromoteMove p Pawn f to)) = Some m -> answer m.
Proof.
  intros Hf C S Ept H. pose proof U as Hu. pose proof T as Hth. cbv zeta in H. destruct (makeFile f =? makeFile ko) eqn:FN; [discriminate H|]. change (if us =? Black then f - 1 else f + 1) with (aheadOf us f) in H. set (t := aheadOf us f) in *.
  destruct (negb (pieceAt p t =? Empty) && negb (colorOf (pieceAt p t) =? th)) eqn:Q1; [discriminate H|]. destruct (canPromote us t) eqn:Q2; [|discriminate H]. destruct (isSet (goldAttack us t) ko) eqn:Q3; [|discriminate H]. cbn [negb] in H.
  destruct (isPinnedIllegal f t k (pinnedBB p)) eqn:PI; [discriminate H|]. match type of H with (if ?c then _ else _) = _ => destruct c eqn:KE; [discriminate H|] end. injection H as Em.
  assert (Ct : isCol bd us t = false).
  { unfold isCol. change (pieceAt p t) with (at_ (board p) t) in Q1. rewrite Ebd in Q1. change Empty with 0 in Q1. destruct (at_ bd t =? 0); [reflexivity|]. cbn [negb andb] in *. apply negb_false_iff, N.eqb_eq in Q1. rewrite Q1. apply N.eqb_neq. rewrite <- Eth. now apply opp_neq. }
  assert (Nft : f <> t) by (intros E; rewrite <- E in Ct; congruence).
  assert (Ht : t < 81).
  { destruct (N.ltb_spec t 81) as [L|L]; [exact L|]. exfalso. unfold t, aheadOf in L, Q2. destruct (N.eqb_spec us 0) as [E0|E0]; [lia|]. assert (X1 : us = 1) by lia. assert (X2 : f + 1 = 81) by lia. clear - Q2 X1 X2. rewrite X2, X1 in Q2. discriminate Q2. }
  assert (A : isSet (attacksFrom 1 us f (occBB p)) t = true) by (rewrite af1; apply ahead_zone; auto; rewrite <- canPromote_zone by auto; exact Q2).
  assert (P : plSet p f t true).
  { unfold plSet. rewrite (proj2 (N.ltb_lt _ _) Hf). unfold plGoB. rewrite Ebd, Eus, C, Ct. rewrite <- Ept in A. rewrite (bAtt p us bd G Eus Ebd f t Hf Ht C A). cbn [andb negb]. unfold promoB. rewrite (gAt p bd Ebd), Eus, Ept.
    rewrite <- (canPromote_zone us t), Q2 by auto. rewrite orb_true_r. reflexivity. }
  assert (R : reach 9 us t ko = true) by (apply (r7 p us th ko G Eus Eth Ho 9 t eq_refl Ht), gold_forth; auto).
  assert (CL : clear (occOf bd) t ko = true) by (apply near_clear; [exact Ht|]; apply (near_pieces th ko t Hth Ho Ht); left; apply gold_forth; auto).
  assert (AL : isAligned f t ko = false).
  { unfold isAligned. apply N.eqb_neq. intros E. rewrite af1, (proj2 (pawnAttack_ok us f Hu Hf)) in A by auto.
    assert (X : forallb (fun c => forallb (fun s => forallb (fun t => squareRelation s t =? DirecFile) (stepList (stepsOf 1 c) s)) squares) [0; 1] = true) by (vm_compute; reflexivity).
    assert (Y := stepIn_all (stepsOf 1) (fun _ s t => squareRelation s t =? DirecFile) X us f t Hu Hf A). cbv beta in Y. apply N.eqb_eq in Y. rewrite Y in E. clear - E FN. unfold squareRelation in E. cbv zeta in E. rewrite FN in E.
    destruct (f =? ko); [discriminate E|]. repeat match type of E with (if ?c then _ else _) = _ => destruct c; [discriminate E|] end. discriminate E. }
  destruct (double_ok f t 1 true Hf Ht P Ept ltac:(discriminate) (goldAttack us t) PI S AL R CL KE) as [L MM].
  exists f, t, true. split; [lia|]. split; [exact Ht|]. split; [exact P|]. assert (EM : m = enc p f t true) by (rewrite <- Em; apply promote_code; auto; now rewrite (gAt p bd Ebd)).
  split; [rewrite EM; apply moveN_enc; auto; lia|]. split; [left; exact EM|]. apply MM. apply (bars_banned f t 1 true Hf Ht P Ept ltac:(discriminate)).
  intros q y Eq Hy Sy. unfold bannedBy. rewrite Eq. exact Sy.
Qed.
Ltac bits St := repeat first [rewrite isSet_and in St|rewrite isSet_or in St]; rewrite ?andb_true_iff, ?orb_true_iff, ?andb_true_iff in St.
Lemma golds_case pt f m : f < 81 -> isCol bd us f = true -> isSet (discoveredCheckBB true p) f = true -> ptOf (at_ bd f) = pt -> isGoldPt pt = true ->
  (if negb (isSet (checkAround us Gold ko) f) then None else
  firstSome (fun to => if isAligned f to ko then None else if isPinnedIllegal f to k (pinnedBB p) then None else
    if canKingEscapeCangoto p th f to (dattacks 7 f to) (bbXor (occBB p) (setMaskBB f)) then None
    else Some (if (canPromote us f || canPromote us to) && (N.land 7 8 =? 0) && negb (7 =? Gold) then makePromoteMove p 7 f to else makeCaptureMove p 7 f to)) (bbList (bbAnd (bbAnd (goldAttack us f) (goldAttack th ko)) (bbNot (bbC p us))))) = Some m ->
  answer m.
Proof.
  intros Hf C S Ept HG H. pose proof U as Hu. pose proof T as Hth. destruct (negb (isSet (checkAround us Gold ko) f)); [discriminate H|].
  revert H. apply (general_sound pt 7 f); auto; [left; auto|apply wf_and_l, wf_gold; auto|]. intros t Ht St. bits St. destruct St as [S1 S2].
  unfold promoted. change (7 =? Gold) with true. rewrite andb_false_r, N.add_0_r. split; [|split; [exact (r7 p us th ko G Eus Eth Ho pt t HG Ht S2)|apply near_clear; auto; apply (near_pieces th ko t Hth Ho Ht); auto]].
  unfold isGoldPt in HG. rewrite !orb_true_iff, !N.eqb_eq in HG. destruct HG as [[[[->| ->]| ->]| ->]| ->]; exact S1.
Qed.
Lemma double_sound m : mateDouble p = Some m -> answer m.
Proof.
  intros H. pose proof U as Hu. pose proof T as Hth. assert (V : views p) by apply G. unfold mateDouble in H. cbv zeta in H. rewrite Eus, Eth, (bKo p us th ko bd G Eus Eth Ebd Eo), (bKu p us k bd G Eus Ebd Ek) in H.
  apply firstSome_in in H as (f & I & H). apply in_bbList in I as [Hf S]; [|apply wf_hiddenCheckers; exact V].
  assert (C : isCol bd us f = true).
  { pose proof (isSet_hiddenCheckers false true p f V Hf) as HS. cbv zeta in HS. assert (S' := S). unfold discoveredCheckBB in S'. rewrite HS, Eus, Ebd in S'. rewrite !andb_true_iff in S'. tauto. }
  rewrite (gAt p bd Ebd) in H. remember (ptOf (at_ bd f)) as pt eqn:Ept. symmetry in Ept.
  assert (Hp : 1 <= pt < 15).
  { unfold isCol in C. apply andb_prop in C as [C0 _]. apply negb_true_iff, N.eqb_neq in C0. destruct (vpc_facts _ (gOk p bd V Ebd f Hf) C0) as (A & _). rewrite <- Ept. exact A. }
  destruct (pt_cases pt Hp) as [->|[->|[->|[->|[->|[->|[->|[->|[->|[->|[->|[->|[->| ->]]]]]]]]]]]]]; cbv iota in H; try discriminate H.
  - exact (pawn_case f m Hf C S Ept H).
  - destruct (negb (isSet (checkAround us Knight ko) f)); [discriminate H|].
    match type of H with (match ?a with _ => _ end) = _ => destruct a as [m0|] eqn:Q end.
    + exfalso. revert Q. apply (special_none 3 f _ (knightAttack us) false); [apply wf_and_l, wf_and_l, wf_knight; auto|]. intros t Ht St. bits St. apply knight_back; tauto.
    + exfalso. revert H. apply (special_none 3 f _ (goldAttack us) true); [apply wf_and_l, wf_knight; auto|]. intros t Ht St. bits St. apply gold_back; tauto.
  - destruct (negb (isSet (checkAround us Silver ko) f)); [discriminate H|].
    match type of H with (match ?a with _ => _ end) = _ => destruct a as [m0|] eqn:Q end.
    + exfalso. revert Q. apply (special_none 4 f _ (silverAttack us) false); [apply wf_and_l, wf_and_l, wf_silver; auto|]. intros t Ht St. bits St. apply silver_back; tauto.
    + exfalso. revert H. apply (special_none 4 f _ (goldAttack us) true); [apply wf_and_l, wf_and_l, wf_silver; auto|]. intros t Ht St. bits St. apply gold_back; tauto.
  - revert H. apply (general_sound 5 5 f); auto; [right; auto|apply wf_and_r; exact (wfA 5 us f (occBB p) Hp Hu Hf)|]. intros t Ht St. bits St. destruct St as [S1 S2]. rewrite af5. split; [exact S2|].
    change (promoted 5 f t) with ((canPromote us f || canPromote us t) && true && true). rewrite !andb_true_r. destruct S1 as [S1|[S1 S3]].
    + destruct (slide_bishop t Ht S1) as [R CL]. split; [|exact CL]. destruct (canPromote us f || canPromote us t); [|exact R]. destruct (reach_unions us t ko Hu Ht Ho) as (_ & _ & _ & E & _). change (5 + 8) with 13. rewrite E, R. apply orb_true_r.
    + rewrite (zone_part f t Hf Ht S3). split; [exact (r13 p us th k ko bd G Eus Eth Ek Hk Eo Ho NC t Ht S1)|now apply near_clear].
  - revert H. apply (general_sound 6 6 f); auto; [right; auto|apply wf_and_r; exact (wfA 6 us f (occBB p) Hp Hu Hf)|]. intros t Ht St. bits St. destruct St as [S1 S2]. rewrite af6. split; [exact S2|].
    change (promoted 6 f t) with ((canPromote us f || canPromote us t) && true && true). rewrite !andb_true_r. destruct S1 as [S1|[S1 S3]].
    + destruct (slide_rook t Ht S1) as [R CL]. split; [|exact CL]. destruct (canPromote us f || canPromote us t); [|exact R]. destruct (reach_unions us t ko Hu Ht Ho) as (_ & _ & _ & _ & E). change (6 + 8) with 14. rewrite E, R. apply orb_true_r.
    + rewrite (zone_part f t Hf Ht S3). split; [exact (r14 p us th k ko bd G Eus Eth Ek Hk Eo Ho NC t Ht S1)|now apply near_clear].
  - now apply (golds_case 7 f m).
  - now apply (golds_case 9 f m).
  - now apply (golds_case 10 f m).
  - now apply (golds_case 11 f m).
  - now apply (golds_case 12 f m).
  - revert H. apply (general_sound 13 13 f); auto; [right; auto|apply wf_and_l; exact (wfA 13 us f (occBB p) Hp Hu Hf)|]. intros t Ht St. bits St. destruct St as [S1 S2]. rewrite af13. split; [exact S1|].
    unfold promoted. change (N.land 13 8 =? 0) with false. rewrite andb_false_r. now apply r13'.
  - revert H. apply (general_sound 14 14 f); auto; [right; auto|apply wf_and_l; exact (wfA 14 us f (occBB p) Hp Hu Hf)|]. intros t Ht St. bits St. destruct St as [S1 S2]. rewrite af14. split; [exact S1|].
    unfold promoted. change (N.land 14 8 =? 0) with false. rewrite andb_false_r. now apply r14'.
Qed.
End D.
