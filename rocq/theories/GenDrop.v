(* Drops: the generator enumerates the drops of the pieces in hand to the target squares. *)
From Verif Require Export GenPawn.
Local Open Scope N_scope.

Definition dropSet (p : Position) (target : BB) : mset := fun f t pr =>
  pr = false /\ 81 <= f <= 87 /\ handExists (handOf p (turn p)) (ptToHand (f - 80)) = true /\ isSet target t = true /\ deadB (turn p) (f - 80) t = false /\
  (f = 81 -> nifuB p t = false /\ reach 1 (turn p) t (kingOf (board p) (opp (turn p))) && isPawnDropCheckMate p (turn p) t = false).
Lemma isSet_clearFiles t : t < 81 -> forall l bb, (forall s, In s l -> s < 81) ->
  isSet (fold_left (fun bb sq => bbAndNot bb (squareFileMask sq)) l bb) t = isSet bb t && forallb (fun s => negb (s / 9 =? t / 9)) l.
Proof.
  intros Ht. induction l as [|a l IH]; intros bb H; cbn [fold_left forallb]; [now rewrite andb_true_r|]. rewrite IH by (intros; apply H; now right).
  rewrite isSet_andnot, isSet_file by (auto; apply H; now left). now rewrite andb_assoc.
Qed.
Lemma wf_clearFiles : forall l bb, wfBB bb -> wfBB (fold_left (fun bb sq => bbAndNot bb (squareFileMask sq)) l bb).
Proof. induction l as [|a l IH]; intros bb H; cbn [fold_left]; auto. apply IH. now apply wf_andnot. Qed.
Section D.
Variables (p : Position) (us k : N) (bd : list N) (target : BB).
Hypotheses (V : views p) (Eus : turn p = us) (Ebd : board p = bd) (WT : wfBB target) (ET : forall t, t < 81 -> isSet target t = true -> pieceAt p t = 0).
Hypotheses (Ek : kingOf bd (opp us) = k) (Hk : k < 81).
Lemma last_rank t : (t mod 9 =? (if us =? Black then 0 else 8)) = (rankFor us t =? 1).
Proof. unfold rankFor, Black. pose proof (N.mod_lt t 9). destruct (us =? 0); lia. Qed.
Lemma Enum_pawnDrops : Enum p (fun f t pr => pr = false /\ f = 81 /\ isSet target t = true /\ deadB us 1 t = false /\ nifuB p t = false /\ reach 1 us t k && isPawnDropCheckMate p us t = false) (genPawnDrops p target).
Proof.
  pose proof (gUs p us V Eus) as Hu. unfold genPawnDrops. cbv zeta. rewrite Eus. rewrite kingSquare_view by (auto using opp_lt). rewrite Ebd, Ek.
  set (toBB := fold_left _ _ _).
  assert (WB : wfBB toBB) by (apply wf_clearFiles; now apply wf_andnot).
  assert (TB : forall t, t < 81 -> (isSet toBB t = true <-> isSet target t = true /\ deadB us 1 t = false /\ nifuB p t = false)).
  { intros t Ht. unfold toBB. rewrite isSet_clearFiles; [|auto|intros s Is; apply (in_bbTC p us bd V Eus Ebd 1) in Is; [tauto|lia]].
    rewrite isSet_andnot, isSet_rank, last_rank by (auto; destruct (us =? Black); lia). rewrite !andb_true_iff, negb_true_iff. change (deadB us 1 t) with (rankFor us t =? 1). rewrite and_assoc. apply and_iff_compat_l, and_iff_compat_l.
    rewrite forallb_forall. unfold nifuB. rewrite Eus. split.
    - intros H. apply not_true_is_false. intros X. apply existsb_exists in X as (s & Hs & X). apply in_squares in Hs. apply andb_prop in X as [X1 X2]. apply N.eqb_eq in X2.
      assert (I : In s (bbList (bbTC p Pawn us))). { apply (in_bbTC p us bd V Eus Ebd 1); [lia|]. unfold isCol. rewrite <- (gAt p bd Ebd), X2, mk_nz, col_mk, pt_mk, N.eqb_refl by (auto; lia). auto. }
      specialize (H s I). rewrite X1 in H. discriminate.
    - intros H s I. apply (in_bbTC p us bd V Eus Ebd 1) in I as (Hs & C & P1); [|lia]. apply (existsb_false_at _ _ s) in H; [|now apply in_squares]. cbv beta in H. apply andb_false_iff in H as [H|H]; [now rewrite H|].
      exfalso. apply N.eqb_neq in H. apply H. rewrite (gAt p bd Ebd) in *. unfold isCol in C. apply andb_prop in C as [C0 C1]. apply negb_true_iff, N.eqb_neq in C0. apply N.eqb_eq in C1.
      destruct (vpc_facts _ (gOk p bd V Ebd s Hs) C0) as (_ & _ & Q). rewrite Q, C1, P1. reflexivity. }
  set (chk := if us =? Black then k + 1 else k - 1).
  assert (RK : forall t, t < 81 -> (reach 1 us t k = true <-> negb (makeRank k =? (if us =? Black then 8 else 0)) = true /\ t = chk)).
  { intros t Ht. rewrite pawn_reach by auto. unfold chk, makeRank, Black. destruct (us =? 0); rewrite negb_true_iff, N.eqb_neq; tauto. }
  set (sp := negb (makeRank k =? (if us =? Black then 8 else 0)) && (isSet toBB chk && (pieceAt p chk =? Empty))).
  assert (CL : negb (makeRank k =? (if us =? Black then 8 else 0)) = true -> chk < 81).
  { unfold chk, makeRank, Black. pose proof (N.mod_lt k 9). destruct (us =? 0); rewrite negb_true_iff, N.eqb_neq; lia. }
  assert (SP : sp = true -> chk < 81 /\ isSet toBB chk = true /\ reach 1 us chk k = true).
  { unfold sp. rewrite !andb_true_iff. intros (A & B & _). split; [now apply CL|]. split; auto. apply RK; auto. }
  assert (NS : sp = false -> forall t, t < 81 -> isSet toBB t = true -> reach 1 us t k = false).
  { intros S t Ht X. apply not_true_is_false. intros R. apply RK in R as [R ->]; auto. unfold sp in S. rewrite R, X, !andb_true_l in S. apply TB in X as (X & _); auto. rewrite (ET chk) in S by auto. discriminate S. }
  destruct sp eqn:S.
  - destruct (SP eq_refl) as (Lc & Tc & Rc). assert (WX : wfBB (xorBit toBB chk)) by now apply wf_xorBit.
    assert (IX : forall t, In t (bbList (xorBit toBB chk)) <-> t < 81 /\ isSet toBB t = true /\ t <> chk).
    { intros t. rewrite in_bbList by auto. split; intros [Ht X]; (split; [auto|]).
      - rewrite isSet_xorBit in X by auto. destruct (N.eqb_spec chk t) as [<-|Q]; [rewrite Tc in X; discriminate|]. rewrite xorb_false_r in X. auto.
      - destruct X as [X Q]. rewrite isSet_xorBit, X by auto. rewrite (proj2 (N.eqb_neq _ _) (not_eq_sym Q)). reflexivity. }
    eapply Enum_ext; [apply Enum_app|].
    + rewrite andb_true_l. rewrite (drop_code p) by (auto; unfold Pawn; lia). apply Enum_if. intros _. apply (Enum_one p (80 + Pawn) chk false); unfold Pawn; lia.
    + rewrite map_flat. apply (Enum_flat p (fun t0 f t pr => f = 81 /\ t = t0 /\ pr = false)).
      * now apply NoDup_bbList.
      * intros t It. apply IX in It as (Ht & _). rewrite (drop_code p) by (auto; unfold Pawn; lia). apply (Enum_one p 81 t false); lia.
      * intros x y f t pr _ _ _ _ (_ & -> & _) (_ & E & _). exact E.
    + intros f t pr _ _ (_ & _ & -> & _) (x & Ix & _ & <- & _). apply IX in Ix. tauto.
    + intros f t pr Hf Ht. cbv beta. change (80 + Pawn) with 81. split.
      * intros [(M & -> & -> & ->)|(x & Ix & -> & -> & ->)].
        -- apply negb_true_iff in M. apply TB in Tc as (T1 & T2 & T3); auto. rewrite M, andb_false_r. auto 10.
        -- apply IX in Ix as (Lx & Tx & Nx). apply TB in Tx as (T1 & T2 & T3); auto. replace (reach 1 us x k) with false; [auto 10|]. symmetry. apply not_true_is_false. intros R. apply RK in R as [_ R]; auto.
      * intros (-> & -> & T1 & T2 & T3 & M). assert (Tt : isSet toBB t = true) by (apply TB; auto). destruct (N.eq_dec t chk) as [->|Q].
        -- left. rewrite Rc, andb_true_l in M. rewrite M. auto.
        -- right. exists t. split; [apply IX; auto|auto].
  - rewrite andb_false_l. cbn [app]. rewrite map_flat. eapply Enum_ext; [apply (Enum_flat p (fun t0 f t pr => f = 81 /\ t = t0 /\ pr = false))|].
    + now apply NoDup_bbList.
    + intros t It. apply in_bbList in It as (Ht & _); auto. rewrite (drop_code p) by (auto; unfold Pawn; lia). apply (Enum_one p 81 t false); lia.
    + intros x y f t pr _ _ _ _ (_ & -> & _) (_ & E & _). exact E.
    + intros f t pr Hf Ht. cbv beta. split.
      * intros (x & Ix & -> & -> & ->). apply in_bbList in Ix as (Lx & Tx); auto. rewrite NS by auto. apply TB in Tx as (T1 & T2 & T3); auto 10.
      * intros (-> & -> & T1 & T2 & T3 & M). exists t. split; [|auto]. apply in_bbList; auto. split; auto. apply TB; auto.
Qed.
Lemma Enum_dropsOn pts bb : wfBB bb -> NoDup pts -> (forall pt, In pt pts -> 1 <= pt < 15) ->
  Enum p (fun f t pr => pr = false /\ In (f - 80) pts /\ 81 <= f /\ isSet bb t = true) (flat_map (fun to => map (fun pt => makeDropMove pt to) pts) (bbList bb)).
Proof.
  intros WB ND HP. eapply Enum_ext; [apply (Enum_flat p (fun t0 f t pr => pr = false /\ In (f - 80) pts /\ 81 <= f /\ t = t0))|].
  - now apply NoDup_bbList.
  - intros t It. apply in_bbList in It as (Ht & _); auto. rewrite map_flat. eapply Enum_ext; [apply (Enum_flat p (fun pt f t' pr => f = 80 + pt /\ t' = t /\ pr = false))|]; auto.
    + intros pt Ip. specialize (HP pt Ip). rewrite (drop_code p) by auto. apply Enum_one; lia.
    + intros x y f t' pr _ _ _ _ (-> & _) (E & _). lia.
    + intros f t' pr _ _. cbv beta. split.
      * intros (pt & Ip & -> & -> & ->). specialize (HP pt Ip). replace (80 + pt - 80) with pt by lia. repeat split; auto. lia.
      * intros (-> & Ip & L & ->). exists (f - 80). repeat split; auto. lia.
  - intros x y f t pr _ _ _ _ (_ & _ & _ & ->) (_ & _ & _ & E). exact E.
  - intros f t pr _ Ht. cbv beta. split.
    + intros (t0 & It & -> & A & B & ->). apply in_bbList in It; tauto.
    + intros (-> & A & B & C). exists t. repeat split; auto. apply in_bbList; auto.
Qed.
Lemma Enum_otherDrops : Enum p (fun f t pr => pr = false /\ 82 <= f <= 87 /\ handExists (handOf p us) (ptToHand (f - 80)) = true /\ isSet target t = true /\ deadB us (f - 80) t = false) (genOtherDrops p target).
Proof.
  pose proof (gUs p us V Eus) as Hu. unfold genOtherDrops. cbv zeta. rewrite Eus.
  set (have := fun pt => if handExists (handOf p us) (ptToHand pt) then [pt] else []).
  change (if handExists (handOf p us) (ptToHand Knight) then [Knight] else []) with (have 3). change (if handExists (handOf p us) (ptToHand Lance) then [Lance] else []) with (have 2).
  change (if handExists (handOf p us) (ptToHand Silver) then [Silver] else []) with (have 4). change (if handExists (handOf p us) (ptToHand Gold) then [Gold] else []) with (have 7).
  change (if handExists (handOf p us) (ptToHand Bishop) then [Bishop] else []) with (have 5). change (if handExists (handOf p us) (ptToHand Rook) then [Rook] else []) with (have 6).
  assert (IH : forall q pt, In q (have pt) <-> q = pt /\ handExists (handOf p us) (ptToHand q) = true).
  { intros q pt. unfold have. destruct (handExists (handOf p us) (ptToHand pt)) eqn:E; cbn [In]; split.
    - intros [<-|[]]. auto.
    - intros [-> _]. now left.
    - intros [].
    - intros [-> X]. congruence. }
  assert (NH : forall pt, NoDup (have pt)) by (intros pt; unfold have; destruct (handExists _ _); repeat constructor; intros []).
  set (others := have 4 ++ have 7 ++ have 5 ++ have 6).
  assert (IO : forall q, In q others <-> (q = 4 \/ q = 7 \/ q = 5 \/ q = 6) /\ handExists (handOf p us) (ptToHand q) = true) by (intros q; unfold others; rewrite !in_app_iff, !IH; tauto).
  assert (NO : NoDup others).
  { unfold others. apply NoDup_app_intro; auto; [apply NoDup_app_intro; auto; [apply NoDup_app_intro; auto|]|]; intros x; rewrite ?in_app_iff, !IH; lia. }
  assert (IL : forall q, In q (have 2 ++ others) <-> (q = 2 \/ q = 4 \/ q = 7 \/ q = 5 \/ q = 6) /\ handExists (handOf p us) (ptToHand q) = true) by (intros q; rewrite in_app_iff, IH, IO; tauto).
  assert (NL : NoDup (have 2 ++ others)) by (apply NoDup_app_intro; auto; intros x; rewrite IH, IO; lia).
  assert (IN : forall q, In q (have 3 ++ have 2 ++ others) <-> (q = 3 \/ q = 2 \/ q = 4 \/ q = 7 \/ q = 5 \/ q = 6) /\ handExists (handOf p us) (ptToHand q) = true) by (intros q; rewrite in_app_iff, IH, IL; tauto).
  assert (NN : NoDup (have 3 ++ have 2 ++ others)) by (apply NoDup_app_intro; auto; intros x; rewrite IH, IL; lia).
  set (r1 := if us =? Black then 0 else 8). set (r2 := if us =? Black then 1 else 7). assert (L1 : r1 < 9) by (unfold r1; destruct (us =? Black); lia). assert (L2 : r2 < 9) by (unfold r2; destruct (us =? Black); lia).
  assert (E1 : forall t, (t mod 9 =? r1) = (rankFor us t =? 1)) by apply last_rank.
  assert (E2 : forall t, (t mod 9 =? r2) = (rankFor us t =? 2)) by (intros t; unfold r2, rankFor, Black; pose proof (N.mod_lt t 9); destruct (us =? 0); lia).
  clearbody others r1 r2 have.
  eapply Enum_ext; [apply Enum_app; [|apply Enum_app|]|].
  - apply Enum_dropsOn; auto; [now apply wf_and_l|]. intros pt Ip. apply IO in Ip. lia.
  - apply Enum_dropsOn; auto; [now apply wf_and_l|]. intros pt Ip. apply IL in Ip. lia.
  - apply Enum_dropsOn; auto; [now apply wf_and_l|]. intros pt Ip. apply IN in Ip. lia.
  - intros f t pr _ Ht (_ & _ & _ & A) (_ & _ & _ & B). rewrite isSet_and in A, B. rewrite isSet_not, isSet_or, !isSet_rank, E1, E2 in B by auto. rewrite isSet_rank, E2 in A by auto. apply andb_prop in A as [_ A]. rewrite A in B. rewrite andb_false_r in B. discriminate.
  - intros f t pr _ Ht (_ & _ & _ & A) X. cbv beta in X. rewrite isSet_and, isSet_rank, E1 in A by auto. apply andb_prop in A as [_ A]. apply N.eqb_eq in A.
    destruct X as [(_ & _ & _ & B)|(_ & _ & _ & B)]; rewrite isSet_and in B.
    + rewrite isSet_rank, E2, A in B by auto. rewrite andb_false_r in B. discriminate.
    + rewrite isSet_not, isSet_or, !isSet_rank, E1, E2, A in B by auto. rewrite andb_false_r in B. discriminate.
  - intros f t pr Hf Ht. cbv beta. rewrite !isSet_and, isSet_not, isSet_or, !isSet_rank, E1, E2, IO, IL, IN, !andb_true_iff by auto. unfold deadB.
    destruct (isSet target t); [|intuition discriminate].
    assert (Q : (rankFor us t <=? 2) = (rankFor us t =? 1) || (rankFor us t =? 2)) by (pose proof (rank_bounds us t Hu); lia).
    assert (Q' : (rankFor us t =? 1) && (rankFor us t =? 2) = false) by lia. rewrite Q. clear Q.
    revert Q'. generalize (handExists (handOf p us) (ptToHand (f - 80))) as h, (rankFor us t =? 1) as a, (rankFor us t =? 2) as b. intros h a b Q'.
    destruct pr; [intuition discriminate|].
    destruct (N.leb_spec 82 f) as [F1|F1]; [|intuition lia]. destruct (N.leb_spec f 87) as [F2|F2]; [|intuition lia].
    assert (F : f = 82 \/ f = 83 \/ f = 84 \/ f = 85 \/ f = 86 \/ f = 87) by lia. clear F1 F2 Hf.
    destruct F as [->|[->|[->|[->|[->| ->]]]]]; vm_compute (_ - _); cbv [N.leb N.compare Pos.compare Pos.compare_cont N.eqb Pos.eqb];
      destruct h, a, b; try discriminate Q'; cbn [negb andb orb]; split; intros X; repeat split; try lia; try reflexivity;
      repeat match goal with H : _ /\ _ |- _ => destruct H | H : _ \/ _ |- _ => destruct H end; try discriminate; try lia;
      first [left; repeat split; solve [reflexivity|lia|auto 10]|right; left; repeat split; solve [reflexivity|lia|auto 10]|right; right; repeat split; solve [reflexivity|lia|auto 10]].
Qed.
Lemma Enum_drops : Enum p (dropSet p target) (genDrops p target).
Proof.
  unfold genDrops. cbv zeta. rewrite Eus. eapply Enum_ext; [apply Enum_app|].
  - apply Enum_if. intros _. apply Enum_pawnDrops.
  - apply Enum_if. intros _. apply Enum_otherDrops.
  - intros f t pr _ _ (_ & _ & -> & _) (_ & _ & X & _). lia.
  - intros f t pr Hf Ht. cbv beta. unfold dropSet. rewrite Eus, Ebd, Ek. split.
    + intros [(H & -> & -> & T & D & N & M)|(_ & -> & F & H & T & D)].
      * change (81 - 80) with 1. repeat split; auto; lia.
      * repeat split; auto; try lia.
    + intros (-> & F & H & T & D & M). destruct (N.eq_dec f 81) as [->|Q].
      * left. destruct (M eq_refl) as [N M']. change (81 - 80) with 1 in *. auto 10.
      * right. split; [|repeat split; auto; lia]. rewrite exceptPawn_or. assert (F' : f = 82 \/ f = 83 \/ f = 84 \/ f = 85 \/ f = 86 \/ f = 87) by lia.
        destruct F' as [->|[->|[->|[->|[->| ->]]]]]; vm_compute (ptToHand _) in H; rewrite H; rewrite ?orb_true_r; reflexivity.
Qed.
End D.
