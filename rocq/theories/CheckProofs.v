(* The check status kept by doMove: the stored checkers are exactly the pieces that attack the king. *)
From Verif Require Export KeyProofs LineProofs.

(* x holds a non-king piece of colour c that attacks k *)
Definition chk (bd : list N) (c k x : N) : bool := isCol bd c x && negb (ptOf (at_ bd x) =? 8) && att bd x k.

Lemma isSet_occ_fun p : views p -> forall x, x < 81 -> isSet (occBB p) x = occOf (board p) x.
Proof. intros V x Hx. now rewrite isSet_occBB. Qed.
Lemma attOcc_ext bd o o' s t : (forall x, x < 81 -> o x = o' x) -> attOcc bd o s t = attOcc bd o' s t.
Proof. intros H. unfold attOcc. now rewrite (clear_ext o o') by auto. Qed.

Lemma chk_alt bd c k x : (colorOf (nthN 0 bd x) =? c) && negb (ptOf (nthN 0 bd x) =? King) && attOcc bd (occOf bd) x k = chk bd c k x.
Proof.
  unfold chk, isCol, att, attOcc, at_, King. destruct (nthN 0 bd x =? 0); cbn [negb andb]; [now rewrite andb_false_r|reflexivity].
Qed.
Lemma isSet_findCheckers p x : views p -> x < 81 ->
  isSet (findCheckersBB p) x = (kingOf (board p) (turn p) <? 81) && chk (board p) (opp (turn p)) (kingOf (board p) (turn p)) x.
Proof.
  intros V Hx. pose proof (v_turn p V) as Ht. unfold findCheckersBB. rewrite kingSquare_view by auto. unfold isInSquare.
  destruct (N.ltb_spec (kingOf (board p) (turn p)) 81) as [Hk|Hk]; cbn [andb]; [|apply isSet_zero].
  rewrite isSet_attackersToExceptKing by (auto using opp_lt). rewrite (attOcc_ext _ _ (occOf (board p))) by now apply isSet_occ_fun.
  apply chk_alt.
Qed.
Lemma wf_findCheckers p : views p -> wfBB (findCheckersBB p).
Proof.
  intros V. unfold findCheckersBB. destruct (isInSquare _); [|apply wf_zero]. unfold attackersToExceptKing. cbv zeta. apply wf_and_r.
  apply wf_bbC; auto. apply opp_lt, V.
Qed.

(* ---- CheckInfo ---- *)
Lemma ptCases pt : 1 <= pt < 15 -> pt = 1 \/ pt = 2 \/ pt = 3 \/ pt = 4 \/ pt = 5 \/ pt = 6 \/ pt = 7 \/ pt = 8 \/ pt = 9 \/ pt = 10 \/ pt = 11 \/ pt = 12 \/ pt = 13 \/ pt = 14.
Proof. lia. Qed.
Definition ciChecks (p : Position) (k : N) : list BB :=
  let them := opp (turn p) in
  let g := goldAttack them k in let b := bishopAttack k (occBB p) in let r := rookAttack k (occBB p) in let kk := kingAttack k in
  [allZeroBB; pawnAttack them k; lanceAttack them k (occBB p); knightAttack them k; silverAttack them k; b; r; g; allZeroBB; g; g; g; g; bbOr b kk; bbOr r kk].
Lemma ciCheck_eq p : ciCheck (checkInfo p) = if negb (isInSquare (kingSquare p (opp (turn p)))) then repeat allZeroBB 15 else ciChecks p (kingSquare p (opp (turn p))).
Proof. reflexivity. Qed.
Lemma nth15 {A} (d a0 a1 a2 a3 a4 a5 a6 a7 a8 a9 a10 a11 a12 a13 a14 : A) : let l := [a0; a1; a2; a3; a4; a5; a6; a7; a8; a9; a10; a11; a12; a13; a14] in
  nthN d l 1 = a1 /\ nthN d l 2 = a2 /\ nthN d l 3 = a3 /\ nthN d l 4 = a4 /\ nthN d l 5 = a5 /\ nthN d l 6 = a6 /\ nthN d l 7 = a7 /\ nthN d l 8 = a8 /\ nthN d l 9 = a9 /\ nthN d l 10 = a10 /\ nthN d l 11 = a11 /\ nthN d l 12 = a12 /\ nthN d l 13 = a13 /\ nthN d l 14 = a14.
Proof. repeat split. Qed.
Lemma ciChecks_spec p pt s k : views p -> 1 <= pt < 15 -> s < 81 -> k < 81 ->
  isSet (nthN allZeroBB (ciChecks p k) pt) s = negb (pt =? 8) && (reach pt (turn p) s k && clear (occOf (board p)) s k).
Proof.
  intros V Hp Hs Hk. pose proof (v_turn p V) as Ht.
  rewrite <- (clear_ext (isSet (occBB p)) (occOf (board p)) s k) by now apply isSet_occ_fun.
    destruct (reach_unions (turn p) s k Ht Hs Hk) as (_ & _ & _ & R13 & R14).
    pose proof (back_pawn (turn p) k (occBB p) s Ht Hs Hk) as B1. pose proof (back_lance (turn p) k (occBB p) s Ht Hs Hk) as B2.
    pose proof (back_knight (turn p) k (occBB p) s Ht Hs Hk) as B3. pose proof (back_silver (turn p) k (occBB p) s Ht Hs Hk) as B4.
    pose proof (back_bishop (turn p) k (occBB p) s Ht Hs Hk) as B5. pose proof (back_rook (turn p) k (occBB p) s Ht Hs Hk) as B6.
    pose proof (back_gold (turn p) k (occBB p) s Ht Hs Hk) as B7. pose proof (back_king (turn p) k (occBB p) s Ht Hs Hk) as B8.
    assert (R9 := reach_gold (turn p) s k 9 eq_refl). assert (R10 := reach_gold (turn p) s k 10 eq_refl). assert (R11 := reach_gold (turn p) s k 11 eq_refl). assert (R12 := reach_gold (turn p) s k 12 eq_refl).
    pose proof (nth15 allZeroBB allZeroBB (pawnAttack (opp (turn p)) k) (lanceAttack (opp (turn p)) k (occBB p)) (knightAttack (opp (turn p)) k) (silverAttack (opp (turn p)) k) (bishopAttack k (occBB p)) (rookAttack k (occBB p)) (goldAttack (opp (turn p)) k) allZeroBB (goldAttack (opp (turn p)) k) (goldAttack (opp (turn p)) k) (goldAttack (opp (turn p)) k) (goldAttack (opp (turn p)) k) (bbOr (bishopAttack k (occBB p)) (kingAttack k)) (bbOr (rookAttack k (occBB p)) (kingAttack k))) as T.
    cbv zeta in T. destruct T as (T1 & T2 & T3 & T4 & T5 & T6 & T7 & T8 & T9 & T10 & T11 & T12 & T13 & T14).
    unfold ciChecks. cbv zeta. destruct (ptCases pt Hp) as [->|[->|[->|[->|[->|[->|[->|[->|[->|[->|[->|[->|[->| ->]]]]]]]]]]]]];
      rewrite ?T1, ?T2, ?T3, ?T4, ?T5, ?T6, ?T7, ?T8, ?T9, ?T10, ?T11, ?T12, ?T13, ?T14; rewrite ?B1, ?B2, ?B3, ?B4, ?B5, ?B6, ?B7, ?R9, ?R10, ?R11, ?R12;
      match goal with |- context [negb (?x =? 8)] => let e := eval vm_compute in (negb (x =? 8)) in change (negb (x =? 8)) with e end; cbn [andb];
      first [reflexivity | apply isSet_zero | idtac].
    - rewrite isSet_or, B5, B8, R13. destruct (reach 8 (turn p) s k), (reach 5 (turn p) s k), (clear _ s k); reflexivity.
    - rewrite isSet_or, B6, B8, R14. destruct (reach 8 (turn p) s k), (reach 6 (turn p) s k), (clear _ s k); reflexivity.
Qed.
Lemma isSet_checkBB p pt s : views p -> 1 <= pt < 15 -> s < 81 ->
  let k := kingOf (board p) (opp (turn p)) in
  isSet (checkBB (checkInfo p) pt) s = (k <? 81) && negb (pt =? 8) && (reach pt (turn p) s k && clear (occOf (board p)) s k).
Proof.
  intros V Hp Hs k. pose proof (v_turn p V) as Ht. unfold checkBB. rewrite ciCheck_eq. rewrite kingSquare_view by (auto using opp_lt). fold k. unfold isInSquare.
  destruct (N.ltb_spec k 81) as [Hk|Hk]; cbn [negb andb].
  - now apply ciChecks_spec.
  - replace (nthN allZeroBB (repeat allZeroBB 15) pt) with allZeroBB; [apply isSet_zero|].
    destruct (ptCases pt Hp) as [->|[->|[->|[->|[->|[->|[->|[->|[->|[->|[->|[->|[->| ->]]]]]]]]]]]]]; reflexivity.
Qed.
Lemma isSet_dc p x : views p -> x < 81 ->
  let k := kingOf (board p) (opp (turn p)) in
  isSet (ciDc (checkInfo p)) x = (k <? 81) && isCol (board p) (turn p) x && existsb (hid (board p) (turn p) k x) squares.
Proof. intros V Hx. exact (isSet_hiddenCheckers false true p x V Hx). Qed.

(* the geometric condition a board move satisfies *)
Definition pseudoGo (p : Position) (m : N) : Prop := mvDrop m = false -> att (board p) (mvFrom m) (mvTo m) = true.
(* no non-king piece of the side to move attacks the opponent's king *)
Definition oppSafe (p : Position) : Prop :=
  let k := kingOf (board p) (opp (turn p)) in k < 81 -> forall s, s < 81 -> chk (board p) (turn p) k s = false.

Section C.
Variables (p : Position) (m us k : N) (bd bd' : list N).
Hypotheses (V : views p) (O : oneKing (board p)) (W : wfMove p m) (G0 : pseudoGo p m) (S0 : oppSafe p).
Hypotheses (Eus : turn p = us) (Ebd : board p = bd) (Ebd' : newBoard p m = bd') (Ek : kingOf bd (opp us) = k).

Lemma cUs : us < 2. Proof. rewrite <- Eus. apply V. Qed.
Lemma cOk : okBoard bd. Proof. rewrite <- Ebd. apply V. Qed.
Lemma cTo : mvTo m < 81. Proof. destruct W as [(_ & _ & H & _)|(_ & _ & H & _)]; exact H. Qed.
Lemma cS x : k < 81 -> x < 81 -> chk bd us k x = false.
Proof. intros Hk Hx. pose proof S0 as S. unfold oppSafe in S. cbv zeta in S. rewrite Ebd, Eus, Ek in S. now apply S. Qed.
Lemma cG : mvDrop m = false -> att bd (mvFrom m) (mvTo m) = true.
Proof. rewrite <- Ebd. exact G0. Qed.
Lemma pA x : pieceAt p x = at_ bd x. Proof. rewrite <- Ebd. reflexivity. Qed.
Lemma cDrop : wfDrop p m -> mvDrop m = true /\ 1 <= mvPtDropped m <= 7 /\ mvTo m < 81 /\ at_ bd (mvTo m) = 0.
Proof. intros (A & B & C & D & _). now rewrite pA in D. Qed.
Lemma cGo : wfGo p m -> mvDrop m = false /\ mvFrom m <> mvTo m /\ mvTo m < 81 /\ 1 <= mvPtFrom m < 15 /\
  at_ bd (mvFrom m) = mkPiece us (mvPtFrom m) /\
  (at_ bd (mvTo m) = 0 /\ mvCap m = 0 \/ at_ bd (mvTo m) = mkPiece (opp us) (mvCap m) /\ 1 <= mvCap m < 15 /\ mvCap m <> 8) /\
  (mvPromo m = true -> mvPtFrom m <= 6).
Proof. intros X. unfold wfGo in X. now rewrite !pA, Eus in X. Qed.
Lemma nD x : wfDrop p m -> at_ bd' x = if mvTo m =? x then mkPiece us (mvPtDropped m) else at_ bd x.
Proof. intros X. rewrite <- Ebd', <- Eus, <- pA. now apply at_newDrop. Qed.
Lemma nG x : wfGo p m -> at_ bd' x = if mvTo m =? x then mkPiece us (mvPtToOf m (mvPtFrom m)) else if mvFrom m =? x then 0 else at_ bd x.
Proof. intros X. rewrite <- Ebd', <- Eus, <- pA. now apply at_newGo. Qed.
Lemma cCheck pt s : 1 <= pt < 15 -> s < 81 ->
  isSet (checkBB (checkInfo p) pt) s = (k <? 81) && negb (pt =? 8) && (reach pt us s k && clear (occOf bd) s k).
Proof. intros Hp Hs. pose proof (isSet_checkBB p pt s V Hp Hs) as E. cbv zeta in E. now rewrite Ebd, Eus, Ek in E. Qed.
Lemma cDc x : x < 81 -> isSet (ciDc (checkInfo p)) x = (k <? 81) && isCol bd us x && existsb (hid bd us k x) squares.
Proof. intros Hx. pose proof (isSet_dc p x V Hx) as E. cbv zeta in E. now rewrite Ebd, Eus, Ek in E. Qed.
Lemma king_at c : c < 2 -> kingOf bd c < 81 -> at_ bd (kingOf bd c) = mkPiece c King.
Proof. intros Hc Hk. destruct (kingOf_cases bd c) as [[_ K]|[E _]]; [|lia]. unfold isKing in K. now apply N.eqb_eq. Qed.
Lemma king_same : kingOf bd' (opp us) = k.
Proof.
  rewrite <- Ek. apply kingOf_ext. intros s Hs. rewrite <- Ebd'. rewrite isKing_new by (auto; apply opp_lt, cUs). rewrite Ebd, Eus.
  replace (opp us =? us) with false; [now rewrite andb_false_r|]. symmetry. apply N.eqb_neq, opp_neq, cUs.
Qed.
Lemma to_ne_k : k < 81 -> mvTo m <> k.
Proof.
  intros Hk E. pose proof (king_at (opp us) (opp_lt _ cUs)) as K. rewrite Ek in K. specialize (K Hk). rewrite <- E in K.
  destruct W as [X|X]; [destruct (cDrop X) as (_ & _ & _ & H)|destruct (cGo X) as (_ & _ & _ & _ & _ & [[H _]|(H & Hc & H8)] & _)]; rewrite H in K.
  - symmetry in K. revert K. apply (mkPiece_facts (opp us) King); [apply opp_lt, cUs|unfold King; lia].
  - symmetry in K. revert K. apply (mkPiece_facts (opp us) King); [apply opp_lt, cUs|unfold King; lia].
  - apply mkPiece_inj in K; try (apply opp_lt, cUs); auto; unfold King in *; lia.
Qed.
Lemma chk_split c x t : chk bd c t x = true <-> isCol bd c x = true /\ ptOf (at_ bd x) <> 8 /\ att bd x t = true.
Proof. unfold chk. rewrite !andb_true_iff, negb_true_iff, N.eqb_neq. tauto. Qed.

(* -- drops -- *)
Lemma drop_chk x : wfDrop p m -> k < 81 -> x < 81 ->
  chk bd' us k x = (mvTo m =? x) && isSet (checkBB (checkInfo p) (mvPtDropped m)) (mvTo m).
Proof.
  intros X Hk Hx. pose proof cUs as Hu. pose proof (cDrop X) as (Hd & Hp & Hto & He).
  rewrite cCheck by (auto; lia). replace (k <? 81) with true by lia. cbn [andb].
  replace (mvPtDropped m =? 8) with false by lia. cbn [negb andb].
  destruct (N.eqb_spec (mvTo m) x) as [E|E]; cbn [andb].
  - subst x. unfold chk, isCol, att, attOcc. rewrite nD by auto. rewrite (N.eqb_refl (mvTo m)).
    rewrite mk_nz, col_mk, pt_mk, N.eqb_refl by (auto; lia). replace (mvPtDropped m =? 8) with false by lia. cbn [negb andb]. f_equal.
    assert (Hto' : ~ In (mvTo m) (betw (mvTo m) k)) by (apply betw_ends; auto).
    apply eq_true_iff_eq. rewrite !clear_iff. split; intros H y Hy; specialize (H y Hy); unfold occOf in *; rewrite (nD y X) in *;
      destruct (N.eqb_spec (mvTo m) y); auto; subst y; contradiction.
  - destruct (chk bd' us k x) eqn:C; [|reflexivity]. exfalso.
    assert (A : at_ bd' x = at_ bd x) by (rewrite nD by auto; now rewrite (proj2 (N.eqb_neq _ _) E)).
    unfold chk, isCol, att, attOcc in C. rewrite A in C. rewrite !andb_true_iff in C. destruct C as ((C1 & C2) & C3 & C4 & C5).
    assert (Q : chk bd us k x = true).
    { unfold chk, isCol, att, attOcc. rewrite !andb_true_iff. repeat split; try tauto.
      apply (clear_mono (occOf bd) (occOf bd')); auto. intros y Hy Ho. unfold occOf. rewrite nD by auto.
      destruct (mvTo m =? y); [now rewrite mk_nz by (auto; lia)|exact Ho]. }
    rewrite cS in Q by auto. discriminate.
Qed.

(* -- board moves -- *)
Lemma go_occ y : wfGo p m -> occOf bd' y = (mvTo m =? y) || (negb (mvFrom m =? y) && occOf bd y).
Proof.
  intros X. pose proof (wfGo_ptTo p m X) as (Hpt & _). unfold occOf. rewrite nG by auto. destruct (mvTo m =? y); cbn [orb].
  - now rewrite mk_nz by (auto using cUs).
  - destruct (mvFrom m =? y); reflexivity.
Qed.
Lemma go_from_occ : wfGo p m -> occOf bd (mvFrom m) = true.
Proof. intros X. pose proof (cGo X) as (_ & _ & _ & Hp & H & _). unfold occOf. rewrite H, mk_nz; auto using cUs. Qed.
Lemma k_occ : k < 81 -> occOf bd k = true.
Proof. intros Hk. unfold occOf. rewrite <- Ek in *. rewrite king_at by (auto; apply opp_lt, cUs). rewrite mk_nz; auto; [apply opp_lt, cUs|unfold King; lia]. Qed.

Lemma go_chk_to : wfGo p m -> k < 81 -> chk bd' us k (mvTo m) = isSet (checkBB (checkInfo p) (mvPtToOf m (mvPtFrom m))) (mvTo m).
Proof.
  intros X Hk. pose proof cUs as Hu. pose proof (wfGo_from p m X) as Hf. pose proof (wfGo_ptTo p m X) as (Hpt & H8 & _).
  pose proof (cGo X) as (Hd & Hne & Hto & Hpf & Hat & Hcap & Hpr).
  rewrite cCheck by auto. replace (k <? 81) with true by lia. cbn [andb].
  unfold chk, isCol, att, attOcc. assert (A : at_ bd' (mvTo m) = mkPiece us (mvPtToOf m (mvPtFrom m))) by (rewrite nG by auto; now rewrite N.eqb_refl).
  rewrite A, mk_nz, col_mk, pt_mk, N.eqb_refl by auto. cbn [negb andb].
  destruct (N.eqb_spec (mvPtToOf m (mvPtFrom m)) 8) as [E8|E8]; [reflexivity|]. cbn [negb andb].
  destruct (reach (mvPtToOf m (mvPtFrom m)) us (mvTo m) k) eqn:R; cbn [andb]; [|reflexivity].
  destruct (betw_ends (mvTo m) k Hto Hk) as [N1 _].
  apply eq_true_iff_eq. rewrite !clear_iff. split; intros C y Hy.
  - destruct (N.eq_dec y (mvFrom m)) as [->|Hn].
    + exfalso. assert (SR : sreach (mvPtToOf m (mvPtFrom m)) us (mvTo m) k = true) by (apply (reach_far _ _ _ _ (mvFrom m)); auto).
      assert (B : isBetween (mvTo m) (mvFrom m) k) by (apply betw_iff in Hy; tauto).
      apply (sreach_inner _ _ _ (mvFrom m)) in SR; auto.
      assert (SF : sreach (mvPtFrom m) us (mvFrom m) k = true).
      { rewrite mvPtToOf_eq in SR. destruct (mvPromo m); [apply sreach_promo; auto; specialize (Hpr eq_refl); lia|now rewrite N.add_0_r in SR]. }
      assert (Q : chk bd us k (mvFrom m) = true).
      { apply chk_split. unfold isCol, att, attOcc.
        rewrite Hat. rewrite mk_nz, col_mk, pt_mk, N.eqb_refl by auto. split; [reflexivity|]. split; [tauto|]. cbn [negb andb].
        rewrite (sreach_reach _ _ _ _ SF). cbn [andb]. apply clear_iff. intros w Hw.
        assert (Hw' : In w (betw (mvTo m) k)).
        { apply betw_iff in Hw as (Lw & d & a & b & Hdd & Ha & Hb & O1 & O2); auto. destruct B as (e & a' & b' & He & Ha' & Hb' & O3 & O4).
          assert (d = e /\ (a + b = b')%Z) as [<- _] by (apply (off_uniq (mvFrom m) k); auto; try lia; eapply off_add; eauto).
          apply betw_iff; auto. split; auto. exists d, (a' + a)%Z, b. repeat split; try lia; auto; try apply O2; eapply off_add; eauto. }
        specialize (C w Hw'). rewrite go_occ in C by auto. apply orb_false_iff in C as [_ C].
        destruct (N.eqb_spec (mvFrom m) w) as [E|E]; [|exact C]. subst w. exfalso. now apply (proj1 (betw_ends (mvFrom m) k Hf Hk)). }
      rewrite cS in Q by auto. discriminate.
    + specialize (C y Hy). rewrite go_occ in C by auto. apply orb_false_iff in C as [_ C]. now rewrite (proj2 (N.eqb_neq _ _) (not_eq_sym Hn)) in C.
  - rewrite go_occ by auto. rewrite (C y Hy), andb_false_r, orb_false_r. apply N.eqb_neq. intros <-. contradiction.
Qed.

Lemma hid_split x s : hid bd us k x s = true <-> isCol bd us s = true /\ sreach (ptOf (at_ bd s)) us s k = true /\ sole (occOf bd) s k x = true.
Proof. unfold hid. rewrite !andb_true_iff. tauto. Qed.
Lemma slides_not8 pt c s t : sreach pt c s t = true -> pt <> 8 /\ pt <> 0.
Proof. intros H. split; intros ->; cbn in H; discriminate. Qed.

(* the pieces whose attack the move uncovers *)
Lemma go_chk_other x : wfGo p m -> k < 81 -> x < 81 -> x <> mvTo m ->
  chk bd' us k x = hid bd us k (mvFrom m) x && negb (memN (mvTo m) (betw x k)).
Proof.
  intros X Hk Hx Hxt. pose proof cUs as Hu. pose proof (wfGo_from p m X) as Hf. pose proof (cGo X) as (Hd & Hne & Hto & Hpf & Hat & Hcap & Hpr).
  apply eq_true_iff_eq. rewrite andb_true_iff, negb_true_iff, hid_split. split.
  - intros C. unfold chk, isCol, att, attOcc in C. assert (A : at_ bd' x = if mvFrom m =? x then 0 else at_ bd x) by (rewrite nG by auto; rewrite (proj2 (N.eqb_neq _ _) (not_eq_sym Hxt)); reflexivity).
    rewrite A in C. destruct (N.eqb_spec (mvFrom m) x) as [E|E]; [change (0 =? 0) with true in C; cbn in C; discriminate|].
    rewrite !andb_true_iff in C. destruct C as (((C1 & C2) & C3) & _ & C4 & C5). apply negb_true_iff, N.eqb_neq in C1, C3. apply N.eqb_eq in C2. rewrite C2 in C4.
    destruct (vpc_facts (at_ bd x) (proj2 cOk x Hx) C1) as (Hpt & _ & _).
    rewrite clear_iff in C5.
    assert (Hin : In (mvFrom m) (betw x k)).
    { destruct (memN (mvFrom m) (betw x k)) eqn:M; [now apply memN_In|]. exfalso.
      assert (Q : chk bd us k x = true).
      { apply chk_split. unfold isCol, att, attOcc. rewrite (proj2 (N.eqb_neq _ _) C1), C2, N.eqb_refl, C4. cbn [negb andb]. repeat split; auto.
        apply clear_iff. intros y Hy. specialize (C5 y Hy). rewrite go_occ in C5 by auto. apply orb_false_iff in C5 as [_ C5].
        destruct (N.eqb_spec (mvFrom m) y) as [Ey|]; [|exact C5]. subst y. apply memN_In in Hy. congruence. }
      rewrite cS in Q by auto. discriminate. }
    split; [split; [|split]|].
    + unfold isCol. now rewrite (proj2 (N.eqb_neq _ _) C1), C2, N.eqb_refl.
    + now apply (reach_far _ _ _ _ (mvFrom m)).
    + unfold sole. rewrite (go_from_occ X). rewrite (proj2 (memN_In _ _) Hin). cbn [andb]. apply forallb_forall. intros y Hy. specialize (C5 y Hy).
      rewrite go_occ in C5 by auto. apply orb_false_iff in C5 as [_ C5]. rewrite (N.eqb_sym y). destruct (mvFrom m =? y); [reflexivity|]. cbn in C5. now rewrite C5.
    + destruct (memN (mvTo m) (betw x k)) eqn:M; [|reflexivity]. apply memN_In in M. specialize (C5 _ M). rewrite go_occ in C5 by auto. rewrite N.eqb_refl in C5. discriminate.
  - intros [(C1 & C2 & C3) Hnb]. unfold isCol in C1. apply andb_prop in C1 as [C1 C1'].
    assert (Hxf : mvFrom m <> x). { intros <-. unfold sole in C3. rewrite !andb_true_iff in C3. destruct C3 as [[C3 _] _]. apply memN_In in C3. now apply (proj1 (betw_ends (mvFrom m) k Hf Hk)). }
    unfold chk, isCol, att, attOcc. assert (A : at_ bd' x = at_ bd x) by (rewrite nG by auto; rewrite (proj2 (N.eqb_neq _ _) (not_eq_sym Hxt)), (proj2 (N.eqb_neq _ _) Hxf); reflexivity).
    rewrite A, C1, C1'. apply N.eqb_eq in C1'. rewrite C1', (sreach_reach _ _ _ _ C2). destruct (slides_not8 _ _ _ _ C2) as [H8 _]. rewrite (proj2 (N.eqb_neq _ _) H8). cbn [negb andb].
    apply clear_iff. intros y Hy. rewrite go_occ by auto. destruct (N.eqb_spec (mvTo m) y) as [E|E]; [subst y; apply memN_In in Hy; congruence|]. cbn [orb].
    destruct (N.eqb_spec (mvFrom m) y) as [|Hfy]; [reflexivity|]. cbn [negb andb]. destruct (occOf bd y) eqn:Oy; [|reflexivity].
    exfalso. apply Hfy. symmetry. apply (sole_other _ _ _ _ _ C3); auto. now apply memN_In.
Qed.
Lemma go_align x : wfGo p m -> k < 81 -> x < 81 -> hid bd us k (mvFrom m) x = true -> isAligned (mvFrom m) (mvTo m) k = memN (mvTo m) (betw x k) /\ x <> mvTo m.
Proof.
  intros X Hk Hx H. pose proof cUs as Hu. pose proof (wfGo_from p m X) as Hf. pose proof (cGo X) as (Hd & Hne & Hto & Hpf & Hat & Hcap & Hpr).
  apply hid_split in H as (C1 & C2 & C3).
  assert (Hxt : x <> mvTo m).
  { intros ->. unfold isCol in C1. apply andb_prop in C1 as [C1 C1'].
    destruct Hcap as [[E _]|(E & Hc & _)]; rewrite E in *; [discriminate|]. rewrite col_mk in C1' by (auto; apply opp_lt, Hu). apply N.eqb_eq in C1'. now apply (opp_neq us). }
  split; [|exact Hxt]. unfold sole in C3. rewrite !andb_true_iff in C3. destruct C3 as [[C3 _] _]. apply memN_betw in C3; auto.
  apply (aligned_between (occOf bd)); auto.
  - now apply to_ne_k.
  - unfold isCol in C1. apply andb_prop in C1 as [C1 _]. exact C1.
  - now apply k_occ.
  - pose proof (cG Hd) as G. unfold att, attOcc in G. rewrite !andb_true_iff in G. tauto.
Qed.
Lemma go_disc : wfGo p m -> k < 81 ->
  isDiscoveredCheck (mvFrom m) (mvTo m) k (ciDc (checkInfo p)) = existsb (fun x => negb (mvTo m =? x) && chk bd' us k x) squares.
Proof.
  intros X Hk. pose proof cUs as Hu. pose proof (wfGo_from p m X) as Hf. pose proof (cGo X) as (Hd & Hne & Hto & Hpf & Hat & Hcap & Hpr).
  unfold isDiscoveredCheck. rewrite cDc by auto. replace (k <? 81) with true by lia. cbn [andb].
  replace (isCol bd us (mvFrom m)) with true by (unfold isCol; rewrite Hat; now rewrite mk_nz, col_mk, N.eqb_refl by auto).
  cbn [andb]. apply eq_true_iff_eq. rewrite andb_true_iff, !existsb_exists. split.
  - intros [(x & Hin & H) Ha]. assert (Hx := Hin). apply in_squares in Hx. exists x. split; auto. destruct (go_align x X Hk Hx H) as [A B].
    rewrite (proj2 (N.eqb_neq _ _) (not_eq_sym B)). cbn [negb andb]. rewrite go_chk_other by auto. rewrite H, <- A. exact Ha.
  - intros (x & Hin & H). assert (Hx := Hin). apply in_squares in Hx. apply andb_prop in H as [H1 H2]. apply negb_true_iff, N.eqb_neq in H1.
    rewrite go_chk_other in H2 by auto. apply andb_prop in H2 as [H2 H3]. split; [eauto|]. destruct (go_align x X Hk Hx H2) as [A B]. now rewrite A.
Qed.

(* moveGivesCheck is exact *)
Lemma givesCheck_exact : moveGivesCheck p m (checkInfo p) = (k <? 81) && existsb (chk bd' us k) squares.
Proof.
  pose proof cUs as Hu. unfold moveGivesCheck. cbv zeta. destruct (N.ltb_spec k 81) as [Hk|Hk]; cbn [andb].
  - destruct W as [X|X]; pose proof X as (Hd & _); rewrite Hd.
    + apply eq_true_iff_eq. rewrite existsb_exists. split.
      * intros H. exists (mvTo m). split; [apply in_squares, cTo|]. rewrite drop_chk by (auto using cTo). rewrite N.eqb_refl. exact H.
      * intros (x & Hin & H). apply in_squares in Hin. rewrite drop_chk in H by auto. apply andb_prop in H as [_ H]. exact H.
    + rewrite kingSquare_view by (auto; rewrite Eus; apply opp_lt, Hu). rewrite Ebd, Eus, Ek. rewrite go_disc by auto. rewrite <- go_chk_to by auto.
      apply eq_true_iff_eq. rewrite orb_true_iff, !existsb_exists. split.
      * intros [H|(x & Hin & H)]; [exists (mvTo m); split; [apply in_squares, cTo|exact H]|]. exists x. apply andb_prop in H as [_ H]. split; [exact Hin|exact H].
      * intros (x & Hin & H). destruct (N.eqb_spec (mvTo m) x) as [->|E]; [now left|]. right. exists x. split; [exact Hin|]. rewrite (proj2 (N.eqb_neq _ _) E). exact H.
  - destruct W as [X|X]; pose proof X as (Hd & _); rewrite Hd.
    + pose proof (cDrop X) as (_ & Hp & Hto & _). rewrite cCheck by (auto; lia). replace (k <? 81) with false by lia. reflexivity.
    + pose proof (wfGo_from p m X) as Hf. pose proof (wfGo_ptTo p m X) as (Hpt & _). pose proof cTo as Hto. rewrite cCheck by auto.
      unfold isDiscoveredCheck. rewrite cDc by auto. replace (k <? 81) with false by lia. reflexivity.
Qed.
End C.
