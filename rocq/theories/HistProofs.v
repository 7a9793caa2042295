(* Histories of calls on a board: whatever is pushed, popped, passed and un-passed, the board is the
   one reached by the remaining line of play. *)
From Verif Require Export SetProofs SpecProofs.
Local Open Scope N_scope.

(* two positions that agree except in the counters of consecutive checks *)
Definition stripSt (s : StateInfo) : StateInfo := mkSt (pliesFromNull s) [] (boardKey s) (handKey s) (checkersBB s) (stHand s).
Definition strip (p : Position) : Position :=
  mkPos (byType p) (byColor p) (golds p) (board p) (kingSq p) (hands p) (turn p) (gamePly p) (stripSt (st p)) (prev p).
Definition sim (p q : Position) : Prop := strip p = strip q.
Lemma sim_refl p : sim p p. Proof. reflexivity. Qed.
Lemma sim_fields p q : sim p q -> byType p = byType q /\ byColor p = byColor q /\ golds p = golds q /\ board p = board q /\ kingSq p = kingSq q /\
  hands p = hands q /\ turn p = turn q /\ gamePly p = gamePly q /\ prev p = prev q /\
  pliesFromNull (st p) = pliesFromNull (st q) /\ boardKey (st p) = boardKey (st q) /\ handKey (st p) = handKey (st q) /\
  checkersBB (st p) = checkersBB (st q) /\ stHand (st p) = stHand (st q).
Proof.
  intros H. repeat split; [exact (f_equal byType H)|exact (f_equal byColor H)|exact (f_equal golds H)|exact (f_equal board H)|exact (f_equal kingSq H)
  |exact (f_equal hands H)|exact (f_equal turn H)|exact (f_equal gamePly H)|exact (f_equal prev H)
  |exact (f_equal (fun p => pliesFromNull (st p)) H)|exact (f_equal (fun p => boardKey (st p)) H)|exact (f_equal (fun p => handKey (st p)) H)
  |exact (f_equal (fun p => checkersBB (st p)) H)|exact (f_equal (fun p => stHand (st p)) H)].
Qed.
Lemma material_ext p q hp : board p = board q -> hands p = hands q -> material p hp = material q hp.
Proof. intros A B. unfold material, handOf. rewrite A, B. reflexivity. Qed.
Lemma sim_good p q : sim p q -> good q -> good p.
Proof.
  intros S [V O H M F]. destruct (sim_fields _ _ S) as (E1 & E2 & E3 & E4 & E5 & E6 & E7 & _). apply good_intro.
  - exact (views_ext q p E1 E2 E3 E4 E5 E7 V).
  - rewrite E4. exact O.
  - exact (okHands_ext q p E6 H).
  - intros hp Hh. rewrite (material_ext p q hp E4 E6). exact (M hp Hh).
  - rewrite E4, E7. exact F.
Qed.
Lemma findCheckers_ext p q : byType p = byType q -> byColor p = byColor q -> golds p = golds q -> kingSq p = kingSq q -> turn p = turn q ->
  findCheckersBB p = findCheckersBB q.
Proof.
  intros A B C D E. unfold findCheckersBB, attackersToExceptKing, kingSquare, bbTC, bbT5, bbT3, bbT2, bbC, bbT, occBB. cbv zeta.
  unfold bbTC, bbT5, bbT3, bbT2, bbC, bbT, occBB. rewrite ?A, ?B, ?C, ?D, ?E. reflexivity.
Qed.
Lemma sim_cached z p q : sim p q -> cached z q -> cached z p.
Proof.
  intros S [[K1 K2] H C]. destruct (sim_fields _ _ S) as (E1 & E2 & E3 & E4 & E5 & E6 & E7 & E8 & E9 & F1 & F2 & F3 & F4 & F5). constructor; [split|..].
  - now rewrite F2, K1, (boardKey_ext z p q E4 E7).
  - now rewrite F3, K2, (handKey_ext z p q E6).
  - unfold handOf. now rewrite F5, H, E6, E7.
  - rewrite F4, C. now apply findCheckers_ext.
Qed.
Lemma sim_abs p q : sim p q -> abs p = abs q.
Proof. intros S. destruct (sim_fields _ _ S) as (E1 & E2 & E3 & E4 & E5 & E6 & E7 & _). now apply abs_ext. Qed.
Lemma sim_code p q m : sim p q -> code p m = code q m.
Proof. intros S. destruct (sim_fields _ _ S) as (E1 & E2 & E3 & E4 & _). unfold code, pieceAt. now rewrite E4. Qed.

(* ---- one step and back ---- *)
Lemma undo_sim p q m : sim p q -> prev q <> [] -> undoMove p m = undoMove q m.
Proof.
  intros S N. destruct (sim_fields _ _ S) as (E1 & E2 & E3 & E4 & E5 & E6 & E7 & E8 & E9 & _). rewrite !undoMove_fields.
  assert (B : undoBC p m = undoBC q m) by (unfold undoBC; rewrite E2, E7; reflexivity).
  assert (T0 : undoBT0 p m = undoBT0 q m) by (unfold undoBT0; rewrite E1; reflexivity).
  assert (T : undoBT p m = undoBT q m) by (unfold undoBT; rewrite T0, B; reflexivity).
  assert (D : undoBd p m = undoBd q m) by (unfold undoBd; rewrite E4, E7; reflexivity).
  assert (K : undoKq p m = undoKq q m) by (unfold undoKq; rewrite E5, E7; reflexivity).
  assert (H : undoHd p m = undoHd q m) by (unfold undoHd, handOf; rewrite E6, E7; reflexivity).
  rewrite T, B, D, K, H, E7, E8, E9. f_equal. destruct (prev q); [contradiction|]. reflexivity.
Qed.
Lemma undo_doMove z p m : good p -> wfMove p m -> undoMove (doMove z p m) m = p.
Proof. intros G W. unfold doMove. cbv zeta. apply undo_doMoveCI; auto; apply G. Qed.

(* ---- passes ---- *)
Lemma noCheckB z p : good p -> cached z p -> inCheck p = false -> inCheckB (board p) (turn p) = false.
Proof.
  intros G C H. destruct (inCheckB (board p) (turn p)) eqn:E; [|reflexivity]. rewrite <- in_check_abs in E by (apply G).
  apply (inCheck_exact z p G C) in E. congruence.
Qed.
Lemma findCheckers_none p : views p -> inCheckB (board p) (turn p) = false -> findCheckersBB p = allZeroBB.
Proof.
  intros V H. apply BB_ext; [now apply wf_findCheckers|apply wf_zero|]. intros s Hs. rewrite isSet_findCheckers by auto. rewrite isSet_zero.
  destruct (N.ltb_spec (kingOf (board p) (turn p)) 81) as [L|L]; [|reflexivity]. rewrite andb_true_l. apply inCheckB_safe; auto. apply V.
Qed.
Lemma good_null z p : good p -> cached z p -> inCheck p = false -> good (fst (doNull p)).
Proof.
  intros G C H. pose proof (noCheckB z p G C H) as N. pose proof (good_turn p G) as Ht. destruct G as [[V1 V2 V3 V4 V5 V6] O Hk M F]. apply good_intro.
  - constructor; auto. cbn [doNull fst turn]. now apply opp_lt.
  - exact O.
  - exact (okHands_ext p _ eq_refl Hk).
  - intros hp Hh. rewrite (material_ext (fst (doNull p)) p hp eq_refl eq_refl). exact (M hp Hh).
  - cbn [doNull fst turn board]. rewrite opp_opp by auto. exact N.
Qed.
Lemma cached_null z p : okZob z -> good p -> cached z p -> inCheck p = false -> cached z (fst (doNull p)).
Proof.
  intros Z G C H. pose proof (good_null z p G C H) as G'. pose proof (good_turn p G) as Ht. destruct C as [[K1 K2] S C]. constructor; [split|..].
  - apply N2Z.inj. rewrite computeBoardKey_Z by (auto; cbn [doNull fst turn]; now apply opp_lt). cbn [doNull fst st boardKey board turn]. now apply flip_key.
  - cbn [doNull fst st handKey]. rewrite K2. apply handKey_ext. reflexivity.
  - reflexivity.
  - change (checkersBB (st p) = findCheckersBB (fst (doNull p))). rewrite C. rewrite (findCheckers_none p); [|apply G|].
    + symmetry. apply findCheckers_none; [apply G'|]. cbn [doNull fst board turn]. apply (g_safe p G).
    + apply (noCheckB z p); auto. constructor; [split|..]; auto.
Qed.
Lemma abs_null p : turn p < 2 -> same_position (abs (fst (doNull p))) (pass (abs p)).
Proof. intros H. repeat split. cbn [doNull fst abs pass side turn]. now rewrite colorN_opp. Qed.
Lemma undo_null_sim z p q : good q -> cached z q -> sim p (fst (doNull q)) -> sim (undoNull p (snd (doNull q))) q.
Proof.
  intros G C S. pose proof (good_turn q G) as Ht. destruct (sim_fields _ _ S) as (E1 & E2 & E3 & E4 & E5 & E6 & E7 & E8 & E9 & F1 & F2 & F3 & F4 & F5).
  cbn [doNull fst byType byColor golds board kingSq hands turn gamePly prev st checkersBB] in *.
  unfold sim, strip, undoNull, stripSt. cbn [byType byColor golds board kingSq hands turn gamePly prev st checkersBB pliesFromNull contCheck boardKey handKey stHand doNull snd].
  rewrite E1, E2, E3, E4, E5, E6, E7, E8, E9, F4. rewrite opp_opp by auto. unfold handOf. rewrite E6. f_equal. f_equal. symmetry. apply C.
Qed.
(* with the checking side's counter at zero the pass is undone exactly *)
Lemma undo_null_exact z q : good q -> cached z q -> length (contCheck (st q)) = 2%nat -> nthN 0 (contCheck (st q)) (opp (turn q)) = 0 ->
  undoNull (fst (doNull q)) (snd (doNull q)) = q.
Proof.
  intros G C L Z0. pose proof (good_turn q G) as Ht. unfold undoNull, doNull. cbn [fst snd byType byColor golds board kingSq hands turn gamePly prev st checkersBB pliesFromNull contCheck boardKey handKey stHand].
  rewrite opp_opp by auto. apply mkPos_ext; try reflexivity. cbn [st]. change (handOf _ (turn q)) with (handOf q (turn q)). rewrite <- (c_hand z q C).
  assert (E : updN (contCheck (st q)) (opp (turn q)) 0 = contCheck (st q)).
  { apply (nthN_ext 0); [apply length_updN|]. intros x Hx. pose proof (opp_lt _ Ht). rewrite nthN_updN by lia. destruct (N.eqb_spec (opp (turn q)) x) as [<-|]; [now rewrite Z0|reflexivity]. }
  rewrite E. destruct (st q). reflexivity.
Qed.

(* ---- the chain of positions behind a history ---- *)
Inductive chain (z : Zob) (b0 : Board) : Position -> list (N * option StateInfo) -> list (option move) -> Prop :=
  | ch_nil p : sim p (bpos b0) -> chain z b0 p (bhist b0) []
  | ch_move p q hist line m : chain z b0 q hist line -> good q -> cached z q -> legal_but_drop_mate (abs q) m ->
      sim p (doMove z q (code q m)) -> chain z b0 p ((code q m, None) :: hist) (Some m :: line)
  | ch_pass p q hist line : chain z b0 q hist line -> good q -> cached z q -> inCheck q = false ->
      sim p (fst (doNull q)) -> chain z b0 p ((MoveNull, Some (snd (doNull q))) :: hist) (None :: line).
Lemma sim_trans p q r : sim p q -> sim q r -> sim p r. Proof. unfold sim. congruence. Qed.
Lemma chain_sim z b0 p q hist line : sim p q -> chain z b0 q hist line -> chain z b0 p hist line.
Proof.
  intros S C. inversion C; subst.
  - apply ch_nil. eapply sim_trans; eauto.
  - apply ch_move; auto. eapply sim_trans; eauto.
  - apply ch_pass; auto. eapply sim_trans; eauto.
Qed.
Lemma doMove_prev z p m : prev (doMove z p m) <> [].
Proof. unfold doMove, doMoveCI. cbv zeta. destruct (mvDrop m); cbn [prev]; discriminate. Qed.
Lemma calls_app z b es e : calls z b (es ++ [e]) = match calls z b es with Some b' => step z b' (callOf b' e) | None => None end.
Proof.
  revert b. induction es as [|a es IH]; intros b; cbn [app calls]; [now destruct (step z b (callOf b e))|]. destruct (step z b (callOf b a)); auto.
Qed.
Lemma pass_same P Q : same_position P Q -> same_position (pass P) (pass Q).
Proof. intros (A & B & C). repeat split; cbn [pass at_square in_hand side]; auto. now rewrite C. Qed.

Lemma chain_abs z b0 p hist line : chain z b0 p hist line -> same_position (abs p) (after (abs (bpos b0)) line).
Proof.
  intros Ch. induction Ch as [p Sp|p q hist line m Ch IH G C L S|p q hist line Ch IH G C N S]; cbn [after].
  - rewrite (sim_abs _ _ Sp). apply same_refl.
  - rewrite (sim_abs _ _ S). eapply same_trans; [unfold doMove; cbv zeta; apply abs_doMoveCI; auto; apply L|]. now apply play_same.
  - rewrite (sim_abs _ _ S). eapply same_trans; [apply abs_null; now apply good_turn|]. now apply pass_same.
Qed.
Theorem game_ok may z b0 es line : okZob z -> good (bpos b0) -> cached z (bpos b0) -> game may (abs (bpos b0)) es line ->
  exists b, calls z b0 es = Some b /\ good (bpos b) /\ cached z (bpos b) /\ same_position (abs (bpos b)) (after (abs (bpos b0)) line) /\
    chain z b0 (bpos b) (bhist b) line.
Proof.
  intros Z G0 C0 H. induction H as [|es line m H IH L|es line m H IH|es line H IH NC _|es line H IH].
  - exists b0. cbn [calls]. split; [reflexivity|]. split; auto. split; auto. split; [apply same_refl|]. apply ch_nil. apply sim_refl.
  - destruct IH as (b & E & G & C & S & Ch). rewrite calls_app, E. cbn [callOf step]. apply (legal0_same _ _ _ (same_sym _ _ S)) in L.
    exists (push z b (code (bpos b) m)). split; [reflexivity|]. cbn [push bpos bhist].
    split; [now apply good_doMove|]. split; [now apply cached_doMove|]. split.
    + eapply same_trans; [unfold doMove; cbv zeta; apply abs_doMoveCI; auto; apply L|]. cbn [after]. now apply play_same.
    + apply ch_move; auto. apply sim_refl.
  - destruct IH as (b & E & G & C & S & Ch). rewrite calls_app, E. cbn [callOf step]. inversion Ch as [|p q hist line' m' Ch' Gq Cq Lq Sq EP EH EL|]; subst.
    unfold pop. rewrite <- EH. pose proof (doMove_prev z q (code q m)) as NP. destruct (sim_fields _ _ Sq) as (_ & _ & _ & _ & _ & _ & _ & _ & E9 & _). rewrite E9.
    destruct (prev (doMove z q (code q m))) as [|x l] eqn:EP; [contradiction|]. cbn [option_map fst].
    assert (U : undoMove (bpos b) (code q m) = q).
    { rewrite (undo_sim _ _ _ Sq) by now rewrite EP. apply undo_doMove; auto. apply wf_code; auto. apply Lq. }
    rewrite U. exists (mkBoard q hist). split; [reflexivity|]. cbn [bpos bhist]. split; auto. split; auto. split; auto.
    exact (chain_abs z b0 q hist line Ch').
  - destruct IH as (b & E & G & C & S & Ch). rewrite calls_app, E. cbn [callOf step]. unfold pushPass.
    assert (N : inCheck (bpos b) = false).
    { destruct (inCheck (bpos b)) eqn:X; [|reflexivity]. exfalso. apply NC. apply (inCheck_exact z) in X; auto. rewrite <- (proj2 (proj2 S)). eapply in_check_same; eauto. }
    rewrite N. eexists. split; [reflexivity|]. cbn [bpos bhist]. split; [now apply (good_null z)|]. split; [now apply cached_null|]. split.
    + eapply same_trans; [apply abs_null; now apply good_turn|]. cbn [after]. now apply pass_same.
    + apply ch_pass; auto. apply sim_refl.
  - destruct IH as (b & E & G & C & S & Ch). rewrite calls_app, E. cbn [callOf step]. inversion Ch as [| |p q hist line' Ch' Gq Cq Nq Sq EP EH EL]; subst.
    unfold popPass. rewrite <- EH. eexists. split; [reflexivity|]. cbn [bpos bhist].
    pose proof (undo_null_sim z (bpos b) q Gq Cq Sq) as U. split; [eapply sim_good; eauto|]. split; [eapply sim_cached; eauto|]. split; [|eapply chain_sim; eauto].
    change (same_position (abs (undoNull (bpos b) (snd (doNull q)))) (after (abs (bpos b0)) line)). rewrite (sim_abs _ _ U). cbn [after] in S. rewrite (sim_abs _ _ Sq) in S.
    assert (S' : same_position (pass (abs q)) (pass (after (abs (bpos b0)) line))) by (eapply same_trans; [apply same_sym, abs_null; now apply good_turn|exact S]).
    destruct S' as (A & B & D). repeat split; auto. cbn [pass side] in D. destruct (side (abs q)), (side (after (abs (bpos b0)) line)); try reflexivity; discriminate.
Qed.

(* ---- moveGivesCheck is the check status after the move ---- *)
Theorem gives_inCheck z p m : views p -> oneKing (board p) -> wfMove p m -> pseudoGo p m -> oppSafe p ->
  moveGivesCheck p m (checkInfo p) = inCheck (doMove z p m).
Proof.
  intros V O W G S. unfold inCheck, checkers. rewrite checkers_doMove by assumption. unfold doMove. cbv zeta. set (b := moveGivesCheck p m (checkInfo p)).
  pose proof (views_doMoveCI z p m (checkInfo p) b V O W) as [Vq _].
  pose proof (doMoveCI_board z p m (checkInfo p) b) as Eb. pose proof (doMoveCI_turn z p m (checkInfo p) b) as Et.
  pose proof (isSet_findCheckers (doMoveCI z p m (checkInfo p) b)) as IS. pose proof (wf_findCheckers _ Vq) as WF.
  pose proof (givesCheck_exact p m (turn p) _ (board p) _ V W G S eq_refl eq_refl eq_refl eq_refl) as GE. fold b in GE.
  pose proof (king_same p m (turn p) _ (board p) _ V W eq_refl eq_refl eq_refl eq_refl) as KS.
  revert Vq Eb Et IS WF. generalize (doMoveCI z p m (checkInfo p) b) as q. intros q Vq Eb Et IS WF.
  pose proof (v_turn p V) as Hu. apply eq_true_iff_eq. rewrite isAny_iff by exact WF. rewrite GE, andb_true_iff, N.ltb_lt, existsb_exists. split.
  - intros (L & x & Hx & E). apply in_squares in Hx. exists x. split; auto. rewrite IS by auto. rewrite Eb, Et, KS, opp_opp by auto. rewrite E, andb_true_r. now apply N.ltb_lt.
  - intros (x & Hx & E). rewrite IS in E by auto. rewrite Eb, Et, KS, opp_opp in E by auto. apply andb_prop in E as [E1 E2]. apply N.ltb_lt in E1. split; auto.
    exists x. split; [now apply in_squares|exact E2].
Qed.
Lemma gives_inCheck_code z p mv : good p -> pseudo_legal (abs p) mv -> moveGivesCheck p (code p mv) (checkInfo p) = inCheck (doMove z p (code p mv)).
Proof. intros G L. destruct (wf_code p mv G L) as (W & PG & _). apply gives_inCheck; auto; try apply G. now apply oppSafe_good. Qed.

(* ---- lines ---- *)
Fixpoint legal_line (may : list (option move) -> Prop) (P0 : position) (line : list (option move)) : Prop :=
  match line with
  | [] => True
  | Some m :: l => legal_but_drop_mate (after P0 l) m /\ legal_line may P0 l
  | None :: l => ~ in_check (after P0 l) (side (after P0 l)) /\ may l /\ legal_line may P0 l
  end.
Lemma game_line may P0 es line : game may P0 es line -> legal_line may P0 line.
Proof. intros H. induction H; cbn [legal_line] in *; tauto. Qed.
Lemma replay_ok may z b0 line : okZob z -> good (bpos b0) -> cached z (bpos b0) -> legal_line may (abs (bpos b0)) line ->
  good (bpos (replay z b0 line)) /\ cached z (bpos (replay z b0 line)) /\ same_position (abs (bpos (replay z b0 line))) (after (abs (bpos b0)) line).
Proof.
  intros Z G0 C0. induction line as [|[m|] l IH]; cbn [legal_line replay after]; intros H.
  - split; auto. split; auto. apply same_refl.
  - destruct H as [L H]. destruct (IH H) as (G & C & S). apply (legal0_same _ _ _ (same_sym _ _ S)) in L. cbn [push bpos].
    split; [now apply good_doMove|]. split; [now apply cached_doMove|].
    eapply same_trans; [unfold doMove; cbv zeta; apply abs_doMoveCI; auto; apply L|]. now apply play_same.
  - destruct H as (NC & _ & H). destruct (IH H) as (G & C & S). cbn [bpos].
    assert (N : inCheck (bpos (replay z b0 l)) = false).
    { destruct (inCheck (bpos (replay z b0 l))) eqn:X; [|reflexivity]. exfalso. apply NC. apply (inCheck_exact z) in X; auto. rewrite <- (proj2 (proj2 S)). eapply in_check_same; eauto. }
    split; [now apply (good_null z)|]. split; [now apply cached_null|].
    eapply same_trans; [apply abs_null; now apply good_turn|]. now apply pass_same.
Qed.
Lemma not_in_check z b P : good (bpos b) -> cached z (bpos b) -> same_position (abs (bpos b)) P -> ~ in_check P (side P) -> inCheck (bpos b) = false.
Proof.
  intros G C S NC. destruct (inCheck (bpos b)) eqn:X; [|reflexivity]. exfalso. apply NC. apply (inCheck_exact z) in X; auto. rewrite <- (proj2 (proj2 S)). eapply in_check_same; eauto.
Qed.
(* the counter of the side that has just moved is zero unless it gives check *)
Definition ccOk (p : Position) : Prop := length (contCheck (st p)) = 2%nat /\ (inCheck p = false -> nthN 0 (contCheck (st p)) (opp (turn p)) = 0).
Lemma doMoveCI_cc z p m ci b : contCheck (st (doMoveCI z p m ci b)) = setContCheck (contCheck (st p)) (turn p) b.
Proof. unfold doMoveCI. cbv zeta. destruct (mvDrop m); reflexivity. Qed.
Lemma ccOk_move z p mv : good p -> pseudo_legal (abs p) mv -> length (contCheck (st p)) = 2%nat -> ccOk (doMove z p (code p mv)).
Proof.
  intros G L H. pose proof (gives_inCheck_code z p mv G L) as E. pose proof (good_turn p G) as Ht. split.
  - unfold doMove. cbv zeta. rewrite doMoveCI_cc. unfold setContCheck. now rewrite length_updN.
  - rewrite <- E. intros N. unfold doMove. cbv zeta. rewrite doMoveCI_cc, doMoveCI_turn, opp_opp, N by auto. unfold setContCheck. rewrite nthN_updN by lia. now rewrite N.eqb_refl.
Qed.
Lemma replay_cc z b0 line : okZob z -> good (bpos b0) -> cached z (bpos b0) -> ccOk (bpos b0) -> legal_line no_double_pass (abs (bpos b0)) line ->
  length (contCheck (st (bpos (replay z b0 line)))) = 2%nat /\ (no_double_pass line -> ccOk (bpos (replay z b0 line))).
Proof.
  intros Z G0 C0 K0. induction line as [|[m|] l IH]; intros H.
  - cbn [replay]. split; auto. apply K0.
  - destruct (replay_ok _ z b0 l Z G0 C0 (proj2 H)) as (G & C & S). destruct (IH (proj2 H)) as [L _]. cbn [legal_line] in H. destruct H as [LL H]. apply (legal0_same _ _ _ (same_sym _ _ S)) in LL.
    cbn [replay push bpos]. pose proof (ccOk_move z _ m G (proj1 LL) L) as X. split; auto. apply X.
  - cbn [legal_line] in H. destruct (IH (proj2 (proj2 H))) as [L _]. cbn [replay bpos doNull fst st contCheck no_double_pass]. split; [now rewrite length_updN|contradiction].
Qed.

(* without two passes in a row, every history leaves exactly the board of the remaining line *)
Theorem game_exact z b0 es line : okZob z -> good (bpos b0) -> cached z (bpos b0) -> ccOk (bpos b0) -> game no_double_pass (abs (bpos b0)) es line ->
  calls z b0 es = Some (replay z b0 line).
Proof.
  intros Z G0 C0 K0 H. induction H as [|es line m H IH L|es line m H IH|es line H IH NC ND|es line H IH].
  - reflexivity.
  - rewrite calls_app, IH. reflexivity.
  - rewrite calls_app, IH. apply game_line in H. cbn [legal_line] in H. destruct H as [L H]. destruct (replay_ok _ z b0 line Z G0 C0 H) as (G & C & S).
    apply (legal0_same _ _ _ (same_sym _ _ S)) in L. cbn [callOf step replay push]. unfold pop, push. cbn [bhist bpos].
    pose proof (doMove_prev z (bpos (replay z b0 line)) (code (bpos (replay z b0 line)) m)) as NP. destruct (prev (doMove z _ _)); [contradiction|].
    cbn [option_map fst]. rewrite undo_doMove; [|exact G|apply wf_code; auto; apply L]. now destruct (replay z b0 line).
  - rewrite calls_app, IH. apply game_line in H. destruct (replay_ok _ z b0 line Z G0 C0 H) as (G & C & S). cbn [callOf step replay]. unfold pushPass. now rewrite (not_in_check z _ _ G C S NC).
  - rewrite calls_app, IH. apply game_line in H. cbn [legal_line] in H. destruct H as (NC & ND & H). destruct (replay_ok _ z b0 line Z G0 C0 H) as (G & C & S).
    destruct (replay_cc z b0 line Z G0 C0 K0 H) as [L K]. specialize (K ND). cbn [callOf step replay]. unfold popPass. cbn [bhist bpos].
    rewrite (undo_null_exact z) by (auto; apply K; now apply (not_in_check z _ _ G C S NC)). now destruct (replay z b0 line).
Qed.

(* ---- passes in any number: equal up to the counters of consecutive checks ---- *)
Definition strip2 (p : Position) : Position :=
  mkPos (byType p) (byColor p) (golds p) (board p) (kingSq p) (hands p) (turn p) (gamePly p) (stripSt (st p)) (map stripSt (prev p)).
Definition sim2 (p q : Position) : Prop := strip2 p = strip2 q.
Lemma sim2_doMove z p q m : sim2 p q -> sim2 (doMove z p m) (doMove z q m).
Proof.
  destruct p as [a1 a2 a3 a4 a5 a6 a7 a8 [b1 b2 b3 b4 b5 b6] a10], q as [c1 c2 c3 c4 c5 c6 c7 c8 [d1 d2 d3 d4 d5 d6] c10]. intros S. unfold sim2, strip2, stripSt in S.
  cbn [byType byColor golds board kingSq hands turn gamePly prev st checkersBB pliesFromNull contCheck boardKey handKey stHand] in S. injection S as <- <- <- <- <- <- <- <- <- <- <- <- <- E.
  change (map stripSt a10 = map stripSt c10) in E.
  assert (EC : checkInfo (mkPos a1 a2 a3 a4 a5 a6 a7 a8 (mkSt b1 d2 b3 b4 b5 b6) c10) = checkInfo (mkPos a1 a2 a3 a4 a5 a6 a7 a8 (mkSt b1 b2 b3 b4 b5 b6) a10)) by reflexivity.
  unfold doMove. cbv zeta. rewrite EC. generalize (checkInfo (mkPos a1 a2 a3 a4 a5 a6 a7 a8 (mkSt b1 b2 b3 b4 b5 b6) a10)) as ci. intros ci.
  change (moveGivesCheck (mkPos a1 a2 a3 a4 a5 a6 a7 a8 (mkSt b1 d2 b3 b4 b5 b6) c10) m ci) with (moveGivesCheck (mkPos a1 a2 a3 a4 a5 a6 a7 a8 (mkSt b1 b2 b3 b4 b5 b6) a10) m ci).
  generalize (moveGivesCheck (mkPos a1 a2 a3 a4 a5 a6 a7 a8 (mkSt b1 b2 b3 b4 b5 b6) a10) m ci) as b. intros b.
  unfold sim2, strip2, doMoveCI. cbv zeta. destruct (mvDrop m).
  - cbn [byType byColor golds board kingSq hands turn gamePly prev st checkersBB pliesFromNull contCheck boardKey handKey stHand map]. rewrite E. reflexivity.
  - cbn [byType byColor golds board kingSq hands turn gamePly prev st checkersBB pliesFromNull contCheck boardKey handKey stHand map]. rewrite E. reflexivity.
Qed.
Lemma sim2_fields p q : sim2 p q -> byType p = byType q /\ byColor p = byColor q /\ golds p = golds q /\ board p = board q /\ kingSq p = kingSq q /\
  hands p = hands q /\ turn p = turn q /\ gamePly p = gamePly q /\ map stripSt (prev p) = map stripSt (prev q) /\ stripSt (st p) = stripSt (st q).
Proof.
  intros H. repeat split; [exact (f_equal byType H)|exact (f_equal byColor H)|exact (f_equal golds H)|exact (f_equal board H)|exact (f_equal kingSq H)
  |exact (f_equal hands H)|exact (f_equal turn H)|exact (f_equal gamePly H)|exact (f_equal prev H)|exact (f_equal st H)].
Qed.
Lemma sim2_undo p q m : sim2 p q -> prev q <> [] -> sim2 (undoMove p m) (undoMove q m).
Proof.
  intros S N. destruct (sim2_fields _ _ S) as (E1 & E2 & E3 & E4 & E5 & E6 & E7 & E8 & E9 & _). rewrite !undoMove_fields.
  assert (B : undoBC p m = undoBC q m) by (unfold undoBC; rewrite E2, E7; reflexivity).
  assert (T0 : undoBT0 p m = undoBT0 q m) by (unfold undoBT0; rewrite E1; reflexivity).
  assert (T : undoBT p m = undoBT q m) by (unfold undoBT; rewrite T0, B; reflexivity).
  assert (D : undoBd p m = undoBd q m) by (unfold undoBd; rewrite E4, E7; reflexivity).
  assert (K : undoKq p m = undoKq q m) by (unfold undoKq; rewrite E5, E7; reflexivity).
  assert (H : undoHd p m = undoHd q m) by (unfold undoHd, handOf; rewrite E6, E7; reflexivity).
  rewrite T, B, D, K, H, E7, E8. unfold sim2, strip2. cbn [byType byColor golds board kingSq hands turn gamePly prev st].
  destruct (prev q) as [|y lq]; [contradiction|]. destruct (prev p) as [|x lp]; [discriminate|]. cbn [map] in E9. cbn [hd tl].
  pose proof (f_equal (hd (stripSt x)) E9) as F1. pose proof (f_equal (@tl _) E9) as F2. cbn [hd tl] in F1, F2. now rewrite F1, F2.
Qed.
Lemma sim2_null p q : sim2 p q -> sim2 (fst (doNull p)) (fst (doNull q)) /\ snd (doNull p) = snd (doNull q) /\ inCheck p = inCheck q.
Proof.
  intros S. destruct (sim2_fields _ _ S) as (E1 & E2 & E3 & E4 & E5 & E6 & E7 & E8 & E9 & E10).
  pose proof (f_equal boardKey E10) as F1. pose proof (f_equal handKey E10) as F2. pose proof (f_equal checkersBB E10) as F3. pose proof (f_equal pliesFromNull E10) as F4.
  cbn [stripSt boardKey handKey checkersBB pliesFromNull] in *. split; [|split].
  - unfold sim2, strip2, stripSt, doNull, handOf. cbn [fst byType byColor golds board kingSq hands turn gamePly prev st checkersBB pliesFromNull contCheck boardKey handKey stHand].
    rewrite E1, E2, E3, E4, E5, E6, E7, E8, F1, F2, F3. f_equal. exact E9.
  - unfold doNull, handOf. cbn [snd]. now rewrite E6, E7, F1, F2, F4.
  - unfold inCheck, checkers. now rewrite F3.
Qed.
Lemma sim2_undoNull p q bk : sim2 p q -> sim2 (undoNull p bk) (undoNull q bk).
Proof.
  intros S. destruct (sim2_fields _ _ S) as (E1 & E2 & E3 & E4 & E5 & E6 & E7 & E8 & E9 & E10).
  pose proof (f_equal checkersBB E10) as F3. cbn [stripSt checkersBB] in *.
  unfold sim2, strip2, stripSt, undoNull, handOf. cbn [byType byColor golds board kingSq hands turn gamePly prev st checkersBB pliesFromNull contCheck boardKey handKey stHand].
  rewrite E1, E2, E3, E4, E5, E6, E7, E8, F3. f_equal. exact E9.
Qed.
Lemma sim2_code p q m : sim2 p q -> code p m = code q m.
Proof. intros S. destruct (sim2_fields _ _ S) as (E1 & E2 & E3 & E4 & _). unfold code, pieceAt. now rewrite E4. Qed.
Lemma sim2_of_sim p q : sim p q -> sim2 p q.
Proof. intros S. unfold sim2. change (strip2 p) with (let r := strip p in mkPos (byType r) (byColor r) (golds r) (board r) (kingSq r) (hands r) (turn r) (gamePly r) (st r) (map stripSt (prev r))).
  rewrite S. reflexivity. Qed.
Lemma sim2_trans p q r : sim2 p q -> sim2 q r -> sim2 p r. Proof. unfold sim2. congruence. Qed.

Theorem game_sim z b0 es line : okZob z -> good (bpos b0) -> cached z (bpos b0) -> game any_pass (abs (bpos b0)) es line ->
  exists b, calls z b0 es = Some b /\ sim2 (bpos b) (bpos (replay z b0 line)) /\ bhist b = bhist (replay z b0 line).
Proof.
  intros Z G0 C0 H. induction H as [|es line m H IH L|es line m H IH|es line H IH NC ND|es line H IH].
  - exists b0. cbn [calls replay]. repeat split.
  - destruct IH as (b & E & S & Hh). rewrite calls_app, E. cbn [callOf step replay]. eexists. split; [reflexivity|]. cbn [push bpos bhist].
    rewrite (sim2_code _ _ m S), Hh. split; [now apply sim2_doMove|reflexivity].
  - destruct IH as (b & E & S & Hh). rewrite calls_app, E. apply game_line in H. cbn [legal_line] in H. destruct H as [L H]. destruct (replay_ok _ z b0 line Z G0 C0 H) as (G & C & SS).
    apply (legal0_same _ _ _ (same_sym _ _ SS)) in L. cbn [callOf step]. unfold pop. rewrite Hh. cbn [replay push bhist bpos] in *.
    pose proof (doMove_prev z (bpos (replay z b0 line)) (code (bpos (replay z b0 line)) m)) as NP.
    pose proof (sim2_undo _ _ (code (bpos (replay z b0 line)) m) S NP) as U. rewrite undo_doMove in U; [|exact G|apply wf_code; auto; apply L].
    destruct (sim2_fields _ _ S) as (_ & _ & _ & _ & _ & _ & _ & _ & E9 & _). destruct (prev (bpos b)) as [|x l].
    { exfalso. apply NP. destruct (prev (doMove z _ _)); [reflexivity|discriminate]. }
    cbn [option_map fst]. eexists. split; [reflexivity|]. cbn [bpos bhist]. split; [exact U|reflexivity].
  - destruct IH as (b & E & S & Hh). rewrite calls_app, E. apply game_line in H. destruct (replay_ok _ z b0 line Z G0 C0 H) as (G & C & SS).
    destruct (sim2_null _ _ S) as (S1 & S2 & S3). cbn [callOf step replay]. unfold pushPass. rewrite S3, (not_in_check z _ _ G C SS NC). eexists. split; [reflexivity|].
    cbn [bpos bhist]. rewrite S2, Hh. split; [exact S1|reflexivity].
  - destruct IH as (b & E & S & Hh). rewrite calls_app, E. apply game_line in H. cbn [legal_line] in H. destruct H as (NC & _ & H). destruct (replay_ok _ z b0 line Z G0 C0 H) as (G & C & SS).
    cbn [callOf step]. unfold popPass. rewrite Hh. cbn [replay bhist bpos] in *. eexists. split; [reflexivity|]. cbn [bpos bhist]. split; [|reflexivity].
    eapply sim2_trans; [apply sim2_undoNull; exact S|]. apply sim2_of_sim. apply (undo_null_sim z); auto. apply sim_refl.
Qed.
