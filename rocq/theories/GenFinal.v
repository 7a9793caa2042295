(* legal_moves lists exactly the legal moves, each once; is_legal and is_game_over agree with it. *)
From Verif Require Export ClaimsGen ClaimProofs PawnMate EnumN.
Local Open Scope N_scope.

Lemma king_there p c : good p -> c < 2 -> (exists s, at_square (abs p) s = Some (colorN c, OU)) -> kingOf (board p) c < 81.
Proof.
  intros G Hc (s & E). assert (B : on_board s) by (apply (pr_board _ (good_proper p G)); congruence). pose proof (nsquare_lt s B) as L. rewrite <- (square_inv' s B) in E.
  apply king_iff in E; auto; [|apply (good_ok p G)]. rewrite (kingOf_here _ _ _ (g_one p G) Hc L E). exact L.
Qed.
Lemma no_dead p : good p -> (forall s, at_square (abs p) s = Some (side (abs p), FU) -> ~ dead_end (side (abs p)) FU s) ->
  forall s, s < 81 -> isCol (board p) (turn p) s = true -> ptOf (pieceAt p s) = 1 -> rankFor (turn p) s <> 1.
Proof.
  intros G H s Hs Cs P1 R. pose proof (good_turn p G) as Ht. pose proof (good_ok p G) as Ok. apply (H (squareN s)).
  - change (side (abs p)) with (colorN (turn p)). apply pieceN_kind; auto. change (at_ (board p) s = mkPiece (turn p) 1). unfold isCol in Cs. apply andb_prop in Cs as [C0 C1]. apply negb_true_iff, N.eqb_neq in C0. apply N.eqb_eq in C1.
    destruct (vpc_facts _ (proj2 Ok s Hs) C0) as (_ & _ & E). change (ptOf (at_ (board p) s) = 1) in P1. rewrite E, C1, P1. reflexivity.
  - change (side (abs p)) with (colorN (turn p)). apply (dead_end_N (turn p) 1 s); auto; [lia|]. unfold deadB. change (1 <=? 2) with true. cbv iota. rewrite R. reflexivity.
Qed.
(* the moves of the rules, in numbers *)
Lemma legal0_N p f t pr : good p -> t < 81 -> plSet p f t pr ->
  (legal_but_drop_mate (abs p) (mvOf f t pr) <-> inCheckB (newBoard p (enc p f t pr)) (turn p) = false).
Proof.
  intros G Ht P. destruct (mvOf_pl p f t pr G Ht P) as [L E]. rewrite legal0B_iff by auto. unfold legal0B. rewrite E. apply (plB_iff p _ G) in L. rewrite L, andb_true_l. apply negb_true_iff.
Qed.
Theorem drop_mate_exact p t : good p -> t < 81 -> plSet p 81 t false -> inCheckB (newBoard p (enc p 81 t false)) (turn p) = false -> kingOf (board p) (opp (turn p)) < 81 ->
  (mateDrop p 81 t = true <-> pawn_drop_mate (abs p) (Drop FU (squareN t))).
Proof.
  intros G Ht P S Ho. pose proof (good_turn p G) as Hu. set (z := mkZob (fun _ _ _ => 0) (fun _ _ => 0)).
  assert (EM : mvOf 81 t false = Drop FU (squareN t)) by reflexivity.
  destruct (mvOf_pl p 81 t false G Ht P) as [PL EC]. rewrite EM in PL, EC.
  assert (L0 : legal_but_drop_mate (abs p) (Drop FU (squareN t))) by (rewrite <- EM; now apply legal0_N).
  pose proof (good_doMove z p _ G L0) as Gq. pose proof (abs_doMoveCI z p _ (checkInfo p) (moveGivesCheck p (code p (Drop FU (squareN t))) (checkInfo p)) G PL) as SP.
  change (doMoveCI z p (code p (Drop FU (squareN t))) (checkInfo p) (moveGivesCheck p (code p (Drop FU (squareN t))) (checkInfo p))) with (doMove z p (code p (Drop FU (squareN t)))) in SP.
  assert (Eb : board (doMove z p (code p (Drop FU (squareN t)))) = newBoard p (enc p 81 t false)) by (unfold doMove; cbv zeta; rewrite doMoveCI_board, EC; reflexivity).
  assert (Et : turn (doMove z p (code p (Drop FU (squareN t)))) = opp (turn p)) by (unfold doMove; cbv zeta; apply doMoveCI_turn).
  revert Gq SP Eb Et. generalize (doMove z p (code p (Drop FU (squareN t)))) as q. intros q Gq SP Eb Et.
  assert (E0 : at_ (board p) t = 0) by (apply (pl_empty p 81 t false); auto; lia).
  assert (At : forall x, at_ (newBoard p (enc p 81 t false)) x = if t =? x then mkPiece (turn p) 1 else at_ (board p) x).
  { intros x. destruct (pl_wf p G 81 t false) as (W & _ & A & _ & D); auto; [lia|]. destruct W as [W|W]; [|destruct W as (D' & _); rewrite D' in D; discriminate D].
    rewrite (nD p (enc p 81 t false) (turn p) (board p) (newBoard p (enc p 81 t false)) (g_views p G) eq_refl eq_refl eq_refl x W). rewrite A.
    destruct (drop_fields p FU (squareN t)) as (_ & _ & F & _); [now apply on_board_N|]. rewrite EC in F. rewrite F. reflexivity. }
  remember (newBoard p (enc p 81 t false)) as bq eqn:Ebq. clear Ebq.
  assert (Eo : kingOf (board p) (opp (turn p)) = kingOf (board p) (opp (turn p))) by reflexivity.
  pose proof (check_q p q (turn p) (opp (turn p)) (kingOf (board p) (opp (turn p))) t (board p) bq G Gq eq_refl eq_refl Et eq_refl Ht E0 At Eo Ho) as CQ.
  pose proof (replies_iff p q (turn p) (opp (turn p)) (kingOf (board p) (opp (turn p))) t (board p) bq G Gq eq_refl eq_refl Et eq_refl Eb Ht E0 At Eo Ho) as RI.
  unfold mateDrop. change (81 =? 81) with true. rewrite andb_true_l, andb_true_iff. unfold pawn_drop_mate.
  assert (IC : in_check (play (abs p) (Drop FU (squareN t))) (other (side (abs p))) <-> reach 1 (turn p) t (kingOf (board p) (opp (turn p))) = true).
  { rewrite <- CQ, <- Eb. rewrite <- in_check_abs by (try apply Gq; auto using opp_lt; apply (good_ok q Gq)). change (side (abs p)) with (colorN (turn p)). rewrite colorN_opp by auto.
    split; apply in_check_same; [apply same_sym|]; exact SP. }
  rewrite IC. split.
  - intros [R M]. split; [eauto|]. split; auto. intros m' L'. apply (legal0_same _ (abs q)) in L'; [|apply same_sym; exact SP].
    assert (F : isPawnDropCheckMate p (turn p) t = false); [|congruence]. apply RI; auto. destruct L' as [PL' NC']. destruct (pl_mvOf q m' Gq PL') as (f & y & pr & Hf & Hy & P' & E'). exists f, y, pr. do 3 (split; auto).
    rewrite <- Et. apply legal0_N; auto. rewrite <- E'. split; auto.
  - intros (_ & R & N). split; auto. apply not_false_is_true. intros F. apply RI in F as (f & y & pr & Hf & Hy & P' & S'); auto. rewrite <- Et in S'. apply legal0_N in S'; auto. apply (N (mvOf f y pr)). eapply legal0_same; eauto.
Qed.
Theorem list_exact z p : good p -> cached z p -> playable (abs p) ->
  NoDup (legalMoves p) /\ forall m, In m (legalMoves p) <-> exists mv, legal (abs p) mv /\ m = code p mv.
Proof.
  intros G C [K D]. pose proof (good_turn p G) as Hu.
  assert (Hk : kingOf (board p) (turn p) < 81) by (apply king_there; auto). assert (Ho : kingOf (board p) (opp (turn p)) < 81) by (apply king_there; auto using opp_lt).
  destruct (Enum_legalAll z p (turn p) _ _ (board p) G C eq_refl eq_refl eq_refl Hk eq_refl Ho (no_dead p G D)) as [N I]. split; [exact N|]. intros m. unfold legalMoves. rewrite I. split.
  - intros (f & t & pr & Hf & Ht & (P & S & M) & ->). exists (mvOf f t pr). destruct (mvOf_pl p f t pr G Ht P) as [PL E]. split; [|now symmetry]. split; [now apply legal0_N|].
    intros DM. pose proof DM as ((y & Ey) & _). assert (F : f = 81 /\ pr = false).
    { clear - Ey P. unfold mvOf, plSet in *. destruct (f <? 81); [discriminate Ey|]. injection Ey as Ek _. destruct P as (-> & F & _). split; auto.
      apply (f_equal nkind) in Ek. rewrite kind_inv' in Ek by lia. change (nkind FU) with 1 in Ek. lia. }
    destruct F as [-> ->]. apply drop_mate_exact in DM; auto. congruence.
  - intros (mv & (L & NM) & ->). pose proof L as [PL _]. destruct (pl_mvOf p mv G PL) as (f & t & pr & Hf & Ht & P & ->). exists f, t, pr. do 2 (split; auto). destruct (mvOf_pl p f t pr G Ht P) as [_ E]. split; [|exact E].
    assert (S : inCheckB (newBoard p (enc p f t pr)) (turn p) = false) by (apply legal0_N; auto). split; auto. split; auto.
    apply not_true_is_false. intros M. assert (F : f = 81 /\ pr = false). { clear - P M. unfold mateDrop in M. apply andb_prop in M as [M _]. apply N.eqb_eq in M. subst f. split; auto. destruct P as (-> & _). reflexivity. }
    destruct F as [-> ->]. apply NM. change (mvOf 81 t false) with (Drop FU (squareN t)). apply drop_mate_exact; auto.
Qed.
