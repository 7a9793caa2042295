(* The move-list theorems in the words of the property list. *)
From Verif Require Export IsLegal BoardFinal EnumN.
Local Open Scope N_scope.

Lemma wf_playable P : well_formed P -> playable P.
Proof. intros W. split; [apply (wf_kings P W)|]. intros s E. exact (wf_dead P W s (side P) FU E). Qed.
Lemma code_inj p m m' : good p -> legal (abs p) m -> legal (abs p) m' -> code p m = code p m' -> m = m'.
Proof.
  intros G [[P _] _] [[P' _] _] E. destruct (pl_mvOf p m G P) as (f & t & pr & Hf & Ht & X & ->). destruct (pl_mvOf p m' G P') as (f' & t' & pr' & Hf' & Ht' & X' & ->).
  destruct (mvOf_pl p f t pr G Ht X) as [_ A]. destruct (mvOf_pl p f' t' pr' G Ht' X') as [_ A']. rewrite A, A' in E. apply enc_inj in E as (-> & -> & ->); auto.
Qed.
Lemma moves_sound z b : okZob z -> reachable z b -> playable (abs (bpos b)) -> forall m, In m (legalMoves (bpos b)) -> exists mv, legal (abs (bpos b)) mv /\ m = code (bpos b) mv.
Proof. intros Z R K m I. destruct (reachable_ok z b Z R) as [G C]. now apply (list_exact z (bpos b) G C K). Qed.
Lemma moves_complete z b : okZob z -> reachable z b -> playable (abs (bpos b)) ->
  NoDup (legalMoves (bpos b)) /\ (forall mv, legal (abs (bpos b)) mv -> In (code (bpos b) mv) (legalMoves (bpos b))) /\
  forall m m', legal (abs (bpos b)) m -> legal (abs (bpos b)) m' -> code (bpos b) m = code (bpos b) m' -> m = m'.
Proof.
  intros Z R K. destruct (reachable_ok z b Z R) as [G C]. destruct (list_exact z (bpos b) G C K) as [N I]. split; auto. split; [intros mv L; apply I; eauto|]. intros m m'. now apply code_inj.
Qed.
(* from a well-formed set-up nothing more is needed: play keeps positions well-formed *)
Lemma moves_history rp rh b0 es line : let z := initZobrist rp rh in set_up z b0 -> well_formed (abs (bpos b0)) -> game any_pass (abs (bpos b0)) es line ->
  exists b, calls z b0 es = Some b /\ NoDup (legalMoves (bpos b)) /\ forall m, In m (legalMoves (bpos b)) <-> exists mv, legal (after (abs (bpos b0)) line) mv /\ m = code (bpos b) mv.
Proof.
  intros z S W G. destruct (reachable_game z b0 es line (okZob_init rp rh) S G) as (b & E & R & SP). exists b. split; auto.
  assert (W' : well_formed (abs (bpos b))) by (eapply well_formed_same; [apply same_sym; exact SP|eapply line_well_formed; eauto; eapply game_line; eauto]).
  destruct (reachable_ok z b (okZob_init rp rh) R) as [Gb C]. destruct (list_exact z (bpos b) Gb C (wf_playable _ W')) as [N I]. split; auto. intros m. rewrite I.
  split; intros (mv & L & E'); exists mv; split; auto; eapply legal_same; try exact L; [exact SP|apply same_sym; exact SP].
Qed.
Lemma reply_legal p t : good p -> kingOf (board p) (opp (turn p)) < 81 -> on_board t -> legal_but_drop_mate (abs p) (Drop FU t) -> in_check (play (abs p) (Drop FU t)) (other (side (abs p))) ->
  (forall m', legal_but_drop_mate (play (abs p) (Drop FU t)) m' -> legal (play (abs p) (Drop FU t)) m') /\
  (mateDrop p 81 (nsquare t) = false -> exists m', legal_but_drop_mate (play (abs p) (Drop FU t)) m').
Proof.
  intros G Ho Bt L0 IC. pose proof (good_turn p G) as Hu. set (z := mkZob (fun _ _ _ => 0) (fun _ _ => 0)).
  pose proof (nsquare_lt t Bt) as Ht. pose proof L0 as [PL _]. destruct (pl_mvOf p _ G PL) as (f & t1 & pr & Hf & Ht1 & P & EM).
  assert (Q : f = 81 /\ t1 = nsquare t /\ pr = false).
  { clear - EM P Ht1. unfold mvOf, plSet in *. destruct (N.ltb_spec f 81); [discriminate EM|]. injection EM as Ek ->. destruct P as (-> & F & _). rewrite square_inv by auto. split; auto.
    apply (f_equal nkind) in Ek. rewrite kind_inv' in Ek by lia. change (nkind FU) with 1 in Ek. lia. }
  destruct Q as (-> & -> & ->). destruct (mvOf_pl p 81 (nsquare t) false G Ht P) as [_ EC]. rewrite <- EM in EC.
  pose proof (good_doMove z p _ G L0) as Gq. pose proof (abs_doMoveCI z p _ (checkInfo p) (moveGivesCheck p (code p (Drop FU t)) (checkInfo p)) G PL) as SP.
  change (doMoveCI z p (code p (Drop FU t)) (checkInfo p) (moveGivesCheck p (code p (Drop FU t)) (checkInfo p))) with (doMove z p (code p (Drop FU t))) in SP.
  assert (Eb : board (doMove z p (code p (Drop FU t))) = newBoard p (enc p 81 (nsquare t) false)) by (unfold doMove; cbv zeta; rewrite doMoveCI_board, EC; reflexivity).
  assert (Et : turn (doMove z p (code p (Drop FU t))) = opp (turn p)) by (unfold doMove; cbv zeta; apply doMoveCI_turn).
  revert Gq SP Eb Et. generalize (doMove z p (code p (Drop FU t))) as q. intros q Gq SP Eb Et.
  assert (E0 : at_ (board p) (nsquare t) = 0) by (apply (pl_empty p 81 (nsquare t) false); auto; lia).
  assert (At : forall x, at_ (newBoard p (enc p 81 (nsquare t) false)) x = if nsquare t =? x then mkPiece (turn p) 1 else at_ (board p) x).
  { intros x. destruct (pl_wf p G 81 (nsquare t) false) as (W & _ & A & _ & D); [lia|exact Ht|exact P|]. destruct W as [W|W]; [|destruct W as (D' & _); rewrite D' in D; discriminate D].
    rewrite (nD p (enc p 81 (nsquare t) false) (turn p) (board p) (newBoard p (enc p 81 (nsquare t) false)) (g_views p G) eq_refl eq_refl eq_refl x W). rewrite A.
    destruct (drop_fields p FU t) as (_ & _ & F & _); [auto|]. rewrite EC in F. rewrite F. reflexivity. }
  remember (newBoard p (enc p 81 (nsquare t) false)) as bq eqn:Ebq. clear Ebq.
  set (ko := kingOf (board p) (opp (turn p))) in *.
  pose proof (check_q p q (turn p) (opp (turn p)) ko (nsquare t) (board p) bq G Gq eq_refl eq_refl Et eq_refl Ht E0 At eq_refl Ho) as CQ.
  assert (R : reach 1 (turn p) (nsquare t) ko = true).
  { rewrite <- CQ, <- Eb. apply (in_check_abs q (opp (turn p)) (good_ok q Gq) (g_one q Gq) (opp_lt _ Hu)). rewrite colorN_opp by auto. eapply in_check_same; [apply same_sym; exact SP|exact IC]. }
  split.
  2:{ pose proof (replies_iff p q (turn p) (opp (turn p)) ko (nsquare t) (board p) bq G Gq eq_refl eq_refl Et eq_refl Eb Ht E0 At eq_refl Ho R) as RI. unfold mateDrop. change (81 =? 81) with true.
      change (kingOf (board p) (opp (turn p))) with ko. rewrite R, !andb_true_l. intros F. apply RI in F as (f & y & pr & Hf' & Hy & P' & S'). rewrite <- Et in S'. apply legal0_N in S'; auto. exists (mvOf f y pr). eapply legal0_same; [exact SP|exact S']. }
  intros m' L'. split; auto. intros ((y & ->) & _).
  apply (legal0_same _ (abs q)) in L'; [|apply same_sym; exact SP]. pose proof L' as [PL' _]. clear Hf. destruct (pl_mvOf q _ Gq PL') as (f & y1 & pr & Hf & Hy & P' & EM').
  assert (F : 81 <= f) by (clear - EM'; unfold mvOf in EM'; destruct (N.ltb_spec f 81); [discriminate EM'|auto]).
  rewrite EM' in L'. apply legal0_N in L'; auto. rewrite Et in L'.
  pose proof (king_q p q (turn p) (opp (turn p)) ko (nsquare t) (board p) bq G Gq eq_refl eq_refl Et Ht E0 At eq_refl Ho) as KQ.
  apply (drop_safe q (opp (turn p)) ko bq Gq Et Eb KQ Ho f y1 pr (conj F Hf) Hy P') with (x := nsquare t) in L'.
  - revert L'. exact (no_betw p q (turn p) (opp (turn p)) ko (nsquare t) (board p) bq G eq_refl eq_refl Et Ht E0 At eq_refl Ho R y1).
  - apply (chkr_q p q (turn p) (opp (turn p)) ko (nsquare t) (board p) bq G eq_refl eq_refl Et eq_refl Ht E0 At eq_refl Ho (nsquare t)). split; [reflexivity|exact R].
Qed.

Lemma pawn_drop_exact z b t : okZob z -> reachable z b -> playable (abs (bpos b)) -> let P := abs (bpos b) in let d := Drop FU t in
  legal_but_drop_mate P d -> in_check (play P d) (other (side P)) -> (In (code (bpos b) d) (legalMoves (bpos b)) <-> exists reply, legal (play P d) reply).
Proof.
  intros Z R K P d L IC. destruct (reachable_ok z b Z R) as [G C]. destruct (list_exact z (bpos b) G C K) as [_ I].
  assert (Bt : on_board t) by (destruct L as [(Bt & _) _]; exact Bt). pose proof (good_turn _ G) as Hu.
  assert (Ho : kingOf (board (bpos b)) (opp (turn (bpos b))) < 81) by (apply king_there; auto using opp_lt; apply K).
  destruct (reply_legal (bpos b) t G Ho Bt L IC) as [RL RM].
  destruct (pl_mvOf _ d G (proj1 L)) as (f & t1 & pr & Hf & Ht1 & X & E1). destruct (mvOf_pl _ _ _ _ G Ht1 X) as [_ E2]. rewrite <- E1 in E2.
  assert (Q : f = 81 /\ t1 = nsquare t /\ pr = false).
  { clear - E1 X Ht1. unfold d, mvOf, plSet in *. destruct (N.ltb_spec f 81); [discriminate E1|]. injection E1 as Ek ->. destruct X as (-> & F & _). rewrite square_inv by auto. split; auto.
    apply (f_equal nkind) in Ek. rewrite kind_inv' in Ek by lia. change (nkind FU) with 1 in Ek. lia. }
  destruct Q as (-> & -> & ->).
  assert (S : inCheckB (newBoard (bpos b) (enc (bpos b) 81 (nsquare t) false)) (turn (bpos b)) = false) by (apply legal0_N; auto; rewrite <- E1; exact L).
  pose proof (drop_mate_exact (bpos b) (nsquare t) G Ht1 X S Ho) as DM. rewrite square_inv' in DM by auto. split.
  - intros Y. destruct (mateDrop (bpos b) 81 (nsquare t)) eqn:M; [|destruct (RM eq_refl) as (r & Lr); eauto]. exfalso.
    apply I in Y as (mv & LM & E). assert (Q : d = mv).
    { destruct (fits_N _ _ G (legal_fits _ _ G LM)) as (f & t2 & pr & Hf2 & Ht2 & _ & _ & E3 & E4). rewrite E3, E1. rewrite E4, E2 in E. apply enc_inj in E as (<- & <- & <-); auto. }
    subst mv. destruct LM as [_ NM]. apply NM. now apply DM.
  - intros (r & Lr & _). apply I. exists d. split; auto. split; auto. intros (_ & _ & N). exact (N r Lr).
Qed.
Lemma legal_test z b m : okZob z -> reachable z b -> playable (abs (bpos b)) -> fits (abs (bpos b)) m ->
  (boardMoveIsLegal (bpos b) (code (bpos b) m) = true <-> legal (abs (bpos b)) m) /\
  (boardMoveIsLegal (bpos b) (code (bpos b) m) = true <-> In (code (bpos b) m) (legalMoves (bpos b))).
Proof.
  intros Z R K F. destruct (reachable_ok z b Z R) as [G C]. pose proof (is_legal_exact z (bpos b) m G C (proj1 K) F) as E. split; auto. rewrite E. destruct (list_exact z (bpos b) G C K) as [_ I]. rewrite I. split; [eauto|].
  intros (mv & L & Q). assert (m = mv); [|now subst]. destruct (fits_N _ _ G F) as (f & t & pr & Hf & Ht & _ & _ & E1 & E2). destruct (fits_N _ _ G (legal_fits _ _ G L)) as (f' & t' & pr' & Hf' & Ht' & _ & _ & E1' & E2').
  rewrite E1, E1'. rewrite E2, E2' in Q. apply enc_inj in Q as (-> & -> & ->); auto.
Qed.
Lemma listed_is_legal z b m : okZob z -> reachable z b -> playable (abs (bpos b)) -> In m (legalMoves (bpos b)) -> boardMoveIsLegal (bpos b) m = true.
Proof.
  intros Z R K I. destruct (reachable_ok z b Z R) as [G C]. apply (list_exact z (bpos b) G C K) in I as (mv & L & ->). apply (is_legal_exact z); auto; [apply K|now apply legal_fits].
Qed.
Lemma game_over z b : okZob z -> reachable z b -> playable (abs (bpos b)) -> (isGameOver (bpos b) = true <-> forall m, ~ legal (abs (bpos b)) m).
Proof. intros Z R K. destruct (reachable_ok z b Z R) as [G C]. now apply (game_over_exact z). Qed.
