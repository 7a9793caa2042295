(* doMove performs the move of the rules, and legal play keeps a position good. *)
From Verif Require Export Rules.
Local Open Scope N_scope.

Lemma kind_promo k : nkind k <= 6 -> promote k = Some (kindN (nkind k + 8)).
Proof. destruct k; cbn; intros; try lia; reflexivity. Qed.
Lemma kind_unpromote k hp : handSlot (unpromote k) = Some hp <-> k <> OU /\ ptToHand (nkind k) = hp.
Proof. destruct k; cbn; split; intros H; try congruence; try (inversion H; subst; split; [discriminate|reflexivity]); destruct H as [A B]; try (rewrite <- B; reflexivity); now destruct A. Qed.
Lemma handSlot_unpromote k k' hp : handSlot k' = Some hp -> kind_eqb k' (unpromote k) = (negb (kind_eqb k OU) && (ptToHand (nkind k) =? hp)).
Proof. destruct k', k; cbn [handSlot]; intros E; inversion E; subst; reflexivity. Qed.
Lemma handSlot_drop k k' hp : handSlot k' = Some hp -> nkind k <= 7 -> kind_eqb k' k = (ptToHand (nkind k) =? hp).
Proof. destruct k', k; cbn [handSlot nkind]; intros E L; inversion E; subst; try lia; reflexivity. Qed.
Lemma colorN_eqb a b : a < 2 -> b < 2 -> color_eqb (colorN a) (colorN b) = (a =? b).
Proof. intros Ha Hb. assert (a = 0 \/ a = 1) as [->| ->] by lia; assert (b = 0 \/ b = 1) as [->| ->] by lia; reflexivity. Qed.

Lemma abs_hand_slot p c k : in_hand (abs p) (colorN c) k = match handSlot k with Some hp => Z.of_N (numOf (handOf p (ncolor (colorN c))) hp) | None => 0%Z end.
Proof. reflexivity. Qed.

(* the board and hands after doMove are those of the rules *)
Theorem abs_doMoveCI z p mv ci b : good p -> pseudo_legal (abs p) mv -> same_position (abs (doMoveCI z p (code p mv) ci b)) (play (abs p) mv).
Proof.
  intros G PL. pose proof (good_turn p G) as Ht. pose proof (good_ok p G) as Ok. pose proof (g_views p G) as V.
  destruct (wf_code p mv G PL) as (W & PG & _).
  split; [|split].
  - intros s. destruct (on_boardb s) eqn:Bs.
    2:{ assert (Ns : ~ on_board s) by (intros X; apply on_boardb_iff in X; congruence). rewrite abs_off by auto.
        destruct mv as [k t|s' t pr]; cbn [play at_square]; unfold put.
        - destruct PL as (Bt & _). destruct (square_eqb s t) eqn:E; [apply square_eqb_iff in E; now subst|]. now rewrite abs_off.
        - destruct PL as (Bs' & Bt & _). destruct (square_eqb s t) eqn:E; [apply square_eqb_iff in E; now subst|].
          destruct (square_eqb s s') eqn:E'; [reflexivity|]. now rewrite abs_off. }
    apply on_boardb_iff in Bs. rewrite <- (square_inv' s Bs). pose proof (nsquare_lt s Bs) as Ls. set (i := nsquare s) in *. clearbody i. clear s Bs.
    rewrite abs_at by auto. unfold pieceAt. rewrite doMoveCI_board. change (nthN 0 (newBoard p (code p mv)) i) with (at_ (newBoard p (code p mv)) i).
    destruct mv as [k t|s t pr]; cbn [play at_square]; unfold put.
    + destruct PL as (Bt & _ & Hh & _). destruct (drop_fields p k t Bt) as (A & B & C & _). pose proof (nsquare_lt t Bt) as Lt.
      destruct W as [W|W]; [|destruct W as (X & _); congruence]. rewrite at_newDrop by auto. rewrite A, C.
      rewrite <- (square_inv' t Bt) at 2. rewrite square_eqb_N by auto. rewrite (N.eqb_sym i).
      destruct (nsquare t =? i); [|now rewrite abs_at]. rewrite pieceN_mk by (auto using nkind_lt). now rewrite kind_inv.
    + destruct PL as (Bs & Bt & k & Es & _ & _ & Pr & _). destruct (go_fields p s t pr Bs Bt) as (A & B & C & D & E & F).
      pose proof (nsquare_lt t Bt) as Lt. pose proof (nsquare_lt s Bs) as Ls'.
      destruct W as [W|W]; [destruct W as (X & _); congruence|]. rewrite at_newGo by auto. pose proof (wfGo_ptTo _ _ W) as (Hpt & _).
      rewrite mvPtToOf_eq in *. rewrite A, B, E, D in *.
      replace (square_eqb (squareN i) t) with (nsquare t =? i) by (rewrite N.eqb_sym, <- square_eqb_N, square_inv'; auto).
      replace (square_eqb (squareN i) s) with (nsquare s =? i) by (rewrite N.eqb_sym, <- square_eqb_N, square_inv'; auto).
      destruct (nsquare t =? i).
      * rewrite Es. rewrite pieceN_mk by auto. f_equal. f_equal.
        rewrite <- (square_inv' s Bs) in Es. change (side (abs p)) with (colorN (turn p)) in Es. apply pieceN_kind in Es; auto. rewrite Es in *. rewrite pt_mk in * by (auto using nkind_lt).
        destruct pr; [|rewrite N.add_0_r; apply kind_inv]. destruct (Pr eq_refl) as [Q _]. rewrite kind_promo; [reflexivity|]. destruct k; cbn in *; try lia; now destruct Q.
      * destruct (nsquare s =? i); [reflexivity|]. now rewrite abs_at.
  - intros c k'. destruct (newHands_spec p (code p mv) (ncolor c) V (g_hands p G) (g_mat p G) W (ncolor_lt c)) as [_ H].
    cbn [abs in_hand]. unfold handOf at 1. rewrite doMoveCI_hands. destruct mv as [k t|s t pr].
    + destruct PL as (Bt & _ & Hh & _). destruct (drop_fields p k t Bt) as (A & B & C & _). change (side (abs p)) with (colorN (turn p)) in Hh. apply hand_pos in Hh as [Hk _]; auto.
      cbn [play in_hand]. unfold add_hand. cbn [abs in_hand side]. destruct (handSlot k') as [hp|] eqn:Es.
      * destruct (handSlot_ptToHand _ _ Es) as (_ & _ & Lh). rewrite (H hp Lh). rewrite B, C. rewrite (handSlot_drop k k' hp) by auto.
        replace (color_eqb c (colorN (turn p))) with (ncolor c =? turn p) by (rewrite <- colorN_eqb, color_inv'; auto using ncolor_lt).
        destruct (ncolor c =? turn p); cbn [andb]; [|lia]. unfold b2z. destruct (ptToHand (nkind k) =? hp); lia.
      * destruct (kind_eqb k' k) eqn:Ek; [|rewrite andb_false_r; lia]. apply kind_eqb_iff in Ek. subst k'. exfalso. destruct k; cbn in *; try discriminate; lia.
    + destruct PL as (Bs & Bt & k & Es & _ & Nt & Pr & _). destruct (go_fields p s t pr Bs Bt) as (A & B & C & D & E & F).
      pose proof (nsquare_lt t Bt) as Lt. cbn [play in_hand].
      destruct W as [W|W]; [destruct W as (X & _); congruence|]. pose proof W as (_ & _ & _ & _ & _ & Hcap & _).
      rewrite A, F in Hcap. rewrite C, F in H.
      assert (Et : at_square (abs p) t = pieceN (pieceAt p (nsquare t))) by (rewrite <- (square_inv' t Bt) at 1; now rewrite abs_at). rewrite Et. destruct Hcap as [[Z1 Z2]|(Z1 & Z2 & Z3)].
      * rewrite Z1. change (pieceN 0) with (@None (color * kind)). cbn [in_hand abs]. destruct (handSlot k') as [hp|] eqn:Esl; [|reflexivity].
        destruct (handSlot_ptToHand _ _ Esl) as (_ & _ & Lh). rewrite (H hp Lh). rewrite Z2. change (0 =? 0) with true. cbn [negb andb b2z]. destruct (ncolor c =? turn p); lia.
      * set (cap := ptOf (pieceAt p (nsquare t))) in *. rewrite Z1. rewrite pieceN_mk by (auto using opp_lt). unfold add_hand. cbn [abs in_hand side].
        destruct (handSlot k') as [hp|] eqn:Esl.
        -- destruct (handSlot_ptToHand _ _ Esl) as (_ & _ & Lh). rewrite (H hp Lh). rewrite (handSlot_unpromote (kindN cap) k' hp) by auto. rewrite kind_inv' by auto.
           replace (color_eqb c (colorN (turn p))) with (ncolor c =? turn p) by (rewrite <- colorN_eqb, color_inv'; auto using ncolor_lt).
           replace (kind_eqb (kindN cap) OU) with false.
           2:{ symmetry. apply not_true_is_false. intros X. apply kind_eqb_iff in X. apply Z3. rewrite <- (kind_inv' cap) by auto. rewrite X. reflexivity. }
           replace (cap =? 0) with false by lia. destruct (ncolor c =? turn p); cbn [andb negb]; [|lia]. unfold b2z. destruct (ptToHand cap =? hp); lia.
        -- destruct (kind_eqb k' (unpromote (kindN cap))) eqn:Ek; [|rewrite andb_false_r; lia]. apply kind_eqb_iff in Ek. subst k'. exfalso.
           assert (X : kindN cap = OU) by (destruct (kindN cap); cbn in Esl; congruence). apply Z3. rewrite <- (kind_inv' cap) by auto. rewrite X. reflexivity.
  - cbn [abs side]. rewrite doMoveCI_turn, colorN_opp by auto. destruct mv; reflexivity.
Qed.

(* ---- the rules do not distinguish two presentations of one position ---- *)
Lemma same_refl P : same_position P P. Proof. repeat split. Qed.
Lemma same_sym P Q : same_position P Q -> same_position Q P.
Proof. intros (A & B & C). repeat split; auto. Qed.
Lemma same_trans P Q R : same_position P Q -> same_position Q R -> same_position P R.
Proof. intros (A & B & C) (A' & B' & C'). repeat split; intros; congruence. Qed.
Lemma attacks_occ (O O' : square -> Prop) c k s t : (forall x, O x <-> O' x) -> attacks O c k s t -> attacks O' c k s t.
Proof.
  intros H [X|(d & n & A & B & C & D)]; [now left|]. right. exists d, n. repeat split; auto. intros i Hi Y. apply (D i Hi). now apply H.
Qed.
Lemma occupied_same P Q : same_position P Q -> forall x, occupied P x <-> occupied Q x.
Proof. intros (A & _) x. unfold occupied. now rewrite A. Qed.
Lemma piece_attacks_same P Q c s t : same_position P Q -> piece_attacks P c s t -> piece_attacks Q c s t.
Proof.
  intros S (k & E & A). exists k. split; [now rewrite <- (proj1 S)|]. eapply attacks_occ; [|exact A]. now apply occupied_same.
Qed.
Lemma attacked_by_same P Q c t : same_position P Q -> attacked_by P c t -> attacked_by Q c t.
Proof. intros S (s & B & A). exists s. split; auto. eapply piece_attacks_same; eauto. Qed.
Lemma in_check_same P Q c : same_position P Q -> in_check P c -> in_check Q c.
Proof. intros S (s & B & K & A). exists s. split; auto. split; [now rewrite <- (proj1 S)|]. eapply attacked_by_same; eauto. Qed.
Lemma pseudo_legal_same P Q m : same_position P Q -> pseudo_legal P m -> pseudo_legal Q m.
Proof.
  intros S. pose proof S as (A & B & C). unfold pseudo_legal. rewrite <- C. destruct m as [k t|s t pr].
  - intros (H1 & H2 & H3 & H4 & H5). rewrite <- A, <- B. do 4 (split; [assumption|]). intros E s Hs Hf. rewrite <- A. now apply H5.
  - intros (H1 & H2 & k & H3 & H4 & H5 & H6 & H7). split; auto. split; auto. exists k. rewrite <- A. split; auto. split; [eapply attacks_occ; [apply occupied_same; eauto|auto]|].
    split; [intros k'; rewrite <- A; auto|]. auto.
Qed.
Lemma play_same P Q m : same_position P Q -> same_position (play P m) (play Q m).
Proof.
  intros (A & B & C). destruct m as [k t|s t pr]; cbn [play]; rewrite <- C.
  - repeat split; cbn [at_square in_hand side]; intros; unfold put, add_hand; now rewrite ?A, ?B.
  - repeat split; cbn [at_square in_hand side]; intros; unfold put, add_hand; rewrite <- ?A, <- ?B; auto. destruct (at_square P t) as [[c' k']|]; now rewrite ?B.
Qed.
Lemma legal0_same P Q m : same_position P Q -> legal_but_drop_mate P m -> legal_but_drop_mate Q m.
Proof.
  intros S [A B]. split; [eapply pseudo_legal_same; eauto|]. intros X. apply B. rewrite (proj2 (proj2 S)). eapply in_check_same; [|exact X]. apply same_sym. now apply play_same.
Qed.
Lemma pawn_drop_mate_same P Q m : same_position P Q -> pawn_drop_mate P m -> pawn_drop_mate Q m.
Proof.
  intros S (A & B & C). split; auto. split; [rewrite <- (proj2 (proj2 S)); eapply in_check_same; [|exact B]; now apply play_same|].
  intros m' X. apply (C m'). eapply legal0_same; [|exact X]. apply same_sym. now apply play_same.
Qed.
Lemma legal_same P Q m : same_position P Q -> legal P m -> legal Q m.
Proof. intros S [A B]. split; [eapply legal0_same; eauto|]. intros X. apply B. eapply pawn_drop_mate_same; [|exact X]. now apply same_sym. Qed.

(* ---- legal play keeps a position good ---- *)
Lemma legal0_pseudo P m : legal_but_drop_mate P m -> pseudo_legal P m. Proof. now intros []. Qed.
Lemma legal0_safe z p mv ci b : good p -> pseudo_legal (abs p) mv ->
  (in_check (play (abs p) mv) (side (abs p)) <-> inCheckB (board (doMoveCI z p (code p mv) ci b)) (turn p) = true).
Proof.
  intros G PL. pose proof (abs_doMoveCI z p mv ci b G PL) as S. destruct (wf_code p mv G PL) as (W & _).
  destruct (views_doMoveCI z p (code p mv) ci b (g_views p G) (g_one p G) W) as [V' O'].
  assert (Ok' : okBoard (board (doMoveCI z p (code p mv) ci b))) by apply V'.
  rewrite <- (in_check_abs _ _ Ok' O' (good_turn p G)). change (side (abs p)) with (colorN (turn p)). split; apply in_check_same; auto using same_sym.
Qed.
Lemma good_intro q : views q -> oneKing (board q) -> okHands q -> okMaterial q -> inCheckB (board q) (opp (turn q)) = false -> good q.
Proof. intros. now constructor. Qed.
Lemma good_doMoveCI z p mv ci b : good p -> legal_but_drop_mate (abs p) mv -> good (doMoveCI z p (code p mv) ci b).
Proof.
  intros G [PL NC]. destruct (wf_code p mv G PL) as (W & PG & _).
  rewrite (legal0_safe z p mv ci b G PL) in NC. apply not_true_is_false in NC.
  destruct (views_doMoveCI z p (code p mv) ci b (g_views p G) (g_one p G) W) as [V' O'].
  destruct (material_doMoveCI z p (code p mv) ci b (g_views p G) (g_hands p G) (g_mat p G) W) as [H' M'].
  apply good_intro; [exact V'|exact O'|exact H'| |].
  - intros hp Hh. rewrite M' by exact Hh. exact (g_mat p G hp Hh).
  - rewrite doMoveCI_turn, (opp_opp _ (good_turn p G)). exact NC.
Qed.
Theorem good_doMove z p mv : good p -> legal_but_drop_mate (abs p) mv -> good (doMove z p (code p mv)).
Proof. intros G L. unfold doMove. cbv zeta. now apply good_doMoveCI. Qed.

(* the cached state of a position *)
Record cached (z : Zob) (p : Position) : Prop := {
  c_keys : keysOk z p;
  c_hand : stHand (st p) = handOf p (turn p);
  c_check : checkersBB (st p) = findCheckersBB p
}.
Theorem cached_doMove z p mv : okZob z -> good p -> cached z p -> legal_but_drop_mate (abs p) mv -> cached z (doMove z p (code p mv)).
Proof.
  intros Z G C [PL NC]. destruct (wf_code p mv G PL) as (W & PG & _). constructor.
  - unfold doMove. cbv zeta. apply keys_doMoveCI; auto; try apply G. apply C.
  - unfold doMove. cbv zeta. apply doMoveCI_stHand.
  - apply checkers_doMove; auto; try apply G. now apply oppSafe_good.
Qed.

(* the stored checkers decide check in the sense of the rules *)
Lemma isAny_iff a : wfBB a -> (isAny a = true <-> exists x, x < 81 /\ isSet a x = true).
Proof.
  intros Wa. split.
  - now apply isAny_true_ex.
  - intros (x & _ & E). now apply isAny_ex_true in E.
Qed.
Lemma kings_apart p : good p -> kingOf (board p) (turn p) < 81 -> forall s, s < 81 -> isCol (board p) (opp (turn p)) s = true ->
  ptOf (at_ (board p) s) = 8 -> att (board p) s (kingOf (board p) (turn p)) = false.
Proof.
  intros G Hk s Hs Hc Hp. pose proof (good_turn p G) as Ht. pose proof (good_ok p G) as Ok. destruct (att (board p) s (kingOf (board p) (turn p))) eqn:A; [|reflexivity]. exfalso.
  destruct (kingOf_cases (board p) (turn p)) as [[_ K]|[E _]]; [|lia]. assert (K0 := K). unfold isKing in K. apply N.eqb_eq in K.
  revert Hk A K0 K. generalize (kingOf (board p) (turn p)) as k. intros k Hk A K0 K.
  unfold isCol in Hc. apply andb_prop in Hc as [H0 Hc]. apply N.eqb_eq in Hc.
  assert (Ks : isKing (board p) (opp (turn p)) s = true).
  { apply N.eqb_eq. apply negb_true_iff, N.eqb_neq in H0. destruct (vpc_facts _ (proj2 Ok s Hs) H0) as (_ & _ & E). rewrite Hc, Hp in E. exact E. }
  apply (inCheckB_no (board p) (turn p) k s (g_one p G) Ht Hk Hs Ks); [| |apply (g_safe p G)].
  - unfold isCol. rewrite K. rewrite mk_nz, col_mk, N.eqb_refl by (auto; unfold King; lia). reflexivity.
  - unfold att, attOcc in *. rewrite K, Hp, Hc in *. rewrite mk_nz, col_mk, pt_mk by (auto; unfold King; lia). rewrite H0, andb_true_l in A. rewrite andb_true_l.
    rewrite clear_sym by auto. unfold King. rewrite reach_sym by (auto; lia). exact A.
Qed.
Theorem inCheck_exact z p : good p -> cached z p -> (inCheck p = true <-> in_check (abs p) (side (abs p))).
Proof.
  intros G C. pose proof (good_turn p G) as Ht. pose proof (g_views p G) as V. cbn [abs side]. rewrite in_check_abs by (auto; apply G).
  unfold inCheck, checkers. rewrite (c_check z p C). rewrite isAny_iff by now apply wf_findCheckers. unfold inCheckB. rewrite andb_true_iff, N.ltb_lt, existsb_exists. split.
  - intros (x & Hx & E). rewrite isSet_findCheckers in E by auto. apply andb_prop in E as [E1 E2]. apply N.ltb_lt in E1. split; auto. exists x. split; [now apply in_squares|].
    unfold chk in E2. apply andb_prop in E2 as [E2 E3]. apply andb_prop in E2 as [E2 _]. now rewrite E2, E3.
  - intros (L & s & Hs & E). apply in_squares in Hs. exists s. split; auto. rewrite isSet_findCheckers by auto. rewrite (proj2 (N.ltb_lt _ _) L), andb_true_l.
    apply andb_prop in E as [E1 E2]. unfold chk. rewrite E1, E2, andb_true_r, andb_true_l. apply negb_true_iff, N.eqb_neq. intros P8.
    rewrite (kings_apart p G L s Hs E1 P8) in E2. discriminate.
Qed.
(* each stored checker attacks the king and each attacker is stored *)
Theorem checkers_exact z p s k : good p -> cached z p -> s < 81 -> k < 81 -> at_square (abs p) (squareN k) = Some (side (abs p), OU) ->
  (isSet (checkers p) s = true <-> piece_attacks (abs p) (other (side (abs p))) (squareN s) (squareN k)).
Proof.
  intros G C Hs Hk K. pose proof (good_turn p G) as Ht. pose proof (g_views p G) as V. cbn [abs side] in *. rewrite <- colorN_opp by auto.
  apply king_iff in K; auto; [|apply G]. rewrite piece_attacks_abs by (auto using opp_lt; apply G).
  unfold checkers. rewrite (c_check z p C). rewrite isSet_findCheckers by auto. rewrite (kingOf_here _ _ _ (g_one p G) Ht Hk K).
  rewrite (proj2 (N.ltb_lt _ _) Hk), andb_true_l. unfold chk. destruct (isCol (board p) (opp (turn p)) s) eqn:E1; [|tauto]. rewrite !andb_true_l.
  destruct (att (board p) s k) eqn:E2; [|rewrite andb_false_r; tauto]. rewrite andb_true_r. split; [auto|]. intros _.
  apply negb_true_iff, N.eqb_neq. intros P8. pose proof (kings_apart p G) as X. rewrite (kingOf_here _ _ _ (g_one p G) Ht Hk K) in X. rewrite (X Hk s Hs E1 P8) in E2. discriminate.
Qed.
