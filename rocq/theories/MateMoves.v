(* The two move lists of the mate search: the attacker's list holds legal checking moves only, the defender's list
   holds every legal move except some refusals to promote. *)
From Verif Require Export CheckGenFinal Mate MateSearchSpec Mate1Final GenClaims BoardFinal.
Local Open Scope N_scope.
Local Notation enc := EnumN.enc.

Lemma chkr_inCheck bd c x : kingOf bd c < 81 -> chkr c (kingOf bd c) bd x -> inCheckB bd c = true.
Proof.
  intros H (Hx & C & A). unfold inCheckB. rewrite (proj2 (N.ltb_lt _ _) H), andb_true_l. apply existsb_exists. exists x. split; [now apply in_squares|]. now rewrite C, A.
Qed.
Lemma or_sound z b m : okZob z -> reachable z b -> playable (abs (bpos b)) -> In m (orMoves (inCheck (bpos b)) (bpos b)) ->
  exists mv, m = code (bpos b) mv /\ legal (abs (bpos b)) mv /\ in_check (play (abs (bpos b)) mv) (other (side (abs (bpos b)))).
Proof.
  intros Z R [K D] I. destruct (reachable_ok z b Z R) as [G C]. revert G C K D I. generalize (bpos b) as p. clear R. intros p G C K D I. pose proof (good_turn p G) as Hu.
  assert (Hk : kingOf (board p) (turn p) < 81) by (apply king_there; auto). assert (Ho : kingOf (board p) (opp (turn p)) < 81) by (apply king_there; auto using opp_lt).
  assert (J : In m (genCheckAll p) /\ (inCheck p = true -> checkMoveIsEvasion p m = true)).
  { unfold orMoves in I. cbv zeta in I. destruct (inCheck p); [|split; [exact I|discriminate]]. apply (Permutation_in _ (removeLoop_perm _ _ _ (le_n _))) in I. apply filter_In in I as [I1 I2]. auto. }
  clear I. destruct J as [I E]. destruct (gen_listed p (turn p) (opp (turn p)) _ _ (board p) G eq_refl eq_refl eq_refl eq_refl Hk eq_refl Ho m I) as (f & t & pr & Hf & Ht & -> & (P & M & x & X) & S).
  assert (SF : inCheckB (newBoard p (enc p f t pr)) (turn p) = false).
  { destruct (inCheck p) eqn:IC.
    - exact (safe_evasion z p (turn p) (opp (turn p)) _ _ (board p) G C eq_refl eq_refl eq_refl eq_refl Hk eq_refl Ho f t pr Hf Ht P S (E eq_refl)).
    - exact (safe_quiet z p (turn p) _ (board p) G C eq_refl eq_refl eq_refl Hk f t pr Hf Ht P S IC). }
  clear I E S. exists (mvOf f t pr). destruct (mvOf_pl p f t pr G Ht P) as [PL EC]. split; [now symmetry|].
  assert (L0 : legal_but_drop_mate (abs p) (mvOf f t pr)) by now apply legal0_N.
  split.
  - split; [exact L0|]. intros DM. pose proof DM as ((y & Ey) & _). assert (F : f = 81 /\ pr = false).
    { clear - Ey P. unfold mvOf, plSet in *. destruct (f <? 81); [discriminate Ey|]. injection Ey as Ek _. destruct P as (-> & F & _). split; auto.
      apply (f_equal nkind) in Ek. rewrite kind_inv' in Ek by lia. change (nkind FU) with 1 in Ek. lia. }
    destruct F as [-> ->]. apply drop_mate_exact in DM; auto. congruence.
  - pose proof (good_doMove z p _ G L0) as Gq. pose proof (abs_doMoveCI z p _ (checkInfo p) (moveGivesCheck p (code p (mvOf f t pr)) (checkInfo p)) G PL) as SP.
    change (doMoveCI z p (code p (mvOf f t pr)) (checkInfo p) (moveGivesCheck p (code p (mvOf f t pr)) (checkInfo p))) with (doMove z p (code p (mvOf f t pr))) in SP.
    assert (Eb : board (doMove z p (code p (mvOf f t pr))) = newBoard p (enc p f t pr)) by (unfold doMove; cbv zeta; rewrite doMoveCI_board, EC; reflexivity).
    revert Gq SP Eb. generalize (doMove z p (code p (mvOf f t pr))) as q. intros q Gq SP Eb. eapply in_check_same; [exact SP|].
    change (side (abs p)) with (colorN (turn p)). rewrite <- colorN_opp by auto. apply in_check_abs; [apply (good_ok q Gq)|apply (g_one q Gq)|now apply opp_lt|]. rewrite Eb.
    assert (KE : kingOf (newBoard p (enc p f t pr)) (opp (turn p)) = kingOf (board p) (opp (turn p))).
    { apply kingOf_ext. intros s Hs. pose proof (pl_wf p G f t pr Hf Ht P) as (W & _). rewrite isKing_new by (try apply (g_views p G); auto using opp_lt). rewrite (proj2 (N.eqb_neq (opp (turn p)) (turn p))) by (now apply Views.opp_neq). now rewrite andb_false_r. }
    apply (chkr_inCheck _ _ x); rewrite KE; auto.
Qed.
(* the parts of the list of evasions *)
Definition evKings (p : Position) : list N :=
  let us := turn p in let them := opp us in let ksq := kingSquare p us in
  map (makeNonPromoteMove p King ksq) (bbList (bbNotThisAnd (fold_left (fun bb sq => bbOr bb (bannedBy p them sq ksq)) (bbList (checkers p)) allZeroBB) (bbNotThisAnd (bbC p us) (kingAttack ksq)))).
Definition evTarget1 (p : Position) : BB := betweenBB (last (bbList (checkers p)) 0) (kingSquare p (turn p)).
Definition evTarget2 (p : Position) : BB := bbOr (evTarget1 p) (checkers p).
Definition evMany (p : Position) : bool := 1 <? N.of_nat (length (bbList (checkers p))).
Lemma ev_split all p : genEvasion all p = if evMany p then evKings p else evKings p ++ genPieces all p (evTarget2 p) ++ (if isAny (evTarget1 p) then genDrops p (evTarget1 p) else []).
Proof. reflexivity. Qed.
Lemma in_parts (A : Type) (b : bool) (m : A) k g g' d : In m (if b then k else k ++ g ++ d) -> (In m g -> In m (if b then k else k ++ g' ++ d) \/ ~ In m g') -> In m (if b then k else k ++ g' ++ d) \/ (In m g /\ ~ In m g').
Proof. destruct b; auto. rewrite !in_app_iff. intros [H|[H|H]] K; auto. destruct (K H) as [L|L]; auto. Qed.
Lemma pick_parts (A : Type) (b : bool) (m : A) k g d : (b = false -> In m g) -> b = false -> In m (if b then k else k ++ g ++ d).
Proof. intros H E. specialize (H E). rewrite E, !in_app_iff. auto. Qed.
Lemma last_in (A : Type) (d : A) l : last l d = d \/ In (last l d) l.
Proof. induction l as [|x l IH]; [now left|]. destruct l as [|y l]; [right; now left|]. destruct IH as [E|I]; [left; exact E|right; now right]. Qed.
(* a move that only the longer list has: a pawn, lance, bishop or rook that refuses to promote *)
Lemma ev_short z p m : good p -> cached z p -> kingOf (board p) (turn p) < 81 -> kingOf (board p) (opp (turn p)) < 81 ->
  (forall s, s < 81 -> isCol (board p) (turn p) s = true -> ptOf (pieceAt p s) = 1 -> rankFor (turn p) s <> 1) ->
  In m (genEvasion true p) -> In m (genEvasion false p) \/
  exists f t, f < 81 /\ t < 81 /\ m = enc p f t false /\ ruleB false (ptOf (pieceAt p f)) (turn p) f t = false /\ ptOf (pieceAt p f) <> 8.
Proof.
  intros G C Hk Ho ND I. rewrite ev_split in I. rewrite ev_split. pose proof (g_views p G) as V.
  assert (W : wfBB (evTarget2 p)).
  { apply wf_or; [|apply (wf_checkers z p G C)]. apply wf_betweenBB.
    - destruct (last_in _ 0 (bbList (checkers p))) as [->|L]; [lia|]. apply in_bbList in L; [tauto|apply (wf_checkers z p G C)].
    - rewrite kingSquare_view by auto using good_turn. exact Hk. }
  pose proof (proj2 (Enum_pieces p (turn p) (board p) (evTarget2 p) V eq_refl eq_refl W ND true) m) as E1.
  pose proof (proj2 (Enum_pieces p (turn p) (board p) (evTarget2 p) V eq_refl eq_refl W ND false) m) as E2.
  destruct (in_dec N.eq_dec m (if evMany p then evKings p else evKings p ++ genPieces false p (evTarget2 p) ++ (if isAny (evTarget1 p) then genDrops p (evTarget1 p) else []))) as [J|J]; [now left|]. right.
  destruct (in_parts _ _ _ _ _ (genPieces false p (evTarget2 p)) _ I) as [X|[X Y]]; [|contradiction|].
  { intros _. right. intros F. apply J. revert I J F. destruct (evMany p); [contradiction|]. rewrite !in_app_iff. auto. }
  apply E1 in X as (f & t & pr & Hf & Ht & (L & Cf & Kf & A & T & Ru) & ->). exists f, t. do 2 (split; auto).
  assert (Pr : pr = false /\ ruleB false (ptOf (pieceAt p f)) (turn p) f t = false).
  { destruct (if pr then ruleA (ptOf (pieceAt p f)) (turn p) f t else ruleB false (ptOf (pieceAt p f)) (turn p) f t) eqn:Q.
    - exfalso. apply Y. apply E2. exists f, t, pr. do 2 (split; auto). split; [|reflexivity]. unfold goSet. auto 10.
    - destruct pr; [congruence|auto]. }
  destruct Pr as [-> Pr]. split; [reflexivity|]. split; [exact Pr|]. cbv beta in Kf. apply negb_true_iff, N.eqb_neq in Kf. exact Kf.
Qed.
Lemma ruleB_kind q us f t : ruleB false q us f t = false -> ruleB true q us f t = true -> ruleA q us f t = true /\ (q = 1 \/ q = 5 \/ q = 6 \/ q = 2 /\ rankFor us t <= 2).
Proof.
  intros Ru RF. unfold ruleA, ruleB in *. destruct (N.eqb_spec q 1) as [E|N1]; cbn [orb] in *.
  { destruct (zoneB us t); [auto|discriminate Ru]. }
  destruct (N.eqb_spec q 2) as [E|N2]; cbn [orb] in *.
  { destruct (zoneB us t); [|discriminate Ru]. cbn [negb orb] in Ru. apply N.ltb_ge in Ru. split; [reflexivity|]. right; right; right. split; assumption. }
  destruct (N.eqb_spec q 3) as [E|N3]; cbn [orb] in *; [congruence|].
  destruct (N.eqb_spec q 5) as [E|N5]; cbn [orb] in *.
  { rewrite ?orb_true_r. cbn [orb]. destruct (zoneB us f || zoneB us t); [split; [reflexivity|]; right; left; exact E|discriminate Ru]. }
  destruct (N.eqb_spec q 6) as [E|N6]; cbn [orb] in *.
  { rewrite ?orb_true_r. destruct (zoneB us f || zoneB us t); [split; [reflexivity|]; right; right; left; exact E|discriminate Ru]. }
  discriminate Ru.
Qed.
Lemma and_complete z b mv : okZob z -> reachable z b -> playable (abs (bpos b)) -> inCheck (bpos b) = true -> legal (abs (bpos b)) mv ->
  In (code (bpos b) mv) (andMoves (bpos b)) \/ held_back (abs (bpos b)) mv.
Proof.
  intros Z R K0 IC L. pose proof (moves_complete z b Z R K0) as (_ & MC & _). specialize (MC mv L). destruct K0 as [K D]. destruct (reachable_ok z b Z R) as [G C].
  revert G C K D IC L MC. generalize (bpos b) as p. clear R. intros p G C K D IC L MC. pose proof (good_turn p G) as Hu.
  assert (Hk : kingOf (board p) (turn p) < 81) by (apply king_there; auto). assert (Ho : kingOf (board p) (opp (turn p)) < 81) by (apply king_there; auto using opp_lt).
  unfold legalMoves, genLegalAll in MC. rewrite IC in MC. unfold removeIllegal in MC. cbv zeta in MC. apply (Permutation_in _ (removeLoop_perm _ _ _ (le_n _))) in MC. apply filter_In in MC as [I Kp].
  destruct (ev_short z p _ G C Hk Ho (no_dead p G D) I) as [J|(f & t & Hf & Ht & E & Ru & N8)].
  - left. unfold andMoves, removeIllegal. cbv zeta. apply (Permutation_in _ (Permutation_sym (removeLoop_perm _ _ _ (le_n _)))). now apply filter_In.
  - right. pose proof L as [[PL NC] NM]. destruct (pl_mvOf p mv G PL) as (f' & t' & pr & Hf' & Ht' & P & ->). destruct (mvOf_pl p f' t' pr G Ht' P) as [_ E']. rewrite E' in E. apply enc_inj in E as (-> & -> & ->); auto; try lia. clear Hf' Ht' E'.
    assert (Lf : (f <? 81) = true) by now apply N.ltb_lt.
    pose proof P as P0. unfold plSet in P0. rewrite Lf in P0. unfold plGoB in P0. rewrite !andb_true_iff in P0. destruct P0 as (((Cf & A) & Ct) & Pf).
    assert (Ok : okBoard (board p)) by apply (good_ok p G).
    pose proof (rule_promo p f t false Ok Hu Hf Ht Cf A) as RF. rewrite Pf in RF. pose proof (rule_promo p f t true Ok Hu Hf Ht Cf A) as RT.
    set (pt := ptOf (pieceAt p f)) in *.
    pose proof (ruleB_kind pt (turn p) f t Ru RF) as Kind.
    destruct Kind as [RA Kind]. rewrite RA in RT.
    assert (PT : plSet p f t true) by (unfold plSet; rewrite Lf; unfold plGoB; rewrite Cf, A, Ct, <- RT; reflexivity).
    assert (Nk : f <> kingOf (board p) (turn p)).
    { intros E. apply N8. unfold pt. change (ptOf (at_ (board p) f) = 8). rewrite E, (kingOf_at (board p) (turn p) _ eq_refl Hk), pt_mk; auto; unfold King; lia. }
    assert (S : inCheckB (newBoard p (enc p f t false)) (turn p) = false) by (apply legal0_N; auto; split; auto).
    apply (go_safe p (turn p) _ (board p) G eq_refl eq_refl eq_refl Hk f t false Hf Ht P Nk) in S.
    apply (go_safe p (turn p) _ (board p) G eq_refl eq_refl eq_refl Hk f t true Hf Ht PT Nk) in S. apply legal0_N in S; auto.
    unfold mvOf in S |- *. rewrite Lf in S |- *. exists (squareN f), (squareN t), (kindN pt). split; [reflexivity|]. split; [split; [exact S|intros ((y & Ey) & _); discriminate Ey]|].
    unfold isCol in Cf. apply andb_prop in Cf as [C0 C1]. apply negb_true_iff, N.eqb_neq in C0. apply N.eqb_eq in C1.
    destruct (vpc_facts _ (proj2 Ok f Hf) C0) as (Rp & _ & Ep). change (ptOf (at_ (board p) f)) with pt in Rp, Ep. rewrite C1 in Ep.
    split.
    + change (side (abs p)) with (colorN (turn p)). apply pieceN_kind; auto. rewrite kind_inv' by lia. exact Ep.
    + change (side (abs p)) with (colorN (turn p)). destruct Kind as [->|[->|[->|[-> H]]]]; [now left|right; now left|right; right; now left|]. right. right. right. split; [reflexivity|].
      change KE with (kindN 3). apply dead_end_N; [exact Hu|lia|exact Ht|]. unfold deadB. change (3 <=? 2) with false. change (3 =? 3) with true. cbv iota. now apply N.leb_le.
Qed.
