(* The moves the legal generators list, in numbers. *)
From Verif Require Export GenLegal.
Local Open Scope N_scope.

(* taken for a mating pawn drop *)
Definition mateDrop (p : Position) (f t : N) : bool :=
  (f =? 81) && (reach 1 (turn p) t (kingOf (board p) (opp (turn p))) && isPawnDropCheckMate p (turn p) t).
(* what the generator lists *)
Definition listed (p : Position) : mset := fun f t pr =>
  plSet p f t pr /\ inCheckB (newBoard p (enc p f t pr)) (turn p) = false /\ mateDrop p f t = false.
Section E.
Variables (z : Zob) (p : Position) (us k ko : N) (bd : list N).
Hypotheses (G : good p) (C : cached z p) (Eus : turn p = us) (Ebd : board p = bd).
Hypotheses (Ek : kingOf bd us = k) (Hk : k < 81) (Eo : kingOf bd (opp us) = ko) (Ho : ko < 81).
Hypothesis ND : forall s, s < 81 -> isCol bd us s = true -> ptOf (pieceAt p s) = 1 -> rankFor us s <> 1.
Lemma eV : views p. Proof. apply G. Qed.
Lemma eU : us < 2. Proof. exact (gUs p us eV Eus). Qed.
Lemma eOk : okBoard bd. Proof. rewrite <- Ebd. apply (v_board p eV). Qed.
Lemma eO : oneKing bd. Proof. rewrite <- Ebd. apply G. Qed.
Definition chkr (x : N) : Prop := x < 81 /\ isCol bd (opp us) x = true /\ att bd x k = true.
Lemma own_king s : s < 81 -> isCol bd us s = true -> ((ptOf (pieceAt p s) =? 8) = (s =? k)).
Proof. clear ND Ho Eo C.
  intros Hs Cs. pose proof eU as Hu. apply eq_true_iff_eq. rewrite !N.eqb_eq. split.
  - intros P8. rewrite <- Ek. symmetry. apply kingOf_here; auto using eO. unfold isKing. apply N.eqb_eq. rewrite (gAt p bd Ebd) in P8. unfold isCol in Cs. apply andb_prop in Cs as [C0 C1]. apply N.eqb_eq in C1.
    apply negb_true_iff, N.eqb_neq in C0. destruct (vpc_facts _ (gOk p bd eV Ebd s Hs) C0) as (_ & _ & E). rewrite E, P8, C1. reflexivity.
  - intros ->. rewrite (gAt p bd Ebd), (kingOf_at bd us k Ek Hk), pt_mk; auto. unfold King. lia.
Qed.
Lemma in_checkers x : In x (bbList (checkers p)) <-> chkr x.
Proof. clear ND Ho Eo.
  pose proof eV as V. unfold checkers. rewrite (c_check z p C). rewrite in_bbList by now apply wf_findCheckers. unfold chkr. split.
  - intros [Hx H]. rewrite isSet_findCheckers in H by auto. rewrite Eus, Ebd, Ek, (proj2 (N.ltb_lt _ _) Hk), andb_true_l in H. unfold chk in H. rewrite !andb_true_iff in H. tauto.
  - intros (Hx & Cx & A). split; auto. rewrite isSet_findCheckers by auto. rewrite Eus, Ebd, Ek, (proj2 (N.ltb_lt _ _) Hk), andb_true_l. unfold chk. rewrite Cx, A, andb_true_r, andb_true_l.
    apply negb_true_iff, N.eqb_neq. intros P8. pose proof (kings_apart p G) as X. rewrite Eus, Ebd, Ek in X. rewrite (X Hk x Hx Cx P8) in A. discriminate.
Qed.
Lemma nodup_checkers : NoDup (bbList (checkers p)).
Proof. clear ND Ho Eo. apply NoDup_bbList. unfold checkers. rewrite (c_check z p C). apply wf_findCheckers, eV. Qed.
Lemma wf_checkers : wfBB (checkers p).
Proof. clear ND Ho Eo. unfold checkers. rewrite (c_check z p C). apply wf_findCheckers, eV. Qed.
Lemma no_checkers : inCheck p = false -> forall x, ~ chkr x.
Proof. clear ND Ho Eo. intros H x X. apply in_checkers in X. apply in_bbList in X as [_ X]; [|apply wf_checkers]. unfold inCheck in H. apply isAny_ex_true in X. congruence. Qed.
Lemma some_checkers : inCheck p = true -> bbList (checkers p) <> [].
Proof. clear ND Ho Eo. intros H E. unfold inCheck in H. apply isAny_true_ex in H as (s & Hs & X); [|apply wf_checkers]. assert (I : In s (bbList (checkers p))) by (apply in_bbList; [apply wf_checkers|auto]). rewrite E in I. destruct I. Qed.

(* when a pseudo-legal move leaves the own king safe *)
Lemma pl_wf f t pr : f < 128 -> t < 81 -> plSet p f t pr -> wfMove p (enc p f t pr) /\ pseudoGo p (enc p f t pr) /\
  mvTo (enc p f t pr) = t /\ mvFrom (enc p f t pr) = f /\ mvDrop (enc p f t pr) = negb (f <? 81).
Proof. clear ND Ho Eo C Ek Hk Eus Ebd.
  intros Hf Ht P. destruct (mvOf_pl p f t pr G Ht P) as [L E]. destruct (wf_code p _ G L) as (W & PG & _). rewrite E in W, PG. destruct (enc_fields p f t pr Hf Ht) as (A & B & _).
  do 4 (split; auto). unfold mvDrop. rewrite B. lia.
Qed.
Lemma go_safe f t pr : f < 81 -> t < 81 -> plSet p f t pr -> f <> k ->
  (inCheckB (newBoard p (enc p f t pr)) us = false <-> isPinnedIllegal f t k (pinnedBB p) = false /\ forall x, chkr x -> t = x \/ In t (betw x k)).
Proof. clear ND Ho Eo C.
  intros Hf Ht P N. destruct (pl_wf f t pr ltac:(lia) Ht P) as (W & PG & Et & Ef & Ed). rewrite (proj2 (N.ltb_lt _ _) Hf) in Ed. pose proof eV as V.
  assert (X : wfGo p (enc p f t pr)) by (destruct W as [W|W]; auto; destruct W as (D & _); rewrite Ed in D; discriminate D).
  assert (O : oneKing (board p)) by apply G.
  rewrite (safe_go p (enc p f t pr) us k bd (newBoard p (enc p f t pr)) V O W PG Eus Ebd eq_refl Ek Hk X) by now rewrite Ef.
  rewrite Et, Ef. apply and_iff_compat_l. unfold chkr. split; [intros H x (A & B & D); auto|intros H x A B D; apply H; auto].
Qed.
Lemma drop_safe f t pr : 81 <= f < 128 -> t < 81 -> plSet p f t pr ->
  (inCheckB (newBoard p (enc p f t pr)) us = false <-> forall x, chkr x -> In t (betw x k)).
Proof. clear ND Ho Eo C.
  intros Hf Ht P. destruct (pl_wf f t pr ltac:(lia) Ht P) as (W & PG & Et & Ef & Ed). pose proof eV as V. assert (L : (f <? 81) = false) by (apply N.ltb_ge; lia). rewrite L in Ed.
  assert (X : wfDrop p (enc p f t pr)) by (destruct W as [W|W]; auto; destruct W as (D & _); rewrite Ed in D; discriminate D).
  assert (O : oneKing (board p)) by apply G.
  rewrite (safe_drop p (enc p f t pr) us k bd (newBoard p (enc p f t pr)) V O W Eus Ebd eq_refl Ek Hk X).
  rewrite Et. unfold chkr. split; [intros H x (A & B & D); auto|intros H x A B D; apply H; auto].
Qed.
Lemma king_safe t pr : t < 81 -> plSet p k t pr ->
  (inCheckB (newBoard p (enc p k t pr)) us = false <-> attackersToIsAny p (opp us) t (occBB p) = false /\ forall x, chkr x -> isSet (bannedBy p (opp us) x k) t = false).
Proof. clear ND Ho Eo C.
  intros Ht P. destruct (pl_wf k t pr ltac:(lia) Ht P) as (W & PG & Et & Ef & Ed). rewrite (proj2 (N.ltb_lt _ _) Hk) in Ed. pose proof eV as V.
  assert (X : wfGo p (enc p k t pr)) by (destruct W as [W|W]; auto; destruct W as (D & _); rewrite Ed in D; discriminate D).
  assert (O : oneKing (board p)) by apply G.
  rewrite (king_exact p (enc p k t pr) us k bd (newBoard p (enc p k t pr)) V O W PG Eus Ebd eq_refl Ek Hk X Ef).
  rewrite Et. apply and_iff_compat_l. unfold chkr. split; [intros H x (A & B & D); auto|intros H x A B D; apply H; auto].
Qed.
(* the final test of the generator *)
Lemma keep_drop f t pr : 81 <= f < 128 -> t < 81 -> plSet p f t pr -> pseudoLegalMoveIsLegal false p (enc p f t pr) (pinnedBB p) = true.
Proof. clear ND Ho Eo C Ek Hk Eus Ebd.
  intros Hf Ht P. destruct (pl_wf f t pr ltac:(lia) Ht P) as (_ & _ & _ & _ & Ed). unfold pseudoLegalMoveIsLegal. rewrite Ed. assert (L : (f <? 81) = false) by (apply N.ltb_ge; lia). now rewrite L.
Qed.
Lemma keep_go f t pr : f < 81 -> t < 81 -> plSet p f t pr -> pseudoLegalMoveIsLegal false p (enc p f t pr) (pinnedBB p) =
  if f =? k then negb (attackersToIsAny p (opp us) t (occBB p)) else negb (isPinnedIllegal f t k (pinnedBB p)).
Proof. clear ND Ho Eo C.
  intros Hf Ht P. destruct (pl_wf f t pr ltac:(lia) Ht P) as (_ & _ & Et & Ef & Ed). unfold pseudoLegalMoveIsLegal. cbv zeta. rewrite Ed, (proj2 (N.ltb_lt _ _) Hf), Et, Ef, Eus. cbn [negb]. rewrite andb_true_l.
  rewrite kingSquare_view by (auto using eV, eU). rewrite Ebd, Ek. unfold plSet in P. rewrite (proj2 (N.ltb_lt _ _) Hf) in P. unfold plGoB in P. rewrite !andb_true_iff in P. destruct P as (((P & _) & _) & _). rewrite Eus, Ebd in P.
  change King with 8. rewrite own_king by auto. reflexivity.
Qed.
Lemma own_target t : t < 81 -> isSet (bbOr (emptyBB p) (bbC p (opp us))) t = negb (isCol bd us t).
Proof.
  intros Ht. pose proof eU as Hu. pose proof eV as V. rewrite isSet_or. unfold emptyBB. rewrite isSet_xor, isSet_ones, isSet_occBB, isSet_bbC by (auto using opp_lt). unfold isCol. rewrite (gAt p bd Ebd).
  destruct (vpc_cases _ (gOk p bd V Ebd t Ht)) as [E|(c & pt & Hc & Hp & E)]; rewrite E.
  - reflexivity.
  - rewrite mk_nz, col_mk by auto. cbn [negb andb]. pose proof (opp_neq us Hu). assert (c = us \/ c = opp us) as [->| ->] by (assert (us = 0 \/ us = 1) as [->| ->] by lia; assert (c = 0 \/ c = 1) as [->| ->] by lia; auto).
    + rewrite opp_neqb, N.eqb_refl by auto. reflexivity.
    + rewrite N.eqb_refl. rewrite (proj2 (N.eqb_neq (opp us) us)) by auto. reflexivity.
Qed.
Lemma empty_target t : t < 81 -> isSet (emptyBB p) t = (pieceAt p t =? 0).
Proof. intros Ht. unfold emptyBB. rewrite isSet_xor, isSet_ones, isSet_occBB by (auto using eV). destruct (pieceAt p t =? 0); reflexivity. Qed.
Lemma goSet_pl target K f t pr : f < 128 -> t < 81 -> (isSet target t = true -> isCol bd us t = false) ->
  (goSet p true K target f t pr <-> f < 81 /\ K (ptOf (pieceAt p f)) = true /\ isSet target t = true /\ plSet p f t pr).
Proof. clear ND Ho Eo C.
  intros Hf Ht T. unfold goSet, plSet. rewrite Eus, Ebd. split.
  - intros (L & Cf & Kf & A & It & R). rewrite (proj2 (N.ltb_lt _ _) L). do 3 (split; auto). unfold plGoB. rewrite Eus, Ebd, Cf, A, T by auto. cbn [andb negb].
    rewrite <- (rule_promo p f t pr); rewrite ?Eus, ?Ebd; auto using eOk, eU.
  - intros (L & Kf & It & P). rewrite (proj2 (N.ltb_lt _ _) L) in P. unfold plGoB in P. rewrite !andb_true_iff, Eus, Ebd in P. destruct P as (((Cf & A) & _) & R). do 5 (split; auto).
    rewrite <- (rule_promo p f t pr) in R; rewrite ?Eus, ?Ebd in *; auto using eOk, eU.
Qed.
Lemma dropSet_pl target f t pr : f < 128 -> t < 81 -> (isSet target t = true -> pieceAt p t = 0) ->
  (dropSet p target f t pr <-> 81 <= f /\ isSet target t = true /\ plSet p f t pr /\ mateDrop p f t = false).
Proof.
  intros Hf Ht T. unfold dropSet, plSet, mateDrop. split.
  - intros (-> & F & H & It & D & M). assert (L : (f <? 81) = false) by (apply N.ltb_ge; lia). rewrite L. split; [lia|]. split; auto. split.
    + split; [auto|]. split; [auto|]. unfold plDropB. rewrite handExists_num in H by (assert (f - 80 = 1 \/ f - 80 = 2 \/ f - 80 = 3 \/ f - 80 = 4 \/ f - 80 = 5 \/ f - 80 = 6 \/ f - 80 = 7) as [->|[->|[->|[->|[->|[->| ->]]]]]] by lia; vm_compute; reflexivity).
      rewrite D, (T It), !andb_true_iff, N.leb_le, N.ltb_lt. apply negb_true_iff, N.eqb_neq in H. repeat split; auto; try lia.
      destruct (N.eqb_spec (f - 80) 1) as [E|E]; auto. destruct M as [M _]; [lia|]. rewrite M. reflexivity.
    + destruct (N.eqb_spec f 81) as [E|E]; auto. rewrite andb_true_l. now apply M.
  - intros (L & It & P & M). assert (L' : (f <? 81) = false) by (apply N.ltb_ge; lia). rewrite L' in P. destruct P as (-> & F & P). split; auto. split; auto.
    unfold plDropB in P. rewrite !andb_true_iff, N.ltb_lt in P. destruct P as ((((_ & _) & H) & D) & NF). split.
    + rewrite handExists_num by (assert (f - 80 = 1 \/ f - 80 = 2 \/ f - 80 = 3 \/ f - 80 = 4 \/ f - 80 = 5 \/ f - 80 = 6 \/ f - 80 = 7) as [->|[->|[->|[->|[->|[->| ->]]]]]] by lia; vm_compute; reflexivity). apply negb_true_iff, N.eqb_neq. lia.
    + do 2 (split; [auto; now apply negb_true_iff|]). intros ->. change (81 - 80) with 1 in NF. change (1 =? 1) with true in NF. rewrite andb_true_l in NF. apply negb_true_iff in NF. change (81 =? 81) with true in M. rewrite andb_true_l in M. split; [exact NF|exact M].
Qed.
Lemma pl_col f t pr : t < 81 -> plSet p f t pr -> isCol bd us t = false.
Proof. clear ND Ho Eo C.
  intros Ht P. unfold plSet in P. destruct (N.ltb_spec f 81) as [L|L].
  - unfold plGoB in P. rewrite !andb_true_iff, Eus, Ebd in P. destruct P as ((_ & P) & _). now apply negb_true_iff.
  - destruct P as (_ & _ & P). unfold plDropB in P. rewrite !andb_true_iff in P. destruct P as ((((_ & P) & _) & _) & _). apply N.eqb_eq in P. unfold isCol. rewrite <- (gAt p bd Ebd), P. reflexivity.
Qed.
Lemma pl_empty f t pr : 81 <= f -> plSet p f t pr -> pieceAt p t = 0.
Proof. clear ND Ho Eo C G Eus Ebd Ek Hk.
  intros L P. unfold plSet in P. assert (L' : (f <? 81) = false) by (apply N.ltb_ge; lia). rewrite L' in P. destruct P as (_ & _ & P). unfold plDropB in P. rewrite !andb_true_iff in P. destruct P as ((((_ & P) & _) & _) & _). now apply N.eqb_eq.
Qed.
Lemma pl_own f t pr : f < 81 -> plSet p f t pr -> isCol bd us f = true /\ att bd f t = true.
Proof. clear ND Ho Eo C. intros L P. unfold plSet in P. rewrite (proj2 (N.ltb_lt _ _) L) in P. unfold plGoB in P. rewrite !andb_true_iff, Eus, Ebd in P. tauto. Qed.
Lemma mate_go f t : f < 81 -> mateDrop p f t = false.
Proof. intros L. unfold mateDrop. rewrite (proj2 (N.eqb_neq _ _)) by lia. reflexivity. Qed.

(* not in check *)
Lemma Enum_nonEvasion : Enum p (fun f t pr => plSet p f t pr /\ mateDrop p f t = false) (genNonEvasion p).
Proof.
  pose proof eV as V. pose proof eU as Hu. unfold genNonEvasion. cbv zeta. rewrite Eus. set (target := bbOr (emptyBB p) (bbC p (opp us))).
  assert (WT : wfBB target) by (apply wf_or; [apply wf_xor; [now apply wf_occBB|apply wf_ones]|apply wf_bbC; auto using opp_lt]).
  assert (T : forall t, t < 81 -> isSet target t = negb (isCol bd us t)) by (intros t Ht; now apply own_target).
  eapply Enum_ext; [apply Enum_app; [|apply Enum_app|]|].
  - apply (Enum_drops p us ko bd); auto.
    + apply wf_xor; [now apply wf_occBB|apply wf_ones].
    + intros t Ht It. rewrite empty_target in It by auto. now apply N.eqb_eq.
  - now apply (Enum_pieces p us bd target V Eus Ebd WT ND true).
  - apply (Enum_king p us bd target V Eus Ebd WT true k); auto using eO.
  - intros f t pr _ _ (_ & _ & K1 & _) (_ & _ & K2 & _). cbv beta in K1. rewrite N.eqb_sym in K2. rewrite K2 in K1. discriminate.
  - intros f t pr _ _ (_ & F & _) [(L & _)|(L & _)]; lia.
  - intros f t pr Hf Ht. cbv beta. rewrite dropSet_pl by (auto; rewrite empty_target by auto; apply N.eqb_eq).
    rewrite !goSet_pl by (auto; rewrite T by auto; apply negb_true_iff). rewrite empty_target, T by auto. split.
    + intros [(L & _ & P & M)|[(L & _ & _ & P)|(L & _ & _ & P)]]; auto using mate_go.
    + intros [P M]. destruct (N.ltb_spec f 81) as [L|L].
      * right. rewrite (pl_col f t pr Ht P), (N.eqb_sym 8). destruct (ptOf (pieceAt p f) =? 8); cbn [negb]; auto 10.
      * left. rewrite (pl_empty f t pr L P). auto.
Qed.
(* in check *)
Lemma isSet_banned t l : forall b0, isSet (fold_left (fun bb sq => bbOr bb (bannedBy p (opp us) sq k)) l b0) t = isSet b0 t || existsb (fun x => isSet (bannedBy p (opp us) x k) t) l.
Proof. induction l as [|x l IH]; intros b0; cbn [fold_left existsb]; [now rewrite orb_false_r|]. rewrite IH, isSet_or, orb_assoc. reflexivity. Qed.
Lemma Enum_kings : Enum p (fun f t pr => f = k /\ plSet p f t pr /\ forall x, chkr x -> isSet (bannedBy p (opp us) x k) t = false)
  (map (makeNonPromoteMove p King k) (bbList (bbNotThisAnd (fold_left (fun bb sq => bbOr bb (bannedBy p (opp us) sq k)) (bbList (checkers p)) allZeroBB) (bbNotThisAnd (bbC p us) (kingAttack k))))).
Proof.
  pose proof eV as V. pose proof eU as Hu. set (KB := bbNotThisAnd _ _).
  assert (W : wfBB KB) by (apply wf_notthisand; apply wf_notthisand; apply (wf_attacksFrom King us k allZeroBB); auto; unfold King; lia).
  pose proof (kingOf_at bd us k Ek Hk) as AK. assert (PK : ptOf (pieceAt p k) = 8) by (rewrite (gAt p bd Ebd), AK, pt_mk; auto; unfold King; lia).
  assert (IK : forall t pr, t < 81 -> (In t (bbList KB) /\ pr = false <-> plSet p k t pr /\ forall x, chkr x -> isSet (bannedBy p (opp us) x k) t = false)).
  { intros t pr Ht. rewrite in_bbList by auto. unfold KB. rewrite !isSet_notthisand, isSet_banned, isSet_zero, isSet_bbC, orb_false_l by auto.
    assert (EB : existsb (fun x => isSet (bannedBy p (opp us) x k) t) (bbList (checkers p)) = false <-> forall x, chkr x -> isSet (bannedBy p (opp us) x k) t = false).
    { split.
      - intros H x X. apply in_checkers in X. now apply (existsb_false_at _ _ x) in H.
      - intros H. apply not_true_is_false. intros X. apply existsb_exists in X as (x & Ix & X). apply in_checkers in Ix. rewrite (H x Ix) in X. discriminate. }
    rewrite !andb_true_iff, !negb_true_iff, EB. unfold plSet. rewrite (proj2 (N.ltb_lt _ _) Hk). unfold plGoB. rewrite !andb_true_iff, negb_true_iff, Eus, Ebd.
    unfold isCol at 1. rewrite AK, mk_nz, col_mk, N.eqb_refl by (auto; unfold King; lia).
    assert (EA : isSet (kingAttack k) t = att bd k t).
    { unfold att, attOcc. rewrite AK, mk_nz, col_mk, pt_mk by (auto; unfold King; lia). rewrite <- (stepAtt King us k t allZeroBB (occOf bd)) by (auto; unfold King; lia). change (attacksFrom King us k allZeroBB) with (kingAttack k). change (negb false) with true. rewrite andb_true_l. reflexivity. }
    rewrite EA. change (negb (pieceAt p t =? 0) && (colorOf (pieceAt p t) =? us)) with (isCol (board p) us t). rewrite Ebd.
    unfold promoB. cbv zeta. rewrite PK. destruct pr; closedN; intuition (try discriminate). }
  eapply Enum_ext; [rewrite map_flat; apply (Enum_flat p (fun t0 f t pr => f = k /\ t = t0 /\ pr = false))|].
  - now apply NoDup_bbList.
  - intros t It. apply in_bbList in It as [Ht _]; auto. rewrite nonpromote_code by auto. apply Enum_one; lia.
  - intros x y f t pr _ _ _ _ (_ & -> & _) (_ & E & _). exact E.
  - intros f t pr Hf Ht. cbv beta. split.
    + intros (t0 & It & -> & -> & ->). split; auto. apply IK; auto.
    + intros (-> & P & B). destruct (proj2 (IK t pr Ht) (conj P B)) as [I ->]. eauto.
Qed.
Lemma checker_line x t : chkr x -> t < 81 -> In t (betw x k) -> pieceAt p t = 0.
Proof. clear ND Ho Eo C.
  intros (Hx & _ & A) Ht I. unfold att, attOcc in A. rewrite !andb_true_iff, clear_iff in A. destruct A as (_ & _ & A). specialize (A t I). unfold occOf in A. apply negb_false_iff, N.eqb_eq in A. now rewrite (gAt p bd Ebd).
Qed.
Lemma chkr_lt x : chkr x -> x < 81. Proof. now intros (H & _). Qed.
Lemma two_checkers x y t : t < 81 -> chkr x -> chkr y -> x <> y -> t = x \/ In t (betw x k) -> t = y \/ In t (betw y k) -> False.
Proof. clear ND Ho Eo C.
  intros Ht X Y N Q R. pose proof (chkr_lt x X) as Hx. pose proof (chkr_lt y Y) as Hy.
  assert (NZ : forall w, chkr w -> pieceAt p w <> 0) by (intros w (_ & W & _); unfold isCol in W; apply andb_prop in W as [W _]; rewrite (gAt p bd Ebd); now apply negb_true_iff, N.eqb_neq in W).
  assert (L : forall a b, chkr a -> chkr b -> In a (betw b k) -> False) by (intros a b A B I; apply (NZ a A); eapply checker_line; eauto using chkr_lt).
  destruct Q as [->|Q], R as [->|R]; eauto.
  apply betw_iff in Q as [_ Q]; auto. apply betw_iff in R as [_ R]; auto. destruct (two_lines x y k t Hx Hy Hk Ht N Q R) as [B|B].
  - apply (L y x Y X). apply betw_iff; auto.
  - apply (L x y X Y). apply betw_iff; auto.
Qed.
Lemma Enum_evasion : inCheck p = true ->
  Enum p (fun f t pr => plSet p f t pr /\ mateDrop p f t = false /\ if f =? k then forall x, chkr x -> isSet (bannedBy p (opp us) x k) t = false else forall x, chkr x -> (t = x /\ f < 81) \/ In t (betw x k)) (genEvasion true p).
Proof.
  intros IC. pose proof eV as V. pose proof eU as Hu. unfold genEvasion. cbv zeta. rewrite Eus, kingSquare_view by auto. rewrite Ebd, Ek.
  pose proof (some_checkers IC) as NE. pose proof nodup_checkers as NC. pose proof in_checkers as CI. pose proof Enum_kings as EK.
  destruct (N.ltb_spec 1 (N.of_nat (length (bbList (checkers p))))) as [L|L].
  - eapply Enum_ext; [apply EK|]. intros f t pr Hf Ht. cbv beta. split.
    + intros (-> & P & B). rewrite N.eqb_refl. auto using mate_go.
    + intros (P & M & B). destruct (N.eqb_spec f k) as [->|N]; [auto|]. exfalso.
      destruct (bbList (checkers p)) as [|x [|y l]]; cbn [length] in L; try lia. inversion NC as [|? ? N1 N2]; subst.
      apply (two_checkers x y t); auto.
      * apply CI. now left.
      * apply CI. right. now left.
      * intros ->. apply N1. now left.
      * destruct (B x) as [[E _]|E]; auto. apply CI. now left.
      * destruct (B y) as [[E _]|E]; auto. apply CI. right. now left.
  - destruct (bbList (checkers p)) as [|x [|y l]] eqn:EL; [congruence| |cbn [length] in L; lia]. clear L NE NC. cbn [last].
    assert (X : chkr x) by (apply CI; now left). assert (U : forall y, chkr y -> y = x) by (intros y Y; apply CI in Y as [Y|[]]; auto).
    pose proof (chkr_lt x X) as Hx.
    set (t1 := betweenBB x k). set (t2 := bbOr t1 (checkers p)).
    assert (W1 : wfBB t1) by now apply wf_betweenBB. assert (W2 : wfBB t2) by (apply wf_or; auto using wf_checkers).
    assert (T1 : forall t, t < 81 -> (isSet t1 t = true <-> In t (betw x k))) by (intros t Ht; unfold t1; rewrite isSet_betweenBB by auto; apply memN_In).
    assert (T2 : forall t, t < 81 -> (isSet t2 t = true <-> t = x \/ In t (betw x k))).
    { intros t Ht. unfold t2. rewrite isSet_or, orb_true_iff, T1 by auto. assert (E : isSet (checkers p) t = true <-> t = x).
      { split.
        - intros S. assert (I : In t (bbList (checkers p))) by (apply in_bbList; auto using wf_checkers). rewrite EL in I. destruct I as [I|[]]; auto.
        - intros ->. assert (I : In x (bbList (checkers p))) by (rewrite EL; now left). apply in_bbList in I as [_ I]; auto using wf_checkers. }
      tauto. }
    assert (C2 : forall t, t < 81 -> isSet t2 t = true -> isCol bd us t = false).
    { intros t Ht S. apply T2 in S as [->|S]; auto.
      - destruct X as (_ & X & _). unfold isCol in *. apply andb_prop in X as [_ X]. apply N.eqb_eq in X. rewrite X. rewrite (proj2 (N.eqb_neq (opp us) us)); [apply andb_false_r|]. now apply opp_neq.
      - unfold isCol. rewrite <- (gAt p bd Ebd), (checker_line x t X Ht S). reflexivity. }
    assert (C1 : forall t, t < 81 -> isSet t1 t = true -> pieceAt p t = 0) by (intros t Ht S; apply T1 in S; auto; now apply (checker_line x t)).
    eapply Enum_ext; [apply Enum_app; [exact EK|apply Enum_app|]|].
    + now apply (Enum_pieces p us bd t2 V Eus Ebd W2 ND true).
    + apply Enum_if. intros _. apply (Enum_drops p us ko bd t1); auto.
    + intros f t pr _ _ (L & _) (_ & _ & F & _). lia.
    + intros f t pr _ _ (-> & _) [(_ & Ck & K & _)|(_ & _ & F & _)]; [|lia]. rewrite Eus, Ebd in Ck. cbv beta in K. rewrite own_king, N.eqb_refl in K by auto. discriminate.
    + intros f t pr Hf Ht. cbv beta. rewrite dropSet_pl by auto. rewrite goSet_pl by auto. rewrite T1, T2 by auto. split.
      * intros [(-> & P & B)|[(L & K & T & P)|(A & L & T & P & M)]].
        -- rewrite N.eqb_refl. auto using mate_go.
        -- rewrite own_king in K by (auto; apply (pl_own f t pr L P)). apply negb_true_iff in K. rewrite K. do 2 (split; auto using mate_go). intros y Y. rewrite (U y Y). tauto.
        -- rewrite (proj2 (N.eqb_neq f k)) by lia. do 2 (split; auto). intros y Y. rewrite (U y Y). auto.
      * intros (P & M & B). destruct (N.eqb_spec f k) as [->|N]; [auto|]. right. destruct (N.ltb_spec f 81) as [L|L].
        -- left. rewrite own_king by (auto; apply (pl_own f t pr L P)). rewrite (proj2 (N.eqb_neq f k)) by auto. do 2 (split; auto). destruct (B x X) as [[E _]|E]; auto.
        -- right. assert (I : In t (betw x k)) by (destruct (B x X) as [[_ E]|E]; [lia|auto]). split; [|auto]. apply (isAny_ex_true t1 t). now apply T1.
Qed.
Theorem Enum_legalAll : Enum p (listed p) (genLegalAll p).
Proof.
  unfold genLegalAll. destruct (inCheck p) eqn:IC.
  - eapply Enum_ext; [apply Enum_remove, Enum_evasion; auto|]. intros f t pr Hf Ht. cbv beta. unfold listed. rewrite Eus. split.
    + intros ((P & M & B) & K). do 2 (split; auto). destruct (N.ltb_spec f 81) as [L|L].
      * rewrite keep_go in K by auto. destruct (N.eqb_spec f k) as [->|N].
        -- apply king_safe; auto. split; auto. now apply negb_true_iff.
        -- apply go_safe; auto. split; [now apply negb_true_iff|]. intros x X. destruct (B x X) as [[E _]|E]; auto.
      * apply drop_safe; auto. rewrite (proj2 (N.eqb_neq f k)) in B by lia. intros x X. destruct (B x X) as [[_ E]|E]; [lia|auto].
    + intros (P & S & M). destruct (N.ltb_spec f 81) as [L|L].
      * rewrite keep_go by auto. destruct (N.eqb_spec f k) as [->|N].
        -- apply king_safe in S as [S1 S2]; auto. rewrite S1. auto.
        -- apply go_safe in S as [S1 S2]; auto. rewrite S1. split; auto. do 2 (split; auto). intros x X. destruct (S2 x X); auto.
      * rewrite keep_drop by auto. split; auto. do 2 (split; auto). rewrite (proj2 (N.eqb_neq f k)) by lia. rewrite drop_safe in S by auto. auto.
  - pose proof (no_checkers IC) as NC. eapply Enum_ext; [apply Enum_remove, Enum_nonEvasion|]. intros f t pr Hf Ht. cbv beta. unfold listed. rewrite Eus. split.
    + intros ((P & M) & K). do 2 (split; auto). destruct (N.ltb_spec f 81) as [L|L].
      * rewrite keep_go in K by auto. destruct (N.eqb_spec f k) as [->|N].
        -- apply king_safe; auto. split; [now apply negb_true_iff|]. intros x X. destruct (NC x X).
        -- apply go_safe; auto. split; [now apply negb_true_iff|]. intros x X. destruct (NC x X).
      * apply drop_safe; auto. intros x X. destruct (NC x X).
    + intros (P & S & M). destruct (N.ltb_spec f 81) as [L|L].
      * rewrite keep_go by auto. destruct (N.eqb_spec f k) as [->|N].
        -- apply king_safe in S as [S1 S2]; auto. rewrite S1. auto.
        -- apply go_safe in S as [S1 S2]; auto. rewrite S1. auto.
      * rewrite keep_drop by auto. auto.
Qed.
End E.
