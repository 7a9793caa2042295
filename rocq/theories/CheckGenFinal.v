(* The generator of checking moves: every move it lists is legal and gives check. *)
From Verif Require Export CheckGenProofs.
From Verif Require IsLegal.
Local Open Scope N_scope.

Lemma live_drop pt us t ko : us < 2 -> t < 81 -> ko < 81 -> 1 <= pt -> reach pt us t ko = true -> deadB us pt t = false.
Proof.
  intros Hu Ht Ho Hp R. pose proof (live_rule pt us t t ko Hu Ht Ht Ho R) as L. unfold ruleB in L. unfold deadB.
  destruct (N.leb_spec pt 2) as [P2|P2].
  - assert (pt = 1 \/ pt = 2) as [->| ->] by lia; revert L; closedN; unfold zoneB; intros L; apply N.eqb_neq; apply orb_prop in L as [L|L]; lia.
  - destruct (N.eqb_spec pt 3) as [->|N]; auto. revert L. closedN. unfold zoneB. intros L. apply N.leb_gt. apply orb_prop in L as [L|L]; lia.
Qed.
Section F.
Variables (z : Zob) (p : Position) (us th k ko : N) (bd : list N).
Hypotheses (G : good p) (C : cached z p) (Eus : turn p = us) (Eth : opp us = th) (Ebd : board p = bd).
Hypotheses (Ek : kingOf bd us = k) (Hk : k < 81) (Eo : kingOf bd th = ko) (Ho : ko < 81).
(* what the generator promises of any move *)
Definition checkSet (f t : N) (pr : bool) : Prop := plSet p f t pr /\ mateDrop p f t = false /\ exists x, chkr th ko (newBoard p (enc p f t pr)) x.
Lemma drop_check pt t : 1 <= pt <= 7 -> t < 81 -> pieceAt p t = 0 -> handExists (handOf p us) (ptToHand pt) = true -> reach pt us t ko = true -> clear (isSet (occBB p)) t ko = true ->
  (pt = 1 -> nifuB p t = false /\ isPawnDropCheckMate p us t = false) -> checkSet (80 + pt) t false /\ makeDropMove pt t = enc p (80 + pt) t false.
Proof.
  intros Hp Ht E0 H R Cl P1. pose proof (cU p us G Eus) as Hu. assert (D : deadB us pt t = false) by (apply (live_drop pt us t ko); auto; lia).
  assert (P : plSet p (80 + pt) t false).
  { unfold plSet. rewrite (proj2 (N.ltb_ge _ _)) by lia. replace (80 + pt - 80) with pt by lia. split; [auto|]. split; [lia|]. unfold plDropB. rewrite Eus, D, E0.
    rewrite handExists_num in H by (assert (pt = 1 \/ pt = 2 \/ pt = 3 \/ pt = 4 \/ pt = 5 \/ pt = 6 \/ pt = 7) as [->|[->|[->|[->|[->|[->| ->]]]]]] by lia; vm_compute; reflexivity).
    apply negb_true_iff, N.eqb_neq in H. rewrite (proj2 (N.leb_le pt 7)), (proj2 (N.ltb_lt 0 _)) by lia. destruct (N.eqb_spec pt 1) as [E|E]; auto. destruct (P1 E) as [-> _]. reflexivity. }
  split; [|apply drop_code; auto; lia]. split; auto. split.
  - unfold mateDrop. destruct (N.eqb_spec (80 + pt) 81) as [E|E]; auto. destruct P1 as [_ P1]; [lia|]. rewrite Eus, P1. now rewrite andb_false_r.
  - pose proof (at_drop p pt t G Hp Ht P) as At. rewrite Eus, Ebd in At. exists t. revert At. generalize (newBoard p (enc p (80 + pt) t false)) as bq. intros bq At. split; auto. rewrite (cOT p us th G Eus Eth). split.
    + unfold isCol. rewrite At, N.eqb_refl, mk_nz, col_mk, N.eqb_refl by (auto; lia). reflexivity.
    + unfold att, attOcc. rewrite At, N.eqb_refl, mk_nz, pt_mk, col_mk, R by (auto; lia). cbn [negb andb]. rewrite clear_iff in *. intros w I. specialize (Cl w I). assert (Hw : w < 81) by now apply betw_lt in I.
      rewrite (bOcc p bd G Ebd w Hw) in Cl. unfold occOf in *. rewrite At. destruct (N.eqb_spec t w) as [<-|_]; [destruct (proj1 (betw_ends t ko Ht Ho) I)|auto].
Qed.
Definition listedCheck (m : N) : Prop := exists f t pr, f < 128 /\ t < 81 /\ m = enc p f t pr /\ checkSet f t pr.
Lemma drop_some hp pt bb m : 1 <= pt <= 7 -> pt <> 1 -> hp = ptToHand pt -> wfBB bb -> (forall t, t < 81 -> isSet bb t = true -> reach pt us t ko = true /\ clear (isSet (occBB p)) t ko = true) ->
  In m (if handExists (handOf p us) hp then map (makeDropMove pt) (bbList (bbAnd (nOccupiedBB p) bb)) else []) -> exists t, t < 81 /\ m = enc p (80 + pt) t false /\ checkSet (80 + pt) t false.
Proof.
  intros Hp N1 -> W H I. destruct (handExists (handOf p us) (ptToHand pt)) eqn:E; [|destruct I]. apply in_map_iff in I as (t & <- & I). apply in_bbList in I as [Ht I]; [|now apply wf_and_r]. rewrite isSet_and in I. apply andb_prop in I as [I1 I2].
  unfold nOccupiedBB in I1. rewrite isSet_not, (isSet_occ_fun p (g_views p G) t Ht) in I1 by auto. unfold occOf in I1. rewrite negb_involutive in I1. apply N.eqb_eq in I1. destruct (H t Ht I2) as [R Cl].
  destruct (drop_check pt t Hp Ht I1 E R Cl) as [A B]; [intros; lia|]. exists t. auto.
Qed.
Lemma pawn_drops m : handExists (handOf p us) 0 = true -> In m (pawnCheckDrops p) -> exists t, t < 81 /\ m = enc p 81 t false /\ checkSet 81 t false.
Proof.
  intros H I. pose proof (cU p us G Eus) as Hu. pose proof (g_views p G) as V. unfold pawnCheckDrops in I. cbv zeta in I. rewrite Eus, Eth, (cKs p us th ko bd G Eus Eth Ebd Eo) in I.
  set (toBB := fold_left _ _ _) in I. assert (WB : wfBB toBB) by (apply wf_clearFiles, wf_and_r, wf_pawnAttack; auto; rewrite <- Eth; now apply opp_lt).
  assert (TB : forall t, t < 81 -> isSet toBB t = true -> pieceAt p t = 0 /\ reach 1 us t ko = true /\ clear (isSet (occBB p)) t ko = true /\ nifuB p t = false).
  { intros t Ht X. unfold toBB in X. rewrite isSet_clearFiles in X; [|auto|intros s Is; apply (in_bbTC p us bd V Eus Ebd 1) in Is; [tauto|lia]]. apply andb_prop in X as [X N]. rewrite isSet_and in X. apply andb_prop in X as [X1 X2].
    unfold nOccupiedBB in X1. rewrite isSet_not, (isSet_occ_fun p V t Ht) in X1 by auto. unfold occOf in X1. rewrite negb_involutive in X1. apply N.eqb_eq in X1. rewrite <- Eth, (back_pawn us ko (occBB p) t) in X2 by auto. apply andb_prop in X2 as [X2 X3].
    do 3 (split; auto). rewrite forallb_forall in N. unfold nifuB. rewrite Eus. apply not_true_is_false. intros Y. apply existsb_exists in Y as (s & Hs & Y). apply in_squares in Hs. apply andb_prop in Y as [Y1 Y2]. apply N.eqb_eq in Y2.
    assert (J : In s (bbList (bbTC p Pawn us))). { apply (in_bbTC p us bd V Eus Ebd 1); [lia|]. unfold isCol. rewrite <- (gAt p bd Ebd), Y2, mk_nz, col_mk, pt_mk, N.eqb_refl by (auto; lia). auto. }
    specialize (N s J). rewrite Y1 in N. discriminate. }
  clearbody toBB. set (chk := if us =? Black then ko + 1 else ko - 1) in I.
  assert (RK : forall t, t < 81 -> (reach 1 us t ko = true <-> negb (makeRank ko =? (if us =? Black then 8 else 0)) = true /\ t = chk)).
  { intros t Ht. rewrite pawn_reach by auto. unfold chk, makeRank, Black. destruct (us =? 0); rewrite negb_true_iff, N.eqb_neq; tauto. }
  set (sp := negb (makeRank ko =? (if us =? Black then 8 else 0)) && (isSet toBB chk && (pieceAt p chk =? Empty))) in I.
  assert (CL : negb (makeRank ko =? (if us =? Black then 8 else 0)) = true -> chk < 81).
  { unfold chk, makeRank, Black. pose proof (N.mod_lt ko 9). destruct (us =? 0); rewrite negb_true_iff, N.eqb_neq; lia. }
  assert (SP : sp = true -> chk < 81 /\ isSet toBB chk = true).
  { unfold sp. rewrite !andb_true_iff. intros (A & B & _). split; [now apply CL|auto]. }
  assert (NS : sp = false -> forall t, t < 81 -> isSet toBB t = true -> False).
  { intros S t Ht X. pose proof (TB t Ht X) as (E0 & R & _). apply RK in R as [R ->]; auto. unfold sp in S. rewrite R, X, E0, !andb_true_l in S. discriminate S. }
  clearbody sp. apply in_app_iff in I as [I|I].
  - destruct (sp && negb (isPawnDropCheckMate p us chk)) eqn:E; [|destruct I]. apply andb_prop in E as [E1 E2]. apply negb_true_iff in E2. destruct I as [<-|[]]. destruct (SP E1) as [Hc X]. pose proof (TB chk Hc X) as (E0 & R & Cl & N).
    destruct (drop_check 1 chk ltac:(lia) Hc E0 H R Cl (fun _ => conj N E2)) as [A B]. exists chk. auto.
  - exfalso. apply in_map_iff in I as (t & _ & I). destruct sp.
    + destruct (SP eq_refl) as [Hc X]. apply in_bbList in I as [Ht I]; [|now apply wf_xorBit]. rewrite isSet_xorBit in I by auto. destruct (N.eqb_spec chk t) as [<-|N]; [rewrite X in I; discriminate|]. rewrite xorb_false_r in I.
      pose proof (TB t Ht I) as (_ & R & _). apply RK in R as [_ R]; auto.
    + apply in_bbList in I as [Ht I]; auto. exact (NS eq_refl t Ht I).
Qed.
Lemma split_andb (B : BB) pt (X : bool) t : isSet B t = reach pt us t ko && X -> isSet B t = true -> reach pt us t ko = true /\ X = true.
Proof. intros -> H. now apply andb_prop in H. Qed.
Lemma drops_sound m : In m (checkDrops p) -> exists f t, 81 <= f < 128 /\ t < 81 /\ m = enc p f t false /\ checkSet f t false.
Proof.
  intros I. pose proof (cU p us G Eus) as Hu. assert (Hth : th < 2) by (rewrite <- Eth; now apply opp_lt). unfold checkDrops in I. cbv zeta in I. rewrite Eus, Eth, (cKs p us th ko bd G Eus Eth Ebd Eo) in I.
  assert (W : forall pt bb, (exists c, c < 2 /\ bb = attacksFrom pt c ko (occBB p)) -> 1 <= pt < 15 -> wfBB bb) by (intros pt bb (c & Hc & ->) Hp; apply wf_attacksFrom; auto).
  apply in_app_iff in I as [I|I].
  { destruct (handExists (handOf p us) 0) eqn:E; [|destruct I]. destruct (pawn_drops m E I) as (t & A & B & D). exists 81, t. split; [lia|auto]. }
  assert (Fin : forall pt, 1 <= pt <= 7 -> (exists t, t < 81 /\ m = enc p (80 + pt) t false /\ checkSet (80 + pt) t false) -> exists f t, 81 <= f < 128 /\ t < 81 /\ m = enc p f t false /\ checkSet f t false).
  { intros pt Hp (t & A & B & D). exists (80 + pt), t. split; [lia|auto]. }
  rewrite !in_app_iff in I. destruct I as [I|[I|[I|[I|[I|I]]]]].
  - apply (Fin 2); [lia|]. apply (drop_some 1 2 (lanceAttack th ko (occBB p))); auto; try lia.
    + apply (W 2); [exists th; exact (conj Hth (eq_sym (af2 th ko (occBB p))))|lia].
    + intros t Ht S. rewrite <- Eth in S. exact (split_andb _ 2 _ t (back_lance us ko (occBB p) t Hu Ht Ho) S).
  - apply (Fin 3); [lia|]. apply (drop_some 2 3 (knightAttack th ko)); auto; try lia.
    + apply (W 3); [exists th; exact (conj Hth (eq_sym (af3 th ko (occBB p))))|lia].
    + intros t Ht S. rewrite <- Eth in S. exact (split_andb _ 3 _ t (back_knight us ko (occBB p) t Hu Ht Ho) S).
  - apply (Fin 4); [lia|]. apply (drop_some 3 4 (silverAttack th ko)); auto; try lia.
    + apply (W 4); [exists th; exact (conj Hth (eq_sym (af4 th ko (occBB p))))|lia].
    + intros t Ht S. rewrite <- Eth in S. exact (split_andb _ 4 _ t (back_silver us ko (occBB p) t Hu Ht Ho) S).
  - apply (Fin 7); [lia|]. apply (drop_some 4 7 (goldAttack th ko)); auto; try lia.
    + apply (W 7); [exists th; exact (conj Hth (eq_sym (af7 th ko (occBB p))))|lia].
    + intros t Ht S. rewrite <- Eth in S. exact (split_andb _ 7 _ t (back_gold us ko (occBB p) t Hu Ht Ho) S).
  - apply (Fin 5); [lia|]. apply (drop_some 5 5 (bishopAttack ko (occBB p))); auto; try lia.
    + apply (W 5); [exists th; exact (conj Hth (eq_sym (af5 th ko (occBB p))))|lia].
    + intros t Ht S. exact (split_andb _ 5 _ t (back_bishop us ko (occBB p) t Hu Ht Ho) S).
  - apply (Fin 6); [lia|]. apply (drop_some 6 6 (rookAttack ko (occBB p))); auto; try lia.
    + apply (W 6); [exists th; exact (conj Hth (eq_sym (af6 th ko (occBB p))))|lia].
    + intros t Ht S. exact (split_andb _ 6 _ t (back_rook us ko (occBB p) t Hu Ht Ho) S).
Qed.
Lemma gen_listed m : In m (genCheckAll p) -> exists f t pr, f < 128 /\ t < 81 /\ m = enc p f t pr /\ checkSet f t pr /\ (f < 81 -> pseudoLegalMoveIsLegal false p m (pinnedBB p) = true).
Proof.
  intros I. pose proof (cU p us G Eus) as Hu. pose proof (g_views p G) as V. unfold genCheckAll in I. cbv zeta in I. apply in_app_iff in I as [I|I].
  2:{ destruct (drops_sound m I) as (f & t & Hf & Ht & E & S). exists f, t, false. split; [lia|]. do 3 (split; auto). intros; lia. }
  unfold removeIllegal in I. cbv zeta in I. apply (Permutation_in _ (removeLoop_perm _ _ _ (le_n _))) in I. apply filter_In in I as [I K].
  assert (B : exists f, f < 81 /\ boardCheck p th ko f m).
  { apply in_app_iff in I as [I|I]; apply in_flat_map in I as (f & If & I); exists f.
    - apply in_bbList in If as [Hf S]; [|now apply wf_hiddenCheckers]. split; auto. apply (discovered_sound p us th ko bd G Eus Eth Ebd Eo Ho); auto.
      pose proof (isSet_hiddenCheckers false true p f V Hf) as H. cbv zeta in H. unfold discoveredCheckBB in S. rewrite H, Eus, Ebd in S. rewrite !andb_true_iff in S. tauto.
    - apply in_bbList in If as [Hf S]; [|apply wf_xor; [apply wf_or|]; try (now apply wf_hiddenCheckers); unfold directBB; cbv zeta; apply wf_and_r, wf_bbC; auto; rewrite Eus; auto]. split; auto.
      rewrite isSet_xor, isSet_or in S. assert (D : isSet (directBB p) f = true) by (destruct (isSet (directBB p) f), (isSet (discoveredCheckBB true p) f); auto). clear S.
      apply (direct_sound p us th ko bd G Eus Eth Ebd Eo Ho); auto. unfold directBB in D. cbv zeta in D. rewrite isSet_and, Eus in D. apply andb_prop in D as [_ D]. now rewrite (isCol_bb p bd G Ebd us f Hu Hf) in D. }
  destruct B as (f & Hf & t & pr & Ht & P & -> & X). exists f, t, pr. split; [lia|]. do 2 (split; auto). split; [|auto]. split; auto. split; [unfold mateDrop; rewrite (proj2 (N.eqb_neq f 81)) by lia; reflexivity|auto].
Qed.
Lemma safe_quiet f t pr : f < 128 -> t < 81 -> plSet p f t pr -> (f < 81 -> pseudoLegalMoveIsLegal false p (enc p f t pr) (pinnedBB p) = true) -> inCheck p = false -> inCheckB (newBoard p (enc p f t pr)) us = false.
Proof.
  intros Hf Ht P K IC. pose proof (no_checkers z p us k bd G C Eus Ebd Ek Hk IC) as NC. destruct (N.ltb_spec f 81) as [L|L].
  - specialize (K L). rewrite (keep_go p us k bd G Eus Ebd Ek Hk f t pr L Ht P) in K. destruct (N.eqb_spec f k) as [->|N].
    + apply (king_safe p us k bd G Eus Ebd Ek Hk t pr Ht P). split; [now apply negb_true_iff|]. intros x X. destruct (NC x X).
    + apply (go_safe p us k bd G Eus Ebd Ek Hk f t pr L Ht P N). split; [now apply negb_true_iff|]. intros x X. destruct (NC x X).
  - apply (drop_safe p us k bd G Eus Ebd Ek Hk f t pr); auto. intros x X. destruct (NC x X).
Qed.
Lemma safe_evasion f t pr : f < 128 -> t < 81 -> plSet p f t pr -> (f < 81 -> pseudoLegalMoveIsLegal false p (enc p f t pr) (pinnedBB p) = true) -> checkMoveIsEvasion p (enc p f t pr) = true -> inCheckB (newBoard p (enc p f t pr)) us = false.
Proof.
  intros Hf Ht P K E. pose proof (cU p us G Eus) as Hu. pose proof (pl_wf p G f t pr Hf Ht P) as (_ & _ & Et & Ef & Ed). unfold checkMoveIsEvasion in E. cbv zeta in E. rewrite Eus, kingSquare_view in E by (auto; apply G). rewrite Ebd, Ek, Et, Ef in E.
  assert (Ep : mvPtFrom (enc p f t pr) = if f <? 81 then ptOf (pieceAt p f) else 0).
  { unfold enc. assert (L : forall x, ptOf x < 16) by apply ptOf_lt. destruct (N.ltb_spec f 81) as [L1|L1]; [destruct (code_fields t f pr (ptOf (pieceAt p f)) (ptOf (pieceAt p t))) as (_ & _ & _ & A & _)|destruct (code_fields t f pr 0 0) as (_ & _ & _ & A & _)]; auto; lia. }
  rewrite Ep in E. clear Ep.
  assert (One : match bbList (checkers p) with [c] => isSet (bbOr (betweenBB c k) (checkers p)) t | _ => false end = true -> forall x, chkr us k bd x -> t = x \/ In t (betw x k)).
  { intros M x X. pose proof (in_checkers z p us k bd G C Eus Ebd Ek Hk) as CI. destruct (bbList (checkers p)) as [|c [|? ?]] eqn:L; try discriminate M. assert (c = x) as -> by (apply CI in X as [->|[]]; reflexivity).
    rewrite isSet_or in M. apply orb_prop in M as [M|M].
    - right. rewrite isSet_betweenBB in M by (auto; apply X). now apply memN_In.
    - left. assert (In t (bbList (checkers p))) as I by (apply in_bbList; auto; apply (wf_checkers z p G C)). rewrite L in I. destruct I as [->|[]]. reflexivity. }
  destruct (N.ltb_spec f 81) as [L|L].
  - specialize (K L). rewrite (keep_go p us k bd G Eus Ebd Ek Hk f t pr L Ht P) in K. destruct (pl_own p us bd Eus Ebd f t pr L P) as [Cf _]. rewrite (own_king p us k bd G Eus Ebd Ek Hk f L Cf : (ptOf (pieceAt p f) =? King) = _) in E. destruct (N.eqb_spec f k) as [->|N].
    + apply negb_true_iff in E. now apply (proj1 (IsLegal.king_check p us k bd G Eus Ebd Ek Hk t pr Ht P)).
    + apply (go_safe p us k bd G Eus Ebd Ek Hk f t pr L Ht P N). split; [now apply negb_true_iff|]. now apply One.
  - change (0 =? King) with false in E. cbv iota in E. apply (drop_safe p us k bd G Eus Ebd Ek Hk f t pr); auto. intros x X. destruct (One E x X) as [->|I]; auto. exfalso.
    pose proof (pl_empty p f x pr L P) as E0. destruct X as (_ & X & _). unfold isCol in X. rewrite <- (gAt p bd Ebd), E0 in X. discriminate X.
Qed.
End F.
