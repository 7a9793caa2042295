(* is_legal agrees with the rules on every move that is written as the rules want it. *)
From Verif Require Export GenFinal.
From Verif Require Import Bits.
Local Open Scope N_scope.

Lemma wf_dropFirst b : wfBB b -> wfBB (dropFirst b).
Proof.
  intros W. unfold dropFirst. destruct (negb (p0 b =? 0)).
  - replace (mkBB (clearLowest (p0 b)) (p1 b)) with (bbAnd b (mkBB (sub64 (p0 b) 1) (p1 b))) by (unfold bbAnd, clearLowest; cbn [p0 p1]; now rewrite N.land_diag). now apply wf_and_l.
  - replace (mkBB (p0 b) (clearLowest (p1 b))) with (bbAnd b (mkBB (p0 b) (sub64 (p1 b) 1))) by (unfold bbAnd, clearLowest; cbn [p0 p1]; now rewrite N.land_diag). now apply wf_and_l.
Qed.
Definition fitsN (p : Position) : mset := fun f t pr =>
  if f <? 81 then isCol (board p) (turn p) f = true -> promoB p f t pr = true else pr = false /\ 81 <= f <= 87 /\ deadB (turn p) (f - 80) t = false.
Lemma listed_legal p f t pr : good p -> kingOf (board p) (opp (turn p)) < 81 -> f < 128 -> t < 81 -> (81 <= f -> pr = false /\ f <= 87) ->
  (listed p f t pr <-> legal (abs p) (mvOf f t pr)).
Proof.
  intros G Ho Hf Ht FF. split.
  - intros (P & S & M). split; [now apply legal0_N|]. intros DM. pose proof DM as ((y & Ey) & _). assert (F : f = 81 /\ pr = false).
    { clear - Ey P. unfold mvOf, plSet in *. destruct (f <? 81); [discriminate Ey|]. injection Ey as Ek _. destruct P as (-> & F & _). split; auto.
      apply (f_equal nkind) in Ek. rewrite kind_inv' in Ek by lia. change (nkind FU) with 1 in Ek. lia. }
    destruct F as [-> ->]. apply drop_mate_exact in DM; auto. congruence.
  - intros [L NM]. assert (P : plSet p f t pr).
    { destruct L as [PL _]. unfold mvOf, plSet in *. destruct (N.ltb_spec f 81) as [L|L]; [now apply plGo_iff in PL|]. destruct (FF L) as [-> F]. apply plDrop_iff in PL; auto; lia. }
    assert (S : inCheckB (newBoard p (enc p f t pr)) (turn p) = false) by (apply legal0_N; auto). split; auto. split; auto.
    apply not_true_is_false. intros M. assert (F : f = 81 /\ pr = false). { clear - P M. unfold mateDrop in M. apply andb_prop in M as [M _]. apply N.eqb_eq in M. subst f. split; auto. destruct P as (-> & _). reflexivity. }
    destruct F as [-> ->]. apply NM. change (mvOf 81 t false) with (Drop FU (squareN t)). apply drop_mate_exact; auto.
Qed.
Lemma go_mate p f t : f < 81 -> mateDrop p f t = false.
Proof. intros L. unfold mateDrop. rewrite (proj2 (N.eqb_neq _ _)) by lia. reflexivity. Qed.
Lemma pawn_ahead us t ko : us < 2 -> t < 81 -> ko < 81 -> deadB us 1 t = false ->
  Z.eqb (Z.of_N t + (if us =? Black then (-1)%Z else 1%Z)) (Z.of_N ko) = reach 1 us t ko.
Proof.
  intros Hu Ht Ho D. apply eq_true_iff_eq. rewrite pawn_reach, Z.eqb_eq by auto. unfold deadB in D. change (1 <=? 2) with true in D. cbv iota in D. apply N.eqb_neq in D. unfold rankFor in D. change Black with 0 in *.
  destruct (N.eqb_spec us 0); lia.
Qed.
Lemma wf_pawns p c : views p -> wfBB (bbTC p Pawn c).
Proof. intros V. unfold bbTC. apply wf_and_l. apply wf_bbT; auto. unfold Pawn. lia. Qed.
Section I.
Variables (z : Zob) (p : Position) (us k : N) (bd : list N).
Hypotheses (G : good p) (C : cached z p) (Eus : turn p = us) (Ebd : board p = bd) (Ek : kingOf bd us = k) (Hk : k < 81).
Notation chk := (chkr us k bd).
Lemma first_checker : inCheck p = true -> chk (firstSq (checkers p)).
Proof.
  intros H. pose proof (wf_checkers z p G C) as W. apply (in_checkers z p us k bd G C Eus Ebd Ek Hk). apply in_bbList; auto. now apply firstSq_spec.
Qed.
Lemma second_checker : inCheck p = true -> (isAny (dropFirst (checkers p)) = true <-> exists x, chk x /\ x <> firstSq (checkers p)).
Proof.
  intros H. pose proof (wf_checkers z p G C) as W. split.
  - intros A. apply isAny_true_ex in A as (s & Hs & S); [|now apply wf_dropFirst]. rewrite isSet_dropFirst in S by auto. apply andb_prop in S as [S N]. exists s. split; [|now apply negb_true_iff, N.eqb_neq in N].
    apply (in_checkers z p us k bd G C Eus Ebd Ek Hk). apply in_bbList; auto.
  - intros (x & X & N). apply (in_checkers z p us k bd G C Eus Ebd Ek Hk) in X. apply in_bbList in X as [Hx X]; auto. apply (isAny_ex_true _ x). rewrite isSet_dropFirst, X by auto. rewrite (proj2 (N.eqb_neq _ _)) by auto. reflexivity.
Qed.
(* the answer to check by a piece other than the king *)
Lemma meets t (drop : bool) : t < 81 -> inCheck p = true ->
  ((forall x, chk x -> (if drop then False else t = x) \/ In t (betw x k)) <->
   isAny (dropFirst (checkers p)) = false /\ isSet (if drop then betweenBB (firstSq (checkers p)) k else bbOr (betweenBB (firstSq (checkers p)) k) (checkers p)) t = true).
Proof.
  intros Ht IC. pose proof (first_checker IC) as X. pose proof (chkr_lt _ _ _ _ X) as Hx. pose proof (second_checker IC) as SC. pose proof (wf_checkers z p G C) as W.
  assert (T : isAny (dropFirst (checkers p)) = false -> (isSet (if drop then betweenBB (firstSq (checkers p)) k else bbOr (betweenBB (firstSq (checkers p)) k) (checkers p)) t = true <-> (if drop then False else t = firstSq (checkers p)) \/ In t (betw (firstSq (checkers p)) k))).
  { intros N. destruct drop.
    - rewrite isSet_betweenBB by auto. rewrite memN_In. tauto.
    - rewrite isSet_or, orb_true_iff, isSet_betweenBB by auto. rewrite memN_In. assert (E : isSet (checkers p) t = true <-> t = firstSq (checkers p)); [|tauto]. split.
      + intros S. destruct (N.eq_dec t (firstSq (checkers p))) as [|Q]; auto. exfalso. apply not_true_iff_false in N. apply N. apply SC. exists t. split; auto. apply (in_checkers z p us k bd G C Eus Ebd Ek Hk). apply in_bbList; auto.
      + intros ->. apply firstSq_spec; auto. }
  split.
  - intros H. assert (N : isAny (dropFirst (checkers p)) = false).
    { apply not_true_is_false. intros A. apply SC in A as (y & Y & NY). apply (two_checkers p us k bd Ebd Hk y (firstSq (checkers p)) t); auto.
      - destruct (H y Y) as [E|E]; auto. destruct drop; [destruct E|auto].
      - destruct (H _ X) as [E|E]; auto. destruct drop; [destruct E|auto]. }
    split; auto. apply T; auto.
  - intros [N S] y Y. apply T in S; auto. destruct (N.eq_dec y (firstSq (checkers p))) as [->|Q]; auto. exfalso. apply not_true_iff_false in N. apply N. apply SC. eauto.
Qed.
Lemma king_check t pr : t < 81 -> plSet p k t pr ->
  (inCheckB (newBoard p (enc p k t pr)) us = false <-> attackersToIsAny p (opp us) t (clearBit (occBB p) k) = false) /\
  (attackersToIsAny p (opp us) t (clearBit (occBB p) k) = false -> attackersToIsAny p (opp us) t (occBB p) = false).
Proof.
  intros Ht P. pose proof (g_views p G) as V. pose proof (eU p us G Eus) as Hu. destruct (pl_wf p G k t pr ltac:(lia) Ht P) as (W & PG & Et & Ef & Ed). rewrite (proj2 (N.ltb_lt _ _) Hk) in Ed.
  assert (X : wfGo p (enc p k t pr)) by (destruct W as [W|W]; auto; destruct W as (D & _); rewrite Ed in D; discriminate D).
  pose proof (safe_king p (enc p k t pr) us k bd (newBoard p (enc p k t pr)) V (g_one p G) W Eus Ebd eq_refl Ek Hk X Ef) as SK. rewrite Et in SK.
  assert (AQ : forall x, x < 81 -> attOcc bd (occGo bd k t) x t = attOcc bd (isSet (clearBit (occBB p) k)) x t).
  { intros x Hx. unfold attOcc. f_equal. f_equal. unfold clear. apply eq_true_iff_eq. rewrite !forallb_forall.
    assert (NB : forall y, In y (betw x t) -> y < 81 /\ occGo bd k t y = isSet (clearBit (occBB p) k) y).
    { intros y I. pose proof I as I'. apply betw_iff in I' as [Hy _]; auto. split; auto. rewrite isSet_clearBit, isSet_occ_fun by auto. unfold occGo. rewrite Ebd. destruct (N.eqb_spec t y) as [<-|]; [|reflexivity]. destruct (betw_ends x t Hx Ht); contradiction. }
    split; intros H y I; specialize (H y I); [rewrite <- (proj2 (NB y I))|rewrite (proj2 (NB y I))]; exact H. }
  split.
  - rewrite SK, isAny_attackers by (auto using opp_lt). rewrite Ebd. split.
    + intros H. apply not_true_is_false. intros A. apply existsb_exists in A as (x & Hx & A). apply in_squares in Hx. apply andb_prop in A as [A B]. rewrite <- AQ, (H x Hx A) in B by auto. discriminate.
    + intros H x Hx Cx. apply (existsb_false_at _ _ x) in H; [|now apply in_squares]. cbv beta in H. rewrite Cx, andb_true_l, <- AQ in H by auto. exact H.
  - rewrite !isAny_attackers by (auto using opp_lt). intros H. apply not_true_is_false. intros A. apply existsb_exists in A as (x & Hx & A). pose proof Hx as Ix. apply in_squares in Hx. apply andb_prop in A as [A B].
    apply (existsb_false_at _ _ x) in H; [|exact Ix]. cbv beta in H. rewrite A, andb_true_l in H. apply not_true_iff_false in H. apply H. unfold attOcc in B |- *. apply andb_prop in B as [B1 B2]. apply andb_prop in B2 as [B2 B3]. rewrite B1, B2, !andb_true_l.
    eapply clear_mono; [|exact B3]. intros y Hy S. rewrite isSet_clearBit in S by auto. now apply andb_prop in S as [_ S].
Qed.
Lemma go_plain f t pr : f < 81 -> t < 81 -> fitsN p f t pr ->
  ((negb (pieceAt p f =? mkPiece us (ptOf (pieceAt p f))) || isSet (bbC p us) t) = false /\ isSet (attacksFrom (ptOf (pieceAt p f)) us f (occBB p)) t = true <-> plSet p f t pr).
Proof. clear C Ek Hk.
  intros Hf Ht F. pose proof (g_views p G) as V. pose proof (eU p us G Eus) as Hu. unfold fitsN in F. unfold plSet. rewrite (proj2 (N.ltb_lt _ _) Hf) in *. unfold plGoB. rewrite Eus, Ebd in *.
  rewrite isSet_bbC by auto. rewrite orb_false_iff, negb_false_iff, N.eqb_eq, !andb_true_iff, negb_true_iff. rewrite !(gAt p bd Ebd).
  pose proof (gOk p bd V Ebd f Hf) as Ok. destruct (vpc_cases _ Ok) as [E|(c & pt & Hc & Hp & E)].
  - split.
    + intros (_ & A). exfalso. rewrite E in A. change (attacksFrom (ptOf 0) us f (occBB p)) with allZeroBB in A. rewrite isSet_zero in A. discriminate.
    + intros (((A & _) & _) & _). exfalso. unfold isCol in A. rewrite E in A. discriminate.
  - assert (CI : isCol bd us f = true <-> c = us). { unfold isCol. rewrite E, mk_nz, col_mk, andb_true_l, N.eqb_eq by auto. tauto. }
    assert (EI : at_ bd f = mkPiece us (ptOf (at_ bd f)) <-> c = us).
    { rewrite E, pt_mk by auto. split; [|intros ->; reflexivity]. intros Q. apply (f_equal colorOf) in Q. rewrite !col_mk in Q by auto. exact Q. }
    rewrite EI. change (negb (at_ bd t =? 0) && (colorOf (at_ bd t) =? us)) with (isCol bd us t).
    assert (AI : c = us -> isSet (attacksFrom (ptOf (at_ bd f)) us f (occBB p)) t = att bd f t).
    { intros ->. rewrite E, pt_mk by auto. rewrite attacksFrom_spec by auto. unfold att, attOcc. rewrite E, mk_nz, pt_mk, col_mk, andb_true_l by auto. f_equal. apply clear_ext. intros x Hx. rewrite <- Ebd. now apply isSet_occ_fun. }
    split.
    + intros ((Q & T) & A). rewrite AI in A by auto. repeat split; auto; [now apply CI|apply F, CI, Q].
    + intros (((A & B) & T) & _). apply CI in A. rewrite AI by auto. repeat split; auto.
Qed.
Lemma is_legal_go f t pr : f < 81 -> t < 81 -> fitsN p f t pr ->
  (boardMoveIsLegal p (enc p f t pr) = true <-> listed p f t pr).
Proof.
  intros Hf Ht F. pose proof (g_views p G) as V. pose proof (eU p us G Eus) as Hu. pose proof (go_plain f t pr Hf Ht F) as PL.
  destruct (enc_fields p f t pr ltac:(lia) Ht) as (Et & Ef & _). assert (Ed : mvDrop (enc p f t pr) = false) by (unfold mvDrop; rewrite Ef; lia).
  assert (Ep : mvPtFrom (enc p f t pr) = ptOf (pieceAt p f)).
  { unfold enc. rewrite (proj2 (N.ltb_lt _ _) Hf). assert (L : forall x, ptOf x < 16) by apply ptOf_lt. destruct (code_fields t f pr (ptOf (pieceAt p f)) (ptOf (pieceAt p t))) as (_ & _ & _ & A & _); auto; lia. }
  unfold listed. rewrite go_mate by auto. unfold boardMoveIsLegal, moveIsPseudoLegal. cbv zeta. rewrite Ed, Et, Ef, Ep, Eus. rewrite kingSquare_view by auto. rewrite Ebd, Ek.
  destruct (negb (pieceAt p f =? mkPiece us (ptOf (pieceAt p f))) || isSet (bbC p us) t) eqn:D1.
  { split; [discriminate|]. intros (P & _). apply PL in P as [P _]. discriminate. }
  destruct (isSet (attacksFrom (ptOf (pieceAt p f)) us f (occBB p)) t) eqn:D2.
  2:{ split; [discriminate|]. intros (P & _). apply PL in P as [_ P]. discriminate. }
  assert (P : plSet p f t pr) by (apply PL; auto). clear PL. change (negb true) with false. cbv iota.
  rewrite andb_true_iff. rewrite (keep_go p us k bd G Eus Ebd Ek Hk f t pr Hf Ht P).
  destruct (pl_own p us bd Eus Ebd f t pr Hf P) as [Cf _]. change King with 8. rewrite (own_king p us k bd G Eus Ebd Ek Hk f Hf Cf).
  destruct (N.eqb_spec f k) as [->|Nk].
  - destruct (king_check t pr Ht P) as [KC KM]. rewrite KC. destruct (inCheck p) eqn:IC.
    + rewrite !negb_true_iff. split; [intros [A B]; auto|]. intros (_ & A & _). auto.
    + rewrite negb_true_iff. rewrite <- KC. rewrite (king_safe p us k bd G Eus Ebd Ek Hk t pr Ht P). pose proof (no_checkers z p us k bd G C Eus Ebd Ek Hk IC) as NC.
      split; [intros [_ B]|intros (_ & (B & _) & _); auto]. split; auto. split; auto. split; auto. intros x X. destruct (NC x X).
  - rewrite (go_safe p us k bd G Eus Ebd Ek Hk f t pr Hf Ht P Nk). rewrite negb_true_iff. destruct (inCheck p) eqn:IC.
    + pose proof (meets t false Ht IC) as M. cbv iota in M. rewrite M. destruct (isAny (dropFirst (checkers p))) eqn:A; [split; [intros [B _]; discriminate|intros (_ & (_ & B & _) & _); discriminate]|]. tauto.
    + pose proof (no_checkers z p us k bd G C Eus Ebd Ek Hk IC) as NC. split; [intros [_ B]; repeat split; auto; intros x X; destruct (NC x X)|tauto].
Qed.
Lemma nifu_mask t : t < 81 -> isAny (bbAnd (bbTC p Pawn us) (fileMask (makeFile t))) = nifuB p t.
Proof. clear C Ek Hk.
  intros Ht. pose proof (g_views p G) as V. pose proof (eU p us G Eus) as Hu. apply eq_true_iff_eq. unfold nifuB. rewrite Eus, existsb_exists. split.
  - intros A. apply isAny_true_ex in A as (s & Hs & A); [|apply wf_and_l; now apply wf_pawns]. exists s. split; [now apply in_squares|]. rewrite isSet_and in A. apply andb_prop in A as [A B].
    assert (I : In s (bbList (bbTC p Pawn us))) by (apply in_bbList; auto; now apply wf_pawns). apply (in_bbTC p us bd V Eus Ebd 1) in I as (_ & Cs & P1); [|lia].
    change (isSet (squareFileMask t) s = true) in B. rewrite isSet_file in B by auto. rewrite N.eqb_sym in B. rewrite B, andb_true_l. apply N.eqb_eq. rewrite (gAt p bd Ebd) in *. unfold isCol in Cs. apply andb_prop in Cs as [C0 C1]. apply negb_true_iff, N.eqb_neq in C0. apply N.eqb_eq in C1.
    destruct (vpc_facts _ (gOk p bd V Ebd s Hs) C0) as (_ & _ & Q). rewrite Q, C1, P1. reflexivity.
  - intros (s & Hs & A). apply in_squares in Hs. apply andb_prop in A as [A B]. apply N.eqb_eq in B. apply (isAny_ex_true _ s). rewrite isSet_and. change (fileMask (makeFile t)) with (squareFileMask t). rewrite isSet_file, (N.eqb_sym (t / 9)), A, andb_true_r by auto.
    assert (I : In s (bbList (bbTC p Pawn us))). { apply (in_bbTC p us bd V Eus Ebd 1); [lia|]. unfold isCol. rewrite <- (gAt p bd Ebd), B, mk_nz, col_mk, pt_mk, N.eqb_refl by (auto; lia). auto. }
    apply in_bbList in I; [tauto|]. now apply wf_pawns.
Qed.
Lemma is_legal_drop f t pr : kingOf bd (opp us) < 81 -> 81 <= f < 128 -> t < 81 -> fitsN p f t pr ->
  (boardMoveIsLegal p (enc p f t pr) = true <-> listed p f t pr).
Proof.
  intros Ho Hf Ht F. pose proof (g_views p G) as V. pose proof (eU p us G Eus) as Hu. unfold fitsN in F. assert (L : (f <? 81) = false) by (apply N.ltb_ge; lia). rewrite L, Eus in F. destruct F as (-> & F & D).
  destruct (enc_fields p f t false ltac:(lia) Ht) as (Et & Ef & _). assert (Ed : mvDrop (enc p f t false) = true) by (unfold mvDrop; rewrite Ef; lia).
  assert (Ep : mvPtDropped (enc p f t false) = f - 80) by (unfold mvPtDropped; rewrite Ef; lia).
  assert (PI : plSet p f t false <-> handExists (handOf p us) (ptToHand (f - 80)) = true /\ pieceAt p t = 0 /\ (f = 81 -> nifuB p t = false)).
  { unfold plSet. rewrite L. unfold plDropB. rewrite Eus, D, !andb_true_iff, N.leb_le, N.eqb_eq, N.ltb_lt. change (negb false) with true.
    rewrite handExists_num by (assert (f - 80 = 1 \/ f - 80 = 2 \/ f - 80 = 3 \/ f - 80 = 4 \/ f - 80 = 5 \/ f - 80 = 6 \/ f - 80 = 7) as [->|[->|[->|[->|[->|[->| ->]]]]]] by lia; vm_compute; reflexivity).
    rewrite (negb_true_iff (_ =? 0)), N.eqb_neq. generalize (numOf (handOf p us) (ptToHand (f - 80))). intros n. rewrite negb_true_iff, andb_false_iff, N.eqb_neq. split.
    - intros (_ & _ & (((_ & A) & B) & _) & X). split; [lia|]. split; auto. intros ->. destruct X as [X|X]; auto. exfalso. apply X. reflexivity.
    - intros (A & B & X). repeat split; auto; try lia. destruct (N.eq_dec f 81) as [->|]; [right; auto|left; lia]. }
  unfold boardMoveIsLegal, moveIsPseudoLegal. cbv zeta. rewrite Ed, Et, Ep, Eus. rewrite !kingSquare_view by (auto using opp_lt). rewrite Ebd, Ek.
  assert (PK : pseudoLegalMoveIsLegal false p (enc p f t false) (pinnedBB p) = true) by (unfold pseudoLegalMoveIsLegal; rewrite Ed; reflexivity). rewrite PK, andb_true_r.
  change (pieceAt p t =? Empty) with (pieceAt p t =? 0).
  destruct (negb (handExists (handOf p us) (ptToHand (f - 80))) || negb (pieceAt p t =? 0)) eqn:D1.
  { split; [discriminate|]. intros (P & _). apply PI in P as (A & B & _). rewrite A, B in D1. discriminate. }
  apply orb_false_iff in D1 as [D1 D2]. apply negb_false_iff in D1, D2. apply N.eqb_eq in D2.
  assert (M : plSet p f t false -> (inCheckB (newBoard p (enc p f t false)) us = false <-> (if inCheck p then if isAny (dropFirst (checkers p)) then false else isSet (betweenBB (firstSq (checkers p)) k) t else true) = true)).
  { intros P. rewrite (drop_safe p us k bd G Eus Ebd Ek Hk f t false) by auto. destruct (inCheck p) eqn:IC.
    - pose proof (meets t true Ht IC) as M. cbv iota in M. transitivity (forall x, chk x -> False \/ In t (betw x k)); [split; intros H x X; [right; auto|destruct (H x X) as [[]|]; auto]|]. rewrite M.
      destruct (isAny (dropFirst (checkers p))); [split; [intros [B _]; discriminate|discriminate]|tauto].
    - pose proof (no_checkers z p us k bd G C Eus Ebd Ek Hk IC) as NC. split; auto. intros _ x X. destruct (NC x X). }
  unfold listed. rewrite Eus.
  remember (if inCheck p then if isAny (dropFirst (checkers p)) then false else isSet (betweenBB (firstSq (checkers p)) k) t else true) as ev eqn:Eev. clear Eev.
  change Pawn with 1. assert (F1 : (f - 80 =? 1) = (f =? 81)) by lia. rewrite F1. unfold mateDrop. rewrite Eus, Ebd.
  destruct ev; [|split; [discriminate|intros (P & S & _); apply M in S; auto]]. change (negb true) with false. cbv iota.
  destruct (N.eqb_spec f 81) as [->|N1].
  - change 1 with Pawn at 1. rewrite nifu_mask by auto. rewrite pawn_ahead by auto. rewrite andb_true_l. destruct (nifuB p t) eqn:NF.
    + split; [discriminate|]. intros (P & _). apply PI in P as (_ & _ & P). specialize (P eq_refl). congruence.
    + assert (P : plSet p 81 t false) by (apply PI; auto). rewrite negb_true_iff. split; [intros H; split; [exact P|]; split; [now apply M|exact H]|intros (_ & _ & H); exact H].
  - rewrite andb_false_l. assert (P : plSet p f t false) by (apply PI; split; [exact D1|split; [exact D2|intros X; destruct (N1 X)]]). split; [intros _|reflexivity]. split; [exact P|split; [now apply M|reflexivity]].
Qed.
End I.
(* a move of the rules, in numbers *)
Lemma fits_N p mv : good p -> fits (abs p) mv -> exists f t pr, f < 128 /\ t < 81 /\ fitsN p f t pr /\ (81 <= f -> pr = false /\ f <= 87) /\ mv = mvOf f t pr /\ code p mv = enc p f t pr.
Proof.
  intros G F. pose proof (good_turn p G) as Hu. pose proof (good_ok p G) as Ok. destruct mv as [k t|s t pr]; cbn [fits] in F; cbv zeta in F.
  - destruct F as (Bt & K & D). pose proof (nsquare_lt t Bt) as Lt. assert (K7 : 1 <= nkind k <= 7) by (unfold hand_kinds in K; cbn [In] in K; destruct K as [<-|[<-|[<-|[<-|[<-|[<-|[<-|[]]]]]]]]; cbn [nkind]; lia).
    exists (80 + nkind k), (nsquare t), false. assert (L : (80 + nkind k <? 81) = false) by (apply N.ltb_ge; lia). assert (E : 80 + nkind k - 80 = nkind k) by lia.
    assert (MV : Drop k t = mvOf (80 + nkind k) (nsquare t) false) by (unfold mvOf; rewrite L, E, kind_inv, square_inv' by auto; reflexivity).
    do 2 (split; [lia|]). split.
    + unfold fitsN. rewrite L, E. split; auto. split; [lia|]. apply not_true_is_false. intros X. apply D. change (side (abs p)) with (colorN (turn p)). rewrite <- (kind_inv k), <- (square_inv' t Bt). apply dead_end_N; auto. lia.
    + split; [intros _; split; [auto|lia]|]. split; auto. rewrite code_drop by auto. unfold enc. rewrite L. reflexivity.
  - destruct F as (Bs & Bt & F). pose proof (nsquare_lt t Bt) as Lt. pose proof (nsquare_lt s Bs) as Ls. exists (nsquare s), (nsquare t), pr. assert (L : (nsquare s <? 81) = true) by now apply N.ltb_lt.
    do 2 (split; [lia|]). split.
    + unfold fitsN. rewrite L. intros Cs. unfold isCol in Cs. apply andb_prop in Cs as [C0 C1]. apply negb_true_iff, N.eqb_neq in C0. apply N.eqb_eq in C1. destruct (vpc_facts _ (proj2 Ok _ Ls) C0) as (Hp & _ & Q). rewrite C1 in Q.
      assert (A : at_square (abs p) s = Some (side (abs p), kindN (ptOf (at_ (board p) (nsquare s))))). { rewrite <- (square_inv' s Bs) at 1. apply pieceN_kind; auto. rewrite kind_inv' by auto. exact Q. }
      apply F in A as [A B]. unfold promoB. cbv zeta. change (pieceAt p (nsquare s)) with (at_ (board p) (nsquare s)). destruct pr.
      * destruct (A eq_refl) as [A1 A2]. apply promote_N in A1; auto. rewrite A1, andb_true_l. apply orb_true_iff. change (side (abs p)) with (colorN (turn p)) in A2. rewrite <- (square_inv' s Bs), <- (square_inv' t Bt) in A2. rewrite !in_zone_N in A2 by auto. exact A2.
      * apply negb_true_iff, not_true_is_false. intros X. apply (B eq_refl). change (side (abs p)) with (colorN (turn p)). rewrite <- (square_inv' t Bt). apply dead_end_N; auto.
    + split; [intros; lia|]. split; [unfold mvOf; rewrite L, !square_inv' by auto; reflexivity|]. unfold enc. rewrite L. now rewrite code_go.
Qed.
Theorem is_legal_exact z p mv : good p -> cached z p -> (forall c, exists s, at_square (abs p) s = Some (c, OU)) -> fits (abs p) mv ->
  (boardMoveIsLegal p (code p mv) = true <-> legal (abs p) mv).
Proof.
  intros G C K F. pose proof (good_turn p G) as Hu. assert (Hk : kingOf (board p) (turn p) < 81) by (apply king_there; auto). assert (Ho : kingOf (board p) (opp (turn p)) < 81) by (apply king_there; auto using opp_lt).
  destruct (fits_N p mv G F) as (f & t & pr & Hf & Ht & FN & FF & E & Ec). rewrite E at 2. rewrite Ec. rewrite <- (listed_legal p f t pr G Ho Hf Ht FF).
  destruct (N.lt_ge_cases f 81) as [L|L]; [apply (is_legal_go z p (turn p) (kingOf (board p) (turn p)) (board p)); auto|apply (is_legal_drop z p (turn p) (kingOf (board p) (turn p)) (board p)); auto].
Qed.
Lemma legal_fits p mv : good p -> legal (abs p) mv -> fits (abs p) mv.
Proof.
  intros G [[PL _] _]. destruct mv as [k t|s t pr]; cbn [pseudo_legal fits] in *; cbv zeta in *.
  - destruct PL as (Bt & _ & H & D & _). split; auto. split; auto. pose proof (pr_hand0 _ (good_proper p G) (side (abs p)) k) as H0.
    destruct k; cbn [hand_kinds In] in *; auto 10; exfalso; rewrite H0 in H by (intros X; repeat destruct X as [X|X]; discriminate || destruct X); lia.
  - destruct PL as (Bs & Bt & k & E & _ & _ & F). split; auto. split; auto. intros k' E'. rewrite E in E'. injection E' as <-. exact F.
Qed.
Theorem game_over_exact z p : good p -> cached z p -> playable (abs p) -> (isGameOver p = true <-> forall mv, ~ legal (abs p) mv).
Proof.
  intros G C K. destruct (list_exact z p G C K) as [_ I]. unfold isGameOver. change (genLegalAll p) with (legalMoves p). rewrite N.eqb_eq. split.
  - intros E mv L. assert (X : In (code p mv) (legalMoves p)) by (apply I; eauto). destruct (legalMoves p); [destruct X|cbn [length] in E; lia].
  - intros H. destruct (legalMoves p) as [|m l] eqn:E; auto. exfalso. destruct (proj1 (I m)) as (mv & L & _); [now left|]. now apply (H mv).
Qed.
