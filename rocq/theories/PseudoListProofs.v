(* The list of pseudo-legal moves against the rules. *)
From Verif Require Export PseudoList GenExamples.
From Coq Require Import Permutation.
Local Open Scope N_scope.
Local Notation enc := EnumN.enc.

Section P.
Variables (z : Zob) (p : Position).
Hypotheses (G : good p) (C : cached z p) (K : playable (abs p)).
Lemma own_there : kingOf (board p) (turn p) < 81. Proof. apply king_there; auto using good_turn. apply K. Qed.
Lemma opp_there : kingOf (board p) (opp (turn p)) < 81. Proof. apply king_there; auto using opp_lt, good_turn. apply K. Qed.
Lemma pseudo_enum : exists Q : mset, Enum p Q (pseudoLegalMoves p) /\ (forall f t pr, Q f t pr -> plSet p f t pr /\ mateDrop p f t = false) /\
  (inCheck p = false -> forall f t pr, plSet p f t pr -> mateDrop p f t = false -> Q f t pr).
Proof.
  pose proof own_there as Hk. pose proof opp_there as Ho. unfold pseudoLegalMoves, genPseudoLegal. destruct (inCheck p) eqn:IC.
  - eexists. split; [apply (Enum_evasion z p (turn p) _ _ (board p) G C eq_refl eq_refl eq_refl Hk eq_refl Ho (no_dead p G (proj2 K)) IC)|]. split; [|discriminate]. intros f t pr (A & B & _). auto.
  - eexists. split; [apply (Enum_nonEvasion p (turn p) _ _ (board p) G eq_refl eq_refl eq_refl Hk eq_refl Ho (no_dead p G (proj2 K)))|]. split; auto.
Qed.
(* a pawn drop that the generator leaves out for being mate *)
Lemma go_no_mate f t : f < 81 -> mateDrop p f t = false.
Proof. intros H. unfold mateDrop. rewrite (proj2 (N.eqb_neq f 81)) by lia. reflexivity. Qed.
Lemma legal_list_filter : Permutation (legalMoves p) (filter (boardPseudoLegalMoveIsLegal p) (pseudoLegalMoves p)).
Proof.
  unfold legalMoves, genLegalAll, removeIllegal. cbv zeta. unfold pseudoLegalMoves, genPseudoLegal.
  change (boardPseudoLegalMoveIsLegal p) with (fun m => pseudoLegalMoveIsLegal false p m (pinnedBB p)). apply removeLoop_perm. apply Nat.le_refl.
Qed.
Lemma drop_pseudo f t pr : inCheck p = false -> 81 <= f < 128 -> t < 81 -> plSet p f t pr -> inCheckB (newBoard p (enc p f t pr)) (turn p) = false.
Proof.
  intros IC Hf Ht P. pose proof own_there as Hk. apply (drop_safe p (turn p) _ (board p) G eq_refl eq_refl eq_refl Hk f t pr); auto.
  intros x X. destruct (no_checkers z p (turn p) _ (board p) G C eq_refl eq_refl eq_refl Hk IC x X).
Qed.
Lemma mate_N f t pr : inCheck p = false -> f < 128 -> t < 81 -> plSet p f t pr -> (mateDrop p f t = false <-> ~ pawn_drop_mate (abs p) (mvOf f t pr)).
Proof.
  intros IC Hf Ht P. destruct (N.eq_dec f 81) as [->|N].
  - assert (pr = false) as -> by (destruct P; auto). pose proof (drop_pseudo 81 t false IC ltac:(lia) Ht P) as S. pose proof (drop_mate_exact p t G Ht P S opp_there) as E.
    change (mvOf 81 t false) with (Drop FU (squareN t)). rewrite <- E. split; [congruence|apply not_true_is_false].
  - split; intros _.
    + intros ((y & Ey) & _). unfold mvOf, plSet in *. destruct (f <? 81) eqn:L; [discriminate Ey|]. injection Ey as Ek _. destruct P as (_ & F & _). apply (f_equal nkind) in Ek. rewrite kind_inv' in Ek by lia. change (nkind FU) with 1 in Ek. lia.
    + unfold mateDrop. rewrite (proj2 (N.eqb_neq f 81)) by lia. reflexivity.
Qed.
Theorem pseudo_list_sound m : In m (pseudoLegalMoves p) -> exists mv, pseudo_legal (abs p) mv /\ m = code p mv.
Proof.
  intros I. destruct pseudo_enum as (Q & EN & A & _). pose proof (proj2 EN) as E. destruct (proj1 (E m) I) as (f & t & pr & Hf & Ht & HQ & Em). rewrite Em. destruct (A _ _ _ HQ) as [P _]. destruct (mvOf_pl p f t pr G Ht P) as [L Ec]. exists (mvOf f t pr). auto.
Qed.
Theorem pseudo_list_unique : NoDup (pseudoLegalMoves p).
Proof. destruct pseudo_enum as (Q & EN & _). exact (proj1 EN). Qed.
Theorem pseudo_list_exact : inCheck p = false -> forall m, In m (pseudoLegalMoves p) <-> exists mv, pseudo_legal (abs p) mv /\ ~ pawn_drop_mate (abs p) mv /\ m = code p mv.
Proof.
  intros IC m. destruct pseudo_enum as (Q & EN & A & B). pose proof (proj2 EN) as E. rewrite E. split.
  - intros (f & t & pr & Hf & Ht & HQ & Em). rewrite Em. destruct (A _ _ _ HQ) as [P M]. destruct (mvOf_pl p f t pr G Ht P) as [L Ec]. exists (mvOf f t pr). split; auto. split; auto. now apply mate_N.
  - intros (mv & L & M & Em). rewrite Em. destruct (pl_mvOf p mv G L) as (f & t & pr & Hf & Ht & P & E2). rewrite E2 in M |- *. destruct (mvOf_pl p f t pr G Ht P) as [_ Ec]. exists f, t, pr. do 2 (split; auto). split; auto. apply B; auto. now apply (mate_N f t pr).
Qed.
Lemma pl_fits mv : pseudo_legal (abs p) mv -> fits (abs p) mv.
Proof.
  intros PL. destruct mv as [k t|s t pr]; cbn [pseudo_legal fits] in *; cbv zeta in *.
  - destruct PL as (Bt & _ & H & D & _). split; auto. split; auto. pose proof (pr_hand0 _ (good_proper p G) (side (abs p)) k) as H0.
    destruct k; cbn [hand_kinds In] in *; auto 10; exfalso; rewrite H0 in H by (intros X; repeat destruct X as [X|X]; discriminate || destruct X); lia.
  - destruct PL as (Bs & Bt & k & E & _ & _ & F). split; auto. split; auto. intros k' E'. rewrite E in E'. injection E' as <-. exact F.
Qed.
(* an entry is legal exactly if pseudo_legal_move_is_legal says so *)
Theorem pseudo_entry mv : pseudo_legal (abs p) mv -> In (code p mv) (pseudoLegalMoves p) -> (boardPseudoLegalMoveIsLegal p (code p mv) = true <-> legal (abs p) mv).
Proof.
  intros PL I. destruct (list_exact z p G C K) as [_ LE]. split.
  - intros B. assert (X : In (code p mv) (legalMoves p)).
    { eapply Permutation_in; [symmetry; apply legal_list_filter|]. apply filter_In. auto. }
    apply LE in X as (mv' & L & Ec). assert (mv = mv') as ->; [|exact L].
    destruct (pl_mvOf p mv G PL) as (f & t & pr & Hf & Ht & P & ->). destruct L as [[PL' _] _]. destruct (pl_mvOf p mv' G PL') as (f' & t' & pr' & Hf' & Ht' & P' & ->).
    destruct (mvOf_pl p f t pr G Ht P) as [_ E1]. destruct (mvOf_pl p f' t' pr' G Ht' P') as [_ E2]. rewrite E1, E2 in Ec. apply enc_inj in Ec as (-> & -> & ->); auto.
  - intros L. assert (X : In (code p mv) (legalMoves p)) by (apply LE; eauto). assert (Y : In (code p mv) (filter (boardPseudoLegalMoveIsLegal p) (pseudoLegalMoves p))) by (eapply Permutation_in; [apply legal_list_filter|exact X]).
    now apply filter_In in Y as [_ Y].
Qed.
(* outside check, is_pseudo_legal and the list agree *)
Theorem is_pseudo_exact mv : inCheck p = false -> fits (abs p) mv -> (boardMoveIsPseudoLegal p (code p mv) = true <-> In (code p mv) (pseudoLegalMoves p)).
Proof.
  intros IC F. destruct pseudo_enum as (Q & EN & A & B). pose proof (proj2 EN) as E. destruct (fits_N p mv G F) as (f & t & pr & Hf & Ht & FN & FF & -> & Ec). rewrite Ec.
  assert (X : In (enc p f t pr) (pseudoLegalMoves p) <-> plSet p f t pr /\ mateDrop p f t = false).
  { rewrite E. split.
    - intros (f' & t' & pr' & Hf' & Ht' & HQ & Ee). apply enc_inj in Ee as (-> & -> & ->); auto.
    - intros [P M]. exists f, t, pr. auto 6. }
  rewrite X. clear X E A B EN Q. unfold boardMoveIsPseudoLegal. destruct (N.lt_ge_cases f 81) as [L|L].
  - rewrite (go_no_mate f t L). pose proof (go_plain p (turn p) (board p) G eq_refl eq_refl f t pr L Ht FN) as PL.
    destruct (enc_fields p f t pr ltac:(lia) Ht) as (Et & Ef & _). assert (Ed : mvDrop (enc p f t pr) = false) by (unfold mvDrop; rewrite Ef; lia).
    assert (Ep : mvPtFrom (enc p f t pr) = ptOf (pieceAt p f)).
    { unfold EnumN.enc. rewrite (proj2 (N.ltb_lt _ _) L). assert (Lp : forall x, ptOf x < 16) by apply ptOf_lt. destruct (code_fields t f pr (ptOf (pieceAt p f)) (ptOf (pieceAt p t))) as (_ & _ & _ & A & _); auto; lia. }
    unfold moveIsPseudoLegal. cbv zeta. rewrite Ed, Et, Ef, Ep, IC. clear Et Ef Ed Ep Ec FN FF F. revert PL. generalize (plSet p f t pr). intros S PL.
    destruct (negb (pieceAt p f =? mkPiece (turn p) (ptOf (pieceAt p f))) || isSet (bbC p (turn p)) t); [split; [discriminate|intros [P _]; apply PL in P as [P _]; discriminate]|].
    destruct (isSet (attacksFrom (ptOf (pieceAt p f)) (turn p) f (occBB p)) t); cbn [negb]; [|split; [discriminate|intros [P _]; apply PL in P as [_ P]; discriminate]].
    split; [intros _; split; [apply PL; auto|reflexivity]|reflexivity].
  - pose proof (is_legal_drop z p (turn p) (kingOf (board p) (turn p)) (board p) G C eq_refl eq_refl eq_refl own_there f t pr opp_there ltac:(lia) Ht FN) as D.
    assert (PK : pseudoLegalMoveIsLegal false p (enc p f t pr) (pinnedBB p) = true).
    { unfold pseudoLegalMoveIsLegal. destruct (enc_fields p f t pr ltac:(lia) Ht) as (_ & Ef & _). assert (Ed : mvDrop (enc p f t pr) = true) by (unfold mvDrop; rewrite Ef; lia). rewrite Ed. reflexivity. }
    unfold boardMoveIsLegal in D. rewrite PK, andb_true_r in D. rewrite D. unfold listed. split; [intros (P & _ & M); auto|]. intros [P M]. split; auto. split; auto. apply drop_pseudo; auto.
Qed.
End P.
Theorem pseudo_facts z b : okZob z -> reachable z b -> playable (abs (bpos b)) -> let p := bpos b in
  NoDup (pseudoLegalMoves p) /\ (forall m, In m (pseudoLegalMoves p) -> exists mv, pseudo_legal (abs p) mv /\ m = code p mv) /\
  (forall mv, pseudo_legal (abs p) mv -> In (code p mv) (pseudoLegalMoves p) -> (boardPseudoLegalMoveIsLegal p (code p mv) = true <-> legal (abs p) mv)) /\
  (forall mv, legal (abs p) mv -> In (code p mv) (pseudoLegalMoves p)).
Proof.
  intros Z R K p. destruct (reachable_ok z b Z R) as [G C]. split; [exact (pseudo_list_unique z p G C K)|]. split; [exact (pseudo_list_sound z p G C K)|]. split; [exact (pseudo_entry z p G C K)|].
  intros mv L. assert (X : In (code p mv) (legalMoves p)) by (apply (list_exact z p G C K); eauto). eapply Permutation_in in X; [|apply legal_list_filter]. now apply filter_In in X as [X _].
Qed.
Theorem pseudo_outside_check z b : okZob z -> reachable z b -> playable (abs (bpos b)) -> let p := bpos b in ~ in_check (abs p) (side (abs p)) ->
  (forall m, In m (pseudoLegalMoves p) <-> exists mv, pseudo_legal (abs p) mv /\ ~ pawn_drop_mate (abs p) mv /\ m = code p mv) /\
  (forall mv, fits (abs p) mv -> (boardMoveIsPseudoLegal p (code p mv) = true <-> In (code p mv) (pseudoLegalMoves p))).
Proof.
  intros Z R K p NC. destruct (reachable_ok z b Z R) as [G C]. assert (IC : inCheck p = false) by (apply not_true_is_false; intros X; now apply (check_status z b Z R) in X).
  split; [exact (pseudo_list_exact z p G C K IC)|]. intros mv. exact (is_pseudo_exact z p G C K mv IC).
Qed.
Lemma mated_pseudo : pseudoLegalMoves (bpos matedBoard) = [7864321] /\ boardMoveIsPseudoLegal (bpos matedBoard) 7864321 = false. Proof. vm_compute. split; reflexivity. Qed.
Lemma mate_quiet : ~ in_check (abs (bpos mateBoard)) (side (abs (bpos mateBoard))).
Proof. rewrite <- (proj1 (check_status z0 mateBoard okZob0 (proj1 mate_playable))). vm_compute. discriminate. Qed.
Lemma mated_entry : In 7864321 (pseudoLegalMoves (bpos matedBoard)). Proof. rewrite (proj1 mated_pseudo). now left. Qed.
