(* Which moves leave the mover's own king attacked, as a condition on the board before the move. *)
From Verif Require Export PseudoN.
Local Open Scope N_scope.

(* the squares occupied after a piece has gone from s to t *)
Definition occGo (bd : list N) (s t y : N) : bool := (t =? y) || (negb (s =? y) && occOf bd y).
Definition occDrop (bd : list N) (t y : N) : bool := (t =? y) || occOf bd y.

Lemma existsb_ext_in {A} (f g : A -> bool) l : (forall x, In x l -> f x = g x) -> existsb f l = existsb g l.
Proof. induction l as [|a l IH]; intros H; cbn [existsb]; [reflexivity|]. rewrite H by now left. f_equal. apply IH. intros x Hx. apply H. now right. Qed.
Lemma kingOf_at bd c k : kingOf bd c = k -> k < 81 -> at_ bd k = mkPiece c King.
Proof. intros <- H. destruct (kingOf_cases bd c) as [[_ K]|[E _]]; [|lia]. unfold isKing in K. now apply N.eqb_eq. Qed.
Lemma opp_neqb us : us < 2 -> (us =? opp us) = false.
Proof. intros Hu. apply N.eqb_neq. intros Q. symmetry in Q. now apply (opp_neq us Hu). Qed.

(* a square of bd attacked with the new occupancy, for a piece on x that is not captured *)
Lemma attOcc_go bd k x s t : k < 81 -> x < 81 -> s < 81 -> t < 81 -> occOf bd s = true -> vpc (at_ bd x) = true ->
  attOcc bd (occGo bd s t) x k =
  negb (memN t (betw x k)) && (att bd x k || negb (at_ bd x =? 0) && (sreach (ptOf (at_ bd x)) (colorOf (at_ bd x)) x k && sole (occOf bd) x k s)).
Proof.
  intros Hk Hx Hs Ht Os Vx. apply eq_true_iff_eq. unfold att, attOcc. rewrite !andb_true_iff, orb_true_iff, !andb_true_iff, !negb_true_iff, !clear_iff. split.
  - intros (H0 & R & C). apply N.eqb_neq in H0. destruct (vpc_facts _ Vx H0) as (Hp & Hc & _). split.
    + destruct (memN t (betw x k)) eqn:M; [|reflexivity]. apply memN_In in M. specialize (C _ M). unfold occGo in C. rewrite N.eqb_refl in C. discriminate.
    + destruct (memN s (betw x k)) eqn:M; [right|left]; (split; [now apply N.eqb_neq|split]).
      * apply memN_In in M. now apply (reach_far _ _ _ _ s).
      * unfold sole. rewrite M, Os, !andb_true_l. apply forallb_forall. intros y Hy. specialize (C y Hy). unfold occGo in C. apply orb_false_iff in C as [_ C].
        rewrite (N.eqb_sym y). destruct (s =? y); [reflexivity|]. cbn [negb andb] in C. rewrite C. reflexivity.
      * exact R.
      * intros y Hy. specialize (C y Hy). unfold occGo in C. apply orb_false_iff in C as [_ C]. destruct (N.eqb_spec s y) as [E|E]; [|exact C].
        subst y. apply memN_In in Hy. congruence.
  - intros [M [(H0 & R & C)|(H0 & R & C)]].
    + split; [exact H0|split; [exact R|]]. intros y Hy. unfold occGo. rewrite (C y Hy), andb_false_r, orb_false_r. apply N.eqb_neq. intros <-. apply memN_In in Hy. congruence.
    + split; [exact H0|split; [now apply sreach_reach|]]. intros y Hy. unfold occGo. apply orb_false_iff. split.
      * apply N.eqb_neq. intros <-. apply memN_In in Hy. congruence.
      * destruct (N.eqb_spec s y) as [E|E]; [reflexivity|]. cbn [negb andb]. destruct (occOf bd y) eqn:Oy; [|reflexivity]. exfalso. apply E. symmetry.
        apply (sole_other _ _ _ _ _ C); auto. now apply memN_In.
Qed.
Section S.
Variables (p : Position) (m us k : N) (bd bd' : list N).
Hypotheses (V : views p) (O : oneKing (board p)) (W : wfMove p m) (G0 : pseudoGo p m).
Hypotheses (Eus : turn p = us) (Ebd : board p = bd) (Ebd' : newBoard p m = bd') (Ek : kingOf bd us = k) (Hk : k < 81).

Lemma sHu : us < 2. Proof. exact (cUs p us V Eus). Qed.
Lemma king_on : at_ bd k = mkPiece us King.
Proof. now apply kingOf_at. Qed.
Lemma king_col : isCol bd us k = true.
Proof. unfold isCol. rewrite king_on, mk_nz, col_mk, N.eqb_refl by (auto using sHu; unfold King; lia). reflexivity. Qed.
Lemma col_excl x : isCol bd us x = true -> isCol bd (opp us) x = true -> False.
Proof.
  unfold isCol. intros A B. apply andb_prop in A as [_ A]. apply andb_prop in B as [_ B]. apply N.eqb_eq in A, B. rewrite A in B. symmetry in B. now apply (opp_neq us sHu).
Qed.
(* the king of the mover after the move *)
Lemma king_after : kingOf bd' us = if mvDrop m then k else if mvFrom m =? k then mvTo m else k.
Proof.
  pose proof sHu as Hu. pose proof (cTo p m W) as Hto. destruct W as [X|X].
  - pose proof X as (Hd & _). rewrite Hd. rewrite <- Ek. apply kingOf_ext. intros s Hs. rewrite <- Ebd', isKing_new by (auto using sHu). rewrite Hd, Ebd. reflexivity.
  - pose proof (cGo p m us bd Eus Ebd X) as (Hd & Hne & _ & Hpf & Hat & _). rewrite Hd. destruct (N.eqb_spec (mvFrom m) k) as [E|E].
    + apply kingOf_eq; auto; [rewrite <- Ebd'; now apply oneKing_new|]. rewrite <- Ebd', isKing_new by (auto using sHu). rewrite Hd, Eus, N.eqb_refl. rewrite E, king_on in Hat. apply mkPiece_inj in Hat as [_ Hat]; auto; [|unfold King; lia].
      rewrite <- Hat. change (negb false && (King =? 8) && true) with true. cbv iota. now rewrite N.eqb_refl.
    + rewrite <- Ek. apply kingOf_ext. intros s Hs. rewrite <- Ebd', isKing_new by (auto using sHu). rewrite Hd, Ebd, Eus.
      replace (mvPtFrom m =? 8) with false; [reflexivity|]. symmetry. apply N.eqb_neq. intros E8. apply E. rewrite <- Ek. symmetry. apply kingOf_here; auto; [now rewrite <- Ebd|now apply (wfGo_from p m X)|].
      unfold isKing. rewrite Hat, E8. apply N.eqb_refl.
Qed.
Lemma unsafe_go t' : wfGo p m -> kingOf bd' us = t' -> t' < 81 ->
  inCheckB bd' us = existsb (fun x => negb (mvTo m =? x) && isCol bd (opp us) x && attOcc bd (occGo bd (mvFrom m) (mvTo m)) x t') squares.
Proof.
  intros X E Ht. unfold inCheckB. rewrite E, (proj2 (N.ltb_lt _ _) Ht), andb_true_l. apply existsb_ext_in. intros x Hx. apply in_squares in Hx.
  pose proof (cGo p m us bd Eus Ebd X) as (Hd & Hne & Hto & Hpf & Hat & _). pose proof (wfGo_ptTo p m X) as (Hpt & _).
  assert (A := nG p m us bd bd' V Eus Ebd Ebd' x X). unfold isCol, att, attOcc. rewrite A.
  rewrite (clear_ext (occOf bd') (occGo bd (mvFrom m) (mvTo m))) by (intros y Hy; rewrite (go_occ p m us bd bd' V Eus Ebd Ebd' y X); reflexivity).
  destruct (N.eqb_spec (mvTo m) x) as [Ex|Ex].
  - rewrite mk_nz, col_mk by (auto using sHu). rewrite opp_neqb by (auto using sHu). reflexivity.
  - cbn [negb andb]. destruct (N.eqb_spec (mvFrom m) x) as [Es|Es]; [|reflexivity]. rewrite <- Es, Hat, mk_nz, col_mk by (auto using sHu). change (0 =? 0) with true. cbn [negb andb].
    rewrite opp_neqb by (auto using sHu). reflexivity.
Qed.
Lemma unsafe_drop : wfDrop p m ->
  inCheckB bd' us = existsb (fun x => isCol bd (opp us) x && attOcc bd (occDrop bd (mvTo m)) x k) squares.
Proof.
  intros X. pose proof king_after as E. pose proof X as (Hd & Hpd & Hto & He & _). rewrite Hd in E.
  unfold inCheckB. rewrite E, (proj2 (N.ltb_lt _ _) Hk), andb_true_l. apply existsb_ext_in. intros x Hx. apply in_squares in Hx.
  assert (A := nD p m us bd bd' V Eus Ebd Ebd' x X). unfold isCol, att, attOcc. rewrite A.
  rewrite (clear_ext (occOf bd') (occDrop bd (mvTo m))).
  2:{ intros y Hy. unfold occOf, occDrop. rewrite (nD p m us bd bd' V Eus Ebd Ebd' y X). destruct (mvTo m =? y); [|reflexivity]. rewrite mk_nz by (auto using sHu; lia). reflexivity. }
  destruct (N.eqb_spec (mvTo m) x) as [Ex|Ex]; [|reflexivity].
  rewrite mk_nz, col_mk by (auto using sHu; lia). rewrite (pA p bd Ebd), Ex in He. rewrite He. change (0 =? 0) with true. cbn [negb andb].
  rewrite opp_neqb by (auto using sHu). reflexivity.
Qed.

(* a pinned piece stays on its line exactly when it captures the pinner or moves between *)
Lemma aligned_pin x s t : x < 81 -> s < 81 -> t < 81 -> s <> t -> t <> k -> occOf bd x = true -> clear (occOf bd) s t = true -> sole (occOf bd) x k s = true ->
  isAligned s t k = (t =? x) || memN t (betw x k).
Proof.
  intros Hx Hs Ht Hne Htk Ox C S. unfold sole in S. rewrite !andb_true_iff in S. destruct S as [[S _] _]. apply memN_betw in S; auto.
  destruct (N.eqb_spec t x) as [->|Hn]; cbn [orb].
  - destruct S as (d & a & b & Hd & Ha & Hb & O1 & O2). unfold isAligned. apply N.eqb_eq. rewrite (rel_off s d b k) by auto.
    rewrite <- relOf_nd. symmetry. apply (rel_off s (nd d) a x); auto using nd_in. now apply off_sym.
  - apply (aligned_between (occOf bd)); auto. unfold occOf. rewrite king_on, mk_nz by (auto using sHu; unfold King; lia). reflexivity.
Qed.
Lemma isSet_pinned s : s < 81 -> isSet (pinnedBB p) s = isCol bd us s && existsb (hid bd (opp us) k s) squares.
Proof.
  intros Hs. pose proof (isSet_hiddenCheckers true true p s V Hs) as H. cbv zeta in H. unfold pinnedBB. rewrite H. rewrite Eus, Ebd, opp_opp, Ek by exact sHu.
  rewrite (proj2 (N.ltb_lt _ _) Hk), andb_true_l. reflexivity.
Qed.
(* a move of a piece other than the king *)
Lemma safe_go : wfGo p m -> mvFrom m <> k ->
  (inCheckB bd' us = false <->
   isPinnedIllegal (mvFrom m) (mvTo m) k (pinnedBB p) = false /\
   forall x, x < 81 -> isCol bd (opp us) x = true -> att bd x k = true -> mvTo m = x \/ In (mvTo m) (betw x k)).
Proof.
  intros X Hfk. pose proof sHu as Hu. pose proof (cGo p m us bd Eus Ebd X) as (Hd & Hne & Hto & Hpf & Hat & Hcap & _). pose proof (wfGo_from p m X) as Hf.
  pose proof king_after as E. rewrite Hd, (proj2 (N.eqb_neq _ _) Hfk) in E. rewrite (unsafe_go k X E Hk).
  pose proof (cOk p bd V Ebd) as Ok.
  assert (Cf : isCol bd us (mvFrom m) = true) by (unfold isCol; rewrite Hat, mk_nz, col_mk, N.eqb_refl by auto; reflexivity).
  assert (Of : occOf bd (mvFrom m) = true) by (unfold occOf; rewrite Hat, mk_nz by auto; reflexivity).
  assert (Hat' : att bd (mvFrom m) (mvTo m) = true) by (rewrite <- Ebd; now apply G0).
  assert (Cl : clear (occOf bd) (mvFrom m) (mvTo m) = true) by (unfold att, attOcc in Hat'; rewrite !andb_true_iff in Hat'; tauto).
  assert (Htk : mvTo m <> k).
  { intros Q. pose proof king_on as K. rewrite <- Q in K. destruct Hcap as [[H _]|(H & Hc & _)]; rewrite H in K.
    - symmetry in K. revert K. apply (mkPiece_facts us King); auto. unfold King; lia.
    - apply mkPiece_inj in K as [K _]; auto using opp_lt; [|unfold King; lia]. now apply (opp_neq us). }
  assert (UN : forall x, x < 81 -> negb (mvTo m =? x) && isCol bd (opp us) x && attOcc bd (occGo bd (mvFrom m) (mvTo m)) x k = false <->
     (isCol bd (opp us) x = true -> att bd x k = true \/ hid bd (opp us) k (mvFrom m) x = true -> mvTo m = x \/ In (mvTo m) (betw x k))).
  { intros x Hx. destruct (isCol bd (opp us) x) eqn:Cx; [|rewrite andb_false_r; split; [discriminate|reflexivity]]. rewrite andb_true_r.
    destruct (N.eqb_spec (mvTo m) x) as [Q|Q]; [cbn [negb andb]; split; auto|]. cbn [negb andb]. rewrite attOcc_go by (auto; apply Ok; auto).
    unfold hid. rewrite Cx, andb_true_l. unfold isCol in Cx. apply andb_prop in Cx as [C0 C1]. apply N.eqb_eq in C1. rewrite C0, C1, andb_true_l.
    rewrite andb_false_iff, negb_false_iff, memN_In, orb_false_iff. split.
    - intros [H|[H1 H2]] _ [H'|H']; auto; congruence.
    - intros H. specialize (H eq_refl). destruct (att bd x k) eqn:A1; [left; destruct H as [H|H]; auto; contradiction|].
      destruct (sreach (ptOf (at_ bd x)) (opp us) x k && sole (occOf bd) x k (mvFrom m)) eqn:A2; [left; destruct H as [H|H]; auto; contradiction|auto]. }
  unfold isPinnedIllegal. rewrite isSet_pinned, Cf, andb_true_l by auto. split.
  - intros H. assert (H' : forall x, x < 81 -> isCol bd (opp us) x = true -> att bd x k = true \/ hid bd (opp us) k (mvFrom m) x = true -> mvTo m = x \/ In (mvTo m) (betw x k)).
    { intros x Hx. apply UN; auto. apply (existsb_false_at _ _ x) in H; [exact H|now apply in_squares]. }
    split; [|intros; apply H'; auto]. apply andb_false_iff. destruct (existsb (hid bd (opp us) k (mvFrom m)) squares) eqn:EX; [right|now left].
    apply existsb_exists in EX as (x & Hx & HX). apply in_squares in Hx. assert (HX' := HX). unfold hid in HX'. rewrite !andb_true_iff in HX'. destruct HX' as ((Cx & _) & Sx).
    assert (Ox : occOf bd x = true) by (unfold isCol in Cx; apply andb_prop in Cx as [Cx _]; exact Cx).
    rewrite (aligned_pin x) by auto. apply negb_false_iff. destruct (H' x Hx Cx (or_intror HX)) as [<-|I]; [now rewrite N.eqb_refl|]. apply memN_In in I. rewrite I. apply orb_true_r.
  - intros [HP HC]. apply not_true_is_false. intros EX. apply existsb_exists in EX as (x & Hx & HX). apply in_squares in Hx.
    assert (F : negb (mvTo m =? x) && isCol bd (opp us) x && attOcc bd (occGo bd (mvFrom m) (mvTo m)) x k = false); [|congruence].
    apply UN; auto. intros Cx [A|A]; [now apply HC|]. assert (EX : existsb (hid bd (opp us) k (mvFrom m)) squares = true) by (apply existsb_exists; exists x; split; [now apply in_squares|exact A]).
    rewrite EX, andb_true_l in HP. apply negb_false_iff in HP. unfold hid in A. rewrite !andb_true_iff in A. destruct A as ((_ & _) & Sx).
    assert (Ox : occOf bd x = true) by (unfold isCol in Cx; apply andb_prop in Cx as [Cx' _]; exact Cx').
    rewrite (aligned_pin x) in HP by auto. apply orb_prop in HP as [HP|HP]; [left; now apply N.eqb_eq|right; now apply memN_In].
Qed.
Lemma safe_drop : wfDrop p m ->
  (inCheckB bd' us = false <-> forall x, x < 81 -> isCol bd (opp us) x = true -> att bd x k = true -> In (mvTo m) (betw x k)).
Proof.
  intros X. rewrite unsafe_drop by auto. split.
  - intros H x Hx Cx A. apply (existsb_false_at _ _ x) in H; [|now apply in_squares]. cbv beta in H. rewrite Cx, andb_true_l in H.
    unfold att, attOcc in A. rewrite !andb_true_iff in A. destruct A as (A1 & A2 & A3). unfold attOcc in H. rewrite A1, A2, !andb_true_l in H.
    destruct (memN (mvTo m) (betw x k)) eqn:M; [now apply memN_In|]. exfalso. rewrite <- not_true_iff_false in H. apply H. apply clear_iff. rewrite clear_iff in A3.
    intros y Hy. unfold occDrop. rewrite (A3 y Hy), orb_false_r. apply N.eqb_neq. intros <-. apply memN_In in Hy. congruence.
  - intros H. destruct (existsb _ squares) eqn:EX; [|reflexivity]. exfalso. apply existsb_exists in EX as (x & Hx & HX). apply in_squares in Hx. apply andb_prop in HX as [Cx A].
    unfold attOcc in A. rewrite !andb_true_iff in A. destruct A as (A1 & A2 & A3). rewrite clear_iff in A3.
    assert (A : att bd x k = true). { unfold att, attOcc. rewrite A1, A2, !andb_true_l. apply clear_iff. intros y Hy. specialize (A3 y Hy). unfold occDrop in A3. apply orb_false_iff in A3. tauto. }
    specialize (A3 _ (H x Hx Cx A)). unfold occDrop in A3. rewrite N.eqb_refl in A3. discriminate.
Qed.
End S.
