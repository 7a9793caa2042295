(* The test for mate by a pawn drop is exact. *)
From Verif Require Export GenExact.
Local Open Scope N_scope.

Lemma forallb_exists {A} (f : A -> bool) l : forallb f l = false -> exists x, In x l /\ f x = false.
Proof.
  induction l as [|a l IH]; cbn [forallb]; [discriminate|]. intros H. apply andb_false_iff in H as [H|H]; [exists a; split; [now left|exact H]|]. destruct (IH H) as (x & I & E). exists x. split; [now right|exact E].
Qed.
Section M.
(* p before, q after the drop of a pawn of us on t, in front of the king of them on ko *)
Variables (p q : Position) (us th ko t : N) (bd bq : list N).
Hypotheses (G : good p) (Gq : good q) (Eus : turn p = us) (Eth : opp us = th) (Etq : turn q = th) (Ebd : board p = bd) (Ebq : board q = bq).
Hypotheses (Ht : t < 81) (E0 : at_ bd t = 0) (At : forall x, at_ bq x = if t =? x then mkPiece us 1 else at_ bd x).
Hypotheses (Eo : kingOf bd th = ko) (Ho : ko < 81).
Lemma mU : us < 2. Proof. rewrite <- Eus. apply (good_turn p G). Qed.
Lemma mT : th < 2. Proof. rewrite <- Etq. apply (good_turn q Gq). Qed.
Lemma mOT : opp th = us. Proof. rewrite <- Eth. apply opp_opp, mU. Qed.
Lemma mNe : us <> th. Proof. intros E. apply (opp_neq us mU). congruence. Qed.
Lemma mOk : okBoard bd. Proof. rewrite <- Ebd. apply (good_ok p G). Qed.
Lemma mOkq : okBoard bq. Proof. rewrite <- Ebq. apply (good_ok q Gq). Qed.
Lemma mV : views p. Proof. apply G. Qed.
Lemma mVq : views q. Proof. apply Gq. Qed.
Lemma col_us x : isCol bq us x = (t =? x) || isCol bd us x.
Proof. pose proof mU as Hu. unfold isCol. rewrite At. destruct (t =? x); [|reflexivity]. rewrite mk_nz, col_mk, N.eqb_refl by (auto; lia). reflexivity. Qed.
Lemma col_th x : isCol bq th x = isCol bd th x.
Proof.
  pose proof mU as Hu. unfold isCol. rewrite At. destruct (N.eqb_spec t x) as [<-|]; [|reflexivity]. rewrite mk_nz, col_mk, E0 by (auto; lia). rewrite (proj2 (N.eqb_neq us th)) by apply mNe. reflexivity.
Qed.
Lemma occ_q x : occOf bq x = (t =? x) || occOf bd x.
Proof. pose proof mU as Hu. unfold occOf. rewrite At. destruct (t =? x); [|reflexivity]. rewrite mk_nz by (auto; lia). reflexivity. Qed.
Lemma king_q : kingOf bq th = ko.
Proof.
  pose proof mU as Hu. pose proof mT as Hth. rewrite <- Eo. apply kingOf_ext. intros s Hs. unfold isKing. rewrite At. destruct (N.eqb_spec t s) as [<-|]; [|reflexivity].
  rewrite E0. transitivity false; [|symmetry; apply N.eqb_neq; intros X; symmetry in X; revert X; apply N.eqb_neq, mk_nz; auto; unfold King; lia].
  apply N.eqb_neq. intros X. apply mkPiece_inj in X as [X _]; auto; [now apply mNe|lia|unfold King; lia].
Qed.
Lemma ko_t : t <> ko.
Proof. intros E. pose proof (kingOf_at bd th ko Eo Ho) as K. rewrite <- E, E0 in K. symmetry in K. revert K. apply N.eqb_neq, mk_nz; [apply mT|unfold King; lia]. Qed.
(* the only piece that can check after the drop is the pawn *)
Lemma att_mono x y : x < 81 -> y < 81 -> t <> x -> att bq x y = true -> att bd x y = true.
Proof.
  intros Hx Hy N. unfold att, attOcc. rewrite At, (proj2 (N.eqb_neq t x)) by auto. rewrite !andb_true_iff. intros (A & B & D). do 2 (split; auto).
  eapply clear_mono; [|exact D]. intros w Hw W. rewrite occ_q, W. apply orb_true_r.
Qed.
Lemma pawn_att y : y < 81 -> att bq t y = reach 1 us t y.
Proof.
  intros Hy. pose proof mU as Hu. unfold att, attOcc. rewrite At, N.eqb_refl. rewrite mk_nz, col_mk, pt_mk by (auto; lia). change (negb false) with true. rewrite andb_true_l.
  destruct (reach 1 us t y) eqn:R; [|reflexivity]. rewrite andb_true_l. apply clear_iff. intros w W. exfalso.
  assert (S : sreach 1 us t y = true) by (eapply (reach_far 1 us t y w); auto; lia). apply sreach_iff in S as (d & j & [] & _); auto.
Qed.
Lemma safe_p x : x < 81 -> isCol bd us x = true -> att bd x ko = false.
Proof.
  intros Hx Cx. apply not_true_is_false. intros A. pose proof (g_safe p G) as S. rewrite Eus, Ebd in S. revert S. apply (inCheckB_no bd us x ko); auto using mU.
  - rewrite <- Ebd. apply G.
  - rewrite Eth. unfold isKing. rewrite (kingOf_at bd th ko Eo Ho). apply N.eqb_refl.
Qed.
Lemma chkr_q x : chkr th ko bq x <-> x = t /\ reach 1 us t ko = true.
Proof.
  unfold chkr. rewrite mOT. split.
  - intros (Hx & Cx & A). destruct (N.eq_dec t x) as [<-|N].
    + split; [reflexivity|]. rewrite pawn_att in A by exact Ho. exact A.
    + exfalso. apply att_mono in A; [|exact Hx|exact Ho|exact N]. rewrite col_us, (proj2 (N.eqb_neq t x) N), orb_false_l in Cx. rewrite (safe_p x Hx Cx) in A. discriminate A.
  - intros [-> R]. split; [exact Ht|]. rewrite col_us, N.eqb_refl, pawn_att by exact Ho. split; [reflexivity|exact R].
Qed.
Lemma check_q : inCheckB bq th = reach 1 us t ko.
Proof.
  unfold inCheckB. rewrite king_q, (proj2 (N.ltb_lt _ _) Ho), andb_true_l. apply eq_true_iff_eq. rewrite existsb_exists. split.
  - intros (x & Hx & A). apply in_squares in Hx. apply andb_prop in A as [A B]. apply chkr_q with x. unfold chkr. auto.
  - intros R. exists t. split; [now apply in_squares|]. destruct (proj2 (chkr_q t) (conj eq_refl R)) as (_ & A & B). now rewrite A, B.
Qed.
Section R.
Hypothesis R : reach 1 us t ko = true.
Lemma no_betw y : ~ In y (betw t ko).
Proof.
  intros W. pose proof mU as Hu. assert (S : sreach 1 us t ko = true) by (eapply (reach_far 1 us t ko y); auto; lia). apply sreach_iff in S as (d & j & [] & _); auto.
Qed.
Lemma att_t f : f < 81 -> f <> t -> att bq f t = att bd f t.
Proof.
  intros Hf N. unfold att, attOcc. rewrite At, (proj2 (N.eqb_neq t f)) by auto. f_equal. f_equal. unfold clear. apply eq_true_iff_eq. rewrite !forallb_forall.
  assert (NB : forall x, In x (betw f t) -> (t =? x) = false) by (intros x I; apply N.eqb_neq; intros <-; destruct (betw_ends f t Hf Ht); auto).
  split; intros H x I; specialize (H x I); rewrite occ_q, (NB x I) in *; auto.
Qed.
Lemma promo_ex f : f < 81 -> isCol bq th f = true -> exists pr, promoB q f t pr = true.
Proof.
  intros Hf Cf. unfold promoB. cbv zeta. rewrite Etq. change (pieceAt q f) with (at_ (board q) f). rewrite Ebq.
  destruct (deadB th (ptOf (at_ bq f)) t) eqn:D; [|exists false; reflexivity]. exists true. unfold deadB in D. unfold zoneB.
  destruct (N.leb_spec (ptOf (at_ bq f)) 2) as [L|L]; [|destruct (N.eqb_spec (ptOf (at_ bq f)) 3) as [L'|L']; [|discriminate]]; apply andb_true_iff; (split; [apply N.leb_le; lia|]); apply orb_true_iff; right; apply N.leb_le; lia.
Qed.
(* a pin against the king of them, seen before and after the drop *)
Lemma pin_q f : f < 81 -> f <> t -> isCol bd th f = true -> att bd f t = true -> isPinnedIllegal f t ko (pinnedBB q) = isDiscoveredCheck f t ko (discoveredCheckBB false p).
Proof.
  intros Hf N Cf A. pose proof mU as Hu. pose proof mT as Hth. unfold isPinnedIllegal, isDiscoveredCheck. destruct (isAligned f t ko) eqn:AL; [now rewrite !andb_false_r|]. rewrite !andb_true_r.
  rewrite (isSet_pinned q th ko bq mVq Etq Ebq king_q Ho f Hf), col_th, Cf, andb_true_l.
  pose proof (isSet_hiddenCheckers false false p f mV Hf) as H. cbv zeta in H. unfold discoveredCheckBB. rewrite H, Eus, Eth, Ebd, Eo, (proj2 (N.ltb_lt _ _) Ho), Cf, !andb_true_l. clear H.
  rewrite mOT. apply existsb_ext_in. intros x Hx. apply in_squares in Hx. unfold hid. rewrite col_us, At. destruct (N.eqb_spec t x) as [<-|Nx].
  - rewrite pt_mk by (auto; lia). replace (sreach 1 us t ko) with false; [|symmetry; apply not_true_is_false; intros S; apply sreach_iff in S as (d & j & [] & _); auto].
    rewrite andb_false_r. unfold isCol. rewrite E0. reflexivity.
  - rewrite orb_false_l. destruct (isCol bd us x) eqn:Cx; [|reflexivity]. f_equal. apply eq_true_iff_eq. unfold att, attOcc in A. rewrite !andb_true_iff in A. destruct A as (_ & _ & CL).
    assert (Ox : occOf bd x = true) by (unfold isCol in Cx; now apply andb_prop in Cx as [Cx _]).
    assert (NB : sole (occOf bd) x ko f = true -> memN t (betw x ko) = false).
    { intros S. destruct (memN t (betw x ko)) eqn:MT; [|reflexivity]. exfalso.
      assert (AP : isAligned f t ko = memN t (betw x ko)).
      { unfold sole in S. rewrite !andb_true_iff in S. destruct S as [[S _] _]. apply memN_betw in S; auto. apply (aligned_between (occOf bd)); auto using ko_t.
        unfold occOf. rewrite (kingOf_at bd th ko Eo Ho), mk_nz by (auto; unfold King; lia). reflexivity. }
      rewrite AL, MT in AP. discriminate. }
    assert (NQ : sole (occOf bq) x ko f = true -> memN t (betw x ko) = false).
    { intros S. destruct (memN t (betw x ko)) eqn:MT; [|reflexivity]. exfalso. apply N. symmetry. eapply sole_other; eauto. rewrite occ_q, N.eqb_refl. reflexivity. }
    assert (EQ : memN t (betw x ko) = false -> sole (occOf bq) x ko f = sole (occOf bd) x ko f).
    { intros MT. assert (NI : forall y, In y (betw x ko) -> (t =? y) = false) by (intros y I; apply N.eqb_neq; intros <-; apply memN_In in I; congruence).
      unfold sole. rewrite occ_q, (proj2 (N.eqb_neq t f)), orb_false_l by auto. f_equal. apply eq_true_iff_eq. rewrite !forallb_forall. split; intros H y I; specialize (H y I); rewrite occ_q, (NI y I), orb_false_l in *; auto. }
    split; intros S; [rewrite <- EQ|rewrite EQ]; auto.
Qed.
Lemma col_excl_q x : isCol bd us x = true -> isCol bd th x = true -> False.
Proof. unfold isCol. intros A B. apply andb_prop in A as [_ A]. apply andb_prop in B as [_ B]. apply N.eqb_eq in A, B. apply mNe. congruence. Qed.
Lemma col_king_q f : f < 81 -> isCol bd th f = true -> ((ptOf (at_ bd f) =? 8) = (f =? ko)).
Proof.
  intros Hf Cf. assert (Cq : isCol bq th f = true) by now rewrite col_th. rewrite <- (own_king q th ko bq Gq Etq Ebq king_q Ho f Hf Cq). change (pieceAt q f) with (at_ (board q) f). rewrite Ebq, At.
  destruct (N.eqb_spec t f) as [<-|]; [|reflexivity]. unfold isCol in Cf. rewrite E0 in Cf. discriminate Cf.
Qed.
Lemma own_free y : isCol bd th y = true -> y <> t.
Proof. intros Cy ->. unfold isCol in Cy. rewrite E0 in Cy. discriminate Cy. Qed.
Lemma capture_iff : canPieceCapture p th t = true <-> exists f pr, f < 81 /\ f <> ko /\ plSet q f t pr /\ isPinnedIllegal f t ko (pinnedBB q) = false.
Proof.
  pose proof mV as V. pose proof mT as Hth. pose proof mU as Hu. unfold canPieceCapture. cbv zeta. rewrite kingSquare_view by auto. rewrite Ebd, Eo.
  assert (WF : wfBB (attackersToExceptKing p th t)) by (unfold attackersToExceptKing; cbv zeta; apply wf_and_r; now apply wf_bbC).
  assert (IA : forall f, In f (bbList (attackersToExceptKing p th t)) <-> f < 81 /\ isCol bd th f = true /\ f <> ko /\ att bd f t = true).
  { intros f. rewrite in_bbList by auto. split.
    - intros [Hf S]. rewrite isSet_attackersToExceptKing in S by auto. rewrite !andb_true_iff in S. destruct S as [[S1 S2] S3].
      rewrite (attOcc_ext _ _ (occOf (board p))) in S3 by (intros x Hx; now apply isSet_occ_fun). rewrite Ebd in S3.
      assert (Cf : isCol bd th f = true). { unfold isCol. rewrite <- (gAt p bd Ebd), S1, andb_true_r. unfold attOcc in S3. apply andb_prop in S3 as [S3 _]. now rewrite (gAt p bd Ebd). }
      split; auto. split; auto. split; auto. change King with 8 in S2. rewrite (gAt p bd Ebd), col_king_q in S2 by auto. now apply negb_true_iff, N.eqb_neq in S2.
    - intros (Hf & Cf & Nf & A). split; auto. rewrite isSet_attackersToExceptKing by auto. rewrite (attOcc_ext _ _ (occOf (board p))) by (intros x Hx; now apply isSet_occ_fun). rewrite Ebd. change (attOcc bd (occOf bd) f t) with (att bd f t). rewrite A, andb_true_r.
      change King with 8. rewrite (gAt p bd Ebd), col_king_q by auto. rewrite (proj2 (N.eqb_neq f ko)) by auto. unfold isCol in Cf. apply andb_prop in Cf as [_ Cf]. now rewrite Cf. }
  split.
  - intros H. assert (H' : existsb (fun from => negb (isDiscoveredCheck from t ko (discoveredCheckBB false p))) (bbList (attackersToExceptKing p th t)) = true) by (destruct (isAny (attackersToExceptKing p th t)); [exact H|discriminate H]).
    clear H. apply existsb_exists in H' as (f & I & D). apply IA in I as (Hf & Cf & Nf & A). apply negb_true_iff in D. rewrite <- pin_q in D by (auto using own_free).
    assert (Cq : isCol bq th f = true) by now rewrite col_th. destruct (promo_ex f Hf Cq) as [pr P]. exists f, pr. do 2 (split; auto). split; auto.
    unfold plSet. rewrite (proj2 (N.ltb_lt _ _) Hf). unfold plGoB. rewrite Etq, Ebq, Cq, att_t, A, P by (auto using own_free). rewrite col_th. unfold isCol. rewrite E0. reflexivity.
  - intros (f & pr & Hf & Nf & P & D). unfold plSet in P. rewrite (proj2 (N.ltb_lt _ _) Hf) in P. unfold plGoB in P. rewrite !andb_true_iff, Etq, Ebq in P. destruct P as (((Cf & A) & _) & _). rewrite col_th in Cf. rewrite att_t in A by (auto using own_free).
    assert (I : In f (bbList (attackersToExceptKing p th t))) by (apply IA; auto). rewrite (isAny_ex_true _ f) by (apply in_bbList in I; tauto).
    apply existsb_exists. exists f. split; auto. rewrite <- pin_q by (auto using own_free). now rewrite D.
Qed.
Lemma escape_iff : forallb (fun to => attackersToIsAny p us to (bbOr (occBB p) (setMaskBB t))) (bbList (bbNotThisAnd (bbC p th) (kingAttack ko))) = false <->
  exists y pr, y < 81 /\ plSet q ko y pr /\ attackersToIsAny q us y (occBB q) = false.
Proof.
  pose proof mV as V. pose proof mVq as Vq. pose proof mT as Hth. pose proof mU as Hu. pose proof (kingOf_at bq th ko king_q Ho) as AK.
  assert (WF : wfBB (bbNotThisAnd (bbC p th) (kingAttack ko))) by (apply wf_notthisand; apply (wf_attacksFrom King th ko allZeroBB); auto; unfold King; lia).
  assert (IK : forall y pr, y < 81 -> (In y (bbList (bbNotThisAnd (bbC p th) (kingAttack ko))) /\ pr = false <-> plSet q ko y pr)).
  { intros y pr Hy. rewrite in_bbList by auto. rewrite isSet_notthisand, isSet_bbC by auto. unfold plSet. rewrite (proj2 (N.ltb_lt _ _) Ho). unfold plGoB. rewrite !andb_true_iff, !negb_true_iff, Etq, Ebq.
    assert (EA : isSet (kingAttack ko) y = att bq ko y).
    { unfold att, attOcc. rewrite AK, mk_nz, col_mk, pt_mk by (auto; unfold King; lia). rewrite <- (stepAtt King th ko y allZeroBB (occOf bq)) by (auto; unfold King; lia). change (attacksFrom King th ko allZeroBB) with (kingAttack ko). change (negb false) with true. rewrite andb_true_l. reflexivity. }
    rewrite EA. rewrite col_th. change (negb (pieceAt p y =? 0) && (colorOf (pieceAt p y) =? th)) with (isCol (board p) th y). rewrite Ebd.
    assert (CK : isCol bq th ko = true) by (unfold isCol; rewrite AK, mk_nz, col_mk, N.eqb_refl by (auto; unfold King; lia); reflexivity). rewrite col_th in *. rewrite CK.
    unfold promoB. cbv zeta. change (pieceAt q ko) with (at_ (board q) ko). rewrite Ebq, AK, pt_mk by (auto; unfold King; lia). unfold King. destruct pr; closedN; intuition (try discriminate). }
  assert (EQ : forall y, y < 81 -> y <> ko -> attackersToIsAny q us y (occBB q) = attackersToIsAny p us y (bbOr (occBB p) (setMaskBB t))).
  { intros y Hy Ny. rewrite !isAny_attackers by auto. rewrite Ebd, Ebq. apply existsb_ext_in. intros x Hx. apply in_squares in Hx.
    rewrite (attOcc_ext bq _ (occOf bq)) by (intros w Hw; rewrite <- Ebq; now apply isSet_occ_fun).
    rewrite (attOcc_ext bd _ (occOf bq)) by (intros w Hw; rewrite isSet_or, isSet_mask, isSet_occ_fun by auto; rewrite Ebd, occ_q; apply orb_comm).
    destruct (N.eqb_spec t x) as [<-|Nx].
    - change (attOcc bq (occOf bq) t y) with (att bq t y). rewrite pawn_att by auto. unfold attOcc. rewrite E0. change (negb (0 =? 0)) with false. rewrite andb_false_l, andb_false_r.
      apply andb_false_iff. right. apply not_true_is_false. intros R'. apply Ny. clear - R R' Hy Ho Ht Hu. rewrite pawn_reach in R, R' by auto. destruct (us =? 0); lia.
    - rewrite col_us, (proj2 (N.eqb_neq t x)), orb_false_l by auto. unfold attOcc. rewrite At, (proj2 (N.eqb_neq t x)) by auto. reflexivity. }
  assert (NK : forall y pr, y < 81 -> plSet q ko y pr -> y <> ko).
  { intros y pr Hy P ->. unfold plSet in P. rewrite (proj2 (N.ltb_lt _ _) Ho) in P. unfold plGoB in P. rewrite !andb_true_iff, negb_true_iff, Etq in P. destruct P as (((P & _) & P') & _). congruence. }
  split.
  - intros H. destruct (forallb_exists _ _ H) as (y & I & N). exists y, false. assert (Hy : y < 81) by (apply in_bbList in I; tauto).
    assert (P : plSet q ko y false) by (apply IK; auto). do 2 (split; auto). rewrite EQ; eauto.
  - intros (y & pr & Hy & P & N). apply not_true_is_false. intros H. rewrite forallb_forall in H. destruct (proj2 (IK y pr Hy) P) as [I _]. specialize (H y I). cbv beta in H. rewrite <- EQ in H by eauto. congruence.
Qed.
Theorem replies_iff : isPawnDropCheckMate p us t = false <->
  exists f y pr, f < 128 /\ y < 81 /\ plSet q f y pr /\ inCheckB (newBoard q (enc q f y pr)) th = false.
Proof.
  pose proof mV as V. pose proof mT as Hth. unfold isPawnDropCheckMate. cbv zeta. rewrite Eth, kingSquare_view by auto. rewrite Ebd, Eo.
  assert (CH : forall x, chkr th ko bq x <-> x = t) by (intros x; rewrite chkr_q; tauto).
  split.
  - intros H. destruct (canPieceCapture p th t) eqn:CP.
    + apply capture_iff in CP as (f & pr & Hf & Nf & P & D). exists f, t, pr. split; [lia|]. do 2 (split; auto). apply (go_safe q th ko bq Gq Etq Ebq king_q Ho f t pr); auto. split; auto. intros x X. left. symmetry. now apply CH.
    + apply escape_iff in H as (y & pr & Hy & P & D). exists ko, y, pr. split; [lia|]. do 2 (split; auto). apply (king_safe q th ko bq Gq Etq Ebq king_q Ho y pr); auto. rewrite mOT. split; auto.
      intros x X. apply CH in X. subst x. unfold bannedBy. change (pieceAt q t) with (at_ (board q) t). rewrite Ebq, At, N.eqb_refl, pt_mk by (auto using mU; lia). apply isSet_zero.
  - intros (f & y & pr & Hf & Hy & P & S). destruct (N.ltb_spec f 81) as [L|L].
    + destruct (N.eq_dec f ko) as [->|Nf].
      * apply (king_safe q th ko bq Gq Etq Ebq king_q Ho y pr) in S as [S _]; auto. rewrite mOT in S. destruct (canPieceCapture p th t); auto. apply escape_iff. eauto.
      * apply (go_safe q th ko bq Gq Etq Ebq king_q Ho f y pr) in S as [S1 S2]; auto. destruct (S2 t) as [->|I]; [now apply CH| |destruct (no_betw y I)].
        replace (canPieceCapture p th t) with true; [reflexivity|]. symmetry. apply capture_iff. eauto 10.
    + apply (drop_safe q th ko bq Gq Etq Ebq king_q Ho f y pr) with (x := t) in S; auto; [destruct (no_betw y S)|now apply CH].
Qed.
End R.
End M.
