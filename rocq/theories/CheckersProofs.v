From Verif Require Export CheckProofs.

Lemma dir_file d : In d allDirs -> fst d = 0%Z -> (d = dN /\ nd d = dS) \/ (d = dS /\ nd d = dN).
Proof. intros H. cbn in H. repeat (destruct H as [<-|H]; [cbv; intuition congruence|]). destruct H. Qed.
Lemma dir_rank d : In d allDirs -> snd d = 0%Z -> nd d = dE \/ nd d = dW.
Proof. intros H. cbn in H. repeat (destruct H as [<-|H]; [cbv; intuition congruence|]). destruct H. Qed.
Lemma dir_diag d : In d allDirs -> fst d <> 0%Z -> snd d <> 0%Z -> In (nd d) bishopDirs.
Proof. intros H. cbn in H. repeat (destruct H as [<-|H]; [cbv; intuition congruence|]). destruct H. Qed.
Lemma bishop_nd e : In e bishopDirs -> In (nd e) bishopDirs.
Proof. intros H. cbn in H. repeat (destruct H as [<-|H]; [cbv; intuition congruence|]). destruct H. Qed.
Lemma slides_cases q c d : In d (slidesOf q c) -> (q = 2 /\ d = (0, fwd c)%Z) \/ ((q = 5 \/ q = 13) /\ In d bishopDirs) \/ ((q = 6 \/ q = 14) /\ In d rookDirs).
Proof.
  destruct q as [|q]; [intros []|]. destruct q as [[[[q|q|]|[q|q|]|]|[[q|q|]|[q|q|]|]|]|[[[q|q|]|[q|q|]|]|[[q|q|]|[q|q|]|]|]|]; intros H; try (destruct H; fail);
  auto. destruct H as [<-|[]]. auto.
Qed.
Lemma slides_rank q c d : In d (slidesOf q c) -> snd d = 0%Z -> q = 6 \/ q = 14.
Proof.
  intros H E. apply slides_cases in H as [[_ ->]|[[_ H]|[H _]]]; auto; exfalso.
  - cbn in E. unfold fwd in E. destruct (c =? 0); discriminate.
  - cbn in H. repeat (destruct H as [<-|H]; [discriminate|]). destruct H.
Qed.
Lemma slides_diag q c d : In d (slidesOf q c) -> fst d <> 0%Z -> snd d <> 0%Z -> q = 5 \/ q = 13.
Proof.
  intros H E F. apply slides_cases in H as [[_ ->]|[[H _]|[_ H]]]; auto; exfalso.
  - now apply E.
  - cbn in H. repeat (destruct H as [<-|H]; [first [now apply E|now apply F]|]). destruct H.
Qed.

(* ---- the stored checkers ---- *)
Lemma isSet_rookAttackFile s occ x : s < 81 -> x < 81 ->
  isSet (rookAttackFile s occ) x = (memN x (ray dN s) || memN x (ray dS s)) && clear (isSet occ) s x.
Proof.
  intros Hs Hx. unfold rookAttackFile. cbv zeta. rewrite !lanceTable_walk by (auto; lia). rewrite isSet_or.
  change (vdir 0) with dN. change (vdir 1) with dS. rewrite !isSet_walkBB by (auto; cbn; tauto).
  destruct (memN x (ray dN s)), (memN x (ray dS s)), (clear _ s x); reflexivity.
Qed.
Lemma isSet_rookAttackRank s occ x : s < 81 -> x < 81 ->
  isSet (rookAttackRank s occ) x = (memN x (ray dE s) || memN x (ray dW s)) && clear (isSet occ) s x.
Proof.
  intros Hs Hx. rewrite rookAttackRank_lanes, lane_E, lane_W by auto. rewrite isSet_or, !isSet_walkBB by (auto; cbn; tauto).
  destruct (memN x (ray dE s)), (memN x (ray dW s)), (clear _ s x); reflexivity.
Qed.

Section D.
Variables (from to us k s0 : N) (bd bd' : list N) (d : dir) (a b : Z).
Hypotheses (Hf : from < 81) (Ht : to < 81) (Hu : us < 2) (Hk : k < 81) (Hs0 : s0 < 81) (OkB : okBoard bd).
Hypotheses (Hd : In d allDirs) (Ha : (1 <= a)%Z) (Hb : (1 <= b)%Z) (O1 : off s0 d a from) (O2 : off from d b k).
Hypothesis (So : sole (occOf bd) s0 k from = true).
Hypothesis (Nal : isAligned from to k = false).
Hypothesis (Occ' : forall y, occOf bd' y = (to =? y) || (negb (from =? y) && occOf bd y)).
Hypothesis (At' : forall y, y <> to -> y <> from -> at_ bd' y = at_ bd y).
Hypotheses (Kc : isCol bd (opp us) k = true) (Sc : isCol bd us s0 = true).
Hypothesis (Other : forall x, x < 81 -> x <> to -> chk bd' us k x = hid bd us k from x && negb (memN to (betw x k))).
Hypothesis (Align : forall x, x < 81 -> hid bd us k from x = true -> isAligned from to k = memN to (betw x k) /\ x <> to).
Hypothesis (Hid0 : hid bd us k from s0 = true).

Lemma dOccCol c y : isCol bd c y = true -> occOf bd y = true.
Proof. unfold isCol, occOf. intros H. now apply andb_prop in H. Qed.
Lemma dNotLine e c : In e allDirs -> (1 <= c)%Z -> (e = d \/ e = nd d) -> ~ off from e c to.
Proof.
  intros He Hc E H. unfold isAligned in Nal. rewrite (rel_off from d b k), (rel_off from e c to) in Nal by auto.
  apply N.eqb_neq in Nal. apply Nal. destruct E as [->| ->]; [reflexivity|now rewrite relOf_nd].
Qed.
Lemma dFromNe y c e : In e allDirs -> (1 <= c)%Z -> off from e c y -> from <> y.
Proof. intros He Hc H. now apply (off_neq from e c). Qed.
Lemma dS0k x : In x (betw s0 k) -> occOf bd x = true -> x = from.
Proof. intros Hx Ho. apply (sole_other _ _ _ _ _ So); auto. now apply memN_In. Qed.
Lemma dSelf : chk bd' us k s0 = true.
Proof. destruct (Align s0 Hs0 Hid0) as [A B]. rewrite Other by auto. rewrite Hid0, <- A, Nal. reflexivity. Qed.

(* what a uncovered attacker looks like *)
Lemma dShape x : x < 81 -> x <> to -> chk bd' us k x = true ->
  isCol bd us x = true /\ In d (slidesOf (ptOf (at_ bd x)) us) /\ (exists c, (1 <= c)%Z /\ off x d c from) /\ at_ bd' x = at_ bd x /\ clear (occOf bd') x k = true.
Proof.
  intros Hx Hxt C. assert (C0 := C). rewrite Other in C by auto. apply andb_prop in C as [C _]. unfold hid in C. rewrite !andb_true_iff in C. destruct C as [[C1 C2] C3].
  unfold sole in C3. rewrite !andb_true_iff in C3. destruct C3 as [[C3 _] _]. apply memN_betw in C3 as (e & a' & b' & He & Ha' & Hb' & P1 & P2); auto.
  assert (e = d /\ b' = b) as [-> ->] by (apply (off_uniq from k); auto).
  apply sreach_iff in C2 as (e & n & He' & Hn & P3); auto.
  assert (e = d /\ (n = a' + b)%Z) as [-> ->] by (apply (off_uniq x k); auto; [now apply slides_allDirs in He'|lia|eapply off_add; eauto]).
  split; [exact C1|]. split; [exact He'|]. split; [eauto|]. split.
  - apply At'; auto. apply not_eq_sym. apply not_eq_sym. now apply (off_neq x d a').
  - unfold chk, att, attOcc in C0. rewrite !andb_true_iff in C0. tauto.
Qed.

(* uncovered along a file: scanning the file from the vacated square finds exactly the slider *)
Lemma disc_file x : x < 81 -> fst d = 0%Z ->
  (memN x (ray dN from) || memN x (ray dS from)) && clear (occOf bd') from x && isCol bd' us x = negb (to =? x) && chk bd' us k x.
Proof.
  intros Hx Hfile. pose proof (dir_file d Hd Hfile) as Hdd.
  assert (RR : memN x (ray dN from) || memN x (ray dS from) = memN x (ray d from) || memN x (ray (nd d) from)).
  { destruct Hdd as [[-> ->]|[-> ->]]; [reflexivity|apply orb_comm]. }
  rewrite RR. apply eq_true_iff_eq. rewrite !andb_true_iff, orb_true_iff, !memN_ray by auto using nd_in. split.
  - intros [[R C] Hc]. rewrite clear_iff in C.
    assert (Hxf : from <> x) by (destruct R as [(c & Hc' & R)|(c & Hc' & R)]; [apply (dFromNe x c d)|apply (dFromNe x c (nd d))]; auto using nd_in).
    assert (Hxt : to <> x). { intros <-. destruct R as [(c & Hc' & R)|(c & Hc' & R)]; [apply (dNotLine d c) in R|apply (dNotLine (nd d) c) in R]; auto using nd_in. }
    assert (Hox : isCol bd us x = true) by (unfold isCol in *; rewrite At' in Hc by auto; exact Hc).
    destruct R as [(c & Hc' & R)|(c & Hc' & R)].
    + exfalso. destruct (Z.lt_trichotomy c b) as [L|[->|L]].
      * apply Hxf. symmetry. apply dS0k; [|now apply (dOccCol us)]. apply betw_iff; auto. split; auto. exists d, (a + c)%Z, (b - c)%Z.
        split; auto. split; [lia|]. split; [lia|]. split; [eapply off_add; eauto|eapply off_sub; eauto].
      * assert (x = k) by (apply (off_fun from d b); auto). subst x. unfold isCol in Kc, Hox. apply andb_prop in Kc as [_ K1]. apply andb_prop in Hox as [_ K2].
        apply N.eqb_eq in K1, K2. apply (opp_neq us Hu). congruence.
      * assert (Hkb : In k (betw from x)). { apply betw_iff; auto. split; auto. exists d, b, (c - b)%Z. split; auto. split; [lia|]. split; [lia|]. split; [auto|eapply off_sub; eauto]. }
        specialize (C k Hkb). rewrite Occ' in C. apply orb_false_iff in C as [_ C]. rewrite (dOccCol _ _ Kc) in C.
        rewrite (proj2 (N.eqb_neq from k)) in C by (apply (dFromNe k b d); auto). discriminate.
    + apply off_sym in O1. destruct (Z.lt_trichotomy c a) as [L|[->|L]].
      * exfalso. apply Hxf. symmetry. apply dS0k; [|now apply (dOccCol us)]. apply betw_iff; auto. split; auto. apply isBetween_sym. exists (nd d), (b + c)%Z, (a - c)%Z.
        split; auto using nd_in. split; [lia|]. split; [lia|]. split; [eapply off_add; [apply off_sym; exact O2|exact R]|eapply off_sub; eauto].
      * assert (x = s0) by (apply (off_fun from (nd d) a); auto). subst x. split; [|apply dSelf]. now rewrite (proj2 (N.eqb_neq _ _) Hxt).
      * exfalso. assert (Hsb : In s0 (betw from x)). { apply betw_iff; auto. split; auto. exists (nd d), a, (c - a)%Z. split; auto using nd_in. split; [lia|]. split; [lia|]. split; [auto|eapply off_sub; eauto]. }
        specialize (C s0 Hsb). rewrite Occ' in C. apply orb_false_iff in C as [_ C]. rewrite (dOccCol _ _ Sc) in C.
        rewrite (proj2 (N.eqb_neq from s0)) in C by (apply (dFromNe s0 a (nd d)); auto using nd_in). discriminate.
  - intros [Hxt C]. apply negb_true_iff, N.eqb_neq in Hxt. destruct (dShape x Hx (not_eq_sym Hxt) C) as (Cx & _ & (c & Hc & Px) & Ax & Clx).
    split; [split|].
    + right. exists c. split; auto. now apply off_sym.
    + rewrite clear_iff in *. intros y Hy. apply Clx. apply betw_iff in Hy as (Ly & e & a' & b' & He & Ha' & Hb' & P1 & P2); auto.
      assert (e = nd d /\ (a' + b' = c)%Z) as [-> E] by (apply (off_uniq from x); auto using nd_in; [lia|eapply off_add; eauto|now apply off_sym]).
      apply betw_iff; auto. split; auto. apply isBetween_sym. exists (nd d), (b + a')%Z, b'. split; auto. split; [lia|]. split; [lia|]. split; auto.
      eapply off_add; [apply off_sym; exact O2|exact P1].
    + unfold isCol in *. now rewrite Ax.
Qed.

Lemma disc_rank x : x < 81 -> snd d = 0%Z ->
  let X := (memN x (ray dE k) || memN x (ray dW k)) && clear (occOf bd') k x && (((ptOf (at_ bd' x) =? 6) || (ptOf (at_ bd' x) =? 14)) && isCol bd' us x) in
  (X = true -> chk bd' us k x = true) /\ (x <> to -> chk bd' us k x = true -> X = true).
Proof.
  intros Hx Hr X. split.
  - unfold X. rewrite !andb_true_iff, !orb_true_iff, !N.eqb_eq. intros [[R C] [P Hc]].
    unfold chk. rewrite Hc. unfold isCol in Hc. apply andb_prop in Hc as [Hc1 Hc2]. apply N.eqb_eq in Hc2.
    unfold att, attOcc. rewrite Hc1, Hc2. rewrite clear_sym, C by auto. rewrite andb_true_r.
    replace (ptOf (at_ bd' x) =? 8) with false by lia. cbn [negb andb].
    apply sreach_reach. unfold sreach, rayIn.
    assert (Sl : slidesOf (ptOf (at_ bd' x)) us = rookDirs) by (destruct P as [-> | ->]; reflexivity). rewrite Sl.
    apply existsb_exists. destruct R as [R|R]; rewrite memN_ray_sym in R by (auto; cbn; tauto).
    + exists (nd dE). split; [cbn; tauto|exact R].
    + exists (nd dW). split; [cbn; tauto|exact R].
  - intros Hxt C. destruct (dShape x Hx Hxt C) as (Cx & Sl & (c & Hc & Px) & Ax & Clx). unfold X.
    pose proof (dir_rank d Hd Hr) as Hdd.
    assert (M : memN x (ray (nd d) k) = true) by (apply memN_ray; auto using nd_in; exists (c + b)%Z; split; [lia|]; apply off_sym; eapply off_add; eauto).
    rewrite !andb_true_iff, !orb_true_iff, !N.eqb_eq. split; [split|split].
    + destruct Hdd as [<-|<-]; auto.
    + now rewrite clear_sym.
    + rewrite Ax. exact (slides_rank _ _ _ Sl Hr).
    + unfold isCol in *. now rewrite Ax.
Qed.
Lemma disc_diag x : x < 81 -> fst d <> 0%Z -> snd d <> 0%Z ->
  let X := existsb (fun e => memN x (ray e k)) bishopDirs && clear (occOf bd') k x && (((ptOf (at_ bd' x) =? 5) || (ptOf (at_ bd' x) =? 13)) && isCol bd' us x) in
  (X = true -> chk bd' us k x = true) /\ (x <> to -> chk bd' us k x = true -> X = true).
Proof.
  intros Hx Hr1 Hr2 X. split.
  - unfold X. rewrite !andb_true_iff, !orb_true_iff, !N.eqb_eq. intros [[R C] [P Hc]].
    unfold chk. rewrite Hc. unfold isCol in Hc. apply andb_prop in Hc as [Hc1 Hc2]. apply N.eqb_eq in Hc2.
    unfold att, attOcc. rewrite Hc1, Hc2. rewrite clear_sym, C by auto. rewrite andb_true_r.
    replace (ptOf (at_ bd' x) =? 8) with false by lia. cbn [negb andb].
    apply sreach_reach. unfold sreach, rayIn.
    assert (Sl : slidesOf (ptOf (at_ bd' x)) us = bishopDirs) by (destruct P as [-> | ->]; reflexivity). rewrite Sl.
    apply existsb_exists in R as (e & He & R). rewrite memN_ray_sym in R by (auto; unfold allDirs; apply in_or_app; now right).
    apply existsb_exists. exists (nd e). split; [|exact R].
    now apply bishop_nd.
  - intros Hxt C. destruct (dShape x Hx Hxt C) as (Cx & Sl & (c & Hc & Px) & Ax & Clx). unfold X.
    pose proof (dir_diag d Hd Hr1 Hr2) as Hdd.
    assert (M : memN x (ray (nd d) k) = true) by (apply memN_ray; auto using nd_in; exists (c + b)%Z; split; [lia|]; apply off_sym; eapply off_add; eauto).
    rewrite !andb_true_iff, !orb_true_iff, !N.eqb_eq. split; [split|split].
    + apply existsb_exists. eauto.
    + now rewrite clear_sym.
    + rewrite Ax. exact (slides_diag _ _ _ Sl Hr1 Hr2).
    + unfold isCol in *. now rewrite Ax.
Qed.
End D.

(* the checkers stored by a board move that gives check *)
Definition goChkBB (us from to ksq ptTo : N) (ci : CheckInfo) (bt bc : list BB) : BB :=
  let occ := nthN allZeroBB bt Occupied in
  let direct := bbAnd (checkBB ci ptTo) (setMaskBB to) in
  if isDiscoveredCheck from to ksq (ciDc ci) then
    if squareRelation from ksq =? DirecFile then bbOr direct (bbAnd (rookAttackFile from occ) (nthN allZeroBB bc us))
    else if squareRelation from ksq =? DirecRank then
      bbOr direct (bbAnd (rookAttackRank ksq occ) (bbAnd (bbOr (nthN allZeroBB bt Rook) (nthN allZeroBB bt Dragon)) (nthN allZeroBB bc us)))
    else if (squareRelation from ksq =? DirecDiagNESW) || (squareRelation from ksq =? DirecDiagNWSE) then
      bbOr direct (bbAnd (bishopAttack ksq occ) (bbAnd (bbOr (nthN allZeroBB bt Bishop) (nthN allZeroBB bt Horse)) (nthN allZeroBB bc us)))
    else direct
  else direct.
Lemma doMoveCI_checkers z p m ci b : let q := doMoveCI z p m ci b in
  checkersBB (st q) = if b then
     (if mvDrop m then setMaskBB (mvTo m)
      else goChkBB (turn p) (mvFrom m) (mvTo m) (nthN 0 (kingSq q) (opp (turn p))) (mvPtToOf m (mvPtFrom m)) ci (byType q) (byColor q))
  else allZeroBB.
Proof. cbv zeta. unfold doMoveCI, goChkBB. destruct (mvDrop m); destruct b; reflexivity. Qed.

Section E.
Variables (p q : Position) (m us k : N) (bd bd' : list N).
Hypotheses (V : views p) (W : wfMove p m) (G0 : pseudoGo p m) (S0 : oppSafe p).
Hypotheses (Eus : turn p = us) (Ebd : board p = bd) (Ebd' : newBoard p m = bd') (Ek : kingOf bd (opp us) = k).
Hypotheses (Vq : views q) (Eq : board q = bd').

Lemma eUs : us < 2. Proof. rewrite <- Eus. apply V. Qed.
Lemma eOcc x : x < 81 -> isSet (nthN allZeroBB (byType q) Occupied) x = occOf bd' x.
Proof. intros Hx. rewrite view_isPt by (auto; unfold Occupied; lia). now rewrite Eq. Qed.
Lemma eCol c x : c < 2 -> x < 81 -> isSet (nthN allZeroBB (byColor q) c) x = isCol bd' c x.
Proof. intros Hc Hx. rewrite view_isCol by auto. now rewrite Eq. Qed.
Lemma eT j x : 1 <= j < 15 -> x < 81 -> isSet (nthN allZeroBB (byType q) j) x = (ptOf (at_ bd' x) =? j).
Proof. intros Hj Hx. rewrite view_isPt by (auto; lia). unfold isPt. rewrite Eq. now replace (j =? 0) with false by lia. Qed.
Lemma eClear s x : s < 81 -> x < 81 -> clear (isSet (nthN allZeroBB (byType q) Occupied)) s x = clear (occOf bd') s x.
Proof. intros Hs Hx. apply clear_ext. intros y Hy. now apply eOcc. Qed.

Lemma wf_goChkBB : wfGo p m -> wfBB (goChkBB us (mvFrom m) (mvTo m) k (mvPtToOf m (mvPtFrom m)) (checkInfo p) (byType q) (byColor q)).
Proof.
  intros X. pose proof eUs as Hu. assert (Hto : mvTo m < 81) by (destruct X as (_ & _ & H & _); exact H).
  unfold goChkBB. cbv zeta. assert (D : forall a, wfBB (bbAnd a (setMaskBB (mvTo m)))) by (intros a; now apply wf_and_r, wf_mask).
  assert (C : forall a, wfBB (bbAnd a (nthN allZeroBB (byColor q) us))) by (intros a; apply wf_and_r; now apply view_wfC).
  repeat match goal with |- wfBB (if ?b then _ else _) => destruct b end; repeat apply wf_or; auto; now apply wf_and_r.
Qed.
Lemma isSet_goChkBB x : wfGo p m -> k < 81 -> x < 81 ->
  isSet (goChkBB us (mvFrom m) (mvTo m) k (mvPtToOf m (mvPtFrom m)) (checkInfo p) (byType q) (byColor q)) x = chk bd' us k x.
Proof.
  intros X Hk Hx. pose proof eUs as Hu. pose proof (wfGo_from p m X) as Hf. assert (Hto : mvTo m < 81) by (destruct X as (_ & _ & H & _); exact H).
  pose proof (go_disc p m us k bd bd' V W G0 S0 Eus Ebd Ebd' Ek X Hk) as GD.
  pose proof (go_chk_to p m us k bd bd' V S0 Eus Ebd Ebd' Ek X Hk) as GT.
  pose proof (fun x => go_chk_other p m us k bd bd' V S0 Eus Ebd Ebd' Ek x X Hk) as GO.
  pose proof (fun x => go_align p m us k bd V W G0 Eus Ebd Ek x X Hk) as GA.
  pose proof (fun y => go_occ p m us bd bd' V Eus Ebd Ebd' y X) as GOcc.
  assert (GAt : forall y, y <> mvTo m -> y <> mvFrom m -> at_ bd' y = at_ bd y).
  { intros y H1 H2. rewrite (nG p m us bd bd' V Eus Ebd Ebd' y X). rewrite (proj2 (N.eqb_neq _ _) (not_eq_sym H1)), (proj2 (N.eqb_neq _ _) (not_eq_sym H2)). reflexivity. }
  assert (Kc : isCol bd (opp us) k = true).
  { unfold isCol. rewrite <- Ek. rewrite (king_at p us k bd Eus Ek) by (auto using opp_lt; rewrite Ek; auto).
    rewrite mk_nz, col_mk, N.eqb_refl by (auto using opp_lt; unfold King; lia). reflexivity. }
  assert (Dir : isSet (bbAnd (checkBB (checkInfo p) (mvPtToOf m (mvPtFrom m))) (setMaskBB (mvTo m))) x = (mvTo m =? x) && chk bd' us k x).
  { rewrite isSet_and, isSet_mask by auto. destruct (N.eqb_spec (mvTo m) x) as [<-|]; [|now rewrite andb_false_r]. now rewrite GT, andb_true_r. }
  unfold goChkBB. cbv zeta. destruct (isDiscoveredCheck (mvFrom m) (mvTo m) k (ciDc (checkInfo p))) eqn:ED.
  - symmetry in GD. apply existsb_exists in GD as (s0 & Hs0 & GD). apply in_squares in Hs0. apply andb_prop in GD as [Hs0t GD].
    apply negb_true_iff, N.eqb_neq in Hs0t. rewrite GO in GD by auto. apply andb_prop in GD as [Hid0 GD]. assert (H0 := Hid0).
    unfold hid in H0. rewrite !andb_true_iff in H0. destruct H0 as [[Sc _] So].
    assert (Hb := So). unfold sole in Hb. rewrite !andb_true_iff in Hb. destruct Hb as [[Hb _] _].
    apply memN_betw in Hb as (d & a & b & Hd & Ha & Hb & O1 & O2); auto.
    assert (Nal : isAligned (mvFrom m) (mvTo m) k = false) by (unfold isDiscoveredCheck in ED; apply andb_prop in ED as [_ ED]; now apply negb_true_iff).
    rewrite (rel_off (mvFrom m) d b k) by auto. unfold relOf.
    destruct (Z.eqb_spec (fst d) 0) as [Hfz|Hfz].
    + change (DirecFile =? DirecFile) with true. cbv iota. rewrite isSet_or, Dir, isSet_and, isSet_rookAttackFile, eCol by auto.
      rewrite eClear by auto. rewrite (disc_file (mvFrom m) (mvTo m) us k s0 bd bd' d a b) by auto.
      destruct (mvTo m =? x), (chk bd' us k x); reflexivity.
    + destruct (Z.eqb_spec (snd d) 0) as [Hsz|Hsz].
      * change (DirecRank =? DirecFile) with false. change (DirecRank =? DirecRank) with true. cbv iota.
        rewrite isSet_or, Dir, !isSet_and, isSet_or, isSet_rookAttackRank, eCol by auto. rewrite eClear by auto. rewrite !eT by (auto; unfold Rook, Dragon; lia).
        pose proof (disc_rank (mvFrom m) (mvTo m) us k s0 bd bd' d b Hf Hto Hu Hk Hs0 Hd Hb O2 GOcc GAt GO GA x Hx Hsz) as R. cbv zeta in R.
        unfold Rook, Dragon. revert R. generalize ((memN x (ray dE k) || memN x (ray dW k)) && clear (occOf bd') k x && (((ptOf (at_ bd' x) =? 6) || (ptOf (at_ bd' x) =? 14)) && isCol bd' us x)) as u.
        generalize (chk bd' us k x) as w. intros w u [R1 R2]. destruct (N.eqb_spec (mvTo m) x) as [E|E]; destruct u, w; try reflexivity; exfalso;
        try (specialize (R1 eq_refl); discriminate); specialize (R2 (not_eq_sym E) eq_refl); discriminate.
      * assert (HD : (if (fst d =? snd d)%Z then DirecDiagNESW else DirecDiagNWSE) = DirecDiagNESW \/ (if (fst d =? snd d)%Z then DirecDiagNESW else DirecDiagNWSE) = DirecDiagNWSE) by (destruct (fst d =? snd d)%Z; auto).
        assert (E3 : forall T (A B C D : T), (if (if (fst d =? snd d)%Z then DirecDiagNESW else DirecDiagNWSE) =? DirecFile then A else
           if (if (fst d =? snd d)%Z then DirecDiagNESW else DirecDiagNWSE) =? DirecRank then B else
           if ((if (fst d =? snd d)%Z then DirecDiagNESW else DirecDiagNWSE) =? DirecDiagNESW) || ((if (fst d =? snd d)%Z then DirecDiagNESW else DirecDiagNWSE) =? DirecDiagNWSE) then C else D) = C)
          by (intros; destruct HD as [-> | ->]; reflexivity).
        rewrite E3. clear E3 HD.
        rewrite isSet_or, Dir, !isSet_and, isSet_or, isSet_bishopAttack, eCol by auto. rewrite eClear by auto. rewrite !eT by (auto; unfold Bishop, Horse; lia).
        pose proof (disc_diag (mvFrom m) (mvTo m) us k s0 bd bd' d b Hf Hto Hu Hk Hs0 Hd Hb O2 GOcc GAt GO GA x Hx Hfz Hsz) as R. cbv zeta in R.
        unfold Bishop, Horse. revert R. generalize (existsb (fun e : dir => memN x (ray e k)) bishopDirs && clear (occOf bd') k x && (((ptOf (at_ bd' x) =? 5) || (ptOf (at_ bd' x) =? 13)) && isCol bd' us x)) as u.
        generalize (chk bd' us k x) as w. intros w u [R1 R2]. destruct (N.eqb_spec (mvTo m) x) as [E|E]; destruct u, w; try reflexivity; exfalso;
        try (specialize (R1 eq_refl); discriminate); specialize (R2 (not_eq_sym E) eq_refl); discriminate.
  - rewrite Dir. destruct (N.eqb_spec (mvTo m) x) as [|E]; [reflexivity|]. cbn [andb]. symmetry in GD.
    destruct (chk bd' us k x) eqn:C; [|reflexivity]. exfalso. assert (T : existsb (fun x : N => negb (mvTo m =? x) && chk bd' us k x) squares = true).
    { apply existsb_exists. exists x. split; [now apply in_squares|]. rewrite (proj2 (N.eqb_neq _ _) E), C. reflexivity. }
    rewrite T in GD. discriminate.
Qed.
End E.

(* after doMove, the stored checkers are those computed from scratch *)
Theorem checkers_doMove z p m : views p -> oneKing (board p) -> wfMove p m -> pseudoGo p m -> oppSafe p ->
  checkersBB (st (doMove z p m)) = findCheckersBB (doMove z p m).
Proof.
  intros V O W G S. unfold doMove. cbv zeta. set (b := moveGivesCheck p m (checkInfo p)).
  pose proof (views_doMoveCI z p m (checkInfo p) b V O W) as [Vq _].
  pose proof (doMoveCI_checkers z p m (checkInfo p) b) as Ck. cbv zeta in Ck.
  pose proof (doMoveCI_board z p m (checkInfo p) b) as Eb. pose proof (doMoveCI_turn z p m (checkInfo p) b) as Et.
  pose proof (isSet_findCheckers (doMoveCI z p m (checkInfo p) b)) as IS. pose proof (wf_findCheckers _ Vq) as WF.
  pose proof (givesCheck_exact p m (turn p) _ (board p) _ V W G S eq_refl eq_refl eq_refl eq_refl) as GE. fold b in GE.
  pose proof (king_same p m (turn p) _ (board p) _ V W eq_refl eq_refl eq_refl eq_refl) as KS.
  pose proof (kingSquare_view _ (opp (turn p)) Vq (opp_lt _ (v_turn p V))) as KV. unfold kingSquare in KV. rewrite Eb, KS in KV.
  rewrite KV in Ck. rewrite Ck. clear Ck KV. revert Vq Eb Et IS WF. generalize (doMoveCI z p m (checkInfo p) b) as q. intros q Vq Eb Et IS WF.
  pose proof (v_turn p V) as Hu.
  assert (IS' : forall x, x < 81 -> isSet (findCheckersBB q) x = (kingOf (board p) (opp (turn p)) <? 81) && chk (newBoard p m) (turn p) (kingOf (board p) (opp (turn p))) x).
  { intros x Hx. rewrite IS by auto. rewrite Eb, Et, KS, opp_opp by auto. reflexivity. }
  clear IS. remember (kingOf (board p) (opp (turn p))) as k eqn:Ek. symmetry in Ek. remember (board p) as bd eqn:Ebd. symmetry in Ebd.
  remember (newBoard p m) as bd' eqn:Ebd'. symmetry in Ebd'. remember (turn p) as us eqn:Eus. symmetry in Eus.
  destruct (N.ltb_spec k 81) as [Hk|Hk]; cbn [andb] in *.
  2:{ rewrite GE. apply BB_ext; [apply wf_zero|exact WF|]. intros x Hx. now rewrite isSet_zero, IS'. }
  destruct b eqn:Eb0.
  - assert (W0 := W). destruct W0 as [X|X]; pose proof X as (Hd & _); rewrite Hd.
    + assert (Hto : mvTo m < 81) by (destruct X as (_ & _ & H & _); exact H). apply BB_ext; [now apply wf_mask|exact WF|]. intros x Hx. rewrite isSet_mask, IS' by auto.
      pose proof (fun x => drop_chk p m us k bd bd' V S Eus Ebd Ebd' Ek x X Hk) as DC. rewrite DC by auto.
      symmetry in GE. apply existsb_exists in GE as (y & Hy & GE). apply in_squares in Hy. rewrite DC in GE by auto. apply andb_prop in GE as [_ GE]. now rewrite GE, andb_true_r.
    + apply BB_ext; [apply wf_goChkBB; auto|exact WF|]. intros x Hx. rewrite IS' by auto. apply isSet_goChkBB with (bd := bd); auto.
  - apply BB_ext; [apply wf_zero|exact WF|]. intros x Hx. rewrite isSet_zero, IS' by auto. symmetry in GE.
    destruct (chk bd' us k x) eqn:C; [|reflexivity]. assert (T : existsb (chk bd' us k) squares = true) by (apply existsb_exists; exists x; split; [now apply in_squares|exact C]).
    rewrite T in GE. discriminate.
Qed.
