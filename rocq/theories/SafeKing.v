(* King moves: the squares barred by makeBannedKingTo and the attack test on the target are exact. *)
From Verif Require Export SafeN Gen.
Local Open Scope N_scope.

Lemma attOcc_self bd occ t : vpc (at_ bd t) = true -> t < 81 -> attOcc bd occ t t = false.
Proof.
  intros Vt Ht. apply not_true_is_false. intros A. unfold attOcc in A. apply andb_prop in A as [A0 R]. apply andb_prop in R as [R _].
  apply negb_true_iff, N.eqb_neq in A0. destruct (vpc_facts _ Vt A0) as (P & C & _). rewrite reach_eq in R. apply orb_prop in R as [R|R].
  - unfold stepIn in R. apply existsb_exists in R as (d & Hd & R). apply stepHits_iff in R; auto. apply (steps_incl _ _ C P) in Hd.
    apply stepDir_cases in Hd as [Hd|Hd]; [now apply off_neq in R|]. destruct R. lia.
  - apply sreach_iff in R as (d & k & Hd & Hk & R); auto. apply off_neq in R; auto. now apply slides_allDirs in Hd.
Qed.
Lemma isAny_attackers p c sq occ : views p -> c < 2 -> sq < 81 ->
  attackersToIsAny p c sq occ = existsb (fun x => isCol (board p) c x && attOcc (board p) (isSet occ) x sq) squares.
Proof.
  intros V Hc Hq. unfold attackersToIsAny.
  assert (WF : wfBB (attackersTo p c sq occ)) by (unfold attackersTo; cbv zeta; apply wf_and_r; now apply wf_bbC).
  rewrite isAny_spec by exact WF. apply existsb_ext_in. intros x Hx. apply in_squares in Hx. rewrite isSet_attackersTo by auto.
  unfold isCol, attOcc. change (at_ (board p) x) with (pieceAt p x). destruct (pieceAt p x =? 0); cbn [negb andb]; [now rewrite andb_false_r|reflexivity].
Qed.
(* sliding over a square reaches that square too *)
Lemma sreach_prefix pt c s x t : s < 81 -> x < 81 -> t < 81 -> sreach pt c s t = true -> isBetween s x t -> sreach pt c s x = true.
Proof.
  intros Hs Hx Ht H (e & a & b & He & Ha & Hb & O1 & O2). apply sreach_iff in H as (d & k & Hd & Hk & O); auto.
  assert (d = e /\ (k = a + b)%Z) as [<- _] by (apply (off_uniq s t); auto; try lia; [now apply slides_allDirs in Hd|eapply off_add; eauto]).
  apply sreach_iff; auto. eauto.
Qed.
Lemma between_prefix x y k t : y < 81 -> isBetween x y k -> isBetween x k t -> x < 81 -> k < 81 -> t < 81 -> isBetween x y t.
Proof.
  intros Hy (d & a & b & Hd & Ha & Hb & O1 & O2) (e & a' & b' & He & Ha' & Hb' & O3 & O4) Hx Hk Ht.
  assert (d = e /\ (a + b = a')%Z) as [<- _] by (apply (off_uniq x k); auto; try lia; eapply off_add; eauto).
  exists d, a, (b + b')%Z. repeat split; auto; try lia; try apply O1; eapply off_add; eauto.
Qed.
(* a slider whose only obstacle on the way to t is the king on k attacks k *)
Lemma xray_checks bd x k t : x < 81 -> k < 81 -> t < 81 -> at_ bd x <> 0 ->
  sreach (ptOf (at_ bd x)) (colorOf (at_ bd x)) x t = true -> sole (occOf bd) x t k = true -> att bd x k = true /\ sreach (ptOf (at_ bd x)) (colorOf (at_ bd x)) x k = true.
Proof.
  intros Hx Hk Ht H0 R S. assert (S0 := S). unfold sole in S. rewrite !andb_true_iff in S. destruct S as [[S _] _]. apply memN_betw in S; auto.
  assert (R' : sreach (ptOf (at_ bd x)) (colorOf (at_ bd x)) x k = true) by now apply (sreach_prefix _ _ _ k t). split; auto.
  unfold att, attOcc. rewrite (proj2 (N.eqb_neq _ _) H0), (sreach_reach _ _ _ _ R'). cbn [negb andb]. apply clear_iff. intros y Hy.
  destruct (occOf bd y) eqn:Oy; [|reflexivity]. exfalso. pose proof (proj2 (betw_ends x k Hx Hk)) as NE. assert (Hy' := Hy). apply betw_iff in Hy' as [Ly By]; auto.
  assert (y = k); [|subst y; contradiction]. apply (sole_other _ _ _ _ _ S0); auto. apply memN_betw; auto. now apply (between_prefix x y k t).
Qed.

Lemma unit_off x d a y : In d allDirs -> off x d a y -> (Z.abs (fz y - fz x) <= Z.abs a /\ Z.abs (rz y - rz x) <= Z.abs a)%Z.
Proof. intros Hd [F R]. dcase d Hd; lia. Qed.
Lemma rook_dir d : In d rookDirs <-> In d allDirs /\ (fst d = 0 \/ snd d = 0)%Z.
Proof.
  unfold allDirs. rewrite in_app_iff. split.
  - intros H. split; auto. cbn in H. repeat (destruct H as [<-|H]); try destruct H; cbn; auto.
  - intros [[H|H] E]; auto. exfalso. cbn in H. repeat (destruct H as [<-|H]); try destruct H; cbn in E; lia.
Qed.
Lemma bishop_dir d : In d bishopDirs <-> In d allDirs /\ (fst d <> 0 /\ snd d <> 0)%Z.
Proof.
  unfold allDirs. rewrite in_app_iff. split.
  - intros H. split; auto. cbn in H. repeat (destruct H as [<-|H]); try destruct H; cbn; split; lia.
  - intros [[H|H] E]; auto. exfalso. cbn in H. repeat (destruct H as [<-|H]); try destruct H; cbn in E; lia.
Qed.
(* t and k stand next to each other and lie on rays from x *)
Lemma ray_adj x d i t e j k : In d allDirs -> In e allDirs -> (1 <= i)%Z -> (1 <= j)%Z -> off x d i t -> off x e j k ->
  (Z.abs (fz t - fz k) <= 1)%Z -> (Z.abs (rz t - rz k) <= 1)%Z -> d = e \/ In d bishopDirs \/ In e rookDirs ->
  i = 1%Z \/ d = e /\ (i <= j + 1)%Z.
Proof.
  intros Hd He Hi Hj [F R] [F' R'] A B C. destruct (dir_dec d e) as [->|N].
  - right. split; auto. revert A B. rewrite F, R, F', R'. dcase e He; lia.
  - left. assert (C' : (fst d <> 0 /\ snd d <> 0)%Z \/ (fst e = 0 \/ snd e = 0)%Z).
    { destruct C as [->|[C|C]]; [contradiction|left; now apply bishop_dir|right; now apply rook_dir]. }
    assert (N' : (fst d <> fst e \/ snd d <> snd e)%Z) by (destruct (Z.eq_dec (fst d) (fst e)); [right|left]; auto; intros Q; apply N; now apply dir_eq).
    clear C N. revert A B. rewrite F, R, F', R'. dcase d Hd; dcase e He; lia.
Qed.
Lemma adj_N c k t : c < 2 -> k < 81 -> t < 81 -> reach 8 c k t = true -> (Z.abs (fz t - fz k) <= 1)%Z /\ (Z.abs (rz t - rz k) <= 1)%Z /\ t <> k.
Proof.
  intros Hc Hk Ht R. rewrite reach_eq in R. apply orb_prop in R as [R|R]; [|discriminate R].
  unfold stepIn in R. apply existsb_exists in R as (d & Hd & R). apply stepHits_iff in R; auto. cbn [stepsOf] in Hd. pose proof (unit_off k d 1 t Hd R) as [A B].
  split; [lia|]. split; [lia|]. intros ->. now apply off_neq in R.
Qed.
Lemma ray_clear bd x d i t e j k : In d allDirs -> In e allDirs -> (1 <= i)%Z -> (1 <= j)%Z -> x < 81 -> t < 81 -> k < 81 -> t <> k ->
  off x d i t -> off x e j k -> (i = 1 \/ d = e /\ i <= j + 1)%Z -> clear (occOf bd) x k = true -> clear (occGo bd k t) x t = true.
Proof.
  intros Hd He Hi Hj Hx Ht Hk Hne O1 O2 C Cl. rewrite clear_iff in *. intros y Hy. assert (Hy0 := Hy). apply betw_iff in Hy as (Ly & d' & a & b & Hd' & Ha & Hb & Q1 & Q2); auto.
  assert (d = d' /\ (i = a + b)%Z) as [<- Ei] by (apply (off_uniq x t); auto; try lia; eapply off_add; eauto).
  destruct C as [C|[<- C]]; [lia|]. unfold occGo. apply orb_false_iff. split.
  - apply N.eqb_neq. intros <-. now apply (proj2 (betw_ends x t Hx Ht)).
  - destruct (N.eqb_spec k y) as [E|E]; [reflexivity|]. cbn [negb andb]. destruct (Z.eq_dec a j) as [->|Na]; [exfalso; apply E; now apply (off_fun x d j)|].
    apply Cl. apply betw_iff; auto. split; auto. exists d, a, (j - a)%Z. repeat split; auto; try lia; try apply Q1; apply (off_sub x d a y j k); auto.
Qed.
Lemma toEdge pt c x t : c < 2 -> 1 <= pt < 15 -> x < 81 -> t < 81 -> isSet (attacksFrom pt c x allZeroBB) t = reach pt c x t.
Proof.
  intros Hc Hp Hx Ht. rewrite attacksFrom_spec by auto. replace (clear (isSet allZeroBB) x t) with true; [apply andb_true_r|]. symmetry. apply clear_iff. intros y _. apply isSet_zero.
Qed.
Lemma stepAtt pt c x t occ (f : N -> bool) : c < 2 -> 1 <= pt < 15 -> x < 81 -> t < 81 -> slidesOf pt c = [] -> isSet (attacksFrom pt c x occ) t = reach pt c x t && clear f x t.
Proof.
  intros Hc Hp Hx Ht E. rewrite attacksFrom_spec by auto. rewrite reach_eq, E. cbn [rayIn existsb]. rewrite orb_false_r. now rewrite <- !step_clear_eq by auto.
Qed.
(* squares from which a checker bars the king are squares it attacks once the king has gone there *)
Lemma reach_dir pt c x k : c < 2 -> x < 81 -> k < 81 -> 1 <= pt < 15 -> pt <> 3 -> reach pt c x k = true -> exists e j, In e allDirs /\ (1 <= j)%Z /\ off x e j k.
Proof.
  intros Hc Hx Hk Hp H3 R. rewrite reach_eq in R. apply orb_prop in R as [R|R].
  - unfold stepIn in R. apply existsb_exists in R as (d & Hd & R). apply stepHits_iff in R; auto. exists d, 1%Z. split; [|split; [lia|exact R]].
    clear R. unfold stepsOf in Hd. cbv zeta in Hd. assert (c = 0 \/ c = 1) as [-> | ->] by lia;
    destruct (pt_cases pt Hp) as [->|[->|[->|[->|[->|[->|[->|[->|[->|[->|[->|[->|[->| ->]]]]]]]]]]]]]; try contradiction; cbn in Hd; cbn;
      repeat (destruct Hd as [<-|Hd]); try destruct Hd; auto 10.
  - apply sreach_iff in R as (d & j & Hd & Hj & O); auto. exists d, j. split; auto. now apply slides_allDirs in Hd.
Qed.
Lemma sreach5 c x t : sreach 5 c x t = reach 5 c x t. Proof. reflexivity. Qed.
Lemma sreach6 c x t : sreach 6 c x t = reach 6 c x t. Proof. reflexivity. Qed.
Lemma sreach2 c x t : sreach 2 c x t = reach 2 c x t. Proof. reflexivity. Qed.
Lemma ban_slide bd c x k t pt (q : N) : c < 2 -> x < 81 -> t < 81 -> k < 81 -> 1 <= pt < 15 -> pt <> 3 -> reach 8 c k t = true -> reach pt c x k = true -> clear (occOf bd) x k = true ->
  sreach q c x t = true -> (forall d e j, In d (slidesOf q c) -> In e allDirs -> (1 <= j)%Z -> off x e j k -> d = e \/ In d bishopDirs \/ In e rookDirs) ->
  clear (occGo bd k t) x t = true.
Proof.
  intros Hc Hx Ht Hk Hp H3 Ad R Cl S D. destruct (adj_N c k t Hc Hk Ht Ad) as (A1 & A2 & A3). destruct (reach_dir pt c x k Hc Hx Hk Hp H3 R) as (e & j & He & Hj & O2).
  apply sreach_iff in S as (d & i & Hd & Hi & O1); auto. assert (Hd' : In d allDirs) by now apply slides_allDirs in Hd.
  apply (ray_clear bd x d i t e j k); auto. apply (ray_adj x d i t e j k); eauto.
Qed.
Lemma ban_sound p us x k t : views p -> us < 2 -> x < 81 -> k < 81 -> t < 81 -> isCol (board p) (opp us) x = true -> att (board p) x k = true ->
  reach 8 us k t = true -> isSet (bannedBy p (opp us) x k) t = true -> attOcc (board p) (occGo (board p) k t) x t = true.
Proof.
  intros V Hu Hx Hk Ht Cx A Ad B. pose proof (opp_lt us Hu) as Hc. set (bd := board p) in *. unfold isCol in Cx. apply andb_prop in Cx as [C0 C1]. apply N.eqb_eq in C1.
  unfold att, attOcc in A. rewrite C0, C1, andb_true_l in A. apply andb_prop in A as [R Cl]. unfold attOcc. rewrite C0, C1, andb_true_l.
  assert (Hp : 1 <= ptOf (at_ bd x) < 15) by (apply negb_true_iff, N.eqb_neq in C0; apply (vpc_facts (at_ bd x) (proj2 (v_board p V) x Hx) C0)).
  assert (Ad' : reach 8 (opp us) k t = true) by (rewrite <- Ad; reflexivity). unfold bannedBy in B. change (pieceAt p x) with (at_ bd x) in B.
  assert (SL : forall q, sreach q (opp us) x t = true -> (forall d e j, In d (slidesOf q (opp us)) -> In e allDirs -> (1 <= j)%Z -> off x e j k -> d = e \/ In d bishopDirs \/ In e rookDirs) ->
     ptOf (at_ bd x) <> 3 -> clear (occGo bd k t) x t = true) by (intros q S D H3; apply (ban_slide bd (opp us) x k t (ptOf (at_ bd x)) q); auto).
  destruct (reach_unions (opp us) x t Hc Hx Ht) as (_ & _ & _ & U13 & U14).
  assert (GO : forall q, isGoldPt q = true -> ptOf (at_ bd x) = q -> isSet (goldAttack (opp us) x) t = true -> reach q (opp us) x t && clear (occGo bd k t) x t = true).
  { intros q Gq _ S. rewrite (reach_gold _ _ _ q Gq). rewrite <- (af7 (opp us) x allZeroBB) in S. rewrite (stepAtt 7 (opp us) x t allZeroBB (occGo bd k t)) in S by (auto; lia). exact S. }
  assert (KA : isSet (kingAttack x) t = true -> reach 8 (opp us) x t && clear (occGo bd k t) x t = true).
  { intros S. rewrite <- (af8 (opp us) x allZeroBB) in S. rewrite (stepAtt 8 (opp us) x t allZeroBB (occGo bd k t)) in S by (auto; lia). exact S. }
  destruct (pt_cases _ Hp) as [E|[E|[E|[E|[E|[E|[E|[E|[E|[E|[E|[E|[E|E]]]]]]]]]]]]]; rewrite E in *; cbv iota in B.
  - rewrite isSet_zero in B. discriminate.
  - unfold lanceAttackToEdge in B. rewrite <- af2, toEdge in B by (auto; lia). rewrite B, andb_true_l. apply (SL 2); auto; [|lia].
    intros d e j Hd He Hj O. left. destruct Hd as [<-|[]]. rewrite <- sreach2 in R. apply sreach_iff in R as (e' & j' & He' & Hj' & O'); auto. destruct He' as [<-|[]].
    apply (off_uniq x k (0, fwd (opp us))%Z e j' j); auto. assert (opp us = 0 \/ opp us = 1) as [-> | ->] by lia; cbn; auto 10.
  - rewrite isSet_zero in B. discriminate.
  - rewrite <- (af4 (opp us) x allZeroBB) in B. rewrite (stepAtt 4 (opp us) x t allZeroBB (occGo bd k t)) in B by (auto; lia). exact B.
  - unfold bishopAttackToEdge in B. rewrite <- (af5 (opp us)), toEdge in B by (auto; lia). rewrite B, andb_true_l. apply (SL 5); auto; lia.
  - unfold rookAttackToEdge in B. rewrite <- (af6 (opp us)), toEdge in B by (auto; lia). rewrite B, andb_true_l. apply (SL 6); auto; [|lia].
    intros d e j Hd He Hj O. right. right. rewrite <- sreach6 in R. apply sreach_iff in R as (e' & j' & He' & Hj' & O'); auto.
    assert (e' = e /\ j' = j) as [-> _] by (apply (off_uniq x k); auto; now apply slides_allDirs in He'). exact He'.
  - now apply GO.
  - rewrite isSet_zero in B. discriminate.
  - now apply GO.
  - now apply GO.
  - now apply GO.
  - now apply GO.
  - unfold horseAttackToEdge in B. rewrite isSet_or in B. apply orb_prop in B as [B|B].
    + unfold bishopAttackToEdge in B. rewrite <- (af5 (opp us)), toEdge in B by (auto; lia). rewrite U13, B, orb_true_r, andb_true_l. apply (SL 5); auto; lia.
    + apply KA in B. rewrite U13. apply andb_prop in B as [B1 B2]. now rewrite B1, B2.
  - destruct (negb (N.land (squareRelation x k) DirecDiag =? 0)) eqn:DG.
    + unfold dragonAttack in B. rewrite isSet_or in B. rewrite <- (af6 (opp us)), <- (af8 (opp us) x allZeroBB) in B. apply orb_prop in B as [B|B].
      * rewrite attacksFrom_spec in B by (auto; lia). apply andb_prop in B as [B1 B2]. rewrite U14, B1, orb_true_r, andb_true_l. rewrite clear_iff in *. intros y Hy.
        specialize (B2 y Hy). assert (Ly : y < 81) by (apply betw_iff in Hy; tauto). rewrite isSet_occBB in B2 by auto. unfold occGo, occOf. change (at_ bd y) with (pieceAt p y). rewrite B2, andb_false_r, orb_false_r.
        apply N.eqb_neq. intros <-. now apply (proj2 (betw_ends x t Hx Ht)).
      * rewrite af8 in B. apply KA in B. rewrite U14. apply andb_prop in B as [B1 B2]. now rewrite B1, B2.
    + unfold dragonAttackToEdge in B. rewrite isSet_or in B. apply orb_prop in B as [B|B].
      * unfold rookAttackToEdge in B. rewrite <- (af6 (opp us)), toEdge in B by (auto; lia). rewrite U14, B, orb_true_r, andb_true_l. apply (SL 6); auto; [|lia].
        intros d e j Hd He Hj O. right. right. rewrite (rel_off x e j k) in DG by auto. clear - DG He. cbn in He.
        repeat (destruct He as [<-|He]); try destruct He; cbn; auto 10; vm_compute in DG; discriminate DG.
      * apply KA in B. rewrite U14. apply andb_prop in B as [B1 B2]. now rewrite B1, B2.
Qed.
(* a checker that attacks t through the king bars t *)
Lemma ban_complete p us x k t : views p -> us < 2 -> x < 81 -> k < 81 -> t < 81 -> isCol (board p) (opp us) x = true ->
  sreach (ptOf (at_ (board p) x)) (opp us) x t = true -> sreach (ptOf (at_ (board p) x)) (opp us) x k = true -> isSet (bannedBy p (opp us) x k) t = true.
Proof.
  intros V Hu Hx Hk Ht Cx S Sk. pose proof (opp_lt us Hu) as Hc. unfold bannedBy. change (pieceAt p x) with (at_ (board p) x).
  unfold isCol in Cx. apply andb_prop in Cx as [C0 _].
  assert (Hp : 1 <= ptOf (at_ (board p) x) < 15) by (apply negb_true_iff, N.eqb_neq in C0; apply (vpc_facts _ (proj2 (v_board p V) x Hx) C0)).
  destruct (pt_cases _ Hp) as [E|[E|[E|[E|[E|[E|[E|[E|[E|[E|[E|[E|[E|E]]]]]]]]]]]]]; rewrite E in *; try discriminate S; cbv iota.
  - unfold lanceAttackToEdge. rewrite <- af2, toEdge by (auto; lia). exact S.
  - unfold bishopAttackToEdge. rewrite <- (af5 (opp us)), toEdge by (auto; lia). exact S.
  - unfold rookAttackToEdge. rewrite <- (af6 (opp us)), toEdge by (auto; lia). exact S.
  - unfold horseAttackToEdge, bishopAttackToEdge. rewrite isSet_or, <- (af5 (opp us)), toEdge by (auto; lia). rewrite <- sreach5. change (sreach 13 (opp us) x t) with (sreach 5 (opp us) x t) in S. now rewrite S.
  - apply sreach_iff in Sk as (e & j & He & Hj & O); auto. rewrite (rel_off x e j k) by (auto; now apply slides_allDirs in He).
    replace (negb (N.land (relOf e) DirecDiag =? 0)) with false by (cbn in He; repeat (destruct He as [<-|He]); try destruct He; reflexivity).
    unfold dragonAttackToEdge, rookAttackToEdge. rewrite isSet_or, <- (af6 (opp us)), toEdge by (auto; lia). rewrite <- sreach6. change (sreach 14 (opp us) x t) with (sreach 6 (opp us) x t) in S. now rewrite S.
Qed.
Section K.
Variables (p : Position) (m us k : N) (bd bd' : list N).
Hypotheses (V : views p) (O : oneKing (board p)) (W : wfMove p m) (G0 : pseudoGo p m).
Hypotheses (Eus : turn p = us) (Ebd : board p = bd) (Ebd' : newBoard p m = bd') (Ek : kingOf bd us = k) (Hk : k < 81).
Lemma king_reach : wfGo p m -> mvFrom m = k -> reach 8 us k (mvTo m) = true /\ mvTo m <> k.
Proof.
  intros X E. pose proof (sHu p us V Eus) as Hu. pose proof (cGo p m us bd Eus Ebd X) as (Hd & Hne & Hto & Hpf & Hat & _).
  assert (R : reach 8 us k (mvTo m) = true).
  { pose proof (G0 Hd) as A. rewrite E, Ebd in A. unfold att, attOcc in A. rewrite (king_on us k bd Ek Hk) in A. rewrite pt_mk, col_mk in A by (auto; unfold King; lia). rewrite !andb_true_iff in A. tauto. }
  split; auto. now apply (adj_N us k (mvTo m)).
Qed.
Lemma safe_king : wfGo p m -> mvFrom m = k ->
  (inCheckB bd' us = false <-> forall x, x < 81 -> isCol bd (opp us) x = true -> attOcc bd (occGo bd k (mvTo m)) x (mvTo m) = false).
Proof.
  intros X E. pose proof (cGo p m us bd Eus Ebd X) as (Hd & Hne & Hto & _). pose proof (cOk p bd V Ebd) as Ok.
  pose proof (king_after p m us k bd bd' V O W Eus Ebd Ebd' Ek Hk) as KA. rewrite Hd, E, N.eqb_refl in KA.
  rewrite (unsafe_go p m us bd bd' V Eus Ebd Ebd' (mvTo m) X KA Hto). rewrite E. split.
  - intros H x Hx Cx. apply (existsb_false_at _ _ x) in H; [|now apply in_squares]. cbv beta in H. rewrite Cx, andb_true_r in H.
    destruct (N.eqb_spec (mvTo m) x) as [Q|Q]; [|exact H]. rewrite <- Q. apply attOcc_self; auto. now apply Ok.
  - intros H. apply not_true_is_false. intros EX. apply existsb_exists in EX as (x & Hx & HX). apply in_squares in Hx. rewrite !andb_true_iff in HX. destruct HX as ((_ & Cx) & A). rewrite (H x Hx Cx) in A. discriminate.
Qed.
(* the test with the king still on its square, together with the barred squares, decides safety *)
Lemma king_exact : wfGo p m -> mvFrom m = k ->
  (inCheckB bd' us = false <-> attackersToIsAny p (opp us) (mvTo m) (occBB p) = false /\
     forall x, x < 81 -> isCol bd (opp us) x = true -> att bd x k = true -> isSet (bannedBy p (opp us) x k) (mvTo m) = false).
Proof.
  intros X E. pose proof (sHu p us V Eus) as Hu. pose proof (cGo p m us bd Eus Ebd X) as (Hd & Hne & Hto & Hpf & Hat & _). pose proof (cOk p bd V Ebd) as Ok.
  destruct (king_reach X E) as [R Htk]. rewrite (safe_king X E). rewrite isAny_attackers by (auto using opp_lt). rewrite Ebd.
  assert (OK : occOf bd k = true) by (unfold occOf; rewrite (king_on us k bd Ek Hk), mk_nz by (auto; unfold King; lia); reflexivity).
  assert (NB : forall x, x < 81 -> memN (mvTo m) (betw x (mvTo m)) = false).
  { intros x Hx. apply not_true_is_false. intros M. apply memN_In in M. now apply (proj2 (betw_ends x (mvTo m) Hx Hto)). }
  assert (AO : forall x, x < 81 -> attOcc bd (occGo bd k (mvTo m)) x (mvTo m) = att bd x (mvTo m) || negb (at_ bd x =? 0) && (sreach (ptOf (at_ bd x)) (colorOf (at_ bd x)) x (mvTo m) && sole (occOf bd) x (mvTo m) k)).
  { intros x Hx. rewrite attOcc_go by (auto; now apply Ok). now rewrite NB. }
  split.
  - intros H. split.
    + apply not_true_is_false. intros EX. apply existsb_exists in EX as (x & Hx & HX). apply in_squares in Hx. apply andb_prop in HX as [Cx A]. specialize (H x Hx Cx). rewrite AO in H by auto.
      rewrite (attOcc_ext _ _ (occOf bd)) in A by (intros y Hy; rewrite <- Ebd; now apply isSet_occ_fun). unfold att in H. rewrite A in H. discriminate.
    + intros x Hx Cx A. apply not_true_is_false. intros B. specialize (H x Hx Cx). clear - H B A Cx R Hto Hx Hk Hu V Ebd. subst bd. rewrite (ban_sound p us x k (mvTo m)) in H by auto. discriminate.
  - intros [H1 H2] x Hx Cx. rewrite AO by auto. apply orb_false_iff. split.
    + apply (existsb_false_at _ _ x) in H1; [|now apply in_squares]. cbv beta in H1. rewrite Cx, andb_true_l in H1.
      rewrite (attOcc_ext _ _ (occOf bd)) in H1 by (intros y Hy; rewrite <- Ebd; now apply isSet_occ_fun). exact H1.
    + apply not_true_is_false. intros S. rewrite !andb_true_iff in S. destruct S as (S0 & S1 & S2). assert (Nz : at_ bd x <> 0) by now apply N.eqb_neq, negb_true_iff.
      destruct (xray_checks bd x k (mvTo m) Hx Hk Hto Nz S1 S2) as [A Sk]. specialize (H2 x Hx Cx A). assert (Cc : colorOf (at_ bd x) = opp us) by (unfold isCol in Cx; apply andb_prop in Cx as [_ Cx]; now apply N.eqb_eq).
      rewrite Cc in S1, Sk. clear - H2 S1 Sk Cx Hto Hx Hk Hu V Ebd. subst bd. rewrite (ban_complete p us x k (mvTo m)) in H2 by auto. discriminate.
Qed.
End K.
