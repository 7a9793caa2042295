(* The first part of the finder of mates in one move: every move it returns mates. *)
From Verif Require Export Mate1Moves GenPawn.
Local Open Scope N_scope.

Lemma firstSome_in {A} (f : A -> option N) l m : firstSome f l = Some m -> exists x, In x l /\ f x = Some m.
Proof.
  induction l as [|x l IH]; cbn [firstSome]; [discriminate|]. destruct (f x) as [n|] eqn:E.
  - intros [= <-]. exists x. split; [now left|exact E].
  - intros H. destruct (IH H) as (y & I & Y). exists y. split; [now right|exact Y].
Qed.
(* facts about neighbouring squares, over all of them *)
Lemma all2 (P : N -> N -> bool) : forallb (fun c => forallb (P c) squares) [0; 1] = true -> forall c s, c < 2 -> s < 81 -> P c s = true.
Proof.
  intros H c s Hc Hs. rewrite forallb_forall in H. assert (In c [0; 1]) as I by (assert (c = 0 \/ c = 1) as [->| ->] by lia; cbn; auto).
  specialize (H c I). rewrite forallb_forall in H. apply H. now apply in_squares.
Qed.
Lemma stepIn_all (ds : N -> list dir) (P : N -> N -> N -> bool) : forallb (fun c => forallb (fun s => forallb (P c s) (stepList (ds c) s)) squares) [0; 1] = true ->
  forall c s t, c < 2 -> s < 81 -> stepIn (ds c) s t = true -> P c s t = true.
Proof.
  intros H c s t Hc Hs S. assert (Y := all2 _ H c s Hc Hs). cbv beta in Y. rewrite forallb_forall in Y. apply Y. rewrite <- stepList_stepIn in S. now apply memN_In.
Qed.
Lemma rook_next c k t : c < 2 -> k < 81 -> t < 81 -> isSet (rookStepAttacks k) t = true -> reach 6 c t k = true /\ isSet (kingAttack k) t = true.
Proof.
  intros Hc Hk Ht S. rewrite (proj2 (rookStep_ok k Hk)) in S by auto. rewrite (proj2 (kingAttack_ok k Hk)) by auto. apply andb_prop.
  refine (stepIn_all (fun _ => rookDirs) (fun c k t => reach 6 c t k && stepIn allDirs k t) _ c k t Hc Hk S). vm_compute. reflexivity.
Qed.
Lemma bishop_next c k t : c < 2 -> k < 81 -> t < 81 -> isSet (bishopStepAttacks k) t = true -> reach 5 c t k = true /\ isSet (kingAttack k) t = true.
Proof.
  intros Hc Hk Ht S. rewrite (proj2 (bishopStep_ok k Hk)) in S by auto. rewrite (proj2 (kingAttack_ok k Hk)) by auto. apply andb_prop.
  refine (stepIn_all (fun _ => bishopDirs) (fun c k t => reach 5 c t k && stepIn allDirs k t) _ c k t Hc Hk S). vm_compute. reflexivity.
Qed.
(* a piece that attacks something is not on a dead square *)
Definition noStep (d : dir) (t : N) : bool := match stepTo d t with Some _ => false | None => true end.
Lemma last_rank c t : c < 2 -> t < 81 -> (rankFor c t <=? 1) = true -> stepTo (0, fwd c)%Z t = None.
Proof.
  intros Hc Ht R. assert (X : forallb (fun c => forallb (fun t => negb (rankFor c t <=? 1) || noStep (0, fwd c)%Z t) squares) [0; 1] = true) by (vm_compute; reflexivity).
  assert (Y := all2 _ X c t Hc Ht). cbv beta in Y. rewrite R in Y. cbn [negb orb] in Y. unfold noStep in Y. destruct (stepTo _ t); [discriminate Y|reflexivity].
Qed.
Lemma last_ranks c t : c < 2 -> t < 81 -> (rankFor c t <=? 2) = true -> stepTo (1, 2 * fwd c)%Z t = None /\ stepTo (-1, 2 * fwd c)%Z t = None.
Proof.
  intros Hc Ht R. assert (X : forallb (fun c => forallb (fun t => negb (rankFor c t <=? 2) || noStep (1, 2 * fwd c)%Z t && noStep (-1, 2 * fwd c)%Z t) squares) [0; 1] = true) by (vm_compute; reflexivity).
  assert (Y := all2 _ X c t Hc Ht). cbv beta in Y. rewrite R in Y. cbn [negb orb] in Y. apply andb_prop in Y. unfold noStep in Y. destruct (stepTo (1, _)%Z t), (stepTo (-1, _)%Z t), Y; try discriminate; auto.
Qed.
Lemma not_dead pt c t k : c < 2 -> t < 81 -> k < 81 -> reach pt c t k = true -> deadB c pt t = false.
Proof.
  intros Hc Ht Hk R. unfold deadB. destruct (N.leb_spec pt 2) as [L|L].
  - destruct (N.eqb_spec (rankFor c t) 1) as [E|E]; [|reflexivity]. exfalso. assert (S := last_rank c t Hc Ht). rewrite E in S. specialize (S eq_refl).
    assert (pt = 0 \/ pt = 1 \/ pt = 2) as [->|[->| ->]] by lia; unfold reach, stepHits, ray in R; cbn [stepsOf slidesOf existsb rayF] in R; rewrite ?S in R; discriminate R.
  - destruct (N.eqb_spec pt 3) as [->|]; [|reflexivity]. destruct (rankFor c t <=? 2) eqn:E; [|reflexivity]. destruct (last_ranks c t Hc Ht E) as [S1 S2].
    unfold reach, stepHits in R. cbn [stepsOf slidesOf existsb] in R. rewrite S1, S2 in R. discriminate R.
Qed.
Lemma knight_misc c s t : c < 2 -> s < 81 -> t < 81 -> isSet (knightAttack c s) t = true -> squareRelation s t = 0.
Proof.
  intros Hc Hs Ht S. rewrite (proj2 (knightAttack_ok c s Hc Hs)) in S by auto. destruct (N.eq_dec (squareRelation s t) 0) as [|N]; auto. exfalso.
  destruct (rel_inv s t Hs Ht N) as (d & j & Hd & Hj & O). apply existsb_exists in S as (e & He & S). rewrite stepHits_iff in S by auto. unfold off in O, S.
  assert (F : (fwd c = 1 \/ fwd c = -1)%Z) by (unfold fwd; destruct (c =? 0); lia). cbn [stepsOf In] in He. destruct O as [O1 O2]. destruct S as [S1 S2]. rewrite O1 in S1. rewrite O2 in S2. clear - He Hd F Hj S1 S2.
  dcase d Hd; destruct He as [<-|[<-|[]]]; cbn [fst snd] in *; lia.
Qed.
Lemma knight_far c th t k : c < 2 -> th < 2 -> t < 81 -> k < 81 -> reach 3 c t k = true -> reach 8 th k t = true -> False.
Proof.
  intros Hc Hth Ht Hk R Rk. rewrite reach_eq in R, Rk. cbn [slidesOf rayIn existsb] in R, Rk. rewrite orb_false_r in R, Rk. cbn [stepsOf] in R, Rk.
  apply existsb_exists in R as (e & He & S). rewrite stepHits_iff in S by auto. apply existsb_exists in Rk as (d & Hd & O). rewrite stepHits_iff in O by auto. apply off_sym in O. unfold off in O, S.
  assert (F : (fwd c = 1 \/ fwd c = -1)%Z) by (unfold fwd; destruct (c =? 0); lia). cbn [In] in He. destruct O as [O1 O2]. destruct S as [S1 S2]. rewrite O1 in S1. rewrite O2 in S2. clear - He Hd F S1 S2. unfold nd in *. cbn [fst snd] in *.
  dcase d Hd; destruct He as [<-|[<-|[]]]; cbn [fst snd] in *; lia.
Qed.
Lemma wfA pt c s occ : 1 <= pt < 15 -> c < 2 -> s < 81 -> wfBB (attacksFrom pt c s occ). Proof. intros. now apply wf_attacksFrom. Qed.
Lemma wf_king s : s < 81 -> wfBB (kingAttack s). Proof. intros H. rewrite <- (af8 0 s allZeroBB). apply wfA; lia. Qed.
Lemma wf_gold c s : c < 2 -> s < 81 -> wfBB (goldAttack c s). Proof. intros. rewrite <- (af7 c s allZeroBB). apply wfA; lia. Qed.
Lemma wf_silver c s : c < 2 -> s < 81 -> wfBB (silverAttack c s). Proof. intros. rewrite <- (af4 c s allZeroBB). apply wfA; lia. Qed.
Lemma wf_knight c s : c < 2 -> s < 81 -> wfBB (knightAttack c s). Proof. intros. rewrite <- (af3 c s allZeroBB). apply wfA; lia. Qed.
Definition frontOf (c k : N) : N := if c =? 0 then k + 1 else k - 1.
Definition aheadOf (c k : N) : N := if c =? 0 then k - 1 else k + 1.
Lemma stepIn_incl ds es s t : incl ds es -> stepIn ds s t = true -> stepIn es s t = true.
Proof. intros I S. apply existsb_exists in S as (d & Hd & S). apply existsb_exists. exists d. auto. Qed.
Ltac sub c Hc := assert (c = 0 \/ c = 1) as [->| ->] by lia; intros d Hd; cbn in Hd |- *; tauto.
Lemma near_pieces c k t : c < 2 -> k < 81 -> t < 81 -> isSet (goldAttack c k) t = true \/ isSet (silverAttack c k) t = true \/ isSet (pawnAttack c k) t = true -> isSet (kingAttack k) t = true.
Proof.
  intros Hc Hk Ht S. rewrite (proj2 (kingAttack_ok k Hk)) by auto. rewrite (proj2 (goldAttack_ok c k Hc Hk)), (proj2 (silverAttack_ok c k Hc Hk)), (proj2 (pawnAttack_ok c k Hc Hk)) in S by auto.
  destruct S as [S|[S|S]]; (eapply stepIn_incl; [|exact S]); clear S; sub c Hc.
Qed.
Lemma gold_but c k t : c < 2 -> k < 81 -> t < 81 -> isSet (bbXor (goldAttack (opp c) k) (pawnAttack c k)) t = true -> isSet (goldAttack (opp c) k) t = true.
Proof.
  intros Hc Hk Ht S. assert (Hc' := opp_lt c Hc). rewrite isSet_xor in S. rewrite (proj2 (goldAttack_ok (opp c) k Hc' Hk)), (proj2 (pawnAttack_ok c k Hc Hk)) in * by auto.
  destruct (stepIn (stepsOf 7 (opp c)) k t) eqn:E; [reflexivity|]. rewrite xorb_false_l in S. exfalso. apply not_true_iff_false in E. apply E. eapply stepIn_incl; [|exact S]. clear S E Hc'. sub c Hc.
Qed.
Lemma front_pawn c k t : c < 2 -> k < 81 -> t < 81 -> isSet (pawnAttack (opp c) k) t = true -> t = frontOf c k /\ reach 2 c t k = true.
Proof.
  intros Hc Hk Ht S. rewrite (proj2 (pawnAttack_ok (opp c) k (opp_lt c Hc) Hk)) in S by auto. rewrite <- N.eqb_eq. apply andb_prop.
  refine (stepIn_all (fun c => stepsOf 1 (opp c)) (fun c k t => (t =? frontOf c k) && reach 2 c t k) _ c k t Hc Hk S). vm_compute. reflexivity.
Qed.
Lemma front_there c k : c < 2 -> k < 81 -> isInFrontOf c 8 0 (makeRank k) = true -> frontOf c k < 81 /\ isSet (pawnAttack (opp c) k) (frontOf c k) = true.
Proof.
  intros Hc Hk S.
  assert (X : forallb (fun c => forallb (fun k => negb (isInFrontOf c 8 0 (makeRank k)) || (frontOf c k <? 81) && stepIn (stepsOf 1 (opp c)) k (frontOf c k)) squares) [0; 1] = true) by (vm_compute; reflexivity).
  assert (Y := all2 _ X c k Hc Hk). cbv beta in Y. rewrite S in Y. cbn [negb orb] in Y. apply andb_prop in Y as [Y1 Y2]. apply N.ltb_lt in Y1. rewrite (proj2 (pawnAttack_ok (opp c) k (opp_lt c Hc) Hk)) by auto. auto.
Qed.
Lemma front_twice c k : c < 2 -> k < 81 -> isInFrontOf c 7 1 (makeRank k) = true -> frontOf c k < 81 /\ frontOf c (frontOf c k) < 81 /\ isSet (pawnAttack (opp c) k) (frontOf c k) = true /\ isSet (pawnAttack c (frontOf c (frontOf c k))) (frontOf c k) = true.
Proof.
  intros Hc Hk S.
  assert (X : forallb (fun c => forallb (fun k => negb (isInFrontOf c 7 1 (makeRank k)) || (frontOf c k <? 81) && (frontOf c (frontOf c k) <? 81) && stepIn (stepsOf 1 (opp c)) k (frontOf c k) && stepIn (stepsOf 1 c) (frontOf c (frontOf c k)) (frontOf c k)) squares) [0; 1] = true) by (vm_compute; reflexivity).
  assert (Y := all2 _ X c k Hc Hk). cbv beta in Y. rewrite S in Y. cbn [negb orb] in Y. rewrite !andb_true_iff, !N.ltb_lt in Y. destruct Y as [[[Y1 Y2] Y3] Y4].
  rewrite (proj2 (pawnAttack_ok (opp c) k (opp_lt c Hc) Hk)), (proj2 (pawnAttack_ok c _ Hc Y2)) by auto. auto.
Qed.
Lemma ahead_zone c f : c < 2 -> f < 81 -> aheadOf c f < 81 -> f <> aheadOf c f -> zoneB c (aheadOf c f) = true -> isSet (pawnAttack c f) (aheadOf c f) = true.
Proof.
  intros Hc Hf H1 H2 Z. rewrite (proj2 (pawnAttack_ok c f Hc Hf)) by auto.
  assert (X : forallb (fun c => forallb (fun f => negb ((aheadOf c f <? 81) && negb (f =? aheadOf c f) && zoneB c (aheadOf c f)) || stepIn (stepsOf 1 c) f (aheadOf c f)) squares) [0; 1] = true) by (vm_compute; reflexivity).
  assert (Y := all2 _ X c f Hc Hf). cbv beta in Y. apply orb_prop in Y as [Y|Y]; [|exact Y]. exfalso. rewrite (proj2 (N.ltb_lt _ _) H1), (proj2 (N.eqb_neq _ _) H2), Z in Y. discriminate Y.
Qed.
Section B.
Variables (p : Position) (us th k ko : N) (bd : list N).
Hypotheses (G : good p) (Eus : turn p = us) (Eth : opp us = th) (Ebd : board p = bd).
Hypotheses (Ek : kingOf bd us = k) (Hk : k < 81) (Eo : kingOf bd th = ko) (Ho : ko < 81).
Hypothesis NC : forall x, ~ chkr us k bd x.
Definition found (m : N) : Prop := exists f t pr, f < 128 /\ t < 81 /\ plSet p f t pr /\ m = enc p f t pr /\ mates (abs p) (mvOf f t pr).
Notation U := (sU p us G Eus).
Notation T := (sT p us th G Eus Eth).
Lemma bV : views p. Proof. apply G. Qed.
Lemma bKo : kingSquare p th = ko. Proof. rewrite kingSquare_view by (auto using bV; apply T). rewrite Ebd. exact Eo. Qed.
Lemma bKu : kingSquare p us = k. Proof. rewrite kingSquare_view by (auto using bV; apply U). rewrite Ebd. exact Ek. Qed.
Lemma bCol s : s < 81 -> isSet (bbC p us) s = isCol bd us s.
Proof. intros H. rewrite isSet_bbC by (auto using bV; apply U). rewrite (gAt p bd Ebd). reflexivity. Qed.
Lemma bOcc s : s < 81 -> isSet (occBB p) s = occOf bd s.
Proof. intros H. rewrite <- Ebd. apply isSet_occ_fun; auto using bV. Qed.
Lemma bNear t : t < 81 -> isSet (kingAttack ko) t = true -> reach 8 th ko t = true /\ reach 8 us t ko = true.
Proof.
  intros Ht S. pose proof U as Hu. pose proof T as Hth. split.
  - rewrite <- (af8 th ko allZeroBB), attacksFrom_spec in S by (auto; lia). now apply andb_prop in S.
  - rewrite (back_king us ko allZeroBB t) in S by auto. now apply andb_prop in S.
Qed.
Lemma bAtt f t : f < 81 -> t < 81 -> isCol bd us f = true -> isSet (attacksFrom (ptOf (at_ bd f)) us f (occBB p)) t = true -> att bd f t = true.
Proof.
  intros Hf Ht C S. unfold isCol in C. apply andb_prop in C as [C0 C1]. apply N.eqb_eq in C1.
  assert (NZ : at_ bd f <> 0) by (apply N.eqb_neq; now apply negb_true_iff). destruct (vpc_facts _ (gOk p bd bV Ebd f Hf) NZ) as (Hp & _ & _).
  rewrite attacksFrom_spec in S by (auto; apply U). apply andb_prop in S as [S1 S2]. unfold att, attOcc. rewrite C0, C1, S1. cbn [andb].
  rewrite <- S2. apply clear_same. intros y I. symmetry. apply bOcc. now apply betw_lt in I.
Qed.
(* one kind of move *)
Lemma moveMates_sound (knight needs : bool) f (pr : bool) (nb : Position -> N -> BB) toBB m : f < 81 -> isCol bd us f = true -> ptOf (at_ bd f) <> 8 -> wfBB toBB ->
  let pt := ptOf (at_ bd f) in let pt' := pt + (if pr then 8 else 0) in
  (knight = true -> pt = 3) -> (needs = false -> pt' = 3) -> (pr = true -> pt <= 6) ->
  (forall t, t < 81 -> isSet toBB t = true -> isSet (attacksFrom pt us f (occBB p)) t = true /\ isSet (bbC p us) t = false /\ (pr = true -> zoneB us f || zoneB us t = true) /\
     reach pt' us t ko = true /\ (needs = true -> isSet (kingAttack ko) t = true)) ->
  (forall t, nb (lifted p pt f) t = nbTab pt' us t /\ pt' <> 14 \/ nb (lifted p pt f) t = nbDragon ko (lifted p pt f) t /\ pt' = 14) ->
  moveMates p knight needs pt f pr nb toBB = Some m -> found m.
Proof.
  intros Hf C N8 W pt pt' KN NE PR HT HN H. pose proof U as Hu. pose proof T as Hth. unfold moveMates in H. cbv zeta in H. rewrite Eus, Eth, bKo, bKu in H.
  apply firstSome_in in H as (t & I & H). apply in_bbList in I as [Ht St]; auto. destruct (HT t Ht St) as (A & Ct & Z & R & KA). clear HT. specialize (HN t).
  match type of H with (if ?c then _ else _) = _ => destruct c eqn:Q; [|discriminate H] end. injection H as <-. rewrite !andb_true_iff in Q. destruct Q as [[[Q1 Q2] Q3] Q4].
  apply negb_true_iff in Q2. apply negb_true_iff in Q4. fold pt in Q1, Q2, Q3.
  assert (P : plSet p f t pr).
  { unfold plSet. rewrite (proj2 (N.ltb_lt _ _) Hf). unfold plGoB. rewrite Ebd, Eus, C, (bAtt f t Hf Ht C A). rewrite bCol in Ct by auto. rewrite Ct. cbn [andb negb]. unfold promoB. rewrite (gAt p bd Ebd), Eus. fold pt. destruct pr.
    - rewrite (proj2 (N.leb_le pt 6)) by auto. cbn [andb]. auto.
    - unfold pt' in R. rewrite N.add_0_r in R. rewrite (not_dead pt us t ko) by auto. reflexivity. }
  assert (NB : forall y, ~ In y (betw t ko)).
  { destruct needs; [apply (near_king th); auto; apply bNear; auto|]. rewrite (NE eq_refl) in R. apply (near_knight us); auto. }
  assert (PI : isPinnedIllegal f t k (pinnedBB p) = false) by (destruct knight; [unfold isPinnedIllegal; rewrite Q4; reflexivity|exact Q4]).
  exists f, t, pr. split; [lia|]. split; [auto|]. split; [auto|]. split.
  - destruct pr; [apply promote_code|apply nonpromote_code]; auto; rewrite (gAt p bd Ebd); reflexivity.
  - apply (move_mate p us th k ko bd G Eus Eth Ebd Ek Hk Eo Ho NC f t pt pr Hf Ht P eq_refl N8 (nb (lifted p pt f) t)); [exact R|exact NB|exact PI|exact HN|exact Q2| |].
    + intros Rk. destruct needs; [exact Q1|]. exfalso. rewrite (NE eq_refl) in R. exact (knight_far us th t ko Hu Hth Ht Ho R Rk).
    + apply orb_prop in Q3 as [Q3|Q3]; [left|right; now apply negb_true_iff]. destruct knight.
      * split; auto. assert (E3 : pt = 3) by auto. unfold isAligned. apply N.eqb_neq. intros E. rewrite E3, af3 in A.
        rewrite (knight_misc us f t) in E by auto. revert E.
        pose proof (isSet_hiddenCheckers false true p f bV Hf) as HS. cbv zeta in HS. unfold discoveredCheckBB in Q3. rewrite HS, Eus, Eth, Ebd, Eo, (proj2 (N.ltb_lt _ _) Ho) in Q3. clear HS. rewrite !andb_true_iff in Q3. destruct Q3 as [_ Q3].
        apply existsb_exists in Q3 as (x & Hx & Hi). apply in_squares in Hx. unfold hid, sole in Hi. rewrite !andb_true_iff in Hi. destruct Hi as [_ [[B _] _]]. apply memN_betw in B; auto.
        destruct B as (d & a & b & Hd & Ha & Hb & O1 & O2). rewrite (rel_off f d b ko) by auto. apply relOf_nz.
      * unfold isDiscoveredCheck in Q3. apply andb_prop in Q3 as [Q3 Q5]. split; auto. now apply negb_true_iff.
Qed.
Lemma dropMates_sound pt needs (nb : N -> BB) toBB m : 2 <= pt <= 7 -> wfBB toBB -> handExists (handOf p us) (ptToHand pt) = true ->
  (needs = false -> pt = 3) ->
  (forall t, t < 81 -> isSet toBB t = true -> isSet (occBB p) t = false /\ reach pt us t ko = true /\ (needs = true -> isSet (kingAttack ko) t = true)) ->
  (forall t, nb t = nbTab pt us t) -> dropMates p pt needs nb toBB = Some m -> found m.
Proof.
  intros Hp W HE NE HT HN H. pose proof U as Hu. pose proof T as Hth. unfold dropMates in H. cbv zeta in H. rewrite Eus, Eth in H.
  apply firstSome_in in H as (t & I & H). apply in_bbList in I as [Ht St]; auto. destruct (HT t Ht St) as (A & R & KA). clear HT. specialize (HN t).
  match type of H with (if ?c then _ else _) = _ => destruct c eqn:Q; [|discriminate H] end. injection H as <-. rewrite !andb_true_iff in Q. destruct Q as [[Q1 Q2] Q3].
  apply negb_true_iff in Q2. apply negb_true_iff in Q3. rewrite HN in Q2.
  assert (P : plSet p (80 + pt) t false).
  { unfold plSet. destruct (N.ltb_spec (80 + pt) 81); [lia|]. split; auto. split; [lia|]. replace (80 + pt - 80) with pt by lia. unfold plDropB. rewrite (gAt p bd Ebd), Eus. rewrite bOcc in A by auto. unfold occOf in A. apply negb_false_iff in A.
    rewrite (proj2 (N.leb_le pt 7)) by lia. rewrite A, (not_dead pt us t ko) by auto. rewrite (proj2 (N.eqb_neq pt 1)) by lia. cbn [negb andb]. rewrite !andb_true_r.
    rewrite handExists_num in HE by (assert (pt = 2 \/ pt = 3 \/ pt = 4 \/ pt = 5 \/ pt = 6 \/ pt = 7) as [->|[->|[->|[->|[->| ->]]]]] by lia; vm_compute; reflexivity). apply negb_true_iff, N.eqb_neq in HE. apply N.ltb_lt. lia. }
  assert (NB : forall y, ~ In y (betw t ko)).
  { destruct needs; [apply (near_king th); auto; apply bNear; auto|]. rewrite (NE eq_refl) in R. apply (near_knight us); auto. }
  exists (80 + pt), t, false. split; [lia|]. split; [auto|]. split; [auto|]. split; [apply drop_code; auto; lia|].
  apply (drop_mate p us th k ko bd G Eus Eth Ebd Ek Hk Eo Ho NC pt t); auto; try lia.
  intros Rk. destruct needs; [exact Q1|]. exfalso. rewrite (NE eq_refl) in R. exact (knight_far us th t ko Hu Hth Ht Ho R Rk).
Qed.

Lemma mm (pt : N) (knight needs : bool) f (pr : bool) (nb : Position -> N -> BB) toBB m : f < 81 -> isCol bd us f = true -> ptOf (at_ bd f) = pt -> pt <> 8 -> wfBB toBB ->
  (knight = true -> pt = 3) -> (needs = false -> pt + (if pr then 8 else 0) = 3) -> (pr = true -> pt <= 6) ->
  (forall t, t < 81 -> isSet toBB t = true -> isSet (attacksFrom pt us f (occBB p)) t = true /\ isSet (bbC p us) t = false /\ (pr = true -> zoneB us f || zoneB us t = true) /\
     reach (pt + (if pr then 8 else 0)) us t ko = true /\ (needs = true -> isSet (kingAttack ko) t = true)) ->
  (forall t, nb (lifted p pt f) t = nbTab (pt + (if pr then 8 else 0)) us t /\ pt + (if pr then 8 else 0) <> 14 \/ nb (lifted p pt f) t = nbDragon ko (lifted p pt f) t /\ pt + (if pr then 8 else 0) = 14) ->
  moveMates p knight needs pt f pr nb toBB = Some m -> found m.
Proof. intros Hf C E. subst pt. intros N8 W KN NE PR HT HN. apply moveMates_sound; auto. Qed.
Lemma from_in B pt f : 1 <= pt < 15 -> In f (bbList (bbAnd (bbTC p pt us) B)) -> f < 81 /\ isCol bd us f = true /\ ptOf (at_ bd f) = pt /\ isSet B f = true.
Proof.
  intros Hp I. pose proof U as Hu. assert (W : wfBB (bbTC p pt us)) by (apply wf_and_l, wf_bbT; auto using bV; lia). apply in_bbList in I as [Hf S]; [|now apply wf_and_l].
  rewrite isSet_and in S. apply andb_prop in S as [S SB]. unfold bbTC in S. rewrite isSet_and, isSet_bbT, bCol in S by (auto using bV). apply andb_prop in S as [S1 S2]. rewrite (gAt p bd Ebd) in S1. apply N.eqb_eq in S1. auto.
Qed.
Lemma from_in0 pt f : 1 <= pt < 15 -> In f (bbList (bbTC p pt us)) -> f < 81 /\ isCol bd us f = true /\ ptOf (at_ bd f) = pt.
Proof.
  intros Hp I. pose proof U as Hu. assert (W : wfBB (bbTC p pt us)) by (apply wf_and_l, wf_bbT; auto using bV; lia). apply in_bbList in I as [Hf S]; [|auto].
  unfold bbTC in S. rewrite isSet_and, isSet_bbT, bCol in S by (auto using bV). apply andb_prop in S as [S1 S2]. rewrite (gAt p bd Ebd) in S1. apply N.eqb_eq in S1. auto.
Qed.
Lemma from_andnot B C pt f : 1 <= pt < 15 -> In f (bbList (bbAndNot (bbTC p pt us) C)) -> B = bbTC p pt us -> f < 81 /\ isCol bd us f = true /\ ptOf (at_ bd f) = pt.
Proof.
  intros Hp I _. pose proof U as Hu. assert (W : wfBB (bbTC p pt us)) by (apply wf_and_l, wf_bbT; auto using bV; lia). apply in_bbList in I as [Hf S]; [|now apply wf_andnot].
  rewrite isSet_andnot in S by auto. apply andb_prop in S as [S _]. unfold bbTC in S. rewrite isSet_and, isSet_bbT, bCol in S by (auto using bV). apply andb_prop in S as [S1 S2]. rewrite (gAt p bd Ebd) in S1. apply N.eqb_eq in S1. auto.
Qed.
Lemma af14 c s occ : attacksFrom 14 c s occ = dragonAttack s occ. Proof. reflexivity. Qed.
Lemma af13 c s occ : attacksFrom 13 c s occ = horseAttack s occ. Proof. reflexivity. Qed.
Lemma target t : t < 81 -> isSet (bbNotThisAnd (bbC p us) (kingAttack ko)) t = true -> isSet (bbC p us) t = false /\ isSet (kingAttack ko) t = true.
Proof. intros Ht S. rewrite isSet_notthisand in S by auto. apply andb_prop in S as [S1 S2]. apply negb_true_iff in S1. auto. Qed.
Lemma r14 t : t < 81 -> isSet (kingAttack ko) t = true -> reach 14 us t ko = true.
Proof. intros Ht S. destruct (reach_unions us t ko U Ht Ho) as (_ & _ & _ & _ & E). rewrite E. destruct (bNear t Ht S) as [_ ->]. reflexivity. Qed.
Lemma r13 t : t < 81 -> isSet (kingAttack ko) t = true -> reach 13 us t ko = true.
Proof. intros Ht S. destruct (reach_unions us t ko U Ht Ho) as (_ & _ & _ & E & _). rewrite E. destruct (bNear t Ht S) as [_ ->]. reflexivity. Qed.
Lemma r7 pt t : isGoldPt pt = true -> t < 81 -> isSet (goldAttack th ko) t = true -> reach pt us t ko = true.
Proof. intros HG Ht S. rewrite reach_gold by auto. rewrite <- Eth, (back_gold us ko allZeroBB t) in S by (auto; apply U). now apply andb_prop in S. Qed.
Lemma r4 t : t < 81 -> isSet (silverAttack th ko) t = true -> reach 4 us t ko = true.
Proof. intros Ht S. rewrite <- Eth, (back_silver us ko allZeroBB t) in S by (auto; apply U). now apply andb_prop in S. Qed.
Lemma r3 t : t < 81 -> isSet (knightAttack th ko) t = true -> reach 3 us t ko = true.
Proof. intros Ht S. rewrite <- Eth, (back_knight us ko allZeroBB t) in S by (auto; apply U). now apply andb_prop in S. Qed.
Lemma r1 t : t < 81 -> isSet (pawnAttack th ko) t = true -> reach 1 us t ko = true.
Proof. intros Ht S. rewrite <- Eth, (back_pawn us ko allZeroBB t) in S by (auto; apply U). now apply andb_prop in S. Qed.
Lemma zone_in t : t < 81 -> isSet (tRank123 us) t = zoneB us t.
Proof. intros. apply isSet_front123; auto. apply U. Qed.
Lemma wf_target : wfBB (bbNotThisAnd (bbC p us) (kingAttack ko)).
Proof. apply wf_notthisand, wf_king; auto. Qed.
Ltac start := intros H; pose proof U as Hu; pose proof T as Hth; pose proof wf_target as WT.
Ltac bits St := repeat first [rewrite isSet_and in St|rewrite isSet_andnot in St by auto|rewrite isSet_or in St]; rewrite ?andb_true_iff in St.
Lemma dragon_sound m : mateDragon p = Some m -> found m.
Proof.
  start. unfold mateDragon in H. cbv zeta in H. rewrite Eus, Eth, bKo in H. apply firstSome_in in H as (f & I & H). apply from_in0 in I as (Hf & C & E); [|unfold Dragon; lia].
  revert H. apply mm; auto; try discriminate; try (unfold Dragon; lia); [now apply wf_and_l|]. intros t Ht St. bits St. destruct St as [S1 S2]. apply target in S1 as [S1 S3]; auto.
  split; [rewrite af14; exact S2|]. split; [auto|]. split; [discriminate|]. split; [now apply r14|auto].
Qed.
Lemma horse_sound m : mateHorse p = Some m -> found m.
Proof.
  start. unfold mateHorse in H. cbv zeta in H. rewrite Eus, Eth, bKo in H. apply firstSome_in in H as (f & I & H). apply from_in0 in I as (Hf & C & E); [|unfold Horse; lia].
  revert H. apply mm; auto; try discriminate; try (unfold Horse; lia); [now apply wf_and_l| |intros t; left; split; [reflexivity|discriminate]]. intros t Ht St. bits St. destruct St as [S1 S2]. apply target in S1 as [S1 S3]; auto.
  split; [rewrite af13; exact S2|]. split; [auto|]. split; [discriminate|]. split; [now apply r13|auto].
Qed.
Lemma rook_sound m : mateRook p = Some m -> found m.
Proof.
  start. unfold mateRook in H. cbv zeta in H. rewrite Eus, Eth, bKo in H.
  destruct (firstSome _ (bbList (bbAnd (bbTC p Rook us) (tRank123 us)))) as [m'|] eqn:H1.
  - injection H as <-. apply firstSome_in in H1 as (f & I & H). apply from_in in I as (Hf & C & E & Z); [|unfold Rook; lia]. rewrite zone_in in Z by auto.
    revert H. apply mm; auto; try discriminate; try (unfold Rook; lia); [now apply wf_and_l|]. intros t Ht St. bits St. destruct St as [S1 S2]. apply target in S1 as [S1 S3]; auto.
    split; [rewrite (af6 us); exact S2|]. split; [auto|]. split; [rewrite Z; auto|]. split; [now apply r14|auto].
  - clear H1. apply firstSome_in in H as (f & I & H). apply (from_andnot (bbTC p Rook us)) in I as (Hf & C & E); [|unfold Rook; lia|reflexivity]. cbv zeta in H.
    set (toBB := bbAnd (bbAnd (bbNotThisAnd (bbC p us) (kingAttack ko)) (rookAttack f (occBB p))) (bbOr (rookStepAttacks ko) (tRank123 us))) in *. assert (W : wfBB toBB) by (now apply wf_and_l, wf_and_l).
    assert (A : forall t, t < 81 -> isSet toBB t = true -> isSet (attacksFrom Rook us f (occBB p)) t = true /\ isSet (bbC p us) t = false /\ isSet (kingAttack ko) t = true /\ (zoneB us t = false -> reach Rook us t ko = true)).
    { intros t Ht St. unfold toBB in St. bits St. rewrite zone_in in St by auto. destruct St as [[S1 S2] S3]. apply target in S1 as [S1 S4]; auto. split; [rewrite (af6 us); exact S2|]. split; auto. split; auto. intros Z. rewrite Z, orb_false_r in S3. now apply (rook_next us). }
    clearbody toBB. destruct (moveMates p false true Rook f true (nbDragon ko) (bbAnd toBB (tRank123 us))) as [m'|] eqn:H1.
    + injection H as <-. revert H1. apply mm; auto; try discriminate; try (unfold Rook; lia); [now apply wf_and_l|]. intros t Ht St. bits St. rewrite zone_in in St by auto. destruct St as [S1 S2]. destruct (A t Ht S1) as (A1 & A2 & A3 & _).
      split; [exact A1|]. split; [auto|]. split; [rewrite S2, orb_true_r; auto|]. split; [now apply r14|auto].
    + clear H1. revert H. apply mm; auto; try discriminate; try (unfold Rook; lia); [now apply wf_andnot| |intros t; left; split; [reflexivity|discriminate]]. intros t Ht St. bits St. rewrite zone_in in St by auto. destruct St as [S1 S2]. apply negb_true_iff in S2. destruct (A t Ht S1) as (A1 & A2 & A3 & A4).
      split; [exact A1|]. split; [auto|]. split; [discriminate|]. split; [rewrite N.add_0_r; auto|auto].
Qed.
Lemma bishop_sound m : mateBishop p = Some m -> found m.
Proof.
  start. unfold mateBishop in H. cbv zeta in H. rewrite Eus, Eth, bKo in H.
  destruct (firstSome _ (bbList (bbAnd (bbTC p Bishop us) (tRank123 us)))) as [m'|] eqn:H1.
  - injection H as <-. apply firstSome_in in H1 as (f & I & H). apply from_in in I as (Hf & C & E & Z); [|unfold Bishop; lia]. rewrite zone_in in Z by auto.
    revert H. apply mm; auto; try discriminate; try (unfold Bishop; lia); [now apply wf_and_l| |intros t; left; split; [reflexivity|discriminate]]. intros t Ht St. bits St. destruct St as [S1 S2]. apply target in S1 as [S1 S3]; auto.
    split; [rewrite (af5 us); exact S2|]. split; [auto|]. split; [rewrite Z; auto|]. split; [now apply r13|auto].
  - clear H1. apply firstSome_in in H as (f & I & H). apply (from_andnot (bbTC p Bishop us)) in I as (Hf & C & E); [|unfold Bishop; lia|reflexivity]. cbv zeta in H.
    set (toBB := bbAnd (bbAnd (bbNotThisAnd (bbC p us) (kingAttack ko)) (bishopAttack f (occBB p))) (bbOr (bishopStepAttacks ko) (tRank123 us))) in *. assert (W : wfBB toBB) by (now apply wf_and_l, wf_and_l).
    assert (A : forall t, t < 81 -> isSet toBB t = true -> isSet (attacksFrom Bishop us f (occBB p)) t = true /\ isSet (bbC p us) t = false /\ isSet (kingAttack ko) t = true /\ (zoneB us t = false -> reach Bishop us t ko = true)).
    { intros t Ht St. unfold toBB in St. bits St. rewrite zone_in in St by auto. destruct St as [[S1 S2] S3]. apply target in S1 as [S1 S4]; auto. split; [rewrite (af5 us); exact S2|]. split; auto. split; auto. intros Z. rewrite Z, orb_false_r in S3. now apply (bishop_next us). }
    clearbody toBB. destruct (moveMates p false true Bishop f true (nbC horseAttackToEdge) (bbAnd toBB (tRank123 us))) as [m'|] eqn:H1.
    + injection H as <-. revert H1. apply mm; auto; try discriminate; try (unfold Bishop; lia); [now apply wf_and_l| |intros t; left; split; [reflexivity|discriminate]]. intros t Ht St. bits St. rewrite zone_in in St by auto. destruct St as [S1 S2]. destruct (A t Ht S1) as (A1 & A2 & A3 & _).
      split; [exact A1|]. split; [auto|]. split; [rewrite S2, orb_true_r; auto|]. split; [now apply r13|auto].
    + clear H1. revert H. apply mm; auto; try discriminate; try (unfold Bishop; lia); [now apply wf_andnot| |intros t; left; split; [reflexivity|discriminate]]. intros t Ht St. bits St. rewrite zone_in in St by auto. destruct St as [S1 S2]. apply negb_true_iff in S2. destruct (A t Ht S1) as (A1 & A2 & A3 & A4).
      split; [exact A1|]. split; [auto|]. split; [discriminate|]. split; [rewrite N.add_0_r; auto|auto].
Qed.
Lemma golds_sound m : mateGolds p = Some m -> found m.
Proof.
  start. unfold mateGolds in H. cbv zeta in H. rewrite Eus, Eth, bKo in H. apply firstSome_in in H as (f & I & H).
  assert (W : wfBB (bbAnd (golds p) (bbC p us))) by (apply wf_and_r, wf_bbC; auto using bV). apply in_bbList in I as [Hf S]; [|now apply wf_and_l].
  rewrite !isSet_and, isSet_golds, bCol in S by (auto using bV). rewrite !andb_true_iff in S. destruct S as [[SG C] _]. rewrite (gAt p bd Ebd) in *.
  assert (N14 : forall pt, isGoldPt pt = true -> pt <> 8 /\ pt <> 14 /\ nbTab pt us = goldAttack us /\ forall c s occ, attacksFrom pt c s occ = goldAttack c s).
  { intros pt Q. unfold isGoldPt in Q. rewrite !orb_true_iff, !N.eqb_eq in Q. destruct Q as [[[[->| ->]| ->]| ->]| ->]; repeat split; try discriminate. }
  destruct (N14 _ SG) as (N1 & N2 & N3 & N4).
  revert H. apply mm; auto; try discriminate; [now apply wf_and_l, wf_and_l| |]; rewrite N.add_0_r.
  - intros t Ht St. bits St. destruct St as [[S1 S2] S3]. apply target in S1 as [S1 S4]; auto. split; [rewrite N4; exact S2|]. split; [auto|]. split; [discriminate|]. split; [now apply r7|auto].
  - intros t. left. split; [|exact N2]. unfold nbC. rewrite N3. reflexivity.
Qed.

Lemma nearG t : t < 81 -> isSet (goldAttack th ko) t = true -> isSet (kingAttack ko) t = true.
Proof. intros. apply (near_pieces th); auto. apply T. Qed.
Lemma nearS t : t < 81 -> isSet (silverAttack th ko) t = true -> isSet (kingAttack ko) t = true.
Proof. intros. apply (near_pieces th); auto. apply T. Qed.
Lemma nearP t : t < 81 -> isSet (pawnAttack th ko) t = true -> isSet (kingAttack ko) t = true.
Proof. intros. apply (near_pieces th); auto. apply T. Qed.
(* a silver, promoting or not *)
Lemma silver_pro f toBB m : f < 81 -> isCol bd us f = true -> ptOf (at_ bd f) = 4 -> wfBB toBB ->
  (forall t, t < 81 -> isSet toBB t = true -> isSet (bbNotThisAnd (bbC p us) (kingAttack ko)) t = true /\ isSet (silverAttack us f) t = true /\ isSet (goldAttack th ko) t = true /\ (zoneB us f || zoneB us t = true)) ->
  moveMates p false true Silver f true (nbC (goldAttack us)) toBB = Some m -> found m.
Proof.
  intros Hf C E W HT. apply mm; auto; try discriminate; try (unfold Silver; lia); [|intros t; left; split; [reflexivity|discriminate]].
  intros t Ht St. destruct (HT t Ht St) as (S1 & S2 & S3 & Z). apply target in S1 as [S1 S4]; auto. split; [rewrite af4; exact S2|]. split; [auto|]. split; [auto|]. split; [now apply r7|auto].
Qed.
Lemma silver_plain f toBB m : f < 81 -> isCol bd us f = true -> ptOf (at_ bd f) = 4 -> wfBB toBB ->
  (forall t, t < 81 -> isSet toBB t = true -> isSet (bbNotThisAnd (bbC p us) (kingAttack ko)) t = true /\ isSet (silverAttack us f) t = true /\ isSet (silverAttack th ko) t = true) ->
  moveMates p false true Silver f false (nbC (silverAttack us)) toBB = Some m -> found m.
Proof.
  intros Hf C E W HT. apply mm; auto; try discriminate; try (unfold Silver; lia); [|intros t; left; split; [reflexivity|discriminate]].
  intros t Ht St. destruct (HT t Ht St) as (S1 & S2 & S3). apply target in S1 as [S1 S4]; auto. split; [rewrite af4; exact S2|]. split; [auto|]. split; [discriminate|]. split; [now apply r4|auto].
Qed.
Lemma silver_in f B : In f (bbList B) -> (forall s, isSet B s = true -> s < 81 -> isSet (bbTC p Silver us) s = true) -> wfBB B -> f < 81 /\ isCol bd us f = true /\ ptOf (at_ bd f) = 4 /\ isSet B f = true.
Proof.
  intros I S W. apply in_bbList in I as [Hf I]; auto. split; auto. assert (X : In f (bbList (bbTC p Silver us))) by (apply in_bbList; [apply wf_and_l, wf_bbT; auto using bV; unfold Silver; lia|]; auto).
  apply from_in0 in X as (_ & X & Y); [|unfold Silver; lia]. auto.
Qed.
Lemma silver_sound m : mateSilver p = Some m -> found m.
Proof.
  start. unfold mateSilver in H. cbv zeta in H. rewrite Eus, Eth, bKo in H. assert (W0 : wfBB (bbTC p Silver us)) by (apply wf_and_l, wf_bbT; auto using bV; unfold Silver; lia).
  destruct (firstSome _ (bbList (bbAnd (bbAnd (bbTC p Silver us) (silverCheckTable us ko)) (tRank123 us)))) as [m'|] eqn:H1; [injection H as <-|clear H1].
  - apply firstSome_in in H1 as (f & I & H). apply silver_in in I as (Hf & C & E & S); [|intros s Q Hs; bits Q; tauto|now apply wf_and_l, wf_and_l]. cbv zeta in H. bits S. rewrite zone_in in S by auto. destruct S as [_ Z].
    destruct (moveMates _ _ _ _ _ true _ _) as [m''|] eqn:H1; [injection H as <-; revert H1|clear H1; revert H].
    + apply silver_pro; auto; [now apply wf_and_l, wf_and_l|]. intros t Ht St. bits St. rewrite Z. tauto.
    + apply silver_plain; auto; [now apply wf_andnot, wf_and_l, wf_and_l|]. intros t Ht St. bits St. tauto.
  - destruct (firstSome _ (bbList (bbAnd (bbAndNot (bbAnd (bbTC p Silver us) (silverCheckTable us ko)) (tRank123 us)) _))) as [m'|] eqn:H1; [injection H as <-|clear H1].
    + apply firstSome_in in H1 as (f & I & H). apply silver_in in I as (Hf & C & E & S); [|intros s Q Hs; bits Q; tauto|now apply wf_and_l, wf_andnot, wf_and_l].
      revert H. apply silver_plain; auto; [now apply wf_and_l, wf_and_l|]. intros t Ht St. bits St. tauto.
    + apply firstSome_in in H as (f & I & H). apply silver_in in I as (Hf & C & E & S); [|intros s Q Hs; bits Q; tauto|now apply wf_andnot, wf_andnot, wf_and_l]. cbv zeta in H.
      destruct (moveMates _ _ _ _ _ true _ _) as [m''|] eqn:H1; [injection H as <-; revert H1|clear H1; revert H].
      * apply silver_pro; auto; [now apply wf_and_l, wf_and_l, wf_and_l|]. intros t Ht St. bits St. rewrite zone_in in St by auto. destruct St as [[[S1 S2] S3] S4]. rewrite S3, orb_true_r. tauto.
      * apply silver_plain; auto; [now apply wf_and_l, wf_and_l|]. intros t Ht St. bits St. tauto.
Qed.
Lemma knight_sound m : mateKnight p = Some m -> found m.
Proof.
  start. unfold mateKnight in H. cbv zeta in H. rewrite Eus, Eth, bKo in H. apply firstSome_in in H as (f & I & H). apply from_in in I as (Hf & C & E & _); [|unfold Knight; lia]. cbv zeta in H.
  assert (W : wfBB (bbNotThisAnd (bbC p us) (knightAttack us f))) by (apply wf_notthisand, wf_knight; auto).
  destruct (moveMates _ _ _ _ _ true _ _) as [m''|] eqn:H1; [injection H as <-; revert H1|clear H1; revert H].
  - apply mm; auto; try discriminate; try (unfold Knight; lia); [now apply wf_and_l| |intros t; left; split; [reflexivity|discriminate]].
    intros t Ht St. bits St. rewrite isSet_notthisand, zone_in, andb_true_iff in St by auto. destruct St as [[S1 S2] [S3 S4]]. apply negb_true_iff in S1. split; [rewrite af3; exact S2|]. split; [auto|]. split; [rewrite S4, orb_true_r; auto|]. split; [now apply r7|intros _; now apply nearG].
  - apply mm; auto; try discriminate; try (unfold Knight; lia); [now apply wf_and_l| |intros t; left; split; [reflexivity|discriminate]].
    intros t Ht St. bits St. rewrite isSet_notthisand, andb_true_iff in St by auto. destruct St as [[S1 S2] S3]. apply negb_true_iff in S1. split; [rewrite af3; exact S2|]. split; [auto|]. split; [discriminate|]. split; [now apply r3|discriminate].
Qed.
Lemma lance_sound m : mateLance p = Some m -> found m.
Proof.
  start. unfold mateLance in H. cbv zeta in H. rewrite Eus, Eth, bKo in H. apply firstSome_in in H as (f & I & H). apply from_in in I as (Hf & C & E & _); [|unfold Lance; lia]. cbv zeta in H.
  destruct (moveMates _ _ _ _ _ true _ _) as [m''|] eqn:H1; [injection H as <-; revert H1|clear H1].
  - apply mm; auto; try discriminate; try (unfold Lance; lia); [now apply wf_and_l, wf_and_l| |intros t; left; split; [reflexivity|discriminate]].
    intros t Ht St. bits St. rewrite zone_in in St by auto. destruct St as [[S1 S2] [S3 S4]]. apply target in S1 as [S1 S5]; auto. split; [rewrite af2; exact S2|]. split; [auto|]. split; [rewrite S4, orb_true_r; auto|]. split; [now apply r7|auto].
  - destruct (isAny _) eqn:A in H; [|discriminate H]. apply isAny_true_ex in A as (t & Ht & St); [|now apply wf_and_l, wf_and_l]. bits St. destruct St as [[S1 S2] [S3 _]]. apply target in S1 as [S1 S4]; auto.
    assert (F : t = frontOf us ko /\ reach 2 us t ko = true) by (apply front_pawn; auto; rewrite Eth; auto). destruct F as [F R]. unfold frontOf in F. change (us =? Black) with (us =? 0) in H. rewrite <- F in H.
    revert H. apply mm; auto; try discriminate; try (unfold Lance; lia); [now apply wf_mask| |intros s; left; split; [reflexivity|discriminate]].
    intros s Hs Q. rewrite isSet_mask in Q by auto. apply N.eqb_eq in Q as <-. split; [rewrite af2; exact S2|]. split; [auto|]. split; [discriminate|]. split; auto.
Qed.
Lemma pawn_sound m : matePawn p = Some m -> found m.
Proof.
  start. unfold matePawn in H. cbv zeta in H. rewrite Eus, Eth, bKo in H. change (us =? Black) with (us =? 0) in H.
  destruct (isInFrontOf us 7 1 (makeRank ko)) eqn:IF; [|discriminate H].
  match type of H with match ?x with _ => _ end = _ => destruct x as [m'|] eqn:H1; [injection H as <-|clear H1] end.
  - destruct (isInFrontOf us 3 5 (makeRank ko)); [|discriminate H1]. apply firstSome_in in H1 as (f & I & H). apply from_in in I as (Hf & C & E & S); [|unfold Pawn; lia].
    change (if us =? 0 then f - 1 else f + 1) with (aheadOf us f) in H.
    assert (W : wfBB (bbAnd (bbAnd (bbNotThisAnd (bbC p us) (kingAttack ko)) (goldAttack th ko)) (tRank123 us))) by (now apply wf_and_l, wf_and_l).
    rewrite pawn_shift in S by auto.
    assert (A : aheadOf us f < 81 /\ f <> aheadOf us f /\ isSet (bbAnd (bbAnd (bbNotThisAnd (bbC p us) (kingAttack ko)) (goldAttack th ko)) (tRank123 us)) (aheadOf us f) = true).
    { revert S. generalize (bbAnd (bbAnd (bbNotThisAnd (bbC p us) (kingAttack ko)) (goldAttack th ko)) (tRank123 us)) as B. intros B S. rewrite <- Eth in S. clear - S Hu Hf. unfold aheadOf.
      assert (us = 0 \/ us = 1) as [-> | ->] by lia; change (opp 0 =? 0) with false in S; change (opp 1 =? 0) with true in S; cbv iota in S; rewrite !andb_true_iff, !negb_true_iff, !N.eqb_neq in S; destruct S as [[N1 N2] S]; change (0 =? 0) with true; change (1 =? 0) with false; cbv iota; (split; [lia|split; [lia|exact S]]). }
    destruct A as (H1 & H2 & St). set (t := aheadOf us f) in *. bits St. rewrite zone_in in St by auto. destruct St as [[S1 S2] S3]. apply target in S1 as [S1 S4]; auto.
    revert H. apply mm; auto; try discriminate; try (unfold Pawn; lia); [now apply wf_mask| |intros s; left; split; [reflexivity|discriminate]].
    intros s Hs Q. rewrite isSet_mask in Q by auto. apply N.eqb_eq in Q as <-. split; [rewrite af1; apply ahead_zone; auto|]. split; [auto|]. split; [rewrite S3, orb_true_r; auto|]. split; [now apply r7|auto].
  - destruct (front_twice us ko Hu Ho IF) as (F1 & F2 & F3 & F4). change (if us =? 0 then ko + 1 else ko - 1) with (frontOf us ko) in H. set (t := frontOf us ko) in *. change (if us =? 0 then t + 1 else t - 1) with (frontOf us t) in H. rewrite Eth in F3.
    match type of H with (if ?c then _ else _) = _ => destruct c eqn:Q; [|discriminate H] end. rewrite !andb_true_iff in Q. destruct Q as [[Q1 Q2] _]. apply negb_true_iff in Q2.
    assert (I : In (frontOf us t) (bbList (bbTC p Pawn us))) by (apply in_bbList; [apply wf_pawns; auto using bV|auto]). apply from_in0 in I as (Hf & C & E); [|unfold Pawn; lia].
    revert H. apply mm; auto; try discriminate; try (unfold Pawn; lia); [now apply wf_mask| |intros s; left; split; [reflexivity|discriminate]].
    intros s Hs Q. rewrite isSet_mask in Q by auto. apply N.eqb_eq in Q as <-. split; [rewrite af1; exact F4|]. split; [auto|]. split; [discriminate|]. split; [now apply r1|intros _; now apply nearP].
Qed.
Lemma empty_in t : t < 81 -> isSet (nOccupiedBB p) t = true -> isSet (occBB p) t = false.
Proof. intros Ht S. unfold nOccupiedBB in S. rewrite isSet_not in S by auto. now apply negb_true_iff. Qed.
Lemma drops_sound m : mateDrops p = Some m -> found m.
Proof.
  start. unfold mateDrops in H. cbv zeta in H. rewrite Eus, Eth, bKo in H. change (us =? Black) with (us =? 0) in H.
  match type of H with match ?x with _ => _ end = _ => destruct x as [m'|] eqn:H1; [injection H as <-|clear H1] end.
  { destruct (handExists (handOf p us) 6) eqn:HE.
    - revert H1. apply dropMates_sound; auto; try discriminate; try (unfold Rook; lia); [apply wf_and_r, rookStep_ok; auto|]. intros t Ht St. bits St. destruct St as [S1 S2]. destruct (rook_next us ko t) as [R A]; auto. split; [now apply empty_in|]. auto.
    - clear HE. destruct (_ && _) eqn:HE in H1; [|discriminate H1]. apply andb_prop in HE as [HE IF]. destruct (front_there us ko Hu Ho IF) as [F1 F2]. change (if us =? 0 then ko + 1 else ko - 1) with (frontOf us ko) in H1.
      destruct (pieceAt p (frontOf us ko) =? Empty) eqn:EM; [|discriminate H1]. rewrite Eth in F2. assert (F3 : reach 2 us (frontOf us ko) ko = true) by (apply (front_pawn us ko); auto; rewrite Eth; auto).
      revert H1. apply dropMates_sound; auto; try discriminate; try (unfold Lance; lia); [now apply wf_mask|]. intros s Hs Q. rewrite isSet_mask in Q by auto. apply N.eqb_eq in Q as <-. split; [rewrite bOcc by auto; unfold occOf; rewrite <- (gAt p bd Ebd); unfold Empty in EM; rewrite EM; reflexivity|]. split; auto. intros _. now apply nearP. }
  match type of H with match ?x with _ => _ end = _ => destruct x as [m'|] eqn:H1; [injection H as <-|clear H1] end.
  { destruct (handExists (handOf p us) 5) eqn:HE; [|discriminate H1].
    revert H1. apply dropMates_sound; auto; try discriminate; try (unfold Bishop; lia); [apply wf_and_r, bishopStep_ok; auto|]. intros t Ht St. bits St. destruct St as [S1 S2]. destruct (bishop_next us ko t) as [R A]; auto. split; [now apply empty_in|]. auto. }
  match type of H with match ?x with _ => _ end = _ => destruct x as [m'|] eqn:H1; [injection H as <-|clear H1] end.
  { destruct (handExists (handOf p us) 4) eqn:HE; [|discriminate H1].
    revert H1. apply dropMates_sound; auto; try discriminate; try (unfold Gold; lia); [apply wf_and_r; destruct (handExists (handOf p us) 6); [apply wf_xor; [now apply wf_gold|apply (pawnAttack_ok us ko Hu Ho)]|now apply wf_gold]|]. intros t Ht St. bits St. destruct St as [S1 S2].
    assert (S3 : isSet (goldAttack th ko) t = true) by (destruct (handExists (handOf p us) 6); [rewrite <- Eth in S2 |- *; now apply gold_but|auto]).
    split; [now apply empty_in|]. split; [now apply r7|intros _; now apply nearG]. }
  match type of H with match ?x with _ => _ end = _ => destruct x as [m'|] eqn:H1; [injection H as <-|clear H1] end.
  { destruct (handExists (handOf p us) 3) eqn:HE; [|discriminate H1].
    assert (D : forall B, wfBB B -> (forall t, t < 81 -> isSet B t = true -> isSet (silverAttack th ko) t = true) -> dropMates p Silver true (silverAttack us) (bbAnd (nOccupiedBB p) B) = Some m' -> found m').
    { intros B WB HB. apply dropMates_sound; auto; try discriminate; try (unfold Silver; lia); [now apply wf_and_r|]. intros t Ht St. bits St. destruct St as [S1 S2]. specialize (HB t Ht S2). split; [now apply empty_in|]. split; [now apply r4|intros _; now apply nearS]. }
    destruct (handExists (handOf p us) 4); [destruct (handExists (handOf p us) 5); [discriminate H1|]|].
    - revert H1. apply D; [now apply wf_and_l, wf_silver|]. intros t Ht St. bits St. tauto.
    - destruct (handExists (handOf p us) 5); revert H1; apply D; try (apply wf_and_r); try (now apply wf_silver); intros t Ht St; bits St; tauto. }
  destruct (handExists (handOf p us) 2) eqn:HE; [|discriminate H].
  revert H. apply dropMates_sound; auto; try discriminate; try (unfold Knight; lia); [now apply wf_and_r, wf_knight|]. intros t Ht St. bits St. destruct St as [S1 S2]. split; [now apply empty_in|]. split; [now apply r3|discriminate].
Qed.
Lemma basic_sound m : mateBasic p = Some m -> found m.
Proof.
  unfold mateBasic. intros H.
  destruct (mateDrops p) eqn:E1; [injection H as <-; now apply drops_sound|]. destruct (mateDragon p) eqn:E2; [injection H as <-; now apply dragon_sound|].
  destruct (mateRook p) eqn:E3; [injection H as <-; now apply rook_sound|]. destruct (mateHorse p) eqn:E4; [injection H as <-; now apply horse_sound|].
  destruct (mateBishop p) eqn:E5; [injection H as <-; now apply bishop_sound|]. destruct (mateGolds p) eqn:E6; [injection H as <-; now apply golds_sound|].
  destruct (mateSilver p) eqn:E7; [injection H as <-; now apply silver_sound|]. destruct (mateKnight p) eqn:E8; [injection H as <-; now apply knight_sound|].
  destruct (mateLance p) eqn:E9; [injection H as <-; now apply lance_sound|]. now apply pawn_sound.
Qed.
End B.
