(* Checks along a line: interpositions, captures, pins, and the squares the search takes to be attacked. *)
From Verif Require Export Mate1Double HandFinal GenFinal.
Local Open Scope N_scope.

Lemma in_union (f : N -> BB) l y : wfBB l -> isSet (unionOver f l) y = true -> exists x, x < 81 /\ isSet l x = true /\ isSet (f x) y = true.
Proof.
  intros W H. unfold unionOver in H. pose proof (isSet_fold_or (fun _ => true) f y (bbList l) allZeroBB) as E. cbv beta iota in E. rewrite E, isSet_zero in H. cbn [orb andb] in H.
  apply existsb_exists in H as (x & I & S). apply in_bbList in I as [Hx Sx]; auto. eauto.
Qed.
Lemma capture2_eq p us y avoid pinned occ : canPieceCapture2 p us y avoid pinned occ = existsb (fun from => negb (isAny pinned) || negb (isSet pinned from) || isAligned from y (kingSquare p us))
    (bbList (bbAnd (attackersTo p us y occ) (bbNot (bbOr (bbT p King) avoid)))).
Proof. reflexivity. Qed.
Lemma capture2_false pinned y ko l g : existsb (fun from => negb (isAny pinned) || negb (isSet pinned from) || isAligned from y ko) l = false -> In g l -> isSet pinned g = true /\ isAligned g y ko = false.
Proof. intros H I. apply (existsb_false_at _ _ g) in H; [|exact I]. cbv beta in H. rewrite !orb_false_iff, !negb_false_iff in H. tauto. Qed.
Section Q.
Variables (q : Position) (us th ko : N) (bq : list N).
Hypotheses (Gq : good q) (Etq : turn q = th) (Eth : opp th = us) (Ebq : board q = bq) (king_q : kingOf bq th = ko) (Ho : ko < 81).
(* one checker, on a line *)
Lemma no_reply_line c : chkr th ko bq c ->
  (forall y, y < 81 -> reach 8 th ko y = true -> isCol bq th y = false -> exists x, x < 81 /\ isCol bq us x = true /\ attOcc bq (occGo bq ko y) x y = true) ->
  (forall y g, y < 81 -> y = c \/ In y (betw c ko) -> g < 81 -> g <> ko -> isCol bq th g = true -> att bq g y = true -> isPinnedIllegal g y ko (pinnedBB q) = true) ->
  (forall f y pr, In y (betw c ko) -> 81 <= f < 128 -> y < 81 -> ~ plSet q f y pr) -> noReply q.
Proof.
  intros C HK HL HD. apply (no_reply q us th ko bq Gq Etq Eth Ebq king_q Ho HK).
  - intros f y pr Hf Nf Hy P. destruct (N.eq_dec y c) as [E|N1]; [|destruct (in_dec N.eq_dec y (betw c ko)) as [I|I]; [|right; exists c; auto]];
    (left; destruct (pl_own q th bq Etq Ebq f y pr Hf P) as [Cf A]; apply HL; auto).
  - intros f y pr Hf Hy P. exists c. split; auto. intros I. exact (HD f y pr I Hf Hy P).
Qed.
End Q.
Section W.
Variables (p : Position) (us th k ko : N) (bd : list N).
Hypotheses (G : good p) (Eus : turn p = us) (Eth : opp us = th) (Ebd : board p = bd).
Hypotheses (Ek : kingOf bd us = k) (Hk : k < 81) (Eo : kingOf bd th = ko) (Ho : ko < 81).
Hypothesis NC : forall x, ~ chkr us k bd x.
Hypothesis ND : forall s, s < 81 -> isCol bd us s = true -> ptOf (at_ bd s) = 1 -> rankFor us s <> 1.
Notation U := (sU p us G Eus).
Notation T := (sT p us th G Eus Eth).
Lemma wAtt (occ : N -> bool) x y : isCol bd us x = true -> reach (ptOf (at_ bd x)) us x y = true -> clear occ x y = true -> attOcc bd occ x y = true.
Proof. intros C R CL. unfold isCol in C. apply andb_prop in C as [C0 C1]. apply N.eqb_eq in C1. unfold attOcc. now rewrite C0, C1, R, CL. Qed.
Lemma wStep pt x y B : us < 2 -> x < 81 -> y < 81 -> 1 <= pt < 15 -> slidesOf pt us = [] -> isSet (attacksFrom pt us x B) y = true -> reach pt us x y = true /\ forall occ, clear occ x y = true.
Proof.
  intros Hu Hx Hy Hp SL S. assert (X : forall occ : N -> bool, reach pt us x y = true /\ clear occ x y = true) by (intros occ; apply andb_prop; rewrite <- (stepAtt pt us x y B occ); auto).
  split; [apply (X (fun _ => true))|intros occ; apply (X occ)].
Qed.
Lemma wT pt x : 1 <= pt < 15 -> x < 81 -> isSet (bbT p pt) x = (ptOf (at_ bd x) =? pt).
Proof. intros Hp Hx. rewrite isSet_bbT by (auto; apply G). now rewrite (gAt p bd Ebd). Qed.
Lemma wf_T pt : wfBB (bbT p pt) -> wfBB (bbT p pt). Proof. auto. Qed.
(* steps next to the king's neighbours *)
Lemma around_step avoid y : y < 81 -> isSet (attacksAroundNonSlider p th avoid) y = true ->
  exists x, x < 81 /\ isCol bd us x = true /\ (isSet avoid x = false \/ ptOf (at_ bd x) = 1) /\ forall occ, attOcc bd occ x y = true.
Proof.
  intros Hy S. pose proof U as Hu. assert (V : views p) by apply G. unfold attacksAroundNonSlider in S. cbv zeta in S. rewrite (sOT p us th G Eus Eth), !isSet_or, !orb_true_iff in S.
  assert (WC : wfBB (bbC p us)) by (apply wf_bbC; auto).
  assert (K : forall pt x B, x < 81 -> 1 <= pt < 15 -> slidesOf pt us = [] -> isSet (attacksFrom pt us x B) y = true -> isCol bd us x = true -> (forall c, reach pt c x y = true -> reach (ptOf (at_ bd x)) c x y = true) -> (isSet avoid x = false \/ ptOf (at_ bd x) = 1) ->
     exists x, x < 81 /\ isCol bd us x = true /\ (isSet avoid x = false \/ ptOf (at_ bd x) = 1) /\ forall occ, attOcc bd occ x y = true).
  { intros pt x B Hx Hp SL SS C RR AV. destruct (wStep pt x y B Hu Hx Hy Hp SL SS) as [R CL]. exists x. do 3 (split; [assumption|]). intros occ. apply wAtt; auto. }
  destruct S as [[[[S|S]|S]|S]|S].
  - rewrite pawn_shift in S by (auto; unfold bbTC; apply wf_and_r; auto).
    assert (X : exists x, x < 81 /\ y = aheadOf us x /\ (if us =? 0 then y + 1 = x else y - 1 = x /\ y <> 0) /\ isSet (bbTC p Pawn us) x = true).
    { unfold aheadOf. destruct (us =? 0).
      - rewrite !andb_true_iff, !negb_true_iff, !N.eqb_neq in S. destruct S as [[S1 S2] S3]. exists (y + 1). repeat split; auto; lia.
      - rewrite !andb_true_iff, !negb_true_iff, !N.eqb_neq in S. destruct S as [[S1 S2] S3]. exists (y - 1). repeat split; auto; lia. }
    destruct X as (x & Hx & Ey & _ & Sx). unfold bbTC in Sx. rewrite isSet_and in Sx. apply andb_prop in Sx as [S1 S2]. unfold Pawn in S1. rewrite wT in S1 by (auto; lia). apply N.eqb_eq in S1. rewrite (bCol p us bd G Eus Ebd x Hx) in S2.
    apply (K 1 x allZeroBB Hx); auto; [lia| |intros c; rewrite S1; auto].
    pose proof (ND x Hx S2 S1) as N1. rewrite af1, (proj2 (pawnAttack_ok us x Hu Hx)) by auto. rewrite Ey. rewrite Ey in Hy. clear - Hu Hx N1 Hy.
    assert (X : forallb (fun c => forallb (fun x => (rankFor c x =? 1) || stepIn (stepsOf 1 c) x (aheadOf c x)) squares) [0; 1] = true) by (vm_compute; reflexivity).
    assert (Y := all2 _ X us x Hu Hx). cbv beta in Y. apply orb_prop in Y as [Y|Y]; [apply N.eqb_eq in Y; contradiction|exact Y].
  - apply in_union in S as (x & Hx & Sx & S); [|apply wf_and_l, wf_and_l; unfold bbTC; apply wf_and_r; auto]. unfold bbTC in Sx. rewrite !isSet_and, !andb_true_iff in Sx. destruct Sx as [[[S1 S2] _] S3]. unfold Knight in S1. rewrite wT in S1 by (auto; lia). apply N.eqb_eq in S1.
    rewrite (bCol p us bd G Eus Ebd x Hx) in S2. rewrite isSet_not in S3 by auto. apply negb_true_iff in S3. rewrite <- (af3 us x allZeroBB) in S. apply (K 3 x allZeroBB Hx); auto; [lia|intros c; rewrite S1; auto].
  - apply in_union in S as (x & Hx & Sx & S); [|apply wf_and_l, wf_and_l; unfold bbTC; apply wf_and_r; auto]. unfold bbTC in Sx. rewrite !isSet_and, !andb_true_iff in Sx. destruct Sx as [[[S1 S2] _] S3]. unfold Silver in S1. rewrite wT in S1 by (auto; lia). apply N.eqb_eq in S1.
    rewrite (bCol p us bd G Eus Ebd x Hx) in S2. rewrite isSet_not in S3 by auto. apply negb_true_iff in S3. rewrite <- (af4 us x allZeroBB) in S. apply (K 4 x allZeroBB Hx); auto; [lia|intros c; rewrite S1; auto].
  - apply in_union in S as (x & Hx & Sx & S); [|apply wf_and_l, wf_and_l, wf_and_r; auto]. rewrite !isSet_and, !andb_true_iff in Sx. destruct Sx as [[[S1 S2] _] S3]. rewrite isSet_golds, (gAt p bd Ebd) in S1 by auto.
    rewrite (bCol p us bd G Eus Ebd x Hx) in S2. rewrite isSet_not in S3 by auto. apply negb_true_iff in S3. rewrite <- (af7 us x allZeroBB) in S. apply (K 7 x allZeroBB Hx); auto; [lia|]. intros c.
    unfold isGoldPt in S1. rewrite !orb_true_iff, !N.eqb_eq in S1. destruct S1 as [[[[E|E]|E]|E]|E]; rewrite E; auto.
  - apply in_union in S as (x & Hx & Sx & S); [|apply wf_and_l, wf_and_l, wf_and_r; auto]. unfold bbT3, bbT2 in Sx. rewrite !isSet_and, !isSet_or, !andb_true_iff, !orb_true_iff in Sx. destruct Sx as [[[S1 S2] _] S3]. unfold Horse, Dragon, King in S1. rewrite !wT in S1 by (auto; lia). rewrite !N.eqb_eq in S1.
    rewrite (bCol p us bd G Eus Ebd x Hx) in S2. rewrite isSet_not in S3 by auto. apply negb_true_iff in S3. rewrite <- (af8 us x allZeroBB) in S. 
    destruct (wStep 8 x y allZeroBB Hu Hx Hy ltac:(lia) eq_refl S) as [R CL]. exists x. do 2 (split; [assumption|]). split; [auto|]. intros occ. apply wAtt; auto. destruct (reach_unions us x y Hu Hx Hy) as (_ & _ & _ & U13 & U14).
    destruct S1 as [[E|E]|E]; rewrite E; [rewrite U13|rewrite U14|]; rewrite R; reflexivity.
Qed.
Lemma around_slide avoid occ y : y < 81 -> isSet (attacksSlider p us avoid occ) y = true -> exists x, x < 81 /\ isCol bd us x = true /\ isSet avoid x = false /\ attOcc bd (isSet occ) x y = true.
Proof.
  intros Hy S. pose proof U as Hu. assert (V : views p) by apply G. unfold attacksSlider in S. rewrite !isSet_or, !orb_true_iff in S. assert (WC : wfBB (bbC p us)) by (apply wf_bbC; auto).
  assert (K : forall pt x, x < 81 -> 1 <= pt < 15 -> isSet (attacksFrom pt us x occ) y = true -> isSet (bbC p us) x = true -> isSet (bbNot avoid) x = true -> (forall c, reach pt c x y = true -> reach (ptOf (at_ bd x)) c x y = true) ->
     exists x, x < 81 /\ isCol bd us x = true /\ isSet avoid x = false /\ attOcc bd (isSet occ) x y = true).
  { intros pt x Hx Hp SS C AV RR. rewrite attacksFrom_spec in SS by auto. apply andb_prop in SS as [R CL]. rewrite (bCol p us bd G Eus Ebd x Hx) in C. rewrite isSet_not in AV by auto. apply negb_true_iff in AV. exists x. do 3 (split; [assumption|]). apply wAtt; auto. }
  destruct S as [[S|S]|S].
  - apply in_union in S as (x & Hx & Sx & S); [|apply wf_and_l; unfold bbTC; apply wf_and_r; auto]. unfold bbTC in Sx. rewrite !isSet_and, !andb_true_iff in Sx. destruct Sx as [[S1 S2] S3]. unfold Lance in S1. rewrite wT in S1 by (auto; lia). apply N.eqb_eq in S1.
    rewrite <- (af2 us x) in S. apply (K 2 x Hx); auto; [lia|intros c; rewrite S1; auto].
  - apply in_union in S as (x & Hx & Sx & S); [|apply wf_and_l, wf_and_r; auto]. unfold bbT2 in Sx. rewrite !isSet_and, !isSet_or, !andb_true_iff, !orb_true_iff in Sx. destruct Sx as [[S1 S2] S3]. unfold Bishop, Horse in S1. rewrite !wT in S1 by (auto; lia). rewrite !N.eqb_eq in S1.
    rewrite <- (af5 us x) in S. apply (K 5 x Hx); auto; [lia|]. intros c R. destruct S1 as [E|E]; rewrite E; [exact R|]. apply sreach_reach. exact R.
  - apply in_union in S as (x & Hx & Sx & S); [|apply wf_and_l, wf_and_r; auto]. unfold bbT2 in Sx. rewrite !isSet_and, !isSet_or, !andb_true_iff, !orb_true_iff in Sx. destruct Sx as [[S1 S2] S3]. unfold Rook, Dragon in S1. rewrite !wT in S1 by (auto; lia). rewrite !N.eqb_eq in S1.
    rewrite <- (af6 us x) in S. apply (K 6 x Hx); auto; [lia|]. intros c R. destruct S1 as [E|E]; rewrite E; [exact R|]. apply sreach_reach. exact R.
Qed.

Section A.
(* after a move or drop: t holds the piece pt of us, the squares of gone are empty *)
Variables (t pt : N) (gone : N -> bool) (q : Position) (bq : list N).
Hypotheses (Ht : t < 81) (Hpt : 1 <= pt < 15) (Ntk : t <> ko) (Ct : isCol bd us t = false) (Hg : forall x, gone x = true -> isCol bd us x = true).
Hypotheses (Gq : good q) (Etq : turn q = th) (Ebq : board q = bq).
Hypothesis At : forall x, at_ bq x = if t =? x then mkPiece us pt else if gone x then 0 else at_ bd x.
Lemma aNe : us <> th. Proof. rewrite <- Eth. intros E. symmetry in E. revert E. apply opp_neq, U. Qed.
Lemma col_both x : isCol bd us x = true -> isCol bd th x = false.
Proof. unfold isCol. intros C. apply andb_prop in C as [C0 C1]. apply N.eqb_eq in C1. rewrite C0, C1. cbn [andb]. apply N.eqb_neq, aNe. Qed.
Lemma aCol_th x : isCol bq th x = negb (t =? x) && isCol bd th x.
Proof.
  pose proof U as Hu. unfold isCol at 1. rewrite At. destruct (t =? x); [rewrite mk_nz, col_mk by auto; apply N.eqb_neq, aNe|]. destruct (gone x) eqn:E; [|reflexivity]. rewrite (col_both x) by auto. reflexivity.
Qed.
Lemma aOcc x : occOf bq x = (t =? x) || negb (gone x) && occOf bd x.
Proof. pose proof U as Hu. unfold occOf. rewrite At. destruct (t =? x); [rewrite mk_nz by auto; reflexivity|]. destruct (gone x); reflexivity. Qed.
Lemma ko_col : isCol bd th ko = true.
Proof. pose proof T as Hth. unfold isCol. rewrite (kingOf_at bd th ko Eo Ho), mk_nz, col_mk, N.eqb_refl by (auto; unfold King; lia). reflexivity. Qed.
Lemma aKing : kingOf bq th = ko.
Proof.
  pose proof (g_one q Gq) as O. rewrite Ebq in O. apply kingOf_here; auto using T. unfold isKing. rewrite At, (proj2 (N.eqb_neq t ko)) by auto. destruct (gone ko) eqn:E; [pose proof (col_both ko (Hg ko E)) as X; rewrite ko_col in X; discriminate X|].
  rewrite (kingOf_at bd th ko Eo Ho). apply N.eqb_refl.
Qed.
Lemma aStay x : isCol bd us x = true -> gone x = false -> t <> x /\ at_ bq x = at_ bd x /\ isCol bq us x = true.
Proof.
  intros C Gx. assert (N : t <> x) by (intros E; rewrite <- E, Ct in C; discriminate C). assert (E : at_ bq x = at_ bd x) by (rewrite At, (proj2 (N.eqb_neq t x)), Gx by auto; reflexivity). split; auto. split; auto. unfold isCol in *. now rewrite E.
Qed.
Lemma aTarget : isCol bq us t = true.
Proof. pose proof U as Hu. unfold isCol. rewrite At, N.eqb_refl, mk_nz, col_mk, N.eqb_refl by auto. reflexivity. Qed.
Lemma aAttack occ x y : isCol bd us x = true -> gone x = false -> attOcc bd occ x y = true -> (forall w, In w (betw x y) -> occGo bq ko y w = true -> occ w = true) ->
  isCol bq us x = true /\ attOcc bq (occGo bq ko y) x y = true.
Proof.
  intros C Gx A O. destruct (aStay x C Gx) as (N & E & C'). split; auto. unfold attOcc in *. rewrite E. rewrite !andb_true_iff in *. destruct A as (A & B & D). do 2 (split; auto). rewrite clear_iff in *. intros w I. destruct (occGo bq ko y w) eqn:Q; [|reflexivity]. rewrite <- (D w I). symmetry. auto.
Qed.
Lemma occGo_bq y w x : x < 81 -> y < 81 -> In w (betw x y) -> occGo bq ko y w = true -> w < 81 /\ w <> ko /\ occOf bq w = true.
Proof.
  intros Hx Hy I O. split; [now apply betw_lt in I|]. unfold occGo in O. assert (N : y <> w) by (intros ->; now apply (proj2 (betw_ends x w Hx Hy))). rewrite (proj2 (N.eqb_neq y w)), orb_false_l in O by auto.
  apply andb_prop in O as [O1 O2]. apply negb_true_iff, N.eqb_neq in O1. auto.
Qed.
(* the attack sets *)
Lemma guard_step avoid y : y < 81 -> isSet (attacksAroundNonSlider p th avoid) y = true -> (forall x, x < 81 -> isCol bd us x = true -> isSet avoid x = false \/ ptOf (at_ bd x) = 1 -> gone x = false) ->
  exists x, x < 81 /\ isCol bq us x = true /\ attOcc bq (occGo bq ko y) x y = true.
Proof. intros Hy S H. destruct (around_step avoid y Hy S) as (x & Hx & C & AV & A). exists x. split; auto. apply (aAttack (fun _ => true) x y); auto. Qed.
Lemma guard_slide avoid occ y : y < 81 -> isSet (attacksSlider p us avoid occ) y = true -> (forall x, x < 81 -> isCol bd us x = true -> isSet avoid x = false -> gone x = false) ->
  (forall w, w < 81 -> w <> ko -> occOf bq w = true -> isSet occ w = true) -> exists x, x < 81 /\ isCol bq us x = true /\ attOcc bq (occGo bq ko y) x y = true.
Proof.
  intros Hy S H O. destruct (around_slide avoid occ y Hy S) as (x & Hx & C & AV & A). exists x. split; auto. apply (aAttack (isSet occ) x y); auto. intros w I Q. destruct (occGo_bq y w x Hx Hy I Q) as (Hw & N & OQ). auto.
Qed.
(* captures *)
Lemma cap_pins y avoid pinned occX g : canPieceCapture2 p th y avoid pinned occX = false -> y < 81 -> g < 81 -> g <> ko -> isCol bq th g = true -> att bq g y = true -> isSet avoid g = false ->
  (forall w, w < 81 -> isSet occX w = true -> occOf bq w = true) -> isSet pinned g = true /\ isAligned g y ko = false.
Proof.
  intros H Hy Hg' Nk C A AV O. pose proof T as Hth. assert (V : views p) by apply G. pose proof (own_king q th ko bq Gq Etq Ebq aKing Ho g Hg' C) as OK. rewrite (gAt q bq Ebq) in OK.
  rewrite aCol_th in C. apply andb_prop in C as [N C]. apply negb_true_iff in N. assert (Gg : gone g = false) by (destruct (gone g) eqn:E; [apply Hg, col_both in E; congruence|reflexivity]). rewrite At, N, Gg in OK.
  rewrite capture2_eq, (bKo p us th ko bd G Eus Eth Ebd Eo) in H. apply (capture2_false _ _ _ _ _ H). clear H.
  - apply in_bbList; [apply wf_and_l; unfold attackersTo; apply wf_and_r, wf_bbC; auto|]. split; auto. rewrite isSet_and, isSet_not, isSet_or, att_by, Ebd by auto. rewrite C, AV. unfold King. rewrite wT by (auto; lia). rewrite OK, (proj2 (N.eqb_neq g ko)) by auto. rewrite andb_true_r. rewrite andb_true_l.
    unfold att, attOcc in *. rewrite At, N, Gg in A. rewrite !andb_true_iff in *. destruct A as (A1 & A2 & A3). do 2 (split; auto). rewrite clear_iff in *. intros w I. destruct (isSet occX w) eqn:Q; [|reflexivity]. rewrite <- (A3 w I). symmetry. apply O; auto. now apply betw_lt in I.
Qed.
Lemma pin_bites g y x : g < 81 -> x < 81 -> isCol bq th g = true -> hid bq us ko g x = true -> isAligned g y ko = false -> isPinnedIllegal g y ko (pinnedBB q) = true.
Proof.
  intros Hg' Hx C HX AL. unfold isPinnedIllegal. rewrite AL, andb_true_r. rewrite (isSet_pinned q th ko bq (g_views q Gq) Etq Ebq aKing Ho g Hg'), C, (sOT p us th G Eus Eth). cbn [andb]. apply existsb_exists. exists x. split; auto. now apply in_squares.
Qed.
(* pins seen before the move hold after it, when t itself gives the check *)
Lemma pin_far g y : g < 81 -> y < 81 -> isCol bq th g = true -> att bq g y = true -> y = t \/ In y (betw t ko) -> clear (occOf bq) t ko = true -> isSet (discoveredCheckBB false p) g = true -> isAligned g y ko = false ->
  (forall x, x < 81 -> hid bd us ko g x = true -> gone x = false) -> isPinnedIllegal g y ko (pinnedBB q) = true.
Proof.
  intros Hg' Hy C A L CL S AL NG. pose proof U as Hu. assert (Cg := C). rewrite aCol_th in C. apply andb_prop in C as [N C]. apply negb_true_iff in N.
  pose proof (isSet_hiddenCheckers false false p g (g_views p G) Hg') as H. cbv zeta in H. unfold discoveredCheckBB in S. rewrite H, Eus, Eth, Ebd, Eo, (proj2 (N.ltb_lt _ _) Ho), C, !andb_true_l in S. clear H.
  apply existsb_exists in S as (x & Hx & HX). apply in_squares in Hx. apply (pin_bites g y x); auto. pose proof (NG x Hx HX) as Gx. unfold hid in *. rewrite !andb_true_iff in HX. destruct HX as [[Cx Sx] S].
  destruct (aStay x Cx Gx) as (Nx & Ex & Cx'). rewrite Cx', Ex, Sx, !andb_true_l.
  assert (Oy : y <> t -> occOf bq y = false) by (intros Q; destruct L as [L|L]; [contradiction|]; rewrite clear_iff in CL; now apply CL).
  assert (Og : occOf bq g = true) by (unfold isCol in Cg; now apply andb_prop in Cg as [Cg _]). assert (Ox : occOf bq x = true) by (unfold isCol in Cx'; now apply andb_prop in Cx' as [Cx' _]).
  assert (Ok : occOf bq ko = true) by (unfold occOf; rewrite (kingOf_at bq th ko aKing Ho), mk_nz by (auto using T; unfold King; lia); reflexivity).
  assert (Nyk : y <> ko) by (destruct L as [-> |L]; auto; intros E; rewrite E in L; now apply (proj2 (betw_ends t ko Ht Ho))).
  assert (Nyx : y <> x) by (intros E; destruct (N.eq_dec y t) as [E'|E']; [congruence|]; rewrite <- E, Oy in Ox by auto; discriminate Ox).
  assert (Ngy : g <> y) by (intros E; destruct (N.eq_dec y t) as [E'|E']; [rewrite E, E', N.eqb_refl in N; discriminate N|]; rewrite E, Oy in Og by auto; discriminate Og).
  assert (BT : isBetween x g ko) by (unfold sole in S; rewrite !andb_true_iff in S; destruct S as [[S _] _]; apply memN_betw in S; auto).
  assert (MY : memN y (betw x ko) = false).
  { rewrite <- AL. symmetry. apply (aligned_between (occOf bq)); auto. unfold att, attOcc in A. rewrite !andb_true_iff in A. tauto. }
  assert (MT : memN t (betw x ko) = false).
  { destruct (memN t (betw x ko)) eqn:MT; [|reflexivity]. exfalso. destruct L as [L|L]; [rewrite L, MT in MY; discriminate MY|]. apply not_true_iff_false in MY. apply MY. apply memN_betw in MT; auto. apply memN_betw; auto.
    apply betw_iff in L as (_ & d2 & a2 & b2 & Hd2 & Ha2 & Hb2 & P1 & P2); auto. destruct MT as (d & a & b & Hd & Ha & Hb & O1 & O2).
    assert (d = d2 /\ (b = a2 + b2)%Z) as [<- E] by (apply (off_uniq t ko); auto; try lia; eapply off_add; eauto). exists d, (a + a2)%Z, b2. repeat split; auto; try lia; try apply P2; eapply off_add; eauto. }
  unfold sole in *. rewrite !andb_true_iff in *. destruct S as [[S1 S2] S3]. split; [split; auto|]. rewrite forallb_forall in *. intros w I. specialize (S3 w I). rewrite aOcc. apply memN_In in I. destruct (N.eqb_spec t w) as [E|E]; [rewrite E in MT; congruence|].
  apply orb_prop in S3 as [S3|S3]; [rewrite S3; reflexivity|]. apply negb_true_iff in S3. rewrite S3, andb_false_r. apply orb_true_r.
Qed.
(* drops between *)
Lemma no_pawn f y pr : handOf q th = handOf p th -> exceptPawnExists (handOf p th) = false -> canPawnDrop p th y = false -> y < 81 ->
  (ptOf (at_ bd t) = 1 -> makeFile t = makeFile y -> handExists (handOf p th) 0 = false) -> 81 <= f < 128 -> ~ plSet q f y pr.
Proof.
  intros EH EX CP Hy TP Hf P. pose proof T as Hth. unfold plSet in P. destruct (N.ltb_spec f 81) as [L|_]; [lia|]. destruct P as (_ & Hf' & P). unfold plDropB in P. rewrite Etq, EH in P. rewrite !andb_true_iff in P. destruct P as [[[[_ _] P1] _] P2].
  rewrite exceptPawn_or, !orb_false_iff in EX.
  assert (HH : forall hp, hp < 7 -> (0 <? numOf (handOf p th) hp) = handExists (handOf p th) hp).
  { intros hp Hh. rewrite handExists_num by auto. destruct (N.ltb_spec 0 (numOf (handOf p th) hp)), (N.eqb_spec (numOf (handOf p th) hp) 0); try reflexivity; lia. }
  assert (f = 81 \/ f = 82 \/ f = 83 \/ f = 84 \/ f = 85 \/ f = 86 \/ f = 87) as X by lia. destruct EX as [[[[[X1 X2] X3] X4] X5] X6].
  destruct X as [E|X]; [|exfalso; destruct X as [E|[E|[E|[E|[E|E]]]]]; rewrite E in P1; match type of P1 with (0 <? numOf _ ?a) = true => let b := eval vm_compute in a in change a with b in P1 end; rewrite HH in P1 by lia; congruence].
  subst f. change (ptToHand (81 - 80)) with 0 in P1. rewrite HH in P1 by lia. change (81 - 80 =? 1) with true in P2. cbn [andb] in P2. apply negb_true_iff in P2.
  unfold canPawnDrop in CP. rewrite P1, andb_true_l in CP. apply negb_false_iff in CP. assert (V : views p) by apply G. apply isAny_true_ex in CP as (s & Hs & S); [|apply wf_and_l; unfold bbTC; apply wf_and_r, wf_bbC; auto].
  unfold bbTC in S. rewrite !isSet_and in S. apply andb_prop in S as [S S3]. apply andb_prop in S as [S1 S2]. unfold Pawn in S1. rewrite wT in S1 by (auto; lia). apply N.eqb_eq in S1. rewrite isSet_bbC in S2 by auto. change (pieceAt p s) with (at_ (board p) s) in S2. rewrite Ebd in S2.
  change (isSet (squareFileMask y) s = true) in S3. rewrite isSet_file in S3 by auto. apply N.eqb_eq in S3.
  assert (Nts : t <> s) by (intros E; rewrite <- E in *; rewrite TP in P1 by (auto; unfold makeFile; congruence); discriminate P1).
  apply not_true_iff_false in P2. apply P2. unfold nifuB. apply existsb_exists. exists s. split; [now apply in_squares|]. rewrite (proj2 (N.eqb_eq _ _) (eq_sym S3)), andb_true_l, Etq. rewrite (gAt q bq Ebq), At, (proj2 (N.eqb_neq t s)) by auto.
  assert (Gs : gone s = false) by (destruct (gone s) eqn:E; [apply Hg, col_both in E; unfold isCol in E; congruence|reflexivity]). rewrite Gs. apply N.eqb_eq. apply andb_prop in S2 as [C0 C1]. apply negb_true_iff, N.eqb_neq in C0. apply N.eqb_eq in C1.
  destruct (vpc_facts _ (gOk p bd V Ebd s Hs) C0) as (_ & _ & B). rewrite B, C1, S1. reflexivity.
Qed.
End A.
End W.
