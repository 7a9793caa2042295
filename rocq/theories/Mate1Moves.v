(* One drop or move of the finder: the tests it makes show mate. *)
From Verif Require Export Mate1Lift.
Local Open Scope N_scope.

Lemma near_king th ko t : th < 2 -> ko < 81 -> t < 81 -> reach 8 th ko t = true -> forall y, ~ In y (betw t ko).
Proof.
  intros Hth Ho Ht R y I. apply memN_In in I. rewrite memN_betw_sym in I by auto. apply memN_In in I.
  assert (S : sreach 8 th ko t = true) by (eapply (reach_far 8 th ko t y); auto; lia). apply sreach_iff in S as (d & j & [] & _); auto.
Qed.
Lemma near_knight us ko t : us < 2 -> ko < 81 -> t < 81 -> reach 3 us t ko = true -> forall y, ~ In y (betw t ko).
Proof.
  intros Hth Ho Ht R y I. assert (S : sreach 3 us t ko = true) by (eapply (reach_far 3 us t ko y); auto; lia). apply sreach_iff in S as (d & j & [] & _); auto.
Qed.
Lemma at_drop p pt t : good p -> 1 <= pt <= 7 -> t < 81 -> plSet p (80 + pt) t false ->
  forall x, at_ (newBoard p (enc p (80 + pt) t false)) x = if t =? x then mkPiece (turn p) pt else at_ (board p) x.
Proof.
  intros G Hp Ht P x. destruct (pl_wf p G (80 + pt) t false) as (W & _ & A & B & D); auto; [lia|]. assert (L : (80 + pt <? 81) = false) by (apply N.ltb_ge; lia). rewrite L in D.
  destruct W as [W|W]; [|destruct W as (D' & _); rewrite D' in D; discriminate D]. rewrite (at_newDrop p _ x (g_views p G) W), A.
  replace (mvPtDropped (enc p (80 + pt) t false)) with pt; [reflexivity|]. unfold mvPtDropped. rewrite B. lia.
Qed.
Lemma at_go p f t pr : good p -> f < 81 -> t < 81 -> plSet p f t pr ->
  forall x, at_ (newBoard p (enc p f t pr)) x = if t =? x then mkPiece (turn p) (ptOf (at_ (board p) f) + (if pr then 8 else 0)) else if f =? x then 0 else at_ (board p) x.
Proof.
  intros G Hf Ht P x. destruct (pl_wf p G f t pr) as (W & _ & A & B & D); auto; [lia|]. rewrite (proj2 (N.ltb_lt _ _) Hf) in D.
  destruct W as [W|W]; [destruct W as (D' & _); rewrite D' in D; discriminate D|]. rewrite (at_newGo p _ x (g_views p G) W), A, B. rewrite mvPtToOf_eq.
  destruct (enc_fields p f t pr) as (_ & _ & E); auto; [lia|]. rewrite E. replace (mvPtFrom (enc p f t pr)) with (ptOf (at_ (board p) f)); [reflexivity|].
  unfold enc. rewrite (proj2 (N.ltb_lt _ _) Hf). destruct (code_fields t f pr (ptOf (pieceAt p f)) (ptOf (pieceAt p t))) as (_ & _ & _ & F & _); auto using ptOf_lt; try lia.
Qed.

(* the squares taken from the king by the piece on t, other than a dragon *)
Lemma banned_ok q us th ko t pt y : good q -> opp th = us -> turn q = th -> ko < 81 -> t < 81 -> y < 81 -> us < 2 -> 1 <= pt < 15 -> pt <> 14 -> at_ (board q) t = mkPiece us pt ->
  reach pt us t ko = true -> (forall x, ~ In x (betw t ko)) -> reach 8 th ko y = true -> isSet (nbTab pt us t) y = true -> attOcc (board q) (occGo (board q) ko y) t y = true.
Proof.
  intros Gq Eth Etq Ho Ht Hy Hu Hp N A R NB Ry S. pose proof (good_turn q Gq) as Hth. rewrite Etq in Hth.
  assert (PA : ptOf (pieceAt q t) = pt) by (change (pieceAt q t) with (at_ (board q) t); rewrite A, pt_mk; auto).
  apply (ban_sound q th t ko y); auto; rewrite ?Eth.
  - apply (g_views q Gq).
  - unfold isCol. rewrite A, mk_nz, col_mk, N.eqb_refl by auto. reflexivity.
  - unfold att, attOcc. rewrite A, mk_nz, pt_mk, col_mk, R by auto. cbn [negb andb]. apply clear_iff. intros x I. destruct (NB x I).
  - rewrite nbTab_banned; rewrite PA; auto.
Qed.
Lemma dragon_ok bq us th ko t y occ : us < 2 -> th < 2 -> ko < 81 -> t < 81 -> y < 81 -> at_ bq t = mkPiece us 14 -> (forall x, x < 81 -> x <> t -> x <> ko -> isSet occ x = occOf bq x) ->
  isSet (dragonAttack t occ) y = true -> attOcc bq (occGo bq ko y) t y = true.
Proof.
  intros Hu Hth Ho Ht Hy A O S. unfold attOcc. rewrite A, mk_nz, pt_mk, col_mk by (auto; lia). cbn [negb andb].
  destruct (reach_unions us t y Hu Ht Hy) as (_ & _ & _ & _ & U). rewrite U. unfold dragonAttack in S. rewrite isSet_or in S. apply orb_prop in S as [S|S].
  - rewrite <- (af6 us), attacksFrom_spec in S by (auto; lia). apply andb_prop in S as [S1 S2]. rewrite S1, orb_true_r, andb_true_l. rewrite clear_iff in *. intros x I. assert (Hx : x < 81) by now apply betw_lt in I.
    destruct (betw_ends t y Ht Hy) as [E1 E2]. assert (x <> t) by (intros ->; auto). assert (x <> y) by (intros ->; auto). unfold occGo. rewrite (proj2 (N.eqb_neq y x)), orb_false_l by auto.
    destruct (N.eqb_spec ko x) as [|Nx]; [reflexivity|]. cbn [negb andb]. rewrite <- O by auto. auto.
  - rewrite <- (af8 us t allZeroBB), (stepAtt 8 us t y allZeroBB (occGo bq ko y)) in S by (auto; lia). apply andb_prop in S as [S1 S2]. rewrite S1, S2. reflexivity.
Qed.
(* the board array plays no part in attacks, pins and checks *)
Definition reb (p : Position) (bd : list N) : Position := mkPos (byType p) (byColor p) (golds p) bd (kingSq p) (hands p) (turn p) (gamePly p) (st p) (prev p).
Lemma to_reb p bd c s occ : attackersTo (reb p bd) c s occ = attackersTo p c s occ.
Proof. unfold attackersTo, bbT3, bbT2, bbT, bbC, reb. cbn [byType byColor golds]. reflexivity. Qed.
Lemma ek_reb p bd c s : attackersToExceptKing (reb p bd) c s = attackersToExceptKing p c s.
Proof. unfold attackersToExceptKing, occBB, bbT3, bbT2, bbT, bbC, reb. cbn [byType byColor golds]. reflexivity. Qed.
Lemma dc_reb p bd b : discoveredCheckBB b (reb p bd) = discoveredCheckBB b p.
Proof. unfold discoveredCheckBB, hiddenCheckers, kingSquare, occBB, bbT3, bbT2, bbT, bbC, reb. cbn [byType byColor golds kingSq turn]. reflexivity. Qed.
Lemma capture_reb p bd c s dc : canPieceCaptureDc (reb p bd) c s dc = canPieceCaptureDc p c s dc.
Proof. rewrite !canPieceCaptureDc_eq, ek_reb. reflexivity. Qed.
Lemma canKingEscape_eq p us sq bb : canKingEscape p us sq bb = existsb (fun to => negb (isAny (attackersTo p us to (clearBit (setBit (occBB p) sq) (kingSquare p (opp us)))))) (bbList (clearBit (bbNotThisAnd bb (bbNotThisAnd (bbC p (opp us)) (kingAttack (kingSquare p (opp us))))) sq)).
Proof. reflexivity. Qed.
Lemma existsb_ext' (A : Type) (f g : A -> bool) l : (forall x, f x = g x) -> existsb f l = existsb g l.
Proof. intros H. induction l as [|x l IH]; [reflexivity|]. cbn [existsb]. rewrite H, IH. reflexivity. Qed.
Lemma escape_reb p bd us s bb : canKingEscape (reb p bd) us s bb = canKingEscape p us s bb.
Proof. rewrite !canKingEscape_eq. change (kingSquare (reb p bd) (opp us)) with (kingSquare p (opp us)). change (bbC (reb p bd) (opp us)) with (bbC p (opp us)). change (occBB (reb p bd)) with (occBB p). apply existsb_ext'. intros x. rewrite to_reb. reflexivity. Qed.
Lemma supported_reb p bd us s : supported (reb p bd) us s = attackersToIsAny p us s (occBB p).
Proof. unfold supported, attackersToIsAny. rewrite to_reb. reflexivity. Qed.
Lemma lift_reb p pt f : lifted p pt f = reb (off p pt f) (board p).
Proof. reflexivity. Qed.
Section S.
Variables (p : Position) (us th k ko : N) (bd : list N).
Hypotheses (G : good p) (Eus : turn p = us) (Eth : opp us = th) (Ebd : board p = bd).
Hypotheses (Ek : kingOf bd us = k) (Hk : k < 81) (Eo : kingOf bd th = ko) (Ho : ko < 81).
Hypothesis NC : forall x, ~ chkr us k bd x.
Lemma sU : us < 2. Proof. rewrite <- Eus. apply (good_turn p G). Qed.
Lemma sT : th < 2. Proof. rewrite <- Eth. apply opp_lt, sU. Qed.
Lemma sOT : opp th = us. Proof. rewrite <- Eth. apply opp_opp, sU. Qed.
(* legality: not in check, so only pins matter *)
Lemma own_safe f t pr : f < 81 -> t < 81 -> plSet p f t pr -> f <> k -> isPinnedIllegal f t k (pinnedBB p) = false -> inCheckB (newBoard p (enc p f t pr)) us = false.
Proof. intros Hf Ht P N PI. apply (go_safe p us k bd G Eus Ebd Ek Hk f t pr); auto. split; auto. intros x X. destruct (NC x X). Qed.
Lemma own_safe_drop f t pr : 81 <= f < 128 -> t < 81 -> plSet p f t pr -> inCheckB (newBoard p (enc p f t pr)) us = false.
Proof. intros Hf Ht P. apply (drop_safe p us k bd G Eus Ebd Ek Hk f t pr); auto. intros x X. destruct (NC x X). Qed.
(* the king of them is never taken *)
Lemma not_king f t : f < 81 -> t < 81 -> isCol bd us f = true -> att bd f t = true -> t <> ko.
Proof.
  intros Hf Ht Cf A ->. pose proof (g_safe p G) as S. rewrite Eus, Ebd in S. revert S. apply (inCheckB_no bd us f ko); auto using sU.
  - rewrite <- Ebd. apply G.
  - rewrite Eth. unfold isKing. rewrite (kingOf_at bd th ko Eo Ho). apply N.eqb_refl.
Qed.
Lemma drop_mate pt t : 1 <= pt <= 7 -> pt <> 1 -> t < 81 -> plSet p (80 + pt) t false -> reach pt us t ko = true -> (forall y, ~ In y (betw t ko)) ->
  canKingEscape p us t (nbTab pt us t) = false -> (reach 8 th ko t = true -> attackersToIsAny p us t (occBB p) = true) ->
  canPieceCaptureDc p th t (discoveredCheckBB false p) = false -> mates (abs p) (mvOf (80 + pt) t false).
Proof.
  intros Hp N1 Ht P R NB KE SU CP. pose proof sU as Hu. pose proof sT as Hth. pose proof sOT as Eot.
  pose proof (pl_empty p (80 + pt) t false ltac:(lia) P) as E0. rewrite (gAt p bd Ebd) in E0.
  apply mates_N; auto; try lia; [rewrite Eus; apply own_safe_drop; auto; lia|]. intros q Gq Etq Eb _. rewrite Eus, Eth in Etq.
  pose proof (at_drop p pt t G Hp Ht P) as At. rewrite <- Eb, Eus, Ebd in At.
  assert (Nt : t <> ko) by (intros ->; rewrite (kingOf_at bd th ko Eo Ho) in E0; revert E0; apply N.eqb_neq, mk_nz; auto; unfold King; lia).
  assert (C2 : isCol bd us t = false) by (unfold isCol; rewrite E0; reflexivity).
  apply (near_mates p q us th ko t pt bd (board q) (g_views p G) Eus Ebd Eo Ho Gq Etq Eot Eth eq_refl Ht ltac:(lia) Nt C2 At (nbTab pt us t)); auto.
  intros y Hy Ry _ S. apply (banned_ok q us th ko t pt y); auto; try lia. rewrite At, N.eqb_refl. reflexivity.
Qed.
Section M.
Variables (f t pt : N) (pr : bool).
Hypotheses (Hf : f < 81) (Ht : t < 81) (P : plSet p f t pr) (Ept : ptOf (at_ bd f) = pt) (N8 : pt <> 8).
Lemma mCol : isCol bd us f = true. Proof. exact (proj1 (pl_own p us bd Eus Ebd f t pr Hf P)). Qed.
Lemma mAtt : att bd f t = true. Proof. exact (proj2 (pl_own p us bd Eus Ebd f t pr Hf P)). Qed.
Lemma mAt : at_ bd f = mkPiece us pt /\ 1 <= pt < 15.
Proof.
  pose proof mCol as C. unfold isCol in C. apply andb_prop in C as [C0 C1]. apply N.eqb_eq in C1. apply negb_true_iff, N.eqb_neq in C0.
  destruct (vpc_facts _ (gOk p bd (g_views p G) Ebd f Hf) C0) as (A & _ & B). rewrite <- Ept, <- C1. auto.
Qed.
Lemma mPt : 1 <= pt + (if pr then 8 else 0) < 15.
Proof.
  pose proof mAt as [_ H]. destruct pr eqn:E; [|lia]. unfold plSet in P. rewrite (proj2 (N.ltb_lt _ _) Hf) in P. unfold plGoB, promoB in P. cbv zeta in P. rewrite !andb_true_iff in P. destruct P as (_ & L & _). rewrite (gAt p bd Ebd), Ept in L. apply N.leb_le in L. lia.
Qed.
Lemma mFk : f <> k.
Proof. intros E. pose proof mAt as [A H]. rewrite E, (kingOf_at bd us k Ek Hk) in A. apply N8. apply (f_equal ptOf) in A. rewrite !pt_mk in A by (auto using sU; unfold King; lia). symmetry. exact A. Qed.
Lemma mNe : f <> t.
Proof. intros E. pose proof (pl_col p us bd Eus Ebd f t pr Ht P) as C. rewrite <- E in C. rewrite mCol in C. discriminate C. Qed.
(* a piece uncovered by the move checks too *)
Lemma uncovered bq : (forall x, at_ bq x = if t =? x then mkPiece us (pt + (if pr then 8 else 0)) else if f =? x then 0 else at_ bd x) ->
  isSet (discoveredCheckBB true p) f = true -> isAligned f t ko = false -> exists x, chkr th ko bq x /\ x <> t /\ hid bd us ko f x = true.
Proof.
  intros At S AL. pose proof sU as Hu. pose proof sT as Hth. pose proof (isSet_hiddenCheckers false true p f (g_views p G) Hf) as H. cbv zeta in H. unfold discoveredCheckBB in S. rewrite H, Eus, Eth, Ebd, Eo, (proj2 (N.ltb_lt _ _) Ho), mCol, !andb_true_l in S. clear H.
  apply existsb_exists in S as (x & Hx & Hi). apply in_squares in Hx. exists x. assert (Hh := Hi). unfold hid in Hi. rewrite !andb_true_iff in Hi. destruct Hi as [[Cx Sx] S].
  pose proof (pl_col p us bd Eus Ebd f t pr Ht P) as Ct. assert (Ntx : t <> x) by (intros ->; congruence).
  assert (B : isBetween x f ko) by (unfold sole in S; rewrite !andb_true_iff in S; destruct S as [[S _] _]; apply memN_betw in S; auto).
  assert (Nfx : f <> x) by (intros ->; unfold sole in S; rewrite !andb_true_iff in S; destruct S as [[S _] _]; apply memN_In in S; exact (proj1 (betw_ends x ko Hx Ho) S)).
  assert (MT : memN t (betw x ko) = false).
  { rewrite <- AL. symmetry. apply (aligned_between (occOf bd)); auto using mNe.
    - apply (not_king f t); auto using mCol, mAtt.
    - unfold isCol in Cx. now apply andb_prop in Cx as [Cx _].
    - unfold occOf. rewrite (kingOf_at bd th ko Eo Ho), mk_nz by (auto; unfold King; lia). reflexivity.
    - pose proof mAtt as A. unfold att, attOcc in A. rewrite !andb_true_iff in A. tauto. }
  split; [|auto]. split; auto. rewrite sOT. unfold isCol, att, attOcc. rewrite At, (proj2 (N.eqb_neq t x)), (proj2 (N.eqb_neq f x)) by auto. unfold isCol in Cx. apply andb_prop in Cx as [C0 C1]. rewrite C0, C1. apply N.eqb_eq in C1. rewrite C1, (sreach_reach _ _ _ _ Sx). cbn [andb]. split; auto.
  apply clear_iff. intros w I. unfold occOf. rewrite At. destruct (N.eqb_spec t w) as [<-|Nw]; [apply memN_In in I; congruence|]. destruct (N.eqb_spec f w) as [<-|Nf]; [reflexivity|].
  destruct (negb (at_ bd w =? 0)) eqn:O; [|reflexivity]. exfalso. apply Nf. symmetry. apply (sole_other (occOf bd) x ko f w S); auto. now apply memN_In.
Qed.
Lemma move_mate bb : reach (pt + (if pr then 8 else 0)) us t ko = true -> (forall y, ~ In y (betw t ko)) -> isPinnedIllegal f t k (pinnedBB p) = false ->
  bb = nbTab (pt + (if pr then 8 else 0)) us t /\ pt + (if pr then 8 else 0) <> 14 \/ bb = nbDragon ko (lifted p pt f) t /\ pt + (if pr then 8 else 0) = 14 ->
  canKingEscape (lifted p pt f) us t bb = false -> (reach 8 th ko t = true -> supported (lifted p pt f) us t = true) ->
  (isSet (discoveredCheckBB true p) f = true /\ isAligned f t ko = false \/ canPieceCaptureDc (lifted p pt f) th t (discoveredCheckBB false (lifted p pt f)) = false) -> mates (abs p) (mvOf f t pr).
Proof.
  intros R NB PI EB KE SU CP. pose proof sU as Hu. pose proof sT as Hth. pose proof sOT as Eot. pose proof mAt as [Af Hp]. pose proof mPt as Hp'.
  apply mates_N; auto; try lia; [rewrite Eus; apply own_safe; auto using mFk|]. intros q Gq Etq Eb _. rewrite Eus, Eth in Etq.
  pose proof (at_go p f t pr G Hf Ht P) as At. rewrite <- Eb, Eus, Ebd, Ept in At.
  assert (V2 : views (off p pt f)) by (apply views_off; auto; [apply G|rewrite Ebd, Eus; exact Af]).
  assert (Nt : t <> ko) by (apply (not_king f t); auto using mCol, mAtt).
  assert (A2 : forall x, at_ (updN bd f 0) x = if f =? x then 0 else at_ bd x) by (intros x; rewrite <- Ebd; apply at_off; auto; apply G).
  assert (Eo2 : kingOf (updN bd f 0) th = ko).
  { rewrite <- Eo. apply kingOf_ext. intros s Hs. unfold isKing. rewrite A2. destruct (N.eqb_spec f s) as [<-|N]; [|reflexivity]. rewrite Af, isKing_mk, isKing_0 by auto. rewrite (proj2 (N.eqb_neq pt 8)) by auto. symmetry. apply andb_false_r. }
  assert (C2 : isCol (updN bd f 0) us t = false).
  { unfold isCol. rewrite A2. destruct (N.eqb_spec f t) as [|N]; [reflexivity|]. exact (pl_col p us bd Eus Ebd f t pr Ht P). }
  assert (At2 : forall x, at_ (board q) x = if t =? x then mkPiece us (pt + (if pr then 8 else 0)) else at_ (updN bd f 0) x) by (intros x; rewrite At, A2; reflexivity).
  assert (Eb2 : board (off p pt f) = updN bd f 0) by (rewrite <- Ebd; reflexivity).
  assert (KE2 : canKingEscape (off p pt f) us t bb = false) by (rewrite lift_reb, escape_reb in KE; exact KE).
  assert (CP2 : canPieceCaptureDc (off p pt f) th t (discoveredCheckBB false (off p pt f)) = false \/ exists x, chkr th ko (board q) x /\ x <> t).
  { destruct CP as [[D A]|CP]; [right|left; rewrite lift_reb, dc_reb, capture_reb in CP; exact CP]. destruct (uncovered (board q) At D A) as (x & X & Nx & _). eauto. }
  apply (near_mates (off p pt f) q us th ko t (pt + (if pr then 8 else 0)) (updN bd f 0) (board q) V2 Eus Eb2 Eo2 Ho Gq Etq Eot Eth eq_refl Ht Hp' Nt C2 At2 bb); [exact R|exact NB| |exact KE2|intros Q; specialize (SU Q); rewrite lift_reb, supported_reb in SU; exact SU|exact CP2].
  clear KE KE2 CP CP2 SU.
  intros y Hy Ry Ny S. destruct EB as [[-> N]|[-> E]].
  - apply (banned_ok q us th ko t (pt + (if pr then 8 else 0)) y); auto. rewrite At, N.eqb_refl. reflexivity.
  - unfold nbDragon in S. apply (dragon_ok (board q) us th ko t y (bbXor (occBB (lifted p pt f)) (setMaskBB ko))); auto; [rewrite At, N.eqb_refl, E; reflexivity|].
    intros x Hx Nx Nk. rewrite isSet_xor, isSet_mask, (proj2 (N.eqb_neq ko x)), xorb_false_r by auto. change (occBB (lifted p pt f)) with (occBB (off p pt f)). rewrite (isSet_occ_fun (off p pt f) V2 x Hx), Eb2. unfold occOf. rewrite At2, (proj2 (N.eqb_neq t x)) by auto. reflexivity.
Qed.
End M.
End S.
