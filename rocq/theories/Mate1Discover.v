(* Checks uncovered by a move of a piece that does not itself check. *)
From Verif Require Export Mate1FarEnd.
Local Open Scope N_scope.

Lemma popcount_0 w : popcount w = 0 -> w = 0.
Proof.
  destruct w as [|q]; [reflexivity|]. unfold popcount. intros E. exfalso. assert (X : 1 <= popcount_pos q); [|lia]. clear E. induction q; cbn [popcount_pos]; lia.
Qed.
Lemma one_if b g : isSet b g = true -> count1s (bbMerge b) <=? 1 = true -> isOneBit_merged b = true.
Proof.
  intros S L. apply N.leb_le in L. unfold isOneBit_merged. apply N.eqb_eq. destruct (N.eq_dec (count1s (bbMerge b)) 0) as [E|E]; [|lia]. exfalso. unfold count1s in E. apply popcount_0 in E. unfold bbMerge in E.
  apply N.lor_eq_0_iff in E as [E1 E2]. destruct b as [a c]. cbn [p0 p1] in *. rewrite E1, E2 in S. change (mkBB 0 0) with allZeroBB in S. rewrite isSet_zero in S. discriminate S.
Qed.
Lemma pinnedPieces_eq p us from to : pinnedPieces p us from to =
  fold_left (fun r s => if (fun s => count1s (bbMerge (bbAnd (betweenBB (kingSquare p us) s) (bbOr (bbAnd (occBB p) (bbNot (setMaskBB from))) (setMaskBB to)))) <=? 1) s
      then bbOr r ((fun s => bbAnd (bbAnd (betweenBB (kingSquare p us) s) (bbOr (bbAnd (occBB p) (bbNot (setMaskBB from))) (setMaskBB to))) (bbC p us)) s) else r)
    (bbList (bbAnd (bbAnd (bbOr (bbOr (bbAnd (bbT2 p Rook Dragon) (rookAttackToEdge (kingSquare p us)))
                                          (bbAnd (bbT2 p Bishop Horse) (bishopAttackToEdge (kingSquare p us))))
                                    (bbAnd (bbT p Lance) (lanceAttackToEdge us (kingSquare p us)))) (bbNot (setMaskBB from))) (bbC p (opp us)))) allZeroBB.
Proof. reflexivity. Qed.
Lemma sq_fr s : (Z.of_N s = 9 * fz s + rz s)%Z.
Proof. unfold fz, rz. pose proof (N.div_mod s 9 ltac:(lia)). lia. Qed.
Lemma stepOn_is a b x y z : (Z.of_N b = Z.of_N a + z)%Z -> (Z.of_N y = Z.of_N x + Z.sgn z)%Z -> y < 9 -> stepOn a b x = Some y.
Proof.
  intros E Ey Hy. unfold stepOn. destruct (N.ltb_spec a b).
  - replace (Z.sgn z) with 1%Z in Ey by lia. destruct (N.ltb_spec x 8); [|lia]. f_equal. lia.
  - destruct (N.ltb_spec b a).
    + replace (Z.sgn z) with (-1)%Z in Ey by lia. destruct (N.ltb_spec 0 x); [|lia]. f_equal. lia.
    + replace (Z.sgn z) with 0%Z in Ey by lia. f_equal. lia.
Qed.
Lemma next_is s1 s2 s3 e n : In e allDirs -> s1 < 81 -> s2 < 81 -> s3 < 81 -> (1 <= n)%Z -> offs s1 e n s2 -> offs s2 e 1 s3 -> nextSquare s1 s2 = s3.
Proof.
  intros He H1 H2 H3 Hn O1 O2. unfold nextSquare.
  assert (Q : isSet (bbOr (rookAttackToEdge s1) (bishopAttackToEdge s1)) s2 = true).
  { rewrite isSet_or. unfold rookAttackToEdge, bishopAttackToEdge. rewrite <- (af6 0 s1 allZeroBB), <- (af5 0 s1 allZeroBB), !toEdge by (auto; lia). apply orb_true_iff.
    assert (X : In e rookDirs \/ In e bishopDirs) by (unfold allDirs in He; now apply in_app_or in He). destruct X as [X|X]; [left|right]; apply sreach_reach, sreach_iff; auto; exists e, n; auto. }
  rewrite Q. destruct O1 as [A1 A2], O2 as [B1 B2]. unfold makeFile, makeRank. change (Z.of_N (s2 / 9) = Z.of_N (s1 / 9) + n * fst e)%Z in A1. change (Z.of_N (s2 mod 9) = Z.of_N (s1 mod 9) + n * snd e)%Z in A2. change (Z.of_N (s3 / 9) = Z.of_N (s2 / 9) + 1 * fst e)%Z in B1. change (Z.of_N (s3 mod 9) = Z.of_N (s2 mod 9) + 1 * snd e)%Z in B2.
  assert (F3 : s3 / 9 < 9) by (apply N.div_lt_upper_bound; lia). assert (R3 : s3 mod 9 < 9) by (apply N.mod_lt; lia).
  assert (G1 : (Z.sgn (n * fst e) = fst e /\ Z.sgn (n * snd e) = snd e)%Z) by (clear - He Hn; dcase e He; lia). destruct G1 as [G1 G2].
  rewrite (stepOn_is _ _ _ (s3 / 9) (n * fst e)) by (auto; lia). rewrite (stepOn_is _ _ _ (s3 mod 9) (n * snd e)) by (auto; lia). unfold makeSquare. pose proof (N.div_mod s3 9 ltac:(lia)). lia.
Qed.
Lemma lineHolds_S n p th f t cp pin occ s1 s2 : lineHolds (S n) p th f t cp pin occ s1 s2 =
    if canPieceCapture2 p th s2 (setMaskBB t) pin occ then false
    else if negb (s2 =? f) && negb (pieceAt p s2 =? Empty) then true
    else if canPawnDrop p th s2 || (cp && (makeFile s2 =? makeFile t)) then false
    else if nextSquare s1 s2 =? 81 then true else lineHolds n p th f t cp pin occ s2 (nextSquare s1 s2).
Proof. reflexivity. Qed.
Lemma line_holds p th f t cp pin occ ko x e n : ko < 81 -> x < 81 -> In e allDirs -> offs ko e n x -> (forall y, In y (betw ko x) -> y = f \/ pieceAt p y = 0) ->
  forall fuel i s1 s2, (1 <= i <= n)%Z -> s1 < 81 -> s2 < 81 -> offs s1 e 1 s2 -> offs ko e i s2 -> (n - i < Z.of_nat fuel)%Z -> lineHolds fuel p th f t cp pin occ s1 s2 = true ->
  forall j y, (i <= j <= n)%Z -> y < 81 -> offs ko e j y -> canPieceCapture2 p th y (setMaskBB t) pin occ = false /\ ((j < n)%Z -> canPawnDrop p th y = false /\ (cp = true -> makeFile y = makeFile t -> False)).
Proof.
  intros Ho Hx He Ox EM. induction fuel as [|fuel IH]; intros i s1 s2 Hi H1 H2 O1 O2 HF H j y Hj Hy Oy; [cbn [Z.of_nat] in HF; lia|]. rewrite lineHolds_S in H.
  destruct (canPieceCapture2 p th s2 (setMaskBB t) pin occ) eqn:C; [discriminate H|].
  destruct (Z.eq_dec i n) as [E|E].
  { assert (j = i) by lia. subst j. assert (y = s2) by (apply (off_fun ko e i); auto). subst y. split; [exact C|lia]. }
  assert (B : In s2 (betw ko x)) by (apply (betw_line ko e n x s2); auto; [lia|]; split; auto; exists i; split; [lia|auto]).
  assert (Q : negb (s2 =? f) && negb (pieceAt p s2 =? Empty) = false).
  { destruct (EM s2 B) as [E'|E']; [rewrite E', N.eqb_refl; reflexivity|]. rewrite E'. apply andb_false_r. }
  rewrite Q in H. destruct (canPawnDrop p th s2) eqn:D; [discriminate H|]. rewrite orb_false_l in H. destruct (cp && (makeFile s2 =? makeFile t)) eqn:F; [discriminate H|].
  destruct (Z.eq_dec j i) as [Ej|Ej].
  { rewrite Ej in Oy. assert (y = s2) by (apply (off_fun ko e i); auto). subst y. split; [exact C|]. intros _. split; [exact D|]. intros X1 X2. rewrite X1, X2, N.eqb_refl in F. discriminate F. }
  assert (X : exists s3, s3 < 81 /\ offs ko e (i + 1) s3).
  { destruct (Z.eq_dec (i + 1) n) as [E'|E']; [rewrite E'; exists x; auto|]. apply (off_mid ko e n x); auto. lia. }
  destruct X as (s3 & H3 & O3). assert (O4 : offs s2 e 1 s3) by (replace 1%Z with (i + 1 - i)%Z by lia; eapply off_sub; eauto).
  rewrite (next_is s1 s2 s3 e 1) in H by (auto; lia). destruct (N.eqb_spec s3 81) as [E'|_]; [lia|].
  apply (IH (i + 1)%Z s2 s3); auto; lia.
Qed.
Definition knightRanks (c f : N) : bool := isSet (if c =? Black then bbOr (bbOr (rankMask 2) (rankMask 3)) (rankMask 4) else bbOr (bbOr (rankMask 4) (rankMask 5)) (rankMask 6)) f.
Definition knightIn (c f : N) : bool := if knightRanks c f then forallb (canPromote2 c f) (bbList (knightAttack c f)) else true.
Lemma knight_table : forallb (fun c => forallb (knightIn c) squares) [0; 1] = true.
Proof. vm_compute. reflexivity. Qed.
Lemma knight_all c f t : c < 2 -> f < 81 -> knightRanks c f = true -> In t (bbList (knightAttack c f)) -> canPromote2 c f t = true.
Proof.
  intros Hc Hf M I. pose proof (all2 _ knight_table c f Hc Hf) as Y. unfold knightIn in Y. rewrite M in Y. revert Y I. generalize (bbList (knightAttack c f)) as l. intros l Y I. rewrite forallb_forall in Y. now apply Y.
Qed.
Lemma opp_neq us th : us < 2 -> opp us = th -> th = us -> False.
Proof. intros H E X. rewrite <- E in X. clear E. assert (Z : us = 0 \/ us = 1) by lia. destruct Z as [-> | ->]; discriminate X. Qed.
Section F.
Variables (p : Position) (us th k ko : N) (bd : list N).
Hypotheses (G : good p) (Eus : turn p = us) (Eth : opp us = th) (Ebd : board p = bd).
Hypotheses (Ek : kingOf bd us = k) (Hk : k < 81) (Eo : kingOf bd th = ko) (Ho : ko < 81).
Hypothesis NC : forall x, ~ chkr us k bd x.
Hypothesis ND : forall s, s < 81 -> isCol bd us s = true -> ptOf (at_ bd s) = 1 -> rankFor us s <> 1.
Notation U := (sU p us G Eus).
Notation T := (sT p us th G Eus Eth).
Section A.
Variables (f t pt : N) (q : Position) (bq : list N).
Hypotheses (Hf : f < 81) (Ht : t < 81) (Hpt : 1 <= pt < 15) (Ntk : t <> ko) (Ct : isCol bd us t = false) (Cf : isCol bd us f = true).
Hypotheses (Gq : good q) (Etq : turn q = th) (Ebq : board q = bq).
Hypothesis At : forall x, at_ bq x = if t =? x then mkPiece us pt else if f =? x then 0 else at_ bd x.
Lemma dGone x : (f =? x) = true -> isCol bd us x = true. Proof. intros X. apply N.eqb_eq in X. rewrite <- X. exact Cf. Qed.
Lemma dOcc w : occOf bq w = (t =? w) || negb (f =? w) && occOf bd w.
Proof. exact (aOcc p us bd G Eus t pt (fun x => f =? x) bq Hpt At w). Qed.
Lemma new_pin g : g < 81 -> isCol bq th g = true -> isSet (pinnedPieces p th f t) g = true -> exists x, x < 81 /\ hid bq us ko g x = true.
Proof.
  intros Hg Cg H. pose proof U as Hu. pose proof T as Hth. assert (V : views p) by apply G. rewrite pinnedPieces_eq, isSet_fold_or, isSet_zero, orb_false_l, (bKo p us th ko bd G Eus Eth Ebd Eo), (sOT p us th G Eus Eth) in H.
  apply existsb_exists in H as (s & I & H). apply in_bbList in I as [Hs Ss]; [|apply wf_and_r, wf_bbC; auto]. cbv beta in H. apply andb_prop in H as [L Sg]. rewrite isSet_and in Sg. apply andb_prop in Sg as [Sg _].
  rewrite isSet_and in Ss. apply andb_prop in Ss as [Ss Cs]. rewrite isSet_and in Ss. apply andb_prop in Ss as [Ss Ns]. rewrite (bCol p us bd G Eus Ebd s Hs) in Cs. rewrite isSet_not, isSet_mask in Ns by auto. apply negb_true_iff in Ns.
  exists s. split; [exact Hs|]. destruct (aStay us bd t pt (fun x => f =? x) bq Ct At s Cs Ns) as (N & E & C'). unfold hid. rewrite C', E, andb_true_l.
  assert (SR : sreach (ptOf (at_ bd s)) us s ko = true).
  { rewrite !isSet_or, !isSet_and in Ss. unfold bbT2 in Ss. rewrite !isSet_or in Ss. unfold Rook, Dragon, Bishop, Horse, Lance in Ss. rewrite !(wT p bd G Ebd) in Ss by (auto; lia). unfold rookAttackToEdge, bishopAttackToEdge, lanceAttackToEdge in Ss.
    rewrite (back_rook us ko allZeroBB s), (back_bishop us ko allZeroBB s) in Ss by auto. rewrite <- Eth, (back_lance us ko allZeroBB s) in Ss by auto. rewrite !orb_true_iff, !andb_true_iff, !orb_true_iff, !N.eqb_eq in Ss.
    destruct Ss as [[[[X|X] [R _]]|[[X|X] [R _]]]|[X [R _]]]; rewrite X; exact R. }
  rewrite SR, andb_true_l. set (pieces := bbOr (bbAnd (occBB p) (bbNot (setMaskBB f))) (setMaskBB t)) in *.
  assert (PC : forall w, w < 81 -> isSet pieces w = occOf bq w).
  { intros w Hw. unfold pieces. rewrite isSet_or, isSet_and, isSet_not, !isSet_mask, (bOcc p bd), dOcc by auto. destruct (t =? w), (f =? w), (occOf bd w); reflexivity. }
  pose proof (one_if _ g Sg L) as ONE. rewrite oneBit_between in ONE by auto. rewrite isSet_and, isSet_betweenBB in Sg by auto. pose proof (sole_one (isSet pieces) ko s g Ho Hs) as SO. rewrite ONE, Sg in SO. apply andb_prop in Sg as [S1 S2].
  unfold sole. rewrite memN_betw_sym, S1 by auto. rewrite <- PC, S2 by auto. cbn [andb]. apply forallb_forall. intros w I. assert (Hw : w < 81) by now apply betw_lt in I. destruct (occOf bq w) eqn:OW; [|apply orb_true_r]. rewrite orb_false_r. apply N.eqb_eq.
  apply (sole_other (isSet pieces) ko s g w SO); [apply memN_In in I; rewrite memN_betw_sym; auto|rewrite PC; auto].
Qed.
End A.
Lemma disc_ok f t pr ptf attacks : f < 81 -> t < 81 -> plSet p f t pr -> ptOf (at_ bd f) = ptf -> ptf <> 8 -> ptf <> 1 -> isPinnedIllegal f t k (pinnedBB p) = false ->
  isSet (discoveredCheckBB true p) f = true -> isAligned f t ko = false -> exceptPawnExists (handOf p th) = false ->
  isSet (kingAttack ko) t && negb (isAny (bbXor (attackersTo p us t (occBB p)) (setMaskBB f))) = false ->
  isAny (bbAnd (kingAttack ko) (bbNot (bbOr (bbOr attacks (attacksAroundAvoiding p th f (bbXor (bbOr (bbXor (occBB p) (setMaskBB f)) (setMaskBB t)) (setMaskBB ko)))) (bbC p th)))) = false ->
  (forall y, y < 81 -> isSet attacks y = true -> isSet (attacksFrom (ptf + (if pr then 8 else 0)) us t (bbOr (bbXor (occBB p) (setMaskBB f)) (setMaskBB t))) y = true) ->
  lineHolds 9 p th f t (ptOf (pieceAt p t) =? Pawn) (pinnedPieces p th f t) (bbOr (bbXor (occBB p) (setMaskBB f)) (setMaskBB t)) ko (ko + nextSquare ko f - f) = true ->
  mates (abs p) (mvOf f t pr).
Proof.
  intros Hf Ht P Ept N8 N1 PI S AL EX T1 K HA L. pose proof U as Hu. pose proof T as Hth. assert (V : views p) by apply G.
  destruct (pl_own p us bd Eus Ebd f t pr Hf P) as [Cf Af]. pose proof (pl_col p us bd Eus Ebd f t pr Ht P) as Ct.
  assert (Nt : t <> ko) by (apply (not_king p us th ko bd G Eus Eth Ebd Eo Ho f t); auto).
  pose proof (mFk p us th k ko bd G Eus Eth Ebd Ek Hk Eo Ho NC f t ptf pr Hf Ht P Ept N8) as Nfk.
  pose proof (mPt p us th k ko bd G Eus Eth Ebd Ek Hk Eo Ho NC f t ptf pr Hf Ht P Ept N8) as Hp.
  apply mates_N; auto; try lia; [rewrite Eus; apply (own_safe p us k bd G Eus Ebd Ek Hk NC f t pr); auto|]. intros q Gq Etq Eb EH. rewrite Eus, Eth in Etq. rewrite Eus, Eth in EH.
  pose proof (at_go p f t pr G Hf Ht P) as At. rewrite <- Eb, Eus, Ebd, Ept in At.
  destruct (uncovered p us th k ko bd G Eus Eth Ebd Ek Hk Eo Ho NC f t ptf pr Hf Ht P Ept N8 (board q) At S AL) as (x & X & Nx & HX).
  set (pt := ptf + (if pr then 8 else 0)) in *. clearbody pt. set (occ2 := bbOr (bbXor (occBB p) (setMaskBB f)) (setMaskBB t)) in *.
  pose proof (dGone f Cf) as Hg. pose proof (dOcc f t pt (board q) Hp At) as OC.
  assert (O2 : forall w, w < 81 -> isSet occ2 w = occOf (board q) w).
  { intros w Hw. unfold occ2. rewrite isSet_or, isSet_xor, !isSet_mask, (bOcc p bd), OC by auto. destruct (N.eqb_spec f w) as [E|E]; [|destruct (t =? w), (occOf bd w); reflexivity]. rewrite <- E. unfold isCol in Cf. apply andb_prop in Cf as [Cf _]. unfold occOf. rewrite Cf. destruct (t =? f); reflexivity. }
  clearbody occ2.
  pose proof (aKing p us th k ko bd G Eus Eth Ek Hk Eo Ho NC ND t pt (fun x => f =? x) q (board q) Ht Hp Nt Hg Gq Etq eq_refl At) as KQ.
  split; [exact (check_by q th ko (board q) Etq eq_refl KQ Ho x X)|].
  (* the line of the check *)
  assert (Hx : x < 81) by apply X. unfold hid in HX. rewrite !andb_true_iff in HX. destruct HX as [[Cx Sx] SO]. apply sreach_iff in Sx as (d & n & Hd & Hn & Od); auto. apply slides_allDirs in Hd.
  apply off_sym in Od. set (e := nd d) in *. assert (He : In e allDirs) by (unfold e; now apply nd_in). clearbody e.
  assert (EM : forall y, In y (betw ko x) -> y = f \/ pieceAt p y = 0).
  { intros y I. destruct (N.eq_dec (at_ bd y) 0) as [E|E]; [right; rewrite (gAt p bd Ebd); exact E|left]. apply (sole_other (occOf bd) x ko f y SO); [rewrite memN_betw_sym by auto; now apply memN_In|unfold occOf; apply negb_true_iff; now apply N.eqb_neq]. }
  assert (BF : In f (betw ko x)) by (unfold sole in SO; rewrite !andb_true_iff in SO; destruct SO as [[SO _] _]; rewrite memN_betw_sym in SO by auto; now apply memN_In in SO).
  apply (betw_line ko e n x f) in BF as [_ (a & Ha & Oa)]; auto.
  assert (Y1 : exists y1, y1 < 81 /\ offs ko e 1 y1).
  { destruct (Z.eq_dec a 1) as [E|E]; [rewrite E in Oa; exists f; auto|]. apply (off_mid ko e a f); auto. lia. }
  destruct Y1 as (y1 & Hy1 & O1).
  assert (Y2 : exists y2, y2 < 81 /\ offs ko e (a + 1) y2).
  { destruct (Z.eq_dec (a + 1) n) as [E|E]; [rewrite E; exists x; auto|]. apply (off_mid ko e n x); auto. lia. }
  destruct Y2 as (y2 & Hy2 & O3). assert (O4 : offs f e 1 y2) by (replace 1%Z with (a + 1 - a)%Z by lia; eapply off_sub; eauto).
  assert (E1 : ko + nextSquare ko f - f = y1).
  { rewrite (next_is ko f y2 e a) by (auto; lia). pose proof (sq_fr ko). pose proof (sq_fr f). pose proof (sq_fr y1). pose proof (sq_fr y2). destruct O1 as [A1 A2], O4 as [B1 B2]. assert (Z.of_N y1 = Z.of_N ko + Z.of_N y2 - Z.of_N f)%Z by lia. lia. }
  rewrite E1 in L. assert (Nn : (n <= 8)%Z).
  { destruct Od as [A1 A2]. unfold fz, rz in A1, A2. pose proof (N.mod_lt ko 9 ltac:(lia)). pose proof (N.mod_lt x 9 ltac:(lia)). assert (ko / 9 < 9) by (apply N.div_lt_upper_bound; lia). assert (x / 9 < 9) by (apply N.div_lt_upper_bound; lia). clear - He Hn A1 A2 H H0 H1 H2. dcase e He; lia. }
  assert (LL := line_holds p th f t _ _ occ2 ko x e n Ho Hx He Od EM 9 1%Z ko y1 ltac:(lia) Ho Hy1 O1 O1 ltac:(lia) L). clear L.
  assert (ON : forall y, In y (betw x ko) -> exists j, (1 <= j < n)%Z /\ offs ko e j y) by (intros y I; apply memN_In in I; rewrite memN_betw_sym in I by auto; apply memN_In in I; apply (betw_line ko e n x y) in I as [_ I]; auto).
  apply (no_reply_line q us th ko (board q) Gq Etq (sOT p us th G Eus Eth) eq_refl KQ Ho x X).
  - intros y Hy R C. destruct (N.eq_dec y t) as [E|Nyt].
    + rewrite E in *. assert (KA : isSet (kingAttack ko) t = true) by (apply (king_sq p us th k ko bd G Eus Eth Ek Hk Eo Ho NC ND t); auto). rewrite KA, andb_true_l in T1. apply negb_false_iff in T1. apply isAny_true_ex in T1 as (z & Hz & Sz); [|apply wf_xor; [unfold attackersTo; apply wf_and_r, wf_bbC; auto|now apply wf_mask]].
      rewrite isSet_xor, isSet_mask, att_by, Ebd in Sz by auto. assert (Afo : attOcc bd (isSet (occBB p)) f t = true).
      { unfold att, attOcc in *. rewrite <- Af. f_equal. f_equal. apply clear_same. intros w Iw. apply (bOcc p bd); auto. now apply betw_lt in Iw. }
      destruct (N.eqb_spec f z) as [E'|E']; [rewrite <- E', Cf, Afo in Sz; discriminate Sz|]. rewrite xorb_false_r in Sz. apply andb_prop in Sz as [Cz Az]. exists z. split; auto.
      apply (aAttack us ko bd t pt (fun x => f =? x) (board q) Ct At (isSet (occBB p)) z t Cz (proj2 (N.eqb_neq f z) E') Az). intros w Iw OW. destruct (occGo_bq ko (board q) t w z Hz Ht Iw OW) as (Hw & _ & OQ). rewrite OC in OQ. rewrite (bOcc p bd) by auto.
      assert (t <> w) by (intros E2; rewrite <- E2 in Iw; now apply (proj2 (betw_ends z t Hz Ht))). rewrite (proj2 (N.eqb_neq t w)), orb_false_l in OQ by auto. now apply andb_prop in OQ as [_ OQ].
    + assert (Cy : isCol bd th y = false) by (rewrite (aCol_th p us th bd G Eus Eth t pt (fun x => f =? x) (board q) Hp Hg At), (proj2 (N.eqb_neq t y)) in C by auto; exact C).
      destruct (isSet attacks y) eqn:A1.
      * exists t. split; auto. split; [exact (aTarget p us bd G Eus t pt _ (board q) Hp At)|]. apply HA in A1; auto. rewrite attacksFrom_spec in A1 by auto. apply andb_prop in A1 as [R1 C1]. unfold attOcc. rewrite At, N.eqb_refl, mk_nz, pt_mk, col_mk, R1 by auto. cbn [negb andb].
        rewrite clear_iff in *. intros w Iw. destruct (occGo (board q) ko y w) eqn:OW; [|reflexivity]. destruct (occGo_bq ko (board q) y w t Ht Hy Iw OW) as (Hw & _ & OQ). rewrite <- O2, (C1 w Iw) in OQ by auto. discriminate OQ.
      * destruct (isSet (attacksAroundAvoiding p th f (bbXor occ2 (setMaskBB ko))) y) eqn:A2.
        -- unfold attacksAroundAvoiding in A2. rewrite isSet_or, (sOT p us th G Eus Eth) in A2. apply orb_prop in A2 as [A2|A2].
           ++ apply (guard_step p us th k ko bd G Eus Eth Ebd Ek Hk Eo Ho NC ND t pt (fun x => f =? x) (board q) Ct At (setMaskBB f) y); auto. intros z Hz _ [Z|Z]; [rewrite isSet_mask in Z by auto; exact Z|]. apply N.eqb_neq. intros E. rewrite <- E in Z. congruence.
           ++ apply (guard_slide p us th k ko bd G Eus Eth Ebd Ek Hk Eo Ho NC ND t pt (fun x => f =? x) (board q) Ct At (setMaskBB f) (bbXor occ2 (setMaskBB ko)) y); auto; [intros z Hz _ Z; rewrite isSet_mask in Z by auto; exact Z|].
              intros w Hw Nw O. rewrite isSet_xor, isSet_mask, O2, O by auto. rewrite (proj2 (N.eqb_neq ko w)) by auto. reflexivity.
        -- exfalso. rewrite (isAny_ex_true _ y) in K; [discriminate K|]. rewrite isSet_and, isSet_not, !isSet_or, A1, A2, (king_sq p us th k ko bd G Eus Eth Ek Hk Eo Ho NC ND y Hy R), (th_sq p us th bd G Eus Eth Ebd y Hy), Cy by auto. reflexivity.
  - intros y g Hy LY Hg' Nk Cg A.
    assert (CP : canPieceCapture2 p th y (setMaskBB t) (pinnedPieces p th f t) occ2 = false).
    { destruct LY as [E|I]; [rewrite E; apply (LL n x); auto; lia|]. destruct (ON y I) as (j & Hj & Oj). apply (LL j y); auto. lia. }
    assert (Ngt : g <> t) by (intros E; rewrite E, (aCol_th p us th bd G Eus Eth t pt (fun x => f =? x) (board q) Hp Hg At), N.eqb_refl in Cg; discriminate Cg).
    destruct (cap_pins p us th k ko bd G Eus Eth Ebd Ek Hk Eo Ho NC ND t pt (fun x => f =? x) q (board q) Ht Hp Nt Hg Gq Etq eq_refl At y (setMaskBB t) (pinnedPieces p th f t) occ2 g CP Hy Hg' Nk Cg A) as [SP AG].
    { rewrite isSet_mask by auto. apply N.eqb_neq. auto. }
    { intros w Hw O. rewrite <- O2; auto. }
    destruct (new_pin f t pt q (board q) Hf Ht Hp Nt Ct Etq At g Hg' Cg SP) as (z & Hz & HZ).
    exact (pin_bites p us th k ko bd G Eus Eth Ek Hk Eo Ho NC ND t pt (fun x => f =? x) q (board q) Ht Hp Nt Hg Gq Etq eq_refl At g y z Hg' Hz Cg HZ AG).
  - intros f' y pr' I Hf' Hy. destruct (ON y I) as (j & Hj & Oj). destruct (LL j y) as [_ D]; auto; [lia|]. destruct D as [D1 D2]; [lia|].
    apply (no_pawn p us th k ko bd G Eus Eth Ebd Ek Hk Eo Ho NC ND t pt (fun x => f =? x) q (board q) Ht Hp Nt Hg Etq eq_refl At f' y pr' EH EX D1 Hy); auto.
    intros Z1 Z2. exfalso. apply D2; auto. rewrite (gAt p bd Ebd), Z1. reflexivity.
Qed.

Definition holdsB (f t : N) (attacks : BB) : bool :=
  negb (isSet attacks ko)
  && negb (isAny (bbAnd (kingAttack ko) (bbNot (bbOr (bbOr attacks
       (attacksAroundAvoiding p th f (bbXor (bbOr (bbXor (occBB p) (setMaskBB f)) (setMaskBB t)) (setMaskBB ko)))) (bbC p th)))))
  && lineHolds 9 p th f t (ptOf (pieceAt p t) =? Pawn) (pinnedPieces p th f t) (bbOr (bbXor (occBB p) (setMaskBB f)) (setMaskBB t)) ko (ko + nextSquare ko f - f).
Definition discMoves (f ptv : N) : BB :=
  match ptv with
      | 3 => if isSet (if us =? Black then bbOr (bbOr (rankMask 2) (rankMask 3)) (rankMask 4) else bbOr (bbOr (rankMask 4) (rankMask 5)) (rankMask 6)) f
             then bbAnd (knightAttack us f) (bbNot (goldAttack th ko)) else allZeroBB
      | 4 => silverAttack us f
      | 7 => bbAnd (goldAttack us f) (bbNot (goldAttack th ko))
      | 5 => bishopAttack f (occBB p)
      | 13 => bbAnd (horseAttack f (occBB p)) (bbNot (kingAttack ko))
      | 6 => rookAttack f (occBB p)
      | 14 => bbAnd (dragonAttack f (occBB p)) (bbNot (kingAttack ko))
      | _ => allZeroBB
      end.
Definition discAtt (f t ptv : N) : BB :=
  let pro := canPromote2 us f t in let occ2 := bbOr (bbXor (occBB p) (setMaskBB f)) (setMaskBB t) in
  match ptv with
             | 4 | 3 | 7 => goldAttack us t
             | 5 => if pro then horseAttack t occ2 else bishopAttack t occ2
             | 13 => horseAttack t occ2
             | 6 => if pro then dragonAttack t occ2 else rookAttack t occ2
             | _ => dragonAttack t occ2
             end.
Definition discTo (f ptv t : N) : option N :=
  if isAligned f t ko then None
      else if isPinnedIllegal f t k (pinnedBB p) then None
      else if canPawnDrop p th f then None
      else if (ptOf (pieceAt p t) =? Pawn) && (makeFile f =? makeFile t) then None
      else if canPieceCapture2 p th f (setMaskBB t) (pinnedPieces p th f t) (bbOr (bbXor (occBB p) (setMaskBB f)) (setMaskBB t)) then None
      else if isSet (kingAttack ko) t && negb (isAny (bbXor (attackersTo p us t (occBB p)) (setMaskBB f))) then None
      else (if (ptv =? Silver) && negb (canPromote2 us f t) then None
         else if holdsB f t (discAtt f t ptv)
           then Some (if canPromote2 us f t && (N.land (pieceAt p f) 8 =? 0) && negb (ptv =? Gold)
                      then makePromoteMove p ptv f t else makeCaptureMove p ptv f t)
           else None)
        <|> (if (ptv =? Silver) && holdsB f t (silverAttack us t) then Some (makeCaptureMove p Silver f t) else None).
Definition ptvOf (pt : N) : N := if isGoldLike pt then Gold else pt.
Definition near0 (f : N) : BB := bbAnd (attackersTo p th f (occBB p)) (bbNot (setMaskBB ko)).
Definition goals (f : N) : BB := if isAny (near0 f) then near0 f else bbAnd (neighbor5x5Table ko) (bbNot (bbC p us)).
Definition discFrom (f : N) : option N :=
    if isAny (near0 f) && (2 <=? popCount (near0 f)) then None else
    firstSome (discTo f (ptvOf (ptOf (pieceAt p f)))) (bbList (bbAnd (discMoves f (ptvOf (ptOf (pieceAt p f)))) (goals f))).
Lemma mateDiscover_eq : mateDiscover p = if negb (isAny (discoveredCheckBB true p)) || exceptPawnExists (handOf p th) then None else firstSome discFrom (bbList (bbAnd (discoveredCheckBB true p) (neighbor5x5Table ko))).
Proof.
  assert (E1 : kingSquare p th = ko) by exact (bKo p us th ko bd G Eus Eth Ebd Eo). assert (E2 : kingSquare p us = k) by exact (bKu p us k bd G Eus Ebd Ek).
  unfold discFrom, goals, near0, ptvOf, discTo, discMoves, discAtt, holdsB. rewrite <- E1, <- E2, <- Eth, <- Eus. reflexivity.
Qed.
Lemma disc_one pt ptv f t pr attacks m : f < 81 -> t < 81 -> isCol bd us f = true -> ptOf (at_ bd f) = pt -> isSet (attacksFrom pt us f (occBB p)) t = true -> isCol bd us t = false ->
  isSet (discoveredCheckBB true p) f = true -> exceptPawnExists (handOf p th) = false -> isAligned f t ko = false -> isPinnedIllegal f t k (pinnedBB p) = false ->
  isSet (kingAttack ko) t && negb (isAny (bbXor (attackersTo p us t (occBB p)) (setMaskBB f))) = false -> holdsB f t attacks = true ->
  3 <= pt < 15 -> pt <> 8 -> (pr = true -> pt <= 6 /\ canPromote2 us f t = true) -> (pr = false -> 4 <= pt) ->
  (forall y, y < 81 -> isSet attacks y = true -> isSet (attacksFrom (pt + (if pr then 8 else 0)) us t (bbOr (bbXor (occBB p) (setMaskBB f)) (setMaskBB t))) y = true) ->
  (pt = ptv \/ isSmallPro pt = true /\ ptv = 7) -> m = (if pr then makePromoteMove p ptv f t else makeCaptureMove p ptv f t) -> answer p bd m.
Proof.
  intros Hf Ht C Ept A Ct S EX AL PI T1 H Hp N8 PR NP HA KV Em. pose proof U as Hu. unfold holdsB in H. rewrite !andb_true_iff in H. destruct H as [[_ K] L]. apply negb_true_iff in K.
  assert (P : plSet p f t pr).
  { unfold plSet. rewrite (proj2 (N.ltb_lt _ _) Hf). unfold plGoB. rewrite Ebd, Eus, C, Ct. rewrite <- Ept in A. rewrite (bAtt p us bd G Eus Ebd f t Hf Ht C A). cbn [andb negb]. unfold promoB. rewrite (gAt p bd Ebd), Eus, Ept.
    destruct pr; [destruct (PR eq_refl) as [P1 P2]; unfold canPromote2 in P2; rewrite !canPromote_zone in P2 by auto; rewrite P2, (proj2 (N.leb_le pt 6)) by lia; reflexivity|].
    specialize (NP eq_refl). unfold deadB. destruct (N.leb_spec pt 2); [lia|]. destruct (N.eqb_spec pt 3); [lia|reflexivity]. }
  exists f, t, pr. split; [lia|]. split; [exact Ht|]. split; [exact P|].
  assert (EM : m = enc p f t pr \/ f < 81 /\ isSmallPro (ptOf (at_ bd f)) = true /\ pr = false /\ m = codeOf t f false 7 (ptOf (at_ bd t))).
  { destruct pr.
    - left. destruct (PR eq_refl) as (P1 & _). assert (pt = ptv) by (destruct KV as [X|[X _]]; auto; unfold isSmallPro in X; apply andb_prop in X as [X _]; apply N.leb_le in X; lia). subst ptv. rewrite Em. apply promote_code; auto. now rewrite (gAt p bd Ebd).
    - destruct KV as [KV|[SP KV]].
      + left. rewrite Em, <- KV. apply nonpromote_code; auto. now rewrite (gAt p bd Ebd).
      + right. rewrite Ept. repeat split; auto. rewrite Em, KV, capture_code by (auto; lia). now rewrite (gAt p bd Ebd). }
  split.
  { destruct EM as [->|(_ & _ & -> & ->)]; [apply moveN_enc; auto; lia|apply (moveN_gold p us th k ko bd); auto; apply ptOf_lt]. }
  split; [exact EM|]. apply (disc_ok f t pr pt attacks); auto. lia.
Qed.
Lemma knight_zone f t : f < 81 -> isSet (if us =? Black then bbOr (bbOr (rankMask 2) (rankMask 3)) (rankMask 4) else bbOr (bbOr (rankMask 4) (rankMask 5)) (rankMask 6)) f = true ->
  t < 81 -> isSet (knightAttack us f) t = true -> canPromote2 us f t = true.
Proof.
  intros Hf M Ht S. pose proof U as Hu. apply (knight_all us f t Hu Hf M). apply in_bbList; auto. now apply wf_knight.
Qed.
Lemma land8 f pt : ptOf (at_ bd f) = pt -> N.land (pieceAt p f) 8 = N.land pt 8.
Proof. intros <-. rewrite (gAt p bd Ebd). unfold ptOf. now rewrite <- N.land_assoc. Qed.
Definition proD (pt f t : N) : bool := canPromote2 us f t && (N.land pt 8 =? 0) && negb (ptvOf pt =? Gold).
Lemma discMoves_spec f pt t : f < 81 -> t < 81 -> 1 <= pt < 15 -> isSet (discMoves f (ptvOf pt)) t = true ->
  isSet (attacksFrom pt us f (occBB p)) t = true /\ 3 <= pt /\ pt <> 8 /\ (pt = 3 -> canPromote2 us f t = true).
Proof.
  intros Hf Ht Hp H.
  destruct (pt_cases pt Hp) as [E|[E|[E|[E|[E|[E|[E|[E|[E|[E|[E|[E|[E|E]]]]]]]]]]]]]; rewrite E in *; clear E.
  - change (isSet allZeroBB t = true) in H. rewrite isSet_zero in H. discriminate H.
  - change (isSet allZeroBB t = true) in H. rewrite isSet_zero in H. discriminate H.
  - change (isSet (if knightRanks us f then bbAnd (knightAttack us f) (bbNot (goldAttack th ko)) else allZeroBB) t = true) in H. destruct (knightRanks us f) eqn:M; [|rewrite isSet_zero in H; discriminate H].
    rewrite isSet_and in H. apply andb_prop in H as [H _]. split; [exact H|]. split; [lia|]. split; [lia|]. intros _. exact (knight_zone f t Hf M Ht H).
  - change (isSet (silverAttack us f) t = true) in H. split; [exact H|]. lia.
  - change (isSet (bishopAttack f (occBB p)) t = true) in H. rewrite af5. split; [exact H|]. lia.
  - change (isSet (rookAttack f (occBB p)) t = true) in H. rewrite af6. split; [exact H|]. lia.
  - change (isSet (bbAnd (goldAttack us f) (bbNot (goldAttack th ko))) t = true) in H. rewrite isSet_and in H. apply andb_prop in H as [H _]. split; [exact H|]. lia.
  - change (isSet allZeroBB t = true) in H. rewrite isSet_zero in H. discriminate H.
  - change (isSet (bbAnd (goldAttack us f) (bbNot (goldAttack th ko))) t = true) in H. rewrite isSet_and in H. apply andb_prop in H as [H _]. split; [exact H|]. lia.
  - change (isSet (bbAnd (goldAttack us f) (bbNot (goldAttack th ko))) t = true) in H. rewrite isSet_and in H. apply andb_prop in H as [H _]. split; [exact H|]. lia.
  - change (isSet (bbAnd (goldAttack us f) (bbNot (goldAttack th ko))) t = true) in H. rewrite isSet_and in H. apply andb_prop in H as [H _]. split; [exact H|]. lia.
  - change (isSet (bbAnd (goldAttack us f) (bbNot (goldAttack th ko))) t = true) in H. rewrite isSet_and in H. apply andb_prop in H as [H _]. split; [exact H|]. lia.
  - change (isSet (bbAnd (horseAttack f (occBB p)) (bbNot (kingAttack ko))) t = true) in H. rewrite isSet_and in H. apply andb_prop in H as [H _]. rewrite af13. split; [exact H|]. lia.
  - change (isSet (bbAnd (dragonAttack f (occBB p)) (bbNot (kingAttack ko))) t = true) in H. rewrite isSet_and in H. apply andb_prop in H as [H _]. rewrite af14. split; [exact H|]. lia.
Qed.
Lemma proD_3 f t : proD 3 f t = canPromote2 us f t. Proof. unfold proD. change (N.land 3 8 =? 0) with true. change (negb (ptvOf 3 =? Gold)) with true. now rewrite !andb_true_r. Qed.
Lemma proD_4 f t : proD 4 f t = canPromote2 us f t. Proof. unfold proD. change (N.land 4 8 =? 0) with true. change (negb (ptvOf 4 =? Gold)) with true. now rewrite !andb_true_r. Qed.
Lemma proD_5 f t : proD 5 f t = canPromote2 us f t. Proof. unfold proD. change (N.land 5 8 =? 0) with true. change (negb (ptvOf 5 =? Gold)) with true. now rewrite !andb_true_r. Qed.
Lemma proD_6 f t : proD 6 f t = canPromote2 us f t. Proof. unfold proD. change (N.land 6 8 =? 0) with true. change (negb (ptvOf 6 =? Gold)) with true. now rewrite !andb_true_r. Qed.
Lemma proD_no pt f t : 7 <= pt < 15 -> pt <> 8 -> proD pt f t = false.
Proof.
  intros H N8. unfold proD. assert (X : pt = 7 \/ N.land pt 8 =? 0 = false).
  { destruct (pt_cases pt) as [E|[E|[E|[E|[E|[E|[E|[E|[E|[E|[E|[E|[E|E]]]]]]]]]]]]]; [lia|..]; rewrite E in *; try lia; auto. }
  destruct X as [-> | ->]; [apply andb_false_r|now rewrite andb_false_r].
Qed.
Lemma discAtt_spec f t pt : 1 <= pt < 15 -> 3 <= pt -> pt <> 8 -> (pt = 3 \/ pt = 4 -> canPromote2 us f t = true) ->
  discAtt f t (ptvOf pt) = attacksFrom (pt + (if proD pt f t then 8 else 0)) us t (bbOr (bbXor (occBB p) (setMaskBB f)) (setMaskBB t)).
Proof.
  intros Hp H3 N8 PR. set (o := bbOr (bbXor (occBB p) (setMaskBB f)) (setMaskBB t)).
  destruct (pt_cases pt Hp) as [E|[E|[E|[E|[E|[E|[E|[E|[E|[E|[E|[E|[E|E]]]]]]]]]]]]]; rewrite E in *; clear E; try lia; try (rewrite proD_no by lia).
  - rewrite proD_3, PR by auto. reflexivity.
  - rewrite proD_4, PR by auto. reflexivity.
  - rewrite proD_5. change (discAtt f t (ptvOf 5)) with (if canPromote2 us f t then horseAttack t o else bishopAttack t o). destruct (canPromote2 us f t); reflexivity.
  - rewrite proD_6. change (discAtt f t (ptvOf 6)) with (if canPromote2 us f t then dragonAttack t o else rookAttack t o). destruct (canPromote2 us f t); reflexivity.
  - reflexivity.
  - reflexivity.
  - reflexivity.
  - reflexivity.
  - reflexivity.
  - reflexivity.
  - reflexivity.
Qed.
Lemma disc_split f pt t m : ptOf (at_ bd f) = pt -> discTo f (ptvOf pt) t = Some m ->
  (isAligned f t ko = false /\ isPinnedIllegal f t k (pinnedBB p) = false /\ isSet (kingAttack ko) t && negb (isAny (bbXor (attackersTo p us t (occBB p)) (setMaskBB f))) = false) /\
  (((ptvOf pt = 4 -> canPromote2 us f t = true) /\ holdsB f t (discAtt f t (ptvOf pt)) = true /\ m = (if proD pt f t then makePromoteMove p (ptvOf pt) f t else makeCaptureMove p (ptvOf pt) f t)) \/
   (ptvOf pt = 4 /\ holdsB f t (silverAttack us t) = true /\ m = makeCaptureMove p 4 f t)).
Proof.
  intros Ept. unfold discTo. rewrite (land8 f pt Ept). fold (proD pt f t). generalize (proD pt f t) as pr. intros pr. generalize (discAtt f t (ptvOf pt)) as at1. intros at1.
  generalize (makePromoteMove p (ptvOf pt) f t) as m1, (makeCaptureMove p (ptvOf pt) f t) as m2. intros m1 m2. change Silver with 4.
  destruct (isAligned f t ko); [discriminate|]. destruct (isPinnedIllegal f t k (pinnedBB p)); [discriminate|].
  destruct (canPawnDrop p th f); [discriminate|]. destruct ((ptOf (pieceAt p t) =? Pawn) && (makeFile f =? makeFile t)); [discriminate|].
  destruct (canPieceCapture2 p th f (setMaskBB t) (pinnedPieces p th f t) (bbOr (bbXor (occBB p) (setMaskBB f)) (setMaskBB t))); [discriminate|].
  destruct (isSet (kingAttack ko) t && negb (isAny (bbXor (attackersTo p us t (occBB p)) (setMaskBB f)))); [discriminate|].
  generalize (holdsB f t at1) as h1, (holdsB f t (silverAttack us t)) as h2, (canPromote2 us f t) as pro, (makeCaptureMove p 4 f t) as m3. intros h1 h2 pro m3 H. split; [auto|].
  destruct (N.eqb_spec (ptvOf pt) 4) as [E|E].
  - destruct pro.
    + destruct h1; [left; injection H as H; auto|]. destruct h2; [right; injection H as H; auto|discriminate H].
    + destruct h2; [right; injection H as H; auto|discriminate H].
  - destruct h1; [left; injection H as H; split; [intros X; contradiction|auto]|discriminate H].
Qed.
Lemma ptv_kind pt : 1 <= pt < 15 -> pt = ptvOf pt \/ isSmallPro pt = true /\ ptvOf pt = 7.
Proof. intros Hp. destruct (pt_cases pt Hp) as [E|[E|[E|[E|[E|[E|[E|[E|[E|[E|[E|[E|[E|E]]]]]]]]]]]]]; rewrite E; cbv; auto. Qed.
Lemma ptv_4 pt : 1 <= pt < 15 -> ptvOf pt = 4 -> pt = 4.
Proof. intros Hp. destruct (pt_cases pt Hp) as [E|[E|[E|[E|[E|[E|[E|[E|[E|[E|[E|[E|[E|E]]]]]]]]]]]]]; rewrite E; cbv; congruence. Qed.
Lemma disc_to f t pt m : f < 81 -> t < 81 -> isCol bd us f = true -> ptOf (at_ bd f) = pt -> 1 <= pt < 15 ->
  isSet (discMoves f (ptvOf pt)) t = true -> isCol bd us t = false -> isSet (discoveredCheckBB true p) f = true -> exceptPawnExists (handOf p th) = false -> discTo f (ptvOf pt) t = Some m -> answer p bd m.
Proof.
  intros Hf Ht C Ept Hp MV Ct S EX H. destruct (discMoves_spec f pt t Hf Ht Hp MV) as (A & H3 & N8 & K3). apply (disc_split f pt t m Ept) in H as [(AL & PI & T1) [(K4 & HB & Em)|(E4 & HB & Em)]].
  - apply (disc_one pt (ptvOf pt) f t (proD pt f t) (discAtt f t (ptvOf pt)) m); auto; try lia.
    + intros PR. split; [|unfold proD in PR; rewrite !andb_true_iff in PR; tauto]. destruct (N.le_gt_cases pt 6) as [X|X]; [exact X|]. rewrite proD_no in PR by lia. discriminate PR.
    + intros PR. destruct (N.eq_dec pt 3) as [E|E]; [|lia]. rewrite E, proD_3 in PR. rewrite K3 in PR by auto. discriminate PR.
    + intros y Hy Sy. assert (K : pt = 3 \/ pt = 4 -> canPromote2 us f t = true) by (intros [X|X]; [now apply K3|apply K4; rewrite X; reflexivity]). rewrite (discAtt_spec f t pt Hp H3 N8 K) in Sy. exact Sy.
    + now apply ptv_kind.
  - apply ptv_4 in E4; auto. rewrite E4 in *. apply (disc_one 4 4 f t false (silverAttack us t) m); auto; try lia.
Qed.
Lemma wf_discMoves f pt : f < 81 -> 1 <= pt < 15 -> wfBB (discMoves f (ptvOf pt)).
Proof.
  intros Hf Hp. pose proof U as Hu. destruct (pt_cases pt Hp) as [E|[E|[E|[E|[E|[E|[E|[E|[E|[E|[E|[E|[E|E]]]]]]]]]]]]]; rewrite E in *; clear E.
  - exact wf_zero.
  - exact wf_zero.
  - change (wfBB (if knightRanks us f then bbAnd (knightAttack us f) (bbNot (goldAttack th ko)) else allZeroBB)). destruct (knightRanks us f); [apply wf_and_l; now apply wf_knight|exact wf_zero].
  - change (wfBB (silverAttack us f)). now apply wf_silver.
  - exact (wfA 5 us f (occBB p) Hp Hu Hf).
  - exact (wfA 6 us f (occBB p) Hp Hu Hf).
  - change (wfBB (bbAnd (goldAttack us f) (bbNot (goldAttack th ko)))). apply wf_and_l. now apply wf_gold.
  - exact wf_zero.
  - change (wfBB (bbAnd (goldAttack us f) (bbNot (goldAttack th ko)))). apply wf_and_l. now apply wf_gold.
  - change (wfBB (bbAnd (goldAttack us f) (bbNot (goldAttack th ko)))). apply wf_and_l. now apply wf_gold.
  - change (wfBB (bbAnd (goldAttack us f) (bbNot (goldAttack th ko)))). apply wf_and_l. now apply wf_gold.
  - change (wfBB (bbAnd (goldAttack us f) (bbNot (goldAttack th ko)))). apply wf_and_l. now apply wf_gold.
  - change (wfBB (bbAnd (horseAttack f (occBB p)) (bbNot (kingAttack ko)))). apply wf_and_l. exact (wfA 13 us f (occBB p) Hp Hu Hf).
  - change (wfBB (bbAnd (dragonAttack f (occBB p)) (bbNot (kingAttack ko)))). apply wf_and_l. exact (wfA 14 us f (occBB p) Hp Hu Hf).
Qed.
Lemma discFrom_in f m : discFrom f = Some m -> exists t, In t (bbList (bbAnd (discMoves f (ptvOf (ptOf (at_ bd f)))) (goals f))) /\ discTo f (ptvOf (ptOf (at_ bd f))) t = Some m.
Proof.
  unfold discFrom. rewrite (gAt p bd Ebd). generalize (isAny (near0 f) && (2 <=? popCount (near0 f))) as b. generalize (discTo f (ptvOf (ptOf (at_ bd f)))) as F. generalize (bbList (bbAnd (discMoves f (ptvOf (ptOf (at_ bd f)))) (goals f))) as l.
  intros l F b H. destruct b; [discriminate H|]. now apply firstSome_in in H.
Qed.
Lemma goals_free f t : f < 81 -> t < 81 -> isSet (goals f) t = true -> isCol bd us t = false.
Proof.
  intros Hf Ht. pose proof U as Hu. pose proof T as Hth. assert (V : views p) by apply G. unfold goals. generalize (isAny (near0 f)) as b. intros b AT. destruct b; [unfold near0 in AT|]; rewrite isSet_and in AT; apply andb_prop in AT as [A1 A2].
  - rewrite att_by, Ebd in A1 by auto. apply andb_prop in A1 as [A1 _]. destruct (isCol bd us t) eqn:X; [|reflexivity]. exfalso. unfold isCol in A1, X. apply andb_prop in A1 as [_ A1]. apply andb_prop in X as [_ X]. apply N.eqb_eq in A1, X. rewrite A1 in X. exact (opp_neq us th Hu Eth X).
  - rewrite isSet_not, (bCol p us bd G Eus Ebd) in A2 by auto. now apply negb_true_iff in A2.
Qed.
Lemma disc_from f m : f < 81 -> isSet (discoveredCheckBB true p) f = true -> exceptPawnExists (handOf p th) = false -> discFrom f = Some m -> answer p bd m.
Proof.
  intros Hf S EX H. pose proof U as Hu. pose proof T as Hth. assert (V : views p) by apply G.
  assert (C : isCol bd us f = true).
  { pose proof (isSet_hiddenCheckers false true p f V Hf) as HS. cbv zeta in HS. assert (S' := S). unfold discoveredCheckBB in S'. rewrite HS, Eus, Ebd in S'. rewrite !andb_true_iff in S'. tauto. }
  apply discFrom_in in H as (t & I & H). remember (ptOf (at_ bd f)) as pt eqn:Ept. symmetry in Ept.
  assert (Hp : 1 <= pt < 15).
  { unfold isCol in C. apply andb_prop in C as [C0 _]. apply negb_true_iff, N.eqb_neq in C0. destruct (vpc_facts _ (gOk p bd V Ebd f Hf) C0) as (A & _). rewrite <- Ept. exact A. }
  apply in_bbList in I as [Ht St]; [|apply wf_and_l; exact (wf_discMoves f pt Hf Hp)]. rewrite isSet_and in St. apply andb_prop in St as [MV AT].
  exact (disc_to f t pt m Hf Ht C Ept Hp MV (goals_free f t Hf Ht AT) S EX H).
Qed.
Lemma discover_sound m : mateDiscover p = Some m -> answer p bd m.
Proof.
  rewrite mateDiscover_eq. destruct (negb (isAny (discoveredCheckBB true p))); [discriminate|]. destruct (exceptPawnExists (handOf p th)) eqn:EX; [discriminate|]. cbn [orb]. intros H.
  apply firstSome_in in H as (f & I & H). assert (V : views p) by apply G. apply in_bbList in I as [Hf S]; [|apply wf_and_l, wf_hiddenCheckers; exact V]. rewrite isSet_and in S. apply andb_prop in S as [S _]. exact (disc_from f m Hf S EX H).
Qed.
End F.
