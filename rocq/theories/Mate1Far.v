(* Rook, bishop and lance checks from two or three squares away. *)
From Verif Require Export Mate1Line.
Local Open Scope N_scope.

Notation offs := GeoProofs.off.
Lemma edge_line ko t y e n d i : In e allDirs -> In d allDirs -> (2 <= n)%Z -> (1 <= i)%Z -> offs ko e n t -> offs t d i y -> (Z.abs (fz y - fz ko) <= 1)%Z -> (Z.abs (rz y - rz ko) <= 1)%Z ->
  ((fst e = 0 \/ snd e = 0) /\ (fst d = 0 \/ snd d = 0) \/ (fst e <> 0 /\ snd e <> 0) /\ (fst d <> 0 /\ snd d <> 0))%Z -> (fst d = - fst e /\ snd d = - snd e /\ i <= n + 1)%Z.
Proof.
  intros He Hd Hn Hi [O1 O2] [O3 O4] A B CC. dcase e He; dcase d Hd; try (exfalso; clear - CC; lia); lia.
Qed.
Lemma edge_rook_diag ko t y e d i : In e allDirs -> In d allDirs -> (1 <= i)%Z -> offs ko e 2 t -> offs t d i y -> (Z.abs (fz y - fz ko) <= 1)%Z -> (Z.abs (rz y - rz ko) <= 1)%Z ->
  (fst e = 0 \/ snd e = 0)%Z -> (fst d <> 0 /\ snd d <> 0)%Z -> i = 1%Z.
Proof. intros He Hd Hi [O1 O2] [O3 O4] A B Ce Cd. dcase e He; try (exfalso; clear - Ce; lia); dcase d Hd; try (exfalso; clear - Cd; lia); lia. Qed.
Lemma edge_bishop_orth ko t y e d i : In e allDirs -> In d allDirs -> (1 <= i)%Z -> offs ko e 2 t -> offs t d i y -> (Z.abs (fz y - fz ko) <= 1)%Z -> (Z.abs (rz y - rz ko) <= 1)%Z ->
  (fst e <> 0 /\ snd e <> 0)%Z -> (fst d = 0 \/ snd d = 0)%Z -> False.
Proof. intros He Hd Hi [O1 O2] [O3 O4] A B Ce Cd. dcase e He; try (exfalso; clear - Ce; lia); dcase d Hd; try (exfalso; clear - Cd; lia); lia. Qed.
Definition sameClass (d e : dir) : Prop := ((fst e = 0 \/ snd e = 0) /\ (fst d = 0 \/ snd d = 0) \/ (fst e <> 0 /\ snd e <> 0) /\ (fst d <> 0 /\ snd d <> 0))%Z.
Lemma pinner_line ko f t e d n e1 n1 : In e allDirs -> In d allDirs -> In e1 allDirs -> sameClass d e -> sameClass e1 e -> (2 <= n)%Z -> (1 <= n1)%Z -> offs f d n ko -> offs ko e 2 t -> offs f e1 n1 t ->
  (fst d = - fst e /\ snd d = - snd e)%Z \/ (e1 = d /\ n1 = n + 2)%Z.
Proof.
  intros He Hd He1 C1 C2 Hn Hn1 [O1 O2] [O3 O4] [O5 O6]. unfold sameClass in *. 
  dcase e He; dcase d Hd; try (exfalso; clear - C1; lia); try (left; split; reflexivity); dcase e1 He1; try (exfalso; clear - C2; lia); try (exfalso; clear - O1 O2 O3 O4 O5 O6 Hn Hn1; lia); right; (split; [apply dir_eq; congruence|clear - O1 O2 O3 O4 O5 O6; lia]).
Qed.
Lemma pinner_step ko f t e d n : In e allDirs -> In d allDirs -> sameClass d e -> (2 <= n)%Z -> offs f d n ko -> offs ko e 2 t -> (Z.abs (fz t - fz f) <= 1)%Z -> (Z.abs (rz t - rz f) <= 1)%Z ->
  (fst d = - fst e /\ snd d = - snd e /\ n <= 3)%Z.
Proof.
  intros He Hd C1 Hn [O1 O2] [O3 O4] A B. unfold sameClass in *. dcase e He; dcase d Hd; try (exfalso; clear - C1; lia); lia.
Qed.
Lemma step_reach pt c s d t : In d (stepsOf pt c) -> s < 81 -> t < 81 -> offs s d 1 t -> reach pt c s t = true.
Proof. intros I Hs Ht O. unfold reach. apply orb_true_iff. left. apply existsb_exists. exists d. split; auto. now apply stepHits_iff. Qed.
Lemma makeSquare_fr f r : f < 9 -> r < 9 -> makeSquare f r < 81 /\ fz (makeSquare f r) = Z.of_N f /\ rz (makeSquare f r) = Z.of_N r.
Proof.
  intros Hf Hr. unfold makeSquare, fz, rz. assert (E1 : (f * 9 + r) / 9 = f) by (rewrite N.div_add_l by lia; rewrite (N.div_small r 9) by auto; lia). assert (E2 : (f * 9 + r) mod 9 = r) by (rewrite N.add_comm, N.mod_add by lia; now apply N.mod_small).
  rewrite E1, E2. split; [lia|auto].
Qed.
Lemma stepOn_some a b x y z : (Z.of_N b = Z.of_N a + z)%Z -> x < 9 -> stepOn a b x = Some y -> (Z.of_N y = Z.of_N x + Z.sgn z)%Z /\ y < 9.
Proof.
  intros E Hx H. unfold stepOn in H. destruct (N.ltb_spec a b).
  - destruct (N.ltb_spec x 8); [|discriminate H]. injection H as <-. replace (Z.sgn z) with 1%Z by lia. lia.
  - destruct (N.ltb_spec b a).
    + destruct (N.ltb_spec 0 x); [|discriminate H]. injection H as <-. replace (Z.sgn z) with (-1)%Z by lia. lia.
    + injection H as <-. replace (Z.sgn z) with 0%Z by lia. lia.
Qed.
Lemma next_off s1 s2 e n : In e allDirs -> s1 < 81 -> s2 < 81 -> (1 <= n)%Z -> offs s1 e n s2 -> nextSquare s1 s2 <> 81 -> nextSquare s1 s2 < 81 /\ offs s2 e 1 (nextSquare s1 s2).
Proof.
  intros He H1 H2 Hn [O1 O2] N. unfold nextSquare in *. destruct (isSet _ s2); [|congruence]. unfold makeFile, makeRank in *.
  assert (F2 : s2 / 9 < 9) by (apply N.div_lt_upper_bound; lia). assert (R2 : s2 mod 9 < 9) by (apply N.mod_lt; lia).
  destruct (stepOn (s1 / 9) (s2 / 9) (s2 / 9)) as [f|] eqn:Ef; [|congruence]. destruct (stepOn (s1 mod 9) (s2 mod 9) (s2 mod 9)) as [r|] eqn:Er; [|congruence].
  apply (stepOn_some _ _ _ _ (n * fst e)) in Ef as [Ef Lf]; auto. apply (stepOn_some _ _ _ _ (n * snd e)) in Er as [Er Lr]; auto.
  destruct (makeSquare_fr f r Lf Lr) as (A & B & C). split; auto. unfold offs. rewrite B, C, Ef, Er. change (Z.of_N (s2 / 9)) with (fz s2). change (Z.of_N (s2 mod 9)) with (rz s2). clear - He Hn. dcase e He; lia.
Qed.
Section F.
Variables (p : Position) (us th k ko : N) (bd : list N).
Hypotheses (G : good p) (Eus : turn p = us) (Eth : opp us = th) (Ebd : board p = bd).
Hypotheses (Ek : kingOf bd us = k) (Hk : k < 81) (Eo : kingOf bd th = ko) (Ho : ko < 81).
Hypothesis NC : forall x, ~ chkr us k bd x.
Hypothesis ND : forall s, s < 81 -> isCol bd us s = true -> ptOf (at_ bd s) = 1 -> rankFor us s <> 1.
Notation U := (sU p us G Eus).
Notation T := (sT p us th G Eus Eth).
Section A.
Variables (t pt : N) (gone : N -> bool) (q : Position) (bq : list N).
Hypotheses (Ht : t < 81) (Hpt : 1 <= pt < 15) (Ntk : t <> ko) (Ct : isCol bd us t = false) (Hg : forall x, gone x = true -> isCol bd us x = true).
Hypotheses (Gq : good q) (Etq : turn q = th) (Ebq : board q = bq).
Hypothesis At : forall x, at_ bq x = if t =? x then mkPiece us pt else if gone x then 0 else at_ bd x.
Variables (e : dir) (n : Z).
Hypotheses (He : In e allDirs) (Oe : offs ko e n t) (Hn : (2 <= n)%Z) (ST : sreach pt us t ko = true) (CT : clear (occOf bq) t ko = true).
Lemma fCheck : chkr th ko bq t.
Proof.
  pose proof U as Hu. split; auto. rewrite (sOT p us th G Eus Eth). split; [exact (aTarget p us bd G Eus t pt gone bq Hpt At)|]. unfold att, attOcc. rewrite At, N.eqb_refl, mk_nz, pt_mk, col_mk, (sreach_reach _ _ _ _ ST) by auto. exact CT.
Qed.
Lemma fBack : In (nd e) (slidesOf pt us) /\ offs t (nd e) n ko.
Proof.
  apply off_sym in Oe. split; [|exact Oe]. apply sreach_iff in ST as (d & j & Hd & Hj & O); auto. assert (d = nd e /\ j = n) as [<- _] by (apply (off_uniq t ko); auto; [now apply slides_allDirs in Hd|now apply nd_in|lia]). exact Hd.
Qed.
(* the line of the check, behind the king too *)
Lemma fLine d i y : y < 81 -> In d allDirs -> (1 <= i)%Z -> offs t d i y -> reach 8 th ko y = true -> sameClass d e -> isCol bq us t = true /\ attOcc bq (occGo bq ko y) t y = true.
Proof.
  intros Hy Hd Hi O R CC. pose proof U as Hu. pose proof T as Hth. destruct (adj_N th ko y Hth Ho Hy R) as (A1 & A2 & A3). destruct (edge_line ko t y e n d i He Hd Hn Hi Oe O A1 A2 CC) as (D1 & D2 & LI).
  assert (ED : d = nd e) by (apply dir_eq; unfold nd; cbn [fst snd]; auto). destruct fBack as [SB OB]. split; [exact (aTarget p us bd G Eus t pt gone bq Hpt At)|]. unfold attOcc. rewrite At, N.eqb_refl, mk_nz, pt_mk, col_mk by auto. cbn [negb andb]. apply andb_true_intro. split.
  - apply sreach_reach, sreach_iff; auto. exists d, i. split; [rewrite ED; exact SB|auto].
  - apply (ray_clear bq t d i y (nd e) n ko); auto; [now apply nd_in|lia].
Qed.
Lemma far_noreply : 
  (forall y, y < 81 -> reach 8 th ko y = true -> isCol bd th y = false -> exists x, x < 81 /\ isCol bq us x = true /\ attOcc bq (occGo bq ko y) x y = true) ->
  (forall y g, y < 81 -> y = t \/ In y (betw t ko) -> g < 81 -> g <> ko -> isCol bq th g = true -> att bq g y = true -> isSet (discoveredCheckBB false p) g = true /\ isAligned g y ko = false) ->
  (forall g x, g < 81 -> isCol bq th g = true -> x < 81 -> hid bd us ko g x = true -> gone x = false) ->
  handOf q th = handOf p th -> exceptPawnExists (handOf p th) = false ->
  (forall y, In y (betw t ko) -> canPawnDrop p th y = false /\ (ptOf (at_ bd t) = 1 -> makeFile t = makeFile y -> handExists (handOf p th) 0 = false)) ->
  inCheckB (board q) (turn q) = true /\ noReply q.
Proof.
  intros HK HC NG EH EX HD. pose proof (aKing p us th k ko bd G Eus Eth Ek Hk Eo Ho NC ND t pt gone q bq Ht Hpt Ntk Hg Gq Etq Ebq At) as KQ. split; [exact (check_by q th ko bq Etq Ebq KQ Ho t fCheck)|].
  apply (no_reply_line q us th ko bq Gq Etq (sOT p us th G Eus Eth) Ebq KQ Ho t fCheck).
  - intros y Hy R C. apply HK; auto. rewrite (aCol_th p us th bd G Eus Eth t pt gone bq Hpt Hg At) in C. destruct (N.eqb_spec t y) as [E|E]; [|exact C]. exfalso. rewrite <- E in R. destruct (adj_N th ko t T Ho Ht R) as (A1 & A2 & _). clear - A1 A2 Oe Hn He. destruct Oe as [O1 O2]. dcase e He; lia.
  - intros y g Hy L Hg' Nk Cg A. destruct (HC y g Hy L Hg' Nk Cg A) as [S AL].
    exact (pin_far p us th k ko bd G Eus Eth Ebd Ek Hk Eo Ho NC ND t pt gone q bq Ht Hpt Ntk Ct Hg Gq Etq Ebq At g y Hg' Hy Cg A L CT S AL (fun x => NG g x Hg' Cg)).
  - intros f y pr I Hf Hy. destruct (HD y I) as [CP TP]. exact (no_pawn p us th k ko bd G Eus Eth Ebd Ek Hk Eo Ho NC ND t pt gone q bq Ht Hpt Ntk Hg Etq Ebq At f y pr EH EX CP Hy TP Hf).
Qed.
End A.
(* the square beside the king and the ones behind it *)
Lemma dir_to one : one < 81 -> reach 8 th ko one = true -> exists e, In e allDirs /\ offs ko e 1 one.
Proof.
  intros H1 R. destruct (adj_N th ko one T Ho H1 R) as (A & B & N). exists (fz one - fz ko, rz one - rz ko)%Z. split; [|unfold offs; cbn [fst snd]; lia].
  assert (X : (fz one - fz ko <> 0 \/ rz one - rz ko <> 0)%Z).
  { destruct (Z.eq_dec (fz one) (fz ko)); [|lia]. destruct (Z.eq_dec (rz one) (rz ko)); [|lia]. exfalso. apply N. apply (off_fun ko (1, 0)%Z 0); auto; unfold offs; cbn [fst snd]; lia. }
  revert A B X. generalize (fz one - fz ko)%Z (rz one - rz ko)%Z. intros a b A B X. assert (a = -1 \/ a = 0 \/ a = 1)%Z as [E|[E|E]] by lia; assert (b = -1 \/ b = 0 \/ b = 1)%Z as [E'|[E'|E']] by lia; rewrite E, E'; try (exfalso; lia); unfold allDirs, rookDirs, bishopDirs; cbn [In app]; tauto.
Qed.
Lemma file_eq a b e n : (1 <= n)%Z -> offs a e n b -> (makeFile a =? makeFile b) = (fst e =? 0)%Z.
Proof. intros Hn [O _]. unfold makeFile, fz in *. destruct (N.eqb_spec (a / 9) (b / 9)), (Z.eqb_spec (fst e) 0); auto; exfalso; nia. Qed.
Lemma rank_eq a b e n : (1 <= n)%Z -> offs a e n b -> (makeRank a =? makeRank b) = (snd e =? 0)%Z.
Proof. intros Hn [_ O]. unfold makeRank, rz in *. destruct (N.eqb_spec (a mod 9) (b mod 9)), (Z.eqb_spec (snd e) 0); auto; exfalso; nia. Qed.
Lemma front_dir one e : In e allDirs -> offs ko e 1 one -> (makeFile ko =? makeFile one) && (one =? (if us =? Black then ko + 1 else ko - 1)) = true -> nd e = (0, fwd us)%Z.
Proof.
  intros He O C. apply andb_prop in C as [C1 C2]. rewrite (file_eq ko one e 1) in C1 by (auto; lia). apply Z.eqb_eq in C1. apply N.eqb_eq in C2. destruct O as [O1 O2]. unfold fz, rz in *.
  pose proof (N.div_mod ko 9 ltac:(lia)). pose proof (N.div_mod one 9 ltac:(lia)). rewrite C1 in O1. assert (E : one / 9 = ko / 9) by lia. unfold nd. rewrite C1. f_equal.
  pose proof U as Hu. unfold Black in C2. unfold fwd. assert (us = 0 \/ us = 1) as [E'|E'] by lia; rewrite E' in *; [change (0 =? 0) with true in *|change (1 =? 0) with false in *]; cbn [N.eqb] in *; [lia|]. destruct (N.eq_dec ko 0); [|lia]. exfalso. dcase e He; lia.
Qed.
Lemma line_reach pt t e n : t < 81 -> In e allDirs -> (1 <= n)%Z -> offs ko e n t -> (pt = 6 \/ pt = 14) /\ (fst e = 0 \/ snd e = 0)%Z \/ (pt = 5 \/ pt = 13) /\ (fst e <> 0 /\ snd e <> 0)%Z \/ pt = 2 /\ nd e = (0, fwd us)%Z -> sreach pt us t ko = true.
Proof.
  intros Ht He Hn O X. apply sreach_iff; auto. exists (nd e), n. apply off_sym in O. split; [|auto]. pose proof (nd_in e He) as Hne.
  destruct X as [[[E|E] X]|[[[E|E] X]|[E X]]]; rewrite E; unfold slidesOf; try (apply rook_dir; split; auto; unfold nd; cbn [fst snd]; lia); try (apply bishop_dir; split; auto; unfold nd; cbn [fst snd]; lia). rewrite X. now left.
Qed.
Lemma beside one e t y n : one < 81 -> t < 81 -> In e allDirs -> offs ko e 1 one -> offs ko e n t -> n = 2%Z -> In y (betw t ko) -> y = one.
Proof.
  intros H1 Ht He O1 O2 -> I. apply memN_In in I. rewrite memN_betw_sym in I by auto. apply memN_In in I. apply (betw_line ko e 2 t y) in I as [Hy (i & Hi & O)]; auto; [|lia]. assert (i = 1%Z) by lia. subst i. apply (off_fun ko e 1); auto.
Qed.
Lemma beside2 one two e t y n : one < 81 -> two < 81 -> t < 81 -> In e allDirs -> offs ko e 1 one -> offs ko e 2 two -> offs ko e n t -> n = 3%Z -> In y (betw t ko) -> y = one \/ y = two.
Proof.
  intros H1 H2 Ht He O1 O2 O3 -> I. apply memN_In in I. rewrite memN_betw_sym in I by auto. apply memN_In in I. apply (betw_line ko e 3 t y) in I as [Hy (i & Hi & O)]; auto; [|lia]. assert (i = 1 \/ i = 2)%Z as [E|E] by lia; rewrite E in O; [left|right]; eapply (off_fun ko e); eauto.
Qed.
Lemma far_drop pt t e n : 2 <= pt <= 7 -> t < 81 -> handExists (handOf p us) (ptToHand pt) = true -> at_ bd t = 0 -> In e allDirs -> offs ko e n t -> (2 <= n)%Z -> sreach pt us t ko = true ->
  (forall y, In y (betw t ko) -> at_ bd y = 0 /\ canPawnDrop p th y = false) -> exceptPawnExists (handOf p th) = false ->
  (forall y, y = t \/ In y (betw t ko) -> canPieceCapture2 p th y allZeroBB (discoveredCheckBB false p) (occBB p) = false) ->
  (forall y, y < 81 -> reach 8 th ko y = true -> isCol bd th y = false ->
     (exists d i, In d allDirs /\ (1 <= i)%Z /\ offs t d i y /\ sameClass d e) \/ isSet (attacksAroundNonSlider p th allZeroBB) y = true \/ isSet (attacksSlider p us allZeroBB (bbOr (occBB p) (setMaskBB t))) y = true) ->
  found p (makeDropMove pt t).
Proof.
  intros Hp Ht HE Et He Oe Hn SR BT EX CP HK. pose proof U as Hu. pose proof T as Hth.
  assert (P : plSet p (80 + pt) t false).
  { unfold plSet. destruct (N.ltb_spec (80 + pt) 81); [lia|]. split; auto. split; [lia|]. replace (80 + pt - 80) with pt by lia. unfold plDropB. rewrite (gAt p bd Ebd), Eus, Et.
    rewrite (proj2 (N.leb_le pt 7)) by lia. rewrite (not_dead pt us t ko) by (auto using sreach_reach; lia). rewrite (proj2 (N.eqb_neq pt 1)) by lia. change (0 =? 0) with true. cbn [negb andb]. rewrite !andb_true_r.
    rewrite handExists_num in HE by (assert (pt = 2 \/ pt = 3 \/ pt = 4 \/ pt = 5 \/ pt = 6 \/ pt = 7) as [->|[->|[->|[->|[->| ->]]]]] by lia; vm_compute; reflexivity). apply negb_true_iff, N.eqb_neq in HE. apply N.ltb_lt. lia. }
  exists (80 + pt), t, false. split; [lia|]. split; [auto|]. split; [auto|]. split; [apply drop_code; auto; lia|].
  assert (Nt : t <> ko) by (intros E; rewrite E, (kingOf_at bd th ko Eo Ho) in Et; apply N.eqb_eq in Et; rewrite mk_nz in Et by (auto; unfold King; lia); discriminate Et).
  assert (Ct : isCol bd us t = false) by (unfold isCol; rewrite Et; reflexivity).
  apply mates_N; auto; try lia; [rewrite Eus; apply (own_safe_drop p us k bd G Eus Ebd Ek Hk NC); auto; lia|]. intros q Gq Etq Eb EH. rewrite Eus, Eth in Etq. rewrite Eus, Eth in EH.
  pose proof (at_drop p pt t G ltac:(lia) Ht P) as At. rewrite <- Eb, Eus, Ebd in At.
  assert (At' : forall x, at_ (board q) x = if t =? x then mkPiece us pt else if (fun _ : N => false) x then 0 else at_ bd x) by (intros x; rewrite At; reflexivity).
  assert (Hg : forall x, (fun _ : N => false) x = true -> isCol bd us x = true) by (intros x X; discriminate X).
  assert (Hp' : 1 <= pt < 15) by lia.
  assert (OC : forall w, occOf (board q) w = (t =? w) || occOf bd w) by (intros w; rewrite (aOcc p us bd G Eus t pt (fun _ => false) (board q) Hp' At'); reflexivity).
  assert (CL : clear (occOf (board q)) t ko = true).
  { apply clear_iff. intros y I. rewrite OC. destruct (BT y I) as [B _]. unfold occOf. rewrite B. change (0 =? 0) with true. rewrite orb_false_r. apply N.eqb_neq. intros E. rewrite <- E in I. now apply (proj1 (betw_ends t ko Ht Ho)). }
  apply (far_noreply t pt (fun _ => false) q (board q) Ht Hp' Nt Ct Hg Gq Etq eq_refl At' e n He Oe Hn SR CL); auto.
  - intros y Hy R C. destruct (HK y Hy R C) as [(d & i & Hd & Hi & O & CC)|[S|S]].
    + exists t. split; auto. exact (fLine t pt (fun _ => false) q (board q) Ht Hp' Nt Hg Etq At' e n He Oe Hn SR CL d i y Hy Hd Hi O R CC).
    + apply (guard_step p us th k ko bd G Eus Eth Ebd Ek Hk Eo Ho NC ND t pt (fun _ => false) (board q) Ct At' allZeroBB y); auto.
    + apply (guard_slide p us th k ko bd G Eus Eth Ebd Ek Hk Eo Ho NC ND t pt (fun _ => false) (board q) Ct At' allZeroBB (bbOr (occBB p) (setMaskBB t)) y); auto. intros w Hw _ O. rewrite isSet_or, isSet_mask, (bOcc p bd) by auto. rewrite OC in O. rewrite orb_comm. exact O.
  - intros y g Hy L Hg' Nk Cg A. apply (cap_pins p us th k ko bd G Eus Eth Ebd Ek Hk Eo Ho NC ND t pt (fun _ => false) q (board q) Ht Hp' Nt Hg Gq Etq eq_refl At' y allZeroBB (discoveredCheckBB false p) (occBB p) g); auto.
    intros w Hw O. rewrite (bOcc p bd) in O by auto. rewrite OC, O. apply orb_true_r.
  - intros y I. split; [apply BT; auto|]. rewrite Et. discriminate.
Qed.
Definition srcOf f t e : Prop := (exists e1 n1, In e1 allDirs /\ sameClass e1 e /\ (1 <= n1)%Z /\ offs f e1 n1 t /\ clear (occOf bd) f t = true) \/ ((Z.abs (fz t - fz f) <= 1)%Z /\ (Z.abs (rz t - rz f) <= 1)%Z).
Lemma not_pinner f t one e g : f < 81 -> t < 81 -> one < 81 -> g < 81 -> In e allDirs -> offs ko e 1 one -> offs ko e 2 t -> at_ bd one = 0 -> (forall d, In d (slidesOf (ptOf (at_ bd f)) us) -> sameClass d e) -> srcOf f t e ->
  hid bd us ko g f = true -> isCol bd th g = true -> g <> t -> False.
Proof.
  intros Hf Ht H1 Hg He O1 O2 E1 CF SRC H Cg Ngt. pose proof T as Hth. unfold hid in H. rewrite !andb_true_iff in H. destruct H as [[Cf Sf] S]. unfold sole in S. rewrite !andb_true_iff in S. destruct S as [[S1 S2] _].
  assert (B : isBetween f g ko) by (apply memN_betw in S1; auto). destruct B as (d & a & b & Hd & Ha & Hb & P1 & P2). apply sreach_iff in Sf as (d' & j & Hd' & Hj & P3); auto. pose proof (off_add _ _ _ _ _ _ P1 P2) as P4.
  assert (d' = d /\ j = (a + b)%Z) as [E Ej] by (apply (off_uniq f ko); auto; [now apply slides_allDirs in Hd'|lia]). rewrite E in Hd'. specialize (CF d Hd').
  assert (BE : (fst d = - fst e /\ snd d = - snd e)%Z -> (b <= 2)%Z -> False).
  { intros [D1 D2] Lb. assert (ED : nd d = e) by (apply dir_eq; unfold nd; cbn [fst snd]; lia). apply off_sym in P2. rewrite ED in P2. assert (b = 1 \/ b = 2)%Z as [Eb|Eb] by lia; rewrite Eb in P2.
    - assert (X : g = one) by (apply (off_fun ko e 1); auto). rewrite X in S2. unfold occOf in S2. rewrite E1 in S2. discriminate S2.
    - apply Ngt. apply (off_fun ko e 2); auto. }
  destruct SRC as [(e1 & n1 & He1 & C1 & Hn1 & P5 & CL)|[A1 A2]].
  - destruct (pinner_line ko f t e d (a + b) e1 n1 He Hd He1 CF C1 ltac:(lia) Hn1 P4 O2 P5) as [D|[D1 D2]].
    + destruct (Z_le_gt_dec b 2) as [L|L]; [apply BE; auto|]. assert (ED : nd d = e) by (apply dir_eq; unfold nd; cbn [fst snd]; lia). assert (P6 : offs t d 2 ko) by (apply off_sym in O2; assert (X : d = nd e) by (apply dir_eq; unfold nd; cbn [fst snd]; lia); rewrite X; exact O2).
      assert (P7 : offs g d (b - 2) t) by (destruct P2 as [Q1 Q2], P6 as [Q3 Q4]; clear - Q1 Q2 Q3 Q4; unfold offs; lia).
      rewrite clear_iff in CL. rewrite (CL g) in S2; [discriminate S2|]. apply betw_iff; auto. split; auto. exists d, a, (b - 2)%Z. repeat split; auto; try lia; try apply P1; apply P7.
    + rewrite D1, D2 in P5. assert (P6 : offs ko d 2 t) by (replace 2%Z with (a + b + 2 - (a + b))%Z by lia; eapply off_sub; eauto). rewrite clear_iff in CL. assert (X : occOf bd ko = false) by (apply CL; apply betw_iff; auto; split; auto; exists d, (a + b)%Z, 2%Z; repeat split; auto; try lia; try apply P4; apply P6).
      unfold occOf in X. rewrite (kingOf_at bd th ko Eo Ho), mk_nz in X by (auto; unfold King; lia). discriminate X.
  - destruct (pinner_step ko f t e d (a + b) He Hd CF ltac:(lia) P4 O2 A1 A2) as (D1 & D2 & L). apply BE; [auto|lia].
Qed.
Lemma far_move f t pr pt ptf one e : f < 81 -> t < 81 -> one < 81 -> plSet p f t pr -> ptOf (at_ bd f) = ptf -> pt = ptf + (if pr then 8 else 0) -> ptf <> 8 -> ptf <> 1 -> isPinnedIllegal f t k (pinnedBB p) = false ->
  In e allDirs -> offs ko e 1 one -> offs ko e 2 t -> at_ bd one = 0 -> sreach pt us t ko = true -> (forall d, In d (slidesOf ptf us) -> sameClass d e) -> srcOf f t e ->
  canPieceCapture2 p th t allZeroBB (discoveredCheckBB false p) (bbXor (occBB p) (setMaskBB f)) = false -> canPieceCapture2 p th one (setMaskBB t) (discoveredCheckBB false p) (bbXor (occBB p) (setMaskBB f)) = false ->
  exceptPawnExists (handOf p th) = false -> canPawnDrop p th one = false -> (ptOf (at_ bd t) = 1 -> makeFile t = makeFile one -> handExists (handOf p th) 0 = false) ->
  (forall y, y < 81 -> reach 8 th ko y = true -> isCol bd th y = false ->
     (exists d i, In d allDirs /\ (1 <= i)%Z /\ offs t d i y /\ (sameClass d e \/ pt = 14 /\ (fst e = 0 \/ snd e = 0)%Z /\ (fst d <> 0 /\ snd d <> 0)%Z)) \/ isSet (attacksAroundAvoiding p th f (bbOr (bbXor (occBB p) (setMaskBB f)) (setMaskBB t))) y = true) ->
  mates (abs p) (mvOf f t pr).
Proof.
  intros Hf Ht H1 P Ept Ep N8 N1 PI He O1 O2 E1 SR CF SRC CT CO EX PD PT HK. pose proof U as Hu. pose proof T as Hth.
  destruct (pl_own p us bd Eus Ebd f t pr Hf P) as [Cf Af]. pose proof (pl_col p us bd Eus Ebd f t pr Ht P) as Ct.
  assert (Nt : t <> ko) by (apply (not_king p us th ko bd G Eus Eth Ebd Eo Ho f t); auto).
  pose proof (mFk p us th k ko bd G Eus Eth Ebd Ek Hk Eo Ho NC f t ptf pr Hf Ht P Ept N8) as Nfk.
  pose proof (mPt p us th k ko bd G Eus Eth Ebd Ek Hk Eo Ho NC f t ptf pr Hf Ht P Ept N8) as Hp. rewrite <- Ep in Hp.
  apply mates_N; auto; try lia; [rewrite Eus; apply (own_safe p us k bd G Eus Ebd Ek Hk NC f t pr); auto|]. intros q Gq Etq Eb EH. rewrite Eus, Eth in Etq. rewrite Eus, Eth in EH.
  pose proof (at_go p f t pr G Hf Ht P) as At. rewrite <- Eb, Eus, Ebd, Ept, <- Ep in At.
  assert (Hg : forall x, (f =? x) = true -> isCol bd us x = true) by (intros x X; apply N.eqb_eq in X; rewrite <- X; exact Cf).
  assert (OC : forall w, occOf (board q) w = (t =? w) || negb (f =? w) && occOf bd w) by (intros w; exact (aOcc p us bd G Eus t pt (fun x => f =? x) (board q) Hp At w)).
  assert (CL : clear (occOf (board q)) t ko = true).
  { apply clear_iff. intros y I. rewrite OC. assert (Ey : y = one) by (apply (beside one e t y 2); auto). unfold occOf. rewrite Ey at 2 3. rewrite E1. change (0 =? 0) with true. cbn [negb]. rewrite andb_false_r, orb_false_r. apply N.eqb_neq. intros E. rewrite <- E in I. now apply (proj1 (betw_ends t ko Ht Ho)). }
  apply (far_noreply t pt (fun x => f =? x) q (board q) Ht Hp Nt Ct Hg Gq Etq eq_refl At e 2 He O2 ltac:(lia) SR CL); auto.
  - intros y Hy R C. destruct (HK y Hy R C) as [(d & i & Hd & Hi & O & CC)|S].
    + exists t. split; auto. destruct CC as [CC|(E14 & Ce & Cd)]; [exact (fLine t pt (fun x => f =? x) q (board q) Ht Hp Nt Hg Etq At e 2 He O2 ltac:(lia) SR CL d i y Hy Hd Hi O R CC)|].
      destruct (adj_N th ko y Hth Ho Hy R) as (A1 & A2 & _). rewrite (edge_rook_diag ko t y e d i He Hd Hi O2 O A1 A2 Ce Cd) in O. split; [exact (aTarget p us bd G Eus t pt _ (board q) Hp At)|].
      unfold attOcc. rewrite At, N.eqb_refl, mk_nz, pt_mk, col_mk by auto. cbn [negb andb]. rewrite E14.
      assert (R14 : reach 14 us t y = true) by (apply (step_reach 14 us t d y); auto; apply bishop_dir; auto). rewrite R14, andb_true_l. apply clear_iff. intros w I. exfalso.
      apply (betw_line t d 1 y w) in I as [_ (i' & Hi' & _)]; auto; lia.
    + unfold attacksAroundAvoiding in S. rewrite isSet_or in S. rewrite (sOT p us th G Eus Eth) in S. apply orb_prop in S as [S|S].
      * apply (guard_step p us th k ko bd G Eus Eth Ebd Ek Hk Eo Ho NC ND t pt (fun x => f =? x) (board q) Ct At (setMaskBB f) y); auto. intros x Hx _ [X|X]; [rewrite isSet_mask in X by auto; exact X|]. apply N.eqb_neq. intros E. rewrite <- E in X. congruence.
      * apply (guard_slide p us th k ko bd G Eus Eth Ebd Ek Hk Eo Ho NC ND t pt (fun x => f =? x) (board q) Ct At (setMaskBB f) (bbOr (bbXor (occBB p) (setMaskBB f)) (setMaskBB t)) y); auto; [intros x Hx _ X; rewrite isSet_mask in X by auto; exact X|].
        intros w Hw _ O. rewrite isSet_or, isSet_xor, !isSet_mask, (bOcc p bd) by auto. rewrite OC in O. destruct (t =? w); [apply orb_true_r|]. rewrite orb_false_r. rewrite orb_false_l in O. apply andb_prop in O as [X1 X2]. apply negb_true_iff in X1. rewrite X1, X2. reflexivity.
  - assert (OX : forall w, w < 81 -> isSet (bbXor (occBB p) (setMaskBB f)) w = true -> occOf (board q) w = true).
    { intros w Hw O. rewrite isSet_xor, isSet_mask, (bOcc p bd) in O by auto. rewrite OC. destruct (N.eqb_spec f w) as [E|E]; [|rewrite xorb_false_r in O; rewrite O; apply orb_true_r]. exfalso. rewrite <- E in O. unfold isCol in Cf. apply andb_prop in Cf as [Cf _]. unfold occOf in O. rewrite Cf in O. discriminate O. }
    intros y g Hy L Hg' Nk Cg A. assert (Ngt : g <> t) by (intros E; rewrite E, (aCol_th p us th bd G Eus Eth t pt (fun x => f =? x) (board q) Hp Hg At), N.eqb_refl in Cg; discriminate Cg).
    destruct L as [L|L].
    + rewrite L in A |- *. apply (cap_pins p us th k ko bd G Eus Eth Ebd Ek Hk Eo Ho NC ND t pt (fun x => f =? x) q (board q) Ht Hp Nt Hg Gq Etq eq_refl At t allZeroBB (discoveredCheckBB false p) (bbXor (occBB p) (setMaskBB f)) g); auto.
    + assert (Ey : y = one) by (apply (beside one e t y 2); auto). rewrite Ey in A |- *. apply (cap_pins p us th k ko bd G Eus Eth Ebd Ek Hk Eo Ho NC ND t pt (fun x => f =? x) q (board q) Ht Hp Nt Hg Gq Etq eq_refl At one (setMaskBB t) (discoveredCheckBB false p) (bbXor (occBB p) (setMaskBB f)) g); auto. rewrite isSet_mask by auto. apply N.eqb_neq. auto.
  - intros g x Hg' Cg Hx HX. destruct (N.eqb_spec f x) as [E|E]; [|reflexivity]. exfalso. rewrite <- E in HX. rewrite (aCol_th p us th bd G Eus Eth t pt (fun x => f =? x) (board q) Hp Hg At) in Cg. apply andb_prop in Cg as [X1 X2]. apply negb_true_iff, N.eqb_neq in X1.
    apply (not_pinner f t one e g); auto. intros d. rewrite Ept. apply CF.
  - intros y I. rewrite (beside one e t y 2 H1 Ht He O1 O2 eq_refl I). auto.
Qed.
End F.
