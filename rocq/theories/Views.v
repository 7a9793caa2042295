(* The board views a Position stores, as functions of the 81-square board, and the correctness of
   attackersTo & co. in terms of the board alone. *)
From Coq Require Import Btauto.
From Verif Require Export StepProofs.

(* a legal piece code or Empty *)
Definition vpc (x : N) : bool := (x <? 31) && negb (x =? 15) && negb (x =? 16).
Lemma vpc_cases x : vpc x = true -> x = 0 \/ (exists c pt, c < 2 /\ 1 <= pt < 15 /\ x = mkPiece c pt).
Proof.
  unfold vpc. intros H. destruct (N.eq_dec x 0) as [->|H0]; [now left|right].
  assert (Hx : x < 31 /\ x <> 15 /\ x <> 16) by lia.
  destruct (N.ltb_spec x 16).
  - exists 0, x. unfold mkPiece. rewrite N.shiftl_0_l, N.lor_0_l. lia.
  - exists 1, (x - 16). split; [lia|]. split; [lia|].
    assert (G : forallb (fun y => mkPiece 1 y =? 16 + y) (seqN 0 16) = true) by reflexivity.
    pose proof (forallb_seqN _ _ _ G (x - 16) ltac:(lia)) as E. cbv beta in E. lia.
Qed.
Lemma mkPiece_facts_check : forallb (fun c => forallb (fun pt =>
   (ptOf (mkPiece c pt) =? pt) && (colorOf (mkPiece c pt) =? c) && vpc (mkPiece c pt) && negb (mkPiece c pt =? 0)) (seqN 1 14)) [0; 1] = true.
Proof. vmtrue. Qed.
Lemma mkPiece_facts c pt : c < 2 -> 1 <= pt < 15 ->
  ptOf (mkPiece c pt) = pt /\ colorOf (mkPiece c pt) = c /\ vpc (mkPiece c pt) = true /\ mkPiece c pt <> 0.
Proof.
  intros Hc Hp. pose proof (forallb_colors _ mkPiece_facts_check c Hc) as G. cbv beta in G.
  pose proof (forallb_seqN _ _ _ G pt ltac:(lia)) as G'. cbv beta in G'.
  repeat (apply andb_prop in G' as [G' ?]). repeat split; try lia; auto.
Qed.
Lemma vpc_facts x : vpc x = true -> x <> 0 -> 1 <= ptOf x < 15 /\ colorOf x < 2 /\ x = mkPiece (colorOf x) (ptOf x).
Proof.
  intros H H0. destruct (vpc_cases x H) as [->|(c & pt & Hc & Hp & ->)]; [congruence|].
  destruct (mkPiece_facts c pt Hc Hp) as (-> & -> & _). auto.
Qed.
Lemma opp_lt c : c < 2 -> opp c < 2.
Proof. intros H. assert (c = 0 \/ c = 1) as [->| ->] by lia; cbv; reflexivity. Qed.
Lemma opp_opp c : c < 2 -> opp (opp c) = c.
Proof. intros H. assert (c = 0 \/ c = 1) as [->| ->] by lia; reflexivity. Qed.
Lemma opp_neq c : c < 2 -> opp c <> c.
Proof. intros H. assert (c = 0 \/ c = 1) as [->| ->] by lia; discriminate. Qed.
Lemma opp_eq c c' : c < 2 -> c' < 2 -> c <> c' -> c' = opp c.
Proof. intros H H' D. assert (c = 0 \/ c = 1) as [->| ->] by lia; change (opp 0) with 1; change (opp 1) with 0; lia. Qed.

Definition at_ (bd : list N) (s : N) : N := nthN 0 bd s.
Definition okBoard (bd : list N) : Prop := length bd = 81%nat /\ forall s, s < 81 -> vpc (at_ bd s) = true.

(* ---- the views as functions of the board ---- *)
Definition fbb (f : N -> bool) : BB := list2bb (filter f squares).
Lemma filter_squares_lt f x : In x (filter f squares) -> x < 81.
Proof. intros H. apply filter_In in H as [H _]. now apply in_squares. Qed.
Lemma isSet_fbb f s : s < 81 -> isSet (fbb f) s = f s.
Proof.
  intros Hs. unfold fbb. rewrite isSet_list2bb; [|apply filter_squares_lt|auto].
  apply eq_true_iff_eq. rewrite existsb_exists. split.
  - intros (x & Hx & E). apply N.eqb_eq in E. subst x. now apply filter_In in Hx.
  - intros H. exists s. split; [|apply N.eqb_refl]. apply filter_In. split; [now apply in_squares|auto].
Qed.
Lemma wf_fbb f : wfBB (fbb f).
Proof. apply wf_list2bb. apply filter_squares_lt. Qed.
Lemma fbb_ext b f : wfBB b -> (forall s, s < 81 -> isSet b s = f s) -> b = fbb f.
Proof. intros Hb H. apply BB_ext; auto using wf_fbb. intros s Hs. rewrite isSet_fbb by auto. auto. Qed.

Definition isPt (bd : list N) (pt s : N) : bool := if pt =? 0 then negb (at_ bd s =? 0) else ptOf (at_ bd s) =? pt.
Definition isCol (bd : list N) (c s : N) : bool := negb (at_ bd s =? 0) && (colorOf (at_ bd s) =? c).
Definition byTypeOf (bd : list N) : list BB := map (fun pt => fbb (isPt bd pt)) (seqN 0 15).
Definition byColorOf (bd : list N) : list BB := map (fun c => fbb (isCol bd c)) [0; 1].
Definition isKing (bd : list N) (c s : N) : bool := at_ bd s =? mkPiece c King.
(* square of the king of colour c, 81 when there is none *)
Definition kingOf (bd : list N) (c : N) : N := hd 81 (filter (isKing bd c) squares).
Definition kingsOf (bd : list N) : list N := [kingOf bd 0; kingOf bd 1].
(* at most one king per side *)
Definition oneKing (bd : list N) : Prop :=
  forall c s s', c < 2 -> s < 81 -> s' < 81 -> isKing bd c s = true -> isKing bd c s' = true -> s = s'.

Record views (p : Position) : Prop := {
  v_board : okBoard (board p);
  v_type : byType p = byTypeOf (board p);
  v_color : byColor p = byColorOf (board p);
  v_golds : golds p = goldsOf (byType p);
  v_king : kingSq p = kingsOf (board p);
  v_turn : turn p < 2
}.

Lemma nthN_map_seqN {A} (d : A) (f : N -> A) n i : i < N.of_nat n -> nthN d (map f (seqN 0 n)) i = f i.
Proof.
  intros H. unfold nthN. rewrite nth_indep with (d' := f 0).
  - rewrite map_nth. f_equal.
    assert (G : forall n s k, (k < n)%nat -> nth k (seqN s n) 0 = s + N.of_nat k).
    { clear. induction n as [|n IH]; intros s [|k] Hk; cbn [seqN nth]; try lia. rewrite IH by lia. lia. }
    rewrite G by lia. lia.
  - rewrite map_length, length_seqN. lia.
Qed.
Lemma nthN_2 {A} (d a b : A) c : c < 2 -> nthN d [a; b] c = if c =? 0 then a else b.
Proof. intros H. assert (c = 0 \/ c = 1) as [->| ->] by lia; reflexivity. Qed.

Lemma bbT_view p pt : views p -> pt < 15 -> bbT p pt = fbb (isPt (board p) pt).
Proof. intros V H. unfold bbT. rewrite (v_type p V). unfold byTypeOf. now rewrite nthN_map_seqN by (cbn; lia). Qed.
Lemma bbC_view p c : views p -> c < 2 -> bbC p c = fbb (isCol (board p) c).
Proof. intros V H. unfold bbC. rewrite (v_color p V). unfold byColorOf. cbn [map]. rewrite nthN_2 by auto.
  assert (c = 0 \/ c = 1) as [->| ->] by lia; reflexivity. Qed.
Lemma kingSquare_view p c : views p -> c < 2 -> kingSquare p c = kingOf (board p) c.
Proof. intros V H. unfold kingSquare. rewrite (v_king p V). unfold kingsOf. rewrite nthN_2 by auto.
  assert (c = 0 \/ c = 1) as [->| ->] by lia; reflexivity. Qed.

Lemma isSet_bbT p pt s : views p -> 1 <= pt < 15 -> s < 81 -> isSet (bbT p pt) s = (ptOf (pieceAt p s) =? pt).
Proof.
  intros V H Hs. rewrite bbT_view by (auto; lia). rewrite isSet_fbb by auto. unfold isPt.
  destruct (N.eqb_spec pt 0); [lia|reflexivity].
Qed.
Lemma isSet_occBB p s : views p -> s < 81 -> isSet (occBB p) s = negb (pieceAt p s =? 0).
Proof. intros V Hs. unfold occBB, Occupied. rewrite bbT_view by (auto; lia). now rewrite isSet_fbb by auto. Qed.
Lemma isSet_bbC p c s : views p -> c < 2 -> s < 81 -> isSet (bbC p c) s = negb (pieceAt p s =? 0) && (colorOf (pieceAt p s) =? c).
Proof. intros V Hc Hs. rewrite bbC_view by auto. now rewrite isSet_fbb by auto. Qed.
Lemma wf_bbT p pt : views p -> pt < 15 -> wfBB (bbT p pt).
Proof. intros. rewrite bbT_view by auto. apply wf_fbb. Qed.
Lemma wf_bbC p c : views p -> c < 2 -> wfBB (bbC p c).
Proof. intros. rewrite bbC_view by auto. apply wf_fbb. Qed.
Lemma wf_occBB p : views p -> wfBB (occBB p).
Proof. intros. apply wf_bbT; auto. cbv; reflexivity. Qed.

Definition isGoldPt (pt : N) : bool := (pt =? 7) || (pt =? 9) || (pt =? 10) || (pt =? 11) || (pt =? 12).
Lemma golds_view p : views p -> golds p = fbb (fun s => isGoldPt (ptOf (pieceAt p s))).
Proof.
  intros V. rewrite (v_golds p V). unfold goldsOf.
  change (nthN allZeroBB (byType p)) with (bbT p). cbv beta zeta.
  apply fbb_ext.
  - repeat apply wf_or; apply wf_bbT; auto; cbv; reflexivity.
  - intros s Hs. rewrite !isSet_or, !isSet_bbT by (auto; cbv; intuition discriminate). reflexivity.
Qed.
Lemma isSet_golds p s : views p -> s < 81 -> isSet (golds p) s = isGoldPt (ptOf (pieceAt p s)).
Proof. intros V Hs. rewrite golds_view by auto. now rewrite isSet_fbb. Qed.

(* ---- the board-level attack relation ---- *)
Definition occOf (bd : list N) (s : N) : bool := negb (at_ bd s =? 0).
(* the piece on s (if any) attacks t, given the blockers occ *)
Definition attOcc (bd : list N) (occ : N -> bool) (s t : N) : bool :=
  negb (at_ bd s =? 0) && (reach (ptOf (at_ bd s)) (colorOf (at_ bd s)) s t && clear occ s t).
Definition att (bd : list N) (s t : N) : bool := attOcc bd (occOf bd) s t.

Definition reachU (pts : list N) (c s t : N) : bool := existsb (fun pt => reach pt c s t) pts.
Lemma reach_unions c s t : c < 2 -> s < 81 -> t < 81 ->
  reach 8 c s t = reach 4 c s t || reach 7 c s t /\
  reach 14 c s t = reach 4 c s t || reach 6 c s t /\
  reach 13 c s t = reach 7 c s t || reach 5 c s t /\
  reach 13 c s t = reach 8 c s t || reach 5 c s t /\
  reach 14 c s t = reach 8 c s t || reach 6 c s t.
Proof.
  intros Hc _ _. rewrite !reach_eq. unfold stepIn, rayIn.
  assert (R : forall d, memN t (ray d s) = stepHits d s t || memN t (ray d s)).
  { intros d. destruct (stepHits d s t) eqn:E; [|reflexivity]. now rewrite (stepHits_ray _ _ _ E). }
  assert (c = 0 \/ c = 1) as [->| ->] by lia; cbv [stepsOf slidesOf fwd N.eqb Z.mul Pos.mul Z.opp allDirs rookDirs bishopDirs app existsb dN dS dW dE dNW dNE dSW dSE];
    rewrite (R (0, -1)%Z), (R (0, 1)%Z), (R (1, 0)%Z), (R (-1, 0)%Z), (R (1, -1)%Z), (R (-1, -1)%Z), (R (1, 1)%Z), (R (-1, 1)%Z);
    repeat split; btauto.
Qed.

(* every primitive attack looked up at the target square, read as an attack from s *)
Lemma back pt c sq occ s : c < 2 -> 1 <= pt < 15 -> s < 81 -> sq < 81 ->
  isSet (attacksFrom pt (opp c) sq occ) s = reach pt c s sq && clear (isSet occ) s sq.
Proof.
  intros Hc Hp Hs Hq. rewrite attacksFrom_spec by (auto using opp_lt).
  rewrite (reach_sym pt c s sq), (clear_sym _ s sq) by auto. reflexivity.
Qed.
Ltac af := intros; cbv [attacksFrom Occupied Pawn Lance Knight Silver Bishop Rook Gold King N.eqb Pos.eqb]; reflexivity.
Lemma af1 c s occ : attacksFrom 1 c s occ = pawnAttack c s. Proof. af. Qed.
Lemma af2 c s occ : attacksFrom 2 c s occ = lanceAttack c s occ. Proof. af. Qed.
Lemma af3 c s occ : attacksFrom 3 c s occ = knightAttack c s. Proof. af. Qed.
Lemma af4 c s occ : attacksFrom 4 c s occ = silverAttack c s. Proof. af. Qed.
Lemma af5 c s occ : attacksFrom 5 c s occ = bishopAttack s occ. Proof. af. Qed.
Lemma af6 c s occ : attacksFrom 6 c s occ = rookAttack s occ. Proof. af. Qed.
Lemma af7 c s occ : attacksFrom 7 c s occ = goldAttack c s. Proof. af. Qed.
Lemma af8 c s occ : attacksFrom 8 c s occ = kingAttack s. Proof. cbv [attacksFrom Occupied Pawn Lance Knight Silver Bishop Rook Gold King ProPawn ProLance ProKnight ProSilver N.eqb Pos.eqb orb]. reflexivity. Qed.
Lemma back_pawn c sq (occ : BB) s : c < 2 -> s < 81 -> sq < 81 -> isSet (pawnAttack (opp c) sq) s = reach 1 c s sq && clear (isSet occ) s sq.
Proof. intros. rewrite <- (back 1 c sq occ s) by (auto; lia). exact (f_equal (fun b => isSet b s) (eq_sym (af1 (opp c) sq occ))). Qed.
Lemma back_lance c sq occ s : c < 2 -> s < 81 -> sq < 81 -> isSet (lanceAttack (opp c) sq occ) s = reach 2 c s sq && clear (isSet occ) s sq.
Proof. intros. rewrite <- (back 2 c sq occ s) by (auto; lia). exact (f_equal (fun b => isSet b s) (eq_sym (af2 (opp c) sq occ))). Qed.
Lemma back_knight c sq (occ : BB) s : c < 2 -> s < 81 -> sq < 81 -> isSet (knightAttack (opp c) sq) s = reach 3 c s sq && clear (isSet occ) s sq.
Proof. intros. rewrite <- (back 3 c sq occ s) by (auto; lia). exact (f_equal (fun b => isSet b s) (eq_sym (af3 (opp c) sq occ))). Qed.
Lemma back_silver c sq (occ : BB) s : c < 2 -> s < 81 -> sq < 81 -> isSet (silverAttack (opp c) sq) s = reach 4 c s sq && clear (isSet occ) s sq.
Proof. intros. rewrite <- (back 4 c sq occ s) by (auto; lia). exact (f_equal (fun b => isSet b s) (eq_sym (af4 (opp c) sq occ))). Qed.
Lemma back_gold c sq (occ : BB) s : c < 2 -> s < 81 -> sq < 81 -> isSet (goldAttack (opp c) sq) s = reach 7 c s sq && clear (isSet occ) s sq.
Proof. intros. rewrite <- (back 7 c sq occ s) by (auto; lia). exact (f_equal (fun b => isSet b s) (eq_sym (af7 (opp c) sq occ))). Qed.
Lemma back_bishop c sq occ s : c < 2 -> s < 81 -> sq < 81 -> isSet (bishopAttack sq occ) s = reach 5 c s sq && clear (isSet occ) s sq.
Proof. intros. rewrite <- (back 5 c sq occ s) by (auto; lia). exact (f_equal (fun b => isSet b s) (eq_sym (af5 (opp c) sq occ))). Qed.
Lemma back_rook c sq occ s : c < 2 -> s < 81 -> sq < 81 -> isSet (rookAttack sq occ) s = reach 6 c s sq && clear (isSet occ) s sq.
Proof. intros. rewrite <- (back 6 c sq occ s) by (auto; lia). exact (f_equal (fun b => isSet b s) (eq_sym (af6 (opp c) sq occ))). Qed.
Lemma back_king c sq (occ : BB) s : c < 2 -> s < 81 -> sq < 81 -> isSet (kingAttack sq) s = reach 8 c s sq && clear (isSet occ) s sq.
Proof. intros. rewrite <- (back 8 c sq occ s) by (auto; lia). exact (f_equal (fun b => isSet b s) (eq_sym (af8 (opp c) sq occ))). Qed.

Lemma reach_gold c s t pt : isGoldPt pt = true -> reach pt c s t = reach 7 c s t.
Proof.
  unfold isGoldPt. intros H. rewrite !orb_true_iff, !N.eqb_eq in H.
  destruct H as [[[[->| ->]| ->]| ->]| ->]; reflexivity.
Qed.

Ltac ptcases H := match type of H with _ <= ?pt < _ =>
  destruct (pt_cases pt H) as [E|[E|[E|[E|[E|[E|[E|[E|[E|[E|[E|[E|[E|E]]]]]]]]]]]]] end.

(* attackersTo(c, sq, occupied) is exactly the set of c-pieces attacking sq through occ *)
Theorem isSet_attackersTo p c sq occ s : views p -> c < 2 -> sq < 81 -> s < 81 ->
  isSet (attackersTo p c sq occ) s = (colorOf (pieceAt p s) =? c) && attOcc (board p) (isSet occ) s sq.
Proof.
  intros V Hc Hq Hs. unfold attackersTo, bbT3, bbT2. cbv zeta.
  rewrite isSet_and, isSet_bbC by auto. unfold attOcc. change (at_ (board p) s) with (pieceAt p s).
  destruct (N.eqb_spec (pieceAt p s) 0) as [E0|E0].
  { cbn [negb andb]. now rewrite !andb_false_r. }
  destruct (N.eqb_spec (colorOf (pieceAt p s)) c) as [Ec|Ec]; [|now rewrite !andb_false_r].
  cbn [negb andb]. rewrite andb_true_r.
  destruct (vpc_facts (pieceAt p s)) as (Hp & _ & _); [apply (v_board p V); auto|auto|].
  rewrite Ec. rewrite !isSet_or, !isSet_and, !isSet_or.
  rewrite !isSet_bbT, isSet_golds by (auto; cbv; intuition discriminate).
  rewrite (back_pawn c sq occ), (back_lance c sq occ), (back_knight c sq occ), (back_silver c sq occ),
    (back_gold c sq occ), (back_bishop c sq occ), (back_rook c sq occ) by auto.
  destruct (reach_unions c s sq Hc Hs Hq) as (U8 & U14 & U13 & _).
  destruct (clear (isSet occ) s sq); rewrite ?andb_true_r, ?andb_false_r; [|reflexivity].
  ptcases Hp; rewrite E; rewrite ?U8, ?U14, ?U13; cbv [isGoldPt Pawn Lance Knight Silver King Dragon Horse Bishop Rook];
  cbn [N.eqb Pos.eqb orb]; rewrite ?andb_true_r, ?andb_false_r, ?orb_false_r; cbn [orb];
  try (now apply reach_gold);
  destruct (reach _ c s sq); rewrite ?orb_true_r; reflexivity.
Qed.
