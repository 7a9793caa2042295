(* The mate-in-one search, from numbers to boards. *)
From Verif Require Export Mate1Discover GenExamples.
Local Open Scope N_scope.

Definition not_in_check (P : position) : Prop := ~ in_check P (side P).
Definition mating_code (b : Board) (m : N) : Prop := exists mv, mates (abs (bpos b)) mv /\ m = code (bpos b) mv /\ In m (legalMoves (bpos b)).

Lemma quiet p : good p -> not_in_check (abs p) -> kingOf (board p) (turn p) < 81 -> forall x, ~ chkr (turn p) (kingOf (board p) (turn p)) (board p) x.
Proof.
  intros G N Hk x (Hx & Cx & Ax). apply N. change (side (abs p)) with (colorN (turn p)). apply in_check_abs; [apply (good_ok p G)|apply (g_one p G)|apply (good_turn p G)|].
  unfold inCheckB. apply andb_true_intro. split; [now apply N.ltb_lt|]. apply existsb_exists. exists x. split; [now apply in_squares|]. now rewrite Cx, Ax.
Qed.
Lemma found_board z b m : okZob z -> reachable z b -> playable (abs (bpos b)) -> found (bpos b) m -> mating_code b m.
Proof.
  intros Z R K (f & t & pr & Hf & Ht & P & -> & M). destruct (reachable_ok z b Z R) as [G C]. destruct (mvOf_pl _ f t pr G Ht P) as [_ E].
  exists (mvOf f t pr). split; auto. split; [now symmetry|]. destruct (moves_complete z b Z R K) as (_ & X & _). rewrite <- E. apply X. apply M.
Qed.
Lemma kings_there p : good p -> playable (abs p) -> kingOf (board p) (turn p) < 81 /\ kingOf (board p) (opp (turn p)) < 81.
Proof. intros G [K _]. pose proof (good_turn p G) as Hu. split; apply king_there; auto using opp_lt. Qed.
Lemma basic_board z b m : okZob z -> reachable z b -> playable (abs (bpos b)) -> not_in_check (abs (bpos b)) -> mateBasic (bpos b) = Some m -> mating_code b m.
Proof.
  intros Z R K N H. destruct (reachable_ok z b Z R) as [G C]. destruct (kings_there _ G K) as [Hk Ho]. apply (found_board z); auto.
  exact (basic_sound _ _ _ _ _ _ G eq_refl eq_refl eq_refl eq_refl Hk eq_refl Ho (quiet _ G N Hk) m H).
Qed.

(* the kinds whose move the search writes down as a gold's *)
Definition small_promoted (k : kind) : Prop := k = TO \/ k = NY \/ k = NK \/ k = NG.
Lemma search_answer p m : good p -> playable (abs p) -> not_in_check (abs p) -> mateIn1 true p = Some m -> answer p (board p) m.
Proof.
  intros G K N H. destruct (kings_there _ G K) as [Hk Ho]. pose proof (quiet _ G N Hk) as NC. pose proof (no_dead p G (proj2 K)) as ND.
  unfold mateIn1 in H. destruct (mateBasic p) as [m1|] eqn:E1.
  { injection H as <-. apply (found_answer p (board p) G). exact (basic_sound _ _ _ _ _ _ G eq_refl eq_refl eq_refl eq_refl Hk eq_refl Ho NC m1 E1). }
  clear E1. destruct (mateFar p) as [m1|] eqn:E1.
  { injection H as <-. apply (found_answer p (board p) G). exact (far_sound _ _ _ _ _ _ G eq_refl eq_refl eq_refl eq_refl Hk eq_refl Ho NC ND m1 E1). }
  clear E1. destruct (if isAny (discoveredCheckBB true p) then mateDouble p else None) as [m1|] eqn:E1.
  { injection H as <-. destruct (isAny (discoveredCheckBB true p)); [|discriminate E1]. exact (double_sound _ _ _ _ _ _ G eq_refl eq_refl eq_refl eq_refl Hk eq_refl Ho NC m1 E1). }
  exact (discover_sound _ _ _ _ _ _ G eq_refl eq_refl eq_refl eq_refl Hk eq_refl Ho NC ND m H).
Qed.
Lemma search_board z b : okZob z -> reachable z b -> playable (abs (bpos b)) -> ~ in_check (abs (bpos b)) (side (abs (bpos b))) -> mateMoveIn1Ply (bpos b) <> 0 ->
  let m := mateMoveIn1Ply (bpos b) in let mv := moveN m in
  mates (abs (bpos b)) mv /\
  ((m = code (bpos b) mv /\ In m (legalMoves (bpos b))) \/ exists s t k, mv = Go s t false /\ at_square (abs (bpos b)) s = Some (side (abs (bpos b)), k) /\ small_promoted k).
Proof.
  intros Z R K N. unfold mateMoveIn1Ply. destruct (mateIn1 true (bpos b)) as [m|] eqn:E; [|intros X; now contradiction X]. intros _. cbv zeta. destruct (reachable_ok z b Z R) as [G C].
  destruct (search_answer _ m G K N E) as (f & t & pr & Hf & Ht & P & EM & D & M). rewrite EM. split; [exact M|]. destruct (mvOf_pl _ f t pr G Ht P) as [_ EC]. destruct D as [D|(F & SP & -> & D)].
  - left. rewrite EC. split; [exact D|]. rewrite D, <- EC. destruct (moves_complete z b Z R K) as (_ & X & _). apply X. apply M.
  - right. unfold mvOf. rewrite (proj2 (N.ltb_lt _ _) F). exists (squareN f), (squareN t), (kindN (ptOf (at_ (board (bpos b)) f))). split; [reflexivity|].
    destruct (pl_own (bpos b) _ _ eq_refl eq_refl f t false F P) as [Cf _]. split.
    + change (side (abs (bpos b))) with (colorN (turn (bpos b))). unfold isCol in Cf. apply andb_prop in Cf as [C0 C1]. apply negb_true_iff, N.eqb_neq in C0. apply N.eqb_eq in C1.
      destruct (vpc_facts _ (proj2 (good_ok _ G) f F) C0) as (Hp & _ & E'). rewrite C1 in E'. apply pieceN_kind; auto; [apply (good_ok _ G)|apply (good_turn _ G)|]. rewrite kind_inv' by lia. exact E'.
    + unfold isSmallPro in SP. apply andb_prop in SP as [S1 S2]. apply N.leb_le in S1, S2. unfold small_promoted. assert (X : ptOf (at_ (board (bpos b)) f) = 9 \/ ptOf (at_ (board (bpos b)) f) = 10 \/ ptOf (at_ (board (bpos b)) f) = 11 \/ ptOf (at_ (board (bpos b)) f) = 12) by lia.
      destruct X as [X|[X|[X|X]]]; rewrite X; auto.
Qed.

(* gote's king on 1i's corner of the board, uncovered by a promoted pawn *)
Definition uncoverBoard : Board := boardOf 0 (sparse [(8,24);(24,9);(40,5);(7,17);(17,20);(80,8)]) noHands.
Lemma uncover_playable : reachable z0 uncoverBoard /\ playable (abs (bpos uncoverBoard)).
Proof. apply boardOf_playable; vm_compute; reflexivity. Qed.
Lemma uncover_runs : mateMoveIn1Ply (bpos uncoverBoard) = 461839 /\ existsb (N.eqb 461839) (legalMoves (bpos uncoverBoard)) = false.
Proof. split; vm_compute; reflexivity. Qed.
Lemma quiet_test b : reachable z0 b -> inCheckB (board (bpos b)) (turn (bpos b)) = false -> not_in_check (abs (bpos b)).
Proof.
  intros R H I. destruct (reachable_ok z0 b okZob0 R) as [G _]. change (side (abs (bpos b))) with (colorN (turn (bpos b))) in I. apply in_check_abs in I; [congruence|apply (good_ok _ G)|apply (g_one _ G)|apply (good_turn _ G)].
Qed.
Lemma uncover_quiet : not_in_check (abs (bpos uncoverBoard)).
Proof. apply quiet_test; [apply uncover_playable|vm_compute; reflexivity]. Qed.
(* gote's king on 1a, sente's pawn on 1c and a gold in hand: G*1b *)
Definition goldBoard : Board := boardOf 0 (sparse [(0, 24); (2, 1); (80, 8)]) [[0;0;0;0;1;0;0];[0;0;0;0;0;0;0]].
Lemma gold_playable : reachable z0 goldBoard /\ playable (abs (bpos goldBoard)).
Proof. apply boardOf_playable; vm_compute; reflexivity. Qed.
Lemma gold_quiet : not_in_check (abs (bpos goldBoard)).
Proof. apply quiet_test; [apply gold_playable|vm_compute; reflexivity]. Qed.
Lemma gold_runs : mateMoveIn1Ply (bpos goldBoard) = 11137.
Proof. vm_compute; reflexivity. Qed.
Lemma memB_false m l : existsb (N.eqb m) l = false -> ~ In m l.
Proof. intros F I. assert (X : existsb (N.eqb m) l = true) by (apply existsb_exists; exists m; split; auto; apply N.eqb_refl). congruence. Qed.
Lemma uncover_fails : mateMoveIn1Ply (bpos uncoverBoard) <> 0 /\ ~ In (mateMoveIn1Ply (bpos uncoverBoard)) (legalMoves (bpos uncoverBoard)).
Proof.
  destruct uncover_runs as [E F]. apply memB_false in F. revert E F. generalize (mateMoveIn1Ply (bpos uncoverBoard)) (legalMoves (bpos uncoverBoard)). intros m l -> F. split; [discriminate|exact F].
Qed.
Lemma code_refuted : ~ (forall rp rh b, let z := initZobrist rp rh in reachable z b -> playable (abs (bpos b)) -> ~ in_check (abs (bpos b)) (side (abs (bpos b))) ->
  mateMoveIn1Ply (bpos b) <> 0 -> In (mateMoveIn1Ply (bpos b)) (legalMoves (bpos b))).
Proof.
  intros H. destruct uncover_fails as [E F]. apply F. exact (H _ _ uncoverBoard (proj1 uncover_playable) (proj2 uncover_playable) uncover_quiet E).
Qed.
(* playing the number returned puts a gold where the promoted pawn should be *)
Lemma uncover_push : moveN 461839 = Go (3, 7)%Z (2, 7)%Z false /\ at_square (abs (bpos (push z0 uncoverBoard 461839))) (2, 7)%Z = Some (Sente, KI) /\ at_square (play (abs (bpos uncoverBoard)) (Go (3, 7)%Z (2, 7)%Z false)) (2, 7)%Z = Some (Sente, TO).
Proof. vm_compute. auto. Qed.
Lemma push_refuted : ~ (forall rp rh b, let z := initZobrist rp rh in reachable z b -> playable (abs (bpos b)) -> ~ in_check (abs (bpos b)) (side (abs (bpos b))) ->
  mateMoveIn1Ply (bpos b) <> 0 -> same_position (abs (bpos (push z b (mateMoveIn1Ply (bpos b))))) (play (abs (bpos b)) (moveN (mateMoveIn1Ply (bpos b))))).
Proof.
  intros H. pose proof (H _ _ uncoverBoard (proj1 uncover_playable) (proj2 uncover_playable) uncover_quiet (proj1 uncover_fails)) as X. rewrite (proj1 uncover_runs) in X. destruct uncover_push as (E1 & E2 & E3). destruct X as [X _]. specialize (X (2, 7)%Z). rewrite E1, E3 in X. change (initZobrist _ _) with z0 in X. congruence.
Qed.
