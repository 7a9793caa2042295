(* Pseudo-legality and legality as computable conditions on the numbers of the model. *)
From Verif Require Export HistProofs.
Local Open Scope N_scope.

Definition rankFor (c t : N) : N := if c =? 0 then t mod 9 + 1 else 9 - t mod 9.
Definition deadB (c pt t : N) : bool := if pt <=? 2 then rankFor c t =? 1 else if pt =? 3 then rankFor c t <=? 2 else false.
Definition zoneB (c t : N) : bool := rankFor c t <=? 3.
Definition nifuB (p : Position) (t : N) : bool := existsb (fun s => (s / 9 =? t / 9) && (pieceAt p s =? mkPiece (turn p) 1)) squares.
Definition plDropB (p : Position) (pt t : N) : bool :=
  (pt <=? 7) && (pieceAt p t =? 0) && (0 <? numOf (handOf p (turn p)) (ptToHand pt)) && negb (deadB (turn p) pt t) && negb ((pt =? 1) && nifuB p t).
Definition promoB (p : Position) (s t : N) (pr : bool) : bool :=
  let pt := ptOf (pieceAt p s) in if pr then (pt <=? 6) && (zoneB (turn p) s || zoneB (turn p) t) else negb (deadB (turn p) pt t).
Definition plGoB (p : Position) (s t : N) (pr : bool) : bool :=
  isCol (board p) (turn p) s && att (board p) s t && negb (isCol (board p) (turn p) t) && promoB p s t pr.
Definition plB (p : Position) (mv : move) : bool :=
  match mv with
  | Drop k t => on_boardb t && plDropB p (nkind k) (nsquare t)
  | Go s t pr => on_boardb s && on_boardb t && plGoB p (nsquare s) (nsquare t) pr
  end.

Lemma rank_for_N c t : c < 2 -> t < 81 -> rank_for (colorN c) (squareN t) = Z.of_N (rankFor c t).
Proof.
  intros Hc Ht. unfold rank_for, rankFor, squareN, colorN. cbn [snd]. pose proof (N.mod_lt t 9). destruct (c =? 0); lia.
Qed.
Lemma dead_end_N c pt t : c < 2 -> 1 <= pt < 15 -> t < 81 -> (dead_end (colorN c) (kindN pt) (squareN t) <-> deadB c pt t = true).
Proof.
  intros Hc Hp Ht. unfold dead_end. rewrite (rank_for_N c t Hc Ht). unfold deadB.
  destruct (pt_cases pt Hp) as [->|[->|[->|[->|[->|[->|[->|[->|[->|[->|[->|[->|[->| ->]]]]]]]]]]]]];
    match goal with |- context [kindN ?n] => let k := eval vm_compute in (kindN n) in change (kindN n) with k end; cbv iota;
    match goal with |- context [?a <=? 2] => let b := eval vm_compute in (a <=? 2) in change (a <=? 2) with b end; cbv iota;
    try match goal with |- context [?a =? 3] => let b := eval vm_compute in (a =? 3) in change (a =? 3) with b end; cbv iota;
    rewrite ?N.eqb_eq, ?N.leb_le; try lia; (split; intros X; try destruct X; try discriminate X).
Qed.
Lemma in_zone_N c t : c < 2 -> t < 81 -> (in_zone (colorN c) (squareN t) <-> zoneB c t = true).
Proof. intros Hc Ht. unfold in_zone, zoneB. rewrite rank_for_N, N.leb_le by auto. lia. Qed.
Lemma promote_N pt : 1 <= pt < 15 -> (promote (kindN pt) <> None <-> pt <=? 6 = true).
Proof.
  intros Hp. destruct (pt_cases pt Hp) as [->|[->|[->|[->|[->|[->|[->|[->|[->|[->|[->|[->|[->| ->]]]]]]]]]]]]]; split; intros X; try reflexivity; try discriminate; try (exfalso; apply X; reflexivity).
Qed.
Lemma nifu_N p t : okBoard (board p) -> turn p < 2 -> t < 81 ->
  ((forall s, on_board s -> fst s = fst (squareN t) -> at_square (abs p) s <> Some (colorN (turn p), FU)) <-> nifuB p t = false).
Proof.
  intros Ok Ht Hl. split.
  - intros H. apply not_true_is_false. intros X. unfold nifuB in X. apply existsb_exists in X as (s & Hs & X). apply in_squares in Hs. apply andb_prop in X as [E X]. apply N.eqb_eq in E, X.
    apply (H (squareN s)); [now apply on_board_N|unfold squareN; cbn [fst]; now rewrite E|]. apply pieceN_kind; auto.
  - intros H s Bs E X. pose proof (nsquare_lt s Bs) as L. rewrite <- (square_inv' s Bs) in E, X. apply pieceN_kind in X; auto. unfold nifuB in H.
    apply (existsb_false_at _ _ (nsquare s)) in H; [|now apply in_squares]. cbv beta in H. unfold squareN in E. cbn [fst] in E. assert (E' : nsquare s / 9 = t / 9) by lia. rewrite E', X, !N.eqb_refl in H. discriminate.
Qed.
Lemma plDrop_iff p pt t : good p -> 1 <= pt < 15 -> t < 81 -> (pseudo_legal (abs p) (Drop (kindN pt) (squareN t)) <-> plDropB p pt t = true).
Proof.
  intros G Hp Ht. pose proof (good_turn p G) as Hc. pose proof (good_ok p G) as Ok. unfold pseudo_legal. cbv zeta. change (side (abs p)) with (colorN (turn p)).
  rewrite (dead_end_N _ pt t Hc Hp Ht). unfold plDropB. rewrite !andb_true_iff, !negb_true_iff, N.eqb_eq, N.ltb_lt, andb_false_iff.
  rewrite abs_at by auto. split.
  - intros (_ & E & H & D & NF). apply hand_pos in H as [H1 H2]; auto. rewrite kind_inv' in H1, H2 by auto.
    apply pieceN_none in E. repeat split; auto; [apply N.leb_le; lia|now apply not_true_is_false|].
    destruct (N.eqb_spec pt 1) as [->|]; [right|now left]. apply nifu_N; auto.
  - intros ((((H1 & E) & H) & D) & NF). split; [now apply on_board_N|]. split; [now rewrite E|]. split; [|split; [congruence|]].
    + cbn [abs in_hand]. rewrite color_inv by auto. apply N.leb_le in H1. destruct (handSlot (kindN pt)) as [hp|] eqn:EH.
      * apply handSlot_ptToHand in EH as (_ & -> & _). rewrite kind_inv' by auto. lia.
      * exfalso. clear - EH H1 Hp. assert (C : pt = 1 \/ pt = 2 \/ pt = 3 \/ pt = 4 \/ pt = 5 \/ pt = 6 \/ pt = 7) by lia. destruct C as [->|[->|[->|[->|[->|[->| ->]]]]]]; discriminate EH.
    + intros K. assert (pt = 1) by (apply (f_equal nkind) in K; rewrite kind_inv' in K by auto; exact K). subst pt. destruct NF as [NF|NF]; [discriminate NF|]. apply nifu_N; auto.
Qed.
Lemma own_N p t : okBoard (board p) -> turn p < 2 -> t < 81 -> ((forall k, at_square (abs p) (squareN t) <> Some (colorN (turn p), k)) <-> isCol (board p) (turn p) t = false).
Proof.
  intros Ok Hc Ht. unfold isCol. change (at_ (board p) t) with (pieceAt p t). destruct (vpc_cases _ (okB_at p t Ok Ht)) as [E|(c & pt & C & P & E)].
  - rewrite abs_at, E by auto. split; [reflexivity|discriminate].
  - rewrite E, mk_nz, col_mk by auto. cbn [negb andb]. rewrite abs_at, E, pieceN_mk by auto. rewrite N.eqb_neq. split.
    + intros H X. apply (H (kindN pt)). now rewrite X.
    + intros H k X. injection X as X _. apply H. apply (f_equal ncolor) in X. now rewrite !color_inv in X.
Qed.
Lemma plGo_iff p s t pr : good p -> s < 81 -> t < 81 -> (pseudo_legal (abs p) (Go (squareN s) (squareN t) pr) <-> plGoB p s t pr = true).
Proof.
  intros G Hs Ht. pose proof (good_turn p G) as Hc. pose proof (good_ok p G) as Ok. unfold pseudo_legal. cbv zeta. change (side (abs p)) with (colorN (turn p)).
  unfold plGoB. rewrite !andb_true_iff, negb_true_iff, <- own_N by auto.
  assert (PA : forall k, at_square (abs p) (squareN s) = Some (colorN (turn p), k) -> pieceAt p s = mkPiece (turn p) (nkind k)) by (intros k; now apply pieceN_kind).
  split.
  - intros (Bs & Bt & k & E & A & N & P1 & P2). pose proof (PA k E) as E'. pose proof (nkind_lt k) as Hk.
    assert (A' : piece_attacks (abs p) (colorN (turn p)) (squareN s) (squareN t)) by (exists k; auto). apply piece_attacks_abs in A'; auto. apply andb_prop in A' as [A1 A2].
    repeat split; auto. unfold promoB. cbv zeta. rewrite E', pt_mk by auto. rewrite <- (kind_inv k) in P1, P2. destruct pr.
    + destruct (P1 eq_refl) as [Q1 Q2]. apply andb_true_iff. split; [now apply promote_N|]. apply orb_true_iff. rewrite !in_zone_N in Q2 by auto. exact Q2.
    + apply negb_true_iff, not_true_is_false. rewrite <- dead_end_N by auto. auto.
  - intros (((A1 & A2) & N) & P). split; [now apply on_board_N|]. split; [now apply on_board_N|].
    assert (A' : piece_attacks (abs p) (colorN (turn p)) (squareN s) (squareN t)) by (apply piece_attacks_abs; auto; now rewrite A1, A2).
    destruct A' as (k & E & A). exists k. pose proof (PA k E) as E'. pose proof (nkind_lt k) as Hk. do 3 (split; auto). unfold promoB in P. cbv zeta in P. rewrite E', pt_mk in P by auto.
    rewrite <- (kind_inv k). destruct pr; split; intros X; try discriminate X.
    + apply andb_prop in P as [P1 P2]. split; [now apply promote_N|]. rewrite !in_zone_N by auto. now apply orb_true_iff.
    + rewrite dead_end_N by auto. apply negb_true_iff in P. congruence.
Qed.
Theorem plB_iff p mv : good p -> (pseudo_legal (abs p) mv <-> plB p mv = true).
Proof.
  intros G. destruct mv as [k t|s t pr]; cbn [plB].
  - pose proof (nkind_lt k) as Hk. destruct (on_boardb t) eqn:B.
    + apply on_boardb_iff in B. pose proof (nsquare_lt t B). rewrite andb_true_l, <- (plDrop_iff p (nkind k) (nsquare t)) by auto. now rewrite kind_inv, square_inv' by auto.
    + split; [|discriminate]. intros (X & _). apply on_boardb_iff in X. congruence.
  - destruct (on_boardb s) eqn:B; [|split; [|discriminate]; intros (X & _); apply on_boardb_iff in X; congruence].
    destruct (on_boardb t) eqn:B'; [|split; [|discriminate]; intros (_ & X & _); apply on_boardb_iff in X; congruence].
    apply on_boardb_iff in B, B'. pose proof (nsquare_lt _ B). pose proof (nsquare_lt _ B'). rewrite !andb_true_l, <- (plGo_iff p (nsquare s) (nsquare t)) by auto. now rewrite !square_inv' by auto.
Qed.
Definition legal0B (p : Position) (mv : move) : bool := plB p mv && negb (inCheckB (newBoard p (code p mv)) (turn p)).
Theorem legal0B_iff p mv : good p -> (legal_but_drop_mate (abs p) mv <-> legal0B p mv = true).
Proof.
  intros G. unfold legal_but_drop_mate, legal0B. rewrite andb_true_iff, negb_true_iff, <- (plB_iff p mv G). split; intros [A B]; (split; [exact A|]).
  - apply not_true_is_false. rewrite <- (doMoveCI_board (mkZob (fun _ _ _ => 0) (fun _ _ => 0)) p (code p mv) (checkInfo p) true). rewrite <- (legal0_safe _ p mv _ _ G A). exact B.
  - rewrite (legal0_safe (mkZob (fun _ _ _ => 0) (fun _ _ => 0)) p mv (checkInfo p) true G A), doMoveCI_board. congruence.
Qed.
