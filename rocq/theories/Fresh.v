(* A consistent position without history is one that set_pieces builds. *)
From Verif Require Export ViewsOut ClaimProofs Decide.
Local Open Scope N_scope.

Record fresh (z : Zob) (q : Position) : Prop := {
  f_good : good q;
  f_cached : cached z q;
  f_prev : prev q = [];
  f_cc : contCheck (st q) = [0; 0];
  f_plies : pliesFromNull (st q) = 0
}.
Lemma fresh_eq z r q : fresh z r -> fresh z q -> same_position (abs r) (abs q) -> gamePly r = gamePly q -> r = q.
Proof.
  intros [G' C' Ep Ec En] [G C P1 P2 P3] S Eg. destruct (good_same_eq r q G' G S) as (A1 & A2 & A3 & A4 & A5 & A6 & A7).
  assert (X1 : st r = st q).
  { destruct (c_keys z q C) as [K1 K2], (c_keys z r C') as [K1' K2']. pose proof (c_check z q C) as Q1. pose proof (c_check z r C') as Q2. pose proof (c_hand z q C) as H1. pose proof (c_hand z r C') as H2.
    rewrite (boardKey_ext z r q A1 A3) in K1'. rewrite (handKey_ext z r q A2) in K2'. rewrite (ViewsOut.findCheckers_ext q r A3 A4 A5 A6 A7) in Q2. unfold handOf in *. rewrite A2, A3 in H2.
    revert K1 K2 K1' K2' Q1 Q2 H1 H2 Ec En P2 P3. destruct (st r), (st q). cbn. congruence. }
  revert A1 A2 A3 A4 A5 A6 A7 X1 Eg Ep P1. clear. destruct r, q. cbn. congruence.
Qed.
Theorem fresh_set_up z q : fresh z q -> set_up z (mkBoard q []).
Proof.
  intros [G C P1 P2 P3]. pose proof (g_views q G) as V. pose proof (v_board q V) as Ok. pose proof (good_turn q G) as Ht.
  assert (S : same_position (abs q) (array_position (board q) (handLists q) (turn q))).
  { apply abs_array; [reflexivity|]. intros c hp Hc Hp. symmetry. apply handLists_num; auto. apply G. }
  pose proof (proper_same _ _ S (good_proper q G)) as Pr.
  destruct (setPieces_ok z q (board q) (handLists q) Ht (proj1 Ok) (proj2 Ok) Pr) as (G' & C' & S' & Eg & Et & Ep & Ec & En). cbv zeta in *.
  assert (F : Forall piece_code (board q)).
  { apply Forall_forall. intros x Hx. apply (In_nth _ _ 0) in Hx as (i & Hi & <-). apply piece_code_vpc. pose proof (proj2 Ok (N.of_nat i)) as X. unfold at_, nthN in X. rewrite Nat2N.id in X. apply X. pose proof (proj1 Ok). lia. }
  assert (Q : setPieces z q (board q) (handLists q) = q).
  { apply (fresh_eq z); [constructor; assumption|constructor; assumption|eapply same_trans; [exact S'|apply same_sym; exact S]|exact Eg]. }
  pose proof (su_pieces z (mkBoard q []) (board q) (handLists q) Ht (proj1 Ok) F Pr) as U. unfold boardSetPieces in U. cbn [bpos] in U. rewrite Q in U. exact U.
Qed.
Lemma fresh_reachable z q : fresh z q -> reachable z (mkBoard q []).
Proof. intros F. apply set_up_reachable. now apply fresh_set_up. Qed.
Theorem set_up_fresh z b : set_up z b -> fresh z (bpos b) /\ b = mkBoard (bpos b) [].
Proof.
  intros H. destruct H as [b pieces inHand Ht L F P]. destruct (okBoard_set z b pieces inHand Ht L F P) as (G & C & _ & _ & Et & Ep & Ec & En). split; [now constructor|reflexivity].
Qed.
(* positions with the same pieces, hands and side to move *)
Lemma same_intro p q : (forall s, s < 81 -> pieceAt p s = pieceAt q s) -> (forall c hp, c < 2 -> hp < 7 -> numOf (handOf p c) hp = numOf (handOf q c) hp) -> turn p = turn q ->
  same_position (abs p) (abs q).
Proof.
  intros A B C. repeat split; cbn [abs at_square in_hand side].
  - intros s. destruct (on_boardb s) eqn:E; [|reflexivity]. apply on_boardb_iff in E. now rewrite A by now apply nsquare_lt.
  - intros c k. destruct (handSlot k) as [hp|] eqn:E; [|reflexivity]. apply slotKind_inv in E as [L _]. now rewrite B by (auto; apply ncolor_lt).
  - now rewrite C.
Qed.
