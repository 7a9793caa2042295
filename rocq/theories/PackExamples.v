(* Concrete cases for the theorems about packed positions. *)
From Verif Require Export PackFinal GenExamples.
Local Open Scope N_scope.

Lemma kings_intro p s0 s1 : on_boardb s0 && on_boardb s1 = true -> (pieceAt p (nsquare s0), pieceAt p (nsquare s1)) = (8, 24) -> both_kings (abs p).
Proof.
  intros O E. apply andb_prop in O as [O0 O1]. injection E as E0 E1. intros c. exists (match c with Sente => s0 | Gote => s1 end). destruct c; (split; [now apply on_boardb_iff|]); cbn [abs at_square]; rewrite ?O0, ?O1, ?E0, ?E1; reflexivity.
Qed.
Lemma start_kings : both_kings (abs (bpos (startBoard z0))).
Proof. apply (kings_intro _ (5, 9)%Z (5, 1)%Z); vm_compute; reflexivity. Qed.
Lemma mate_kings : both_kings (abs (bpos mateBoard)).
Proof. apply (kings_intro _ (9, 9)%Z (1, 1)%Z); vm_compute; reflexivity. Qed.
Lemma open_kings : both_kings (abs (bpos openBoard)).
Proof. apply (kings_intro _ (9, 9)%Z (1, 1)%Z); vm_compute; reflexivity. Qed.
(* a mating problem: the attacker's king is not shown *)
Definition tsumeSet : list N := sparse [(0, 24); (2, 7); (20, 3)].
Definition tsumeBoard : Board := boardOf 0 tsumeSet onePawn.
Lemma tsume_proper : properB tsumeSet onePawn 0 = true. Proof. vm_compute. reflexivity. Qed.
Lemma tsume_reachable : reachable z0 tsumeBoard. Proof. apply set_up_reachable, boardOf_set_up, tsume_proper. Qed.
Lemma tsume_board : forallb (fun s => negb (pieceAt (bpos tsumeBoard) s =? 8)) squares = true. Proof. vm_compute. reflexivity. Qed.
Lemma no_sente_king p : okBoard (board p) -> forallb (fun s => negb (pieceAt p s =? 8)) squares = true -> forall s, at_square (abs p) s <> Some (Sente, OU).
Proof.
  intros Ok F s E. cbn [abs at_square] in E. destruct (on_boardb s) eqn:O; [|discriminate]. apply on_boardb_iff in O. pose proof (nsquare_lt s O) as L. apply pieceN_iff in E; [|now apply okB_at].
  rewrite forallb_forall in F. specialize (F (nsquare s) (proj2 (in_squares _) L)). rewrite E in F. discriminate.
Qed.
Lemma tsume_no_king : forall s, at_square (abs (bpos tsumeBoard)) s <> Some (Sente, OU).
Proof. apply no_sente_king; [|exact tsume_board]. apply (reachable_ok z0 tsumeBoard okZob0 tsume_reachable). Qed.
(* ---- corrupt data ---- *)
Definition byte32B (d : list N) : bool := Nat.eqb (length d) 32 && forallb (fun x => x <? 256) d.
Lemma byte32B_ok d : byte32B d = true -> buffer32 d.
Proof. intros H. apply andb_prop in H as [A B]. split; [now apply Nat.eqb_eq|]. apply Forall_forall. intros x Hx. rewrite forallb_forall in B. now apply N.ltb_lt, B. Qed.
(* king squares outside the board; 30 dragons, then the data ends within a code *)
Definition badKings : list N := repeat 255 32.
Definition tooLong : list N := [0; 129] ++ repeat 255 30.
(* both kings on square 1a, the pieces in the box *)
Definition boxBits1 : list bool :=
  flat_map (fun x => times (fst x) (cb (boxCode hcpTables (snd x)))) [(16%nat, 0); (5%nat, 1); (4%nat, 2); (4%nat, 3); (4%nat, 4); (2%nat, 5); (2%nat, 6)].
Fixpoint pack8 (n : nat) (l : list bool) : list N := match n with O => [] | S n => bitsN (firstn 8 l) :: pack8 n (skipn 8 l) end.
Definition oneSquare : list N := pack8 32 (repeat false 95 ++ boxBits1).
(* 54 pawns in black's hand *)
Definition manyPawns : list N := [0; 1] ++ repeat 0 30.
Lemma corrupt_bytes : forallb byte32B [badKings; tooLong; oneSquare; manyPawns] = true. Proof. vm_compute. reflexivity. Qed.
Lemma corrupt_undefined : setHcp z0 badKings = Undefined /\ setPsfen z0 badKings = Undefined. Proof. split; vm_compute; reflexivity. Qed.
Lemma long_undefined : setHcp z0 tooLong = Undefined /\ setPsfen z0 tooLong = Undefined. Proof. split; vm_compute; reflexivity. Qed.
Definition view (o : outcome Board) : option (N * N * N) := match o with Done b => Some (kingSquare (bpos b) 0, pieceAt (bpos b) 0, numOf (handOf (bpos b) 0) 0) | _ => None end.
Lemma view_inv o x : view o = Some x -> exists b, o = Done b /\ (kingSquare (bpos b) 0, pieceAt (bpos b) 0, numOf (handOf (bpos b) 0) 0) = x.
Proof. destruct o as [b| |]; intros E; try discriminate. exists b. split; [reflexivity|]. cbn [view] in E. congruence. Qed.
Lemma oneSquare_view : view (setHcp z0 oneSquare) = Some (0, 24, 0). Proof. vm_compute. reflexivity. Qed.
Lemma manyPawns_view : view (setHcp z0 manyPawns) = Some (0, 8, 22) /\ view (setPsfen z0 manyPawns) = Some (0, 8, 22). Proof. split; vm_compute; reflexivity. Qed.
Lemma oneSquare_disagrees : exists b, setHcp z0 oneSquare = Done b /\ ~ agree (bpos b).
Proof.
  destruct (view_inv _ _ oneSquare_view) as (b & E & V). exists b. split; [exact E|]. intros A. injection V as V1 V2 _.
  pose proof (proj1 (ag_king _ A (1, 1)%Z Sente (ltac:(repeat split; discriminate))) V1) as K. cbn [abs at_square] in K. change (on_boardb (1, 1)%Z) with true in K. cbv iota in K. change (nsquare (1, 1)%Z) with 0 in K. rewrite V2 in K. discriminate.
Qed.
Lemma manyPawns_improper : exists b, setHcp z0 manyPawns = Done b /\ ~ proper (abs (bpos b)).
Proof.
  destruct (view_inv _ _ (proj1 manyPawns_view)) as (b & E & V). exists b. split; [exact E|]. intros P. injection V as _ _ V.
  pose proof (proper_hand _ Sente 0 P ltac:(lia)) as H. change (slotKind 0) with FU in H. cbn [abs in_hand] in H. change (handSlot FU) with (Some 0) in H. cbv iota in H. change (ncolor Sente) with 0 in H. rewrite V in H. change (fullSet 0) with 18 in H. lia.
Qed.
Lemma many_improper_ps : exists b, setPsfen z0 manyPawns = Done b /\ ~ proper (abs (bpos b)).
Proof.
  destruct (view_inv _ _ (proj2 manyPawns_view)) as (b & E & V). exists b. split; [exact E|]. intros P. injection V as _ _ V.
  pose proof (proper_hand _ Sente 0 P ltac:(lia)) as H. change (slotKind 0) with FU in H. cbn [abs in_hand] in H. change (handSlot FU) with (Some 0) in H. cbv iota in H. change (ncolor Sente) with 0 in H. rewrite V in H. change (fullSet 0) with 18 in H. lia.
Qed.
Lemma corrupt_byte d : In d [badKings; tooLong; oneSquare; manyPawns] -> buffer32 d.
Proof. intros I. apply byte32B_ok. pose proof corrupt_bytes as C. rewrite forallb_forall in C. now apply C. Qed.
Lemma corrupt_memory : exists d d', buffer32 d /\ buffer32 d' /\ d <> d' /\ setHcp z0 d = Undefined /\ setPsfen z0 d = Undefined /\ setHcp z0 d' = Undefined /\ setPsfen z0 d' = Undefined.
Proof.
  exists badKings, tooLong. split; [apply corrupt_byte; cbn [In]; auto|]. split; [apply corrupt_byte; cbn [In]; auto|]. split; [discriminate|].
  destruct corrupt_undefined as [A1 A2], long_undefined as [B1 B2]. do 3 (split; [assumption|]). assumption.
Qed.
Lemma corrupt_accepted : exists d b, buffer32 d /\ setHcp z0 d = Done b /\ ~ agree (bpos b).
Proof. exists oneSquare. destruct oneSquare_disagrees as (b & A). exists b. split; [apply corrupt_byte; cbn [In]; auto|exact A]. Qed.
Lemma corrupt_pieces : exists d b b', buffer32 d /\ setHcp z0 d = Done b /\ ~ proper (abs (bpos b)) /\ setPsfen z0 d = Done b' /\ ~ proper (abs (bpos b')).
Proof.
  exists manyPawns. destruct manyPawns_improper as (b & A & A'). destruct many_improper_ps as (b' & B & B'). exists b, b'. split; [apply corrupt_byte; cbn [In]; auto|]. do 3 (split; [assumption|]). assumption.
Qed.
Lemma same_kings P Q : same_position P Q -> both_kings Q -> both_kings P.
Proof. intros (A & _) B c. destruct (B c) as (s & O & E). exists s. split; [exact O|]. now rewrite A. Qed.
Lemma accepted_case : exists d b, buffer32 d /\ setHcp z0 d = Done b /\ both_kings (abs (bpos b)) /\ proper (abs (bpos b)) /\ hands_fit (bpos b).
Proof.
  destruct (hcp_round_trip z0 mateBoard okZob0 (proj1 mate_playable) mate_kings) as (s & p & E & D & S & _ & _ & U & _). destruct (hcp_size z0 mateBoard okZob0 (proj1 mate_playable) mate_kings) as (s' & E' & L & _).
  rewrite E in E'. injection E' as <-. exists (sdata s), (mkBoard p []). destruct (set_up_ok z0 _ U) as [G _]. cbn [bpos] in *.
  do 2 (split; [assumption|]). split; [exact (same_kings _ _ S mate_kings)|]. split; [now apply good_proper|now apply good_hands_fit].
Qed.
