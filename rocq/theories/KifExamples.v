(* Games for the KIF exporter and reader. *)
From Verif Require Export PgnExamples KifFinal.
Local Open Scope N_scope.

Fixpoint kif_of (b : Board) (mvs : list move) : list timed :=
  match mvs with [] => [] | mv :: mvs => mkTimed (code (bpos b) mv) 75 3700 :: kif_of (push z0 b (code (bpos b) mv)) mvs end.
Lemma kif_of_game mvs : forall b, reachable z0 b -> pgnB b mvs = true -> kif_game z0 b (kif_of b mvs).
Proof.
  induction mvs as [|mv mvs IH]; intros b R H; [constructor|]. cbn [pgnB] in H. destruct (legal0B (bpos b) mv && noPawnDrop mv) eqn:E; [|discriminate]. apply andb_true_iff in E as [E1 E2].
  assert (L : legal (abs (bpos b)) mv) by (apply no_pawn; auto; destruct mv as [[] ?|]; (exact I || discriminate)). cbn [kif_of].
  apply kif_cons; [exact L|]. apply IH; [apply reachable_push; [exact okZob0|exact R|exact (proj1 L)]|exact H].
Qed.
Definition tenTimed : list timed := kif_of start1 tenMoves.
Lemma start1_reachable : reachable z0 start1. Proof. exact (set_up_reachable _ _ start1_set_up). Qed.
Lemma ten_kif : kif_game z0 start1 tenTimed. Proof. exact (kif_of_game tenMoves start1 start1_reachable ten_runs). Qed.
Lemma start1_new : peek start1 = 0. Proof. vm_compute. reflexivity. Qed.
Lemma start1_black : side (abs (bpos start1)) = Sente. Proof. vm_compute. reflexivity. Qed.
Lemma ten_lines : firstn 4 (skipn 1 (exportKif 1 0 tenTimed)) =
  [u "   2 ３四歩(33)        ( 1:15/01:01:40)"; u "   3 ２二角(88)        ( 1:15/01:01:40)"; u "   4 同　銀(31)        ( 1:15/01:01:40)"; u "   5 ５五角打          ( 1:15/01:01:40)"].
Proof. vm_compute. reflexivity. Qed.
(* White to move *)
Definition handicap : Board := boardOf 1 (sparse [(0, 24); (80, 8); (40, 11)]) noHands.
Lemma handicap_proper : properB (sparse [(0, 24); (80, 8); (40, 11)]) noHands 1 = true. Proof. vm_compute. reflexivity. Qed.
Lemma handicap_wfB : wellFormedB (bpos handicap) = true. Proof. vm_compute. reflexivity. Qed.
Lemma handicap_reachable : reachable z0 handicap. Proof. exact (proj1 (boardOf_playable _ _ _ handicap_proper handicap_wfB)). Qed.
Lemma handicap_wf : well_formed (abs (bpos handicap)). Proof. exact (wellFormedB_ok _ (proj1 (reachable_ok z0 handicap okZob0 handicap_reachable)) handicap_wfB). Qed.
Lemma handicap_new : peek handicap = 0. Proof. vm_compute. reflexivity. Qed.
Lemma handicap_white : side (abs (bpos handicap)) = Gote. Proof. vm_compute. reflexivity. Qed.
Definition kingMove : move := Go (1, 1)%Z (1, 2)%Z false.
Lemma king_runs : pgnB handicap [kingMove] = true. Proof. vm_compute. reflexivity. Qed.
Lemma king_kif : kif_game z0 handicap (kif_of handicap [kingMove]). Proof. exact (kif_of_game [kingMove] handicap handicap_reachable king_runs). Qed.
(* a declared win *)
Definition noWinner (o : outcome parsed) : bool := match o with Done q => match pWin q, pEndgame q with None, None => true | _, _ => false end | _ => false end.
Lemma declared_runs : noWinner (parseKif z0 start1 (with_end tenTimed Win 9 3800)) = true. Proof. vm_compute. reflexivity. Qed.
Lemma declared : exists q, parseKif z0 start1 (with_end tenTimed Win 9 3800) = Done q /\ pWin q = None /\ pEndgame q = None.
Proof.
  pose proof declared_runs as E. destruct (parseKif z0 start1 (with_end tenTimed Win 9 3800)) as [q| |]; cbn [noWinner] in E; try discriminate. exists q. split; [reflexivity|].
  destruct (pWin q), (pEndgame q); try discriminate; auto.
Qed.
Lemma no_square : forall b, parseKifMove b (u "   1 ７六歩(05)") = Undefined. Proof. intros b. vm_compute. reflexivity. Qed.
