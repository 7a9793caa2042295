(* Concrete moves and games written as KI2 texts, and texts that are not read back. *)
From Verif Require Export Ki2Final GenExamples CommandExamples.
From Verif Require Import CommandFinal GenClaims PlayProofs Bridge.
Local Open Scope N_scope.

(* gold generals of Black on 66 and 46, and one in hand *)
Definition goldHand : list (list N) := [[0; 0; 0; 0; 1; 0; 0]; [0; 0; 0; 0; 0; 0; 0]].
Definition twoGolds : Board := boardOf 0 (sparse [(0, 24); (80, 8); (50, 7); (32, 7)]) goldHand.
(* the same without the one in hand *)
Definition twoGoldsOnly : Board := boardOf 0 (sparse [(0, 24); (80, 8); (50, 7); (32, 7)]) noHands.
(* gold generals of Black on 56, 66 and 54 *)
Definition threeGolds : Board := boardOf 0 (sparse [(0, 24); (80, 8); (41, 7); (50, 7); (39, 7)]) noHands.
Lemma golds_proper : properB (sparse [(0, 24); (80, 8); (50, 7); (32, 7)]) goldHand 0 && properB (sparse [(0, 24); (80, 8); (50, 7); (32, 7)]) noHands 0 && properB (sparse [(0, 24); (80, 8); (41, 7); (50, 7); (39, 7)]) noHands 0 = true.
Proof. vm_compute. reflexivity. Qed.
Lemma golds_wf : wellFormedB (bpos twoGolds) && wellFormedB (bpos twoGoldsOnly) && wellFormedB (bpos threeGolds) = true. Proof. vm_compute. reflexivity. Qed.
Lemma two_golds_playable : reachable z0 twoGolds /\ playable (abs (bpos twoGolds)).
Proof. pose proof golds_proper as A. pose proof golds_wf as B. rewrite !andb_true_iff in A, B. apply boardOf_playable; tauto. Qed.
Lemma two_only_playable : reachable z0 twoGoldsOnly /\ playable (abs (bpos twoGoldsOnly)).
Proof. pose proof golds_proper as A. pose proof golds_wf as B. rewrite !andb_true_iff in A, B. apply boardOf_playable; tauto. Qed.
Lemma three_golds_playable : reachable z0 threeGolds /\ playable (abs (bpos threeGolds)).
Proof. pose proof golds_proper as A. pose proof golds_wf as B. rewrite !andb_true_iff in A, B. apply boardOf_playable; tauto. Qed.
Definition goldMove : move := Go (6, 6)%Z (5, 5)%Z false.
Definition goldDrop : move := Drop KI (5, 5)%Z.
Definition goldUp : move := Go (5, 6)%Z (5, 5)%Z false.
Lemma gold_runs : legal0B (bpos twoGolds) goldMove && legal0B (bpos twoGolds) goldDrop && legal0B (bpos twoGoldsOnly) goldMove && legal0B (bpos threeGolds) goldUp = true.
Proof. vm_compute. reflexivity. Qed.
Lemma no_pawn b mv : reachable z0 b -> legal0B (bpos b) mv = true -> match mv with Drop FU _ => False | _ => True end -> legal (abs (bpos b)) mv.
Proof.
  intros R L N. split; [now apply legal0B_iff; [exact (proj1 (reachable_ok z0 b okZob0 R))|]|]. intros [[t ->] _]. destruct N.
Qed.
Lemma gold_move_legal : legal (abs (bpos twoGolds)) goldMove.
Proof. pose proof gold_runs as A. rewrite !andb_true_iff in A. apply no_pawn; [exact (proj1 two_golds_playable)|tauto|exact I]. Qed.
Lemma gold_drop_legal : legal (abs (bpos twoGolds)) goldDrop.
Proof. pose proof gold_runs as A. rewrite !andb_true_iff in A. apply no_pawn; [exact (proj1 two_golds_playable)|tauto|exact I]. Qed.
Lemma gold_only_legal : legal (abs (bpos twoGoldsOnly)) goldMove.
Proof. pose proof gold_runs as A. rewrite !andb_true_iff in A. apply no_pawn; [exact (proj1 two_only_playable)|tauto|exact I]. Qed.
Lemma gold_up_legal : legal (abs (bpos threeGolds)) goldUp.
Proof. pose proof gold_runs as A. rewrite !andb_true_iff in A. apply no_pawn; [exact (proj1 three_golds_playable)|tauto|exact I]. Qed.
Lemma only_two : forallb (fun i => negb (pieceAt (bpos twoGoldsOnly) i =? 7) || (i =? 50) || (i =? 32)) (map N.of_nat (seq 0 81)) = true. Proof. vm_compute. reflexivity. Qed.
Lemma gold_only_clear : clear_move (abs (bpos twoGoldsOnly)) goldMove.
Proof.
  intros k At. assert (Ek : k = KI) by (vm_compute in At; now injection At). subst k. right. split.
  - exists (4, 6)%Z. intros s [A [pr PL]]. assert (S : on_board s) by (cbn [pseudo_legal] in PL; tauto). pose proof (nsquare_lt s S) as Hs.
    pose proof (proj1 (forallb_forall _ _) only_two (nsquare s)) as Q. cbv beta in Q. rewrite !orb_true_iff, negb_true_iff, !N.eqb_eq, N.eqb_neq in Q.
    rewrite <- (square_inv' s S) in A |- *. 
    assert (P7 : pieceAt (bpos twoGoldsOnly) (nsquare s) = 7).
    { destruct (reachable_ok z0 twoGoldsOnly okZob0 (proj1 two_only_playable)) as [G _]. change (side (abs (bpos twoGoldsOnly))) with (colorN (turn (bpos twoGoldsOnly))) in A.
      apply pieceN_kind in A; auto using good_ok, good_turn. }
    destruct Q as [[Q|Q]|Q]; [apply in_map_iff; exists (N.to_nat (nsquare s)); rewrite in_seq; lia|contradiction|rewrite Q; left; reflexivity|rewrite Q; right; reflexivity].
  - intros [[PL _] _]. cbn [pseudo_legal] in PL. destruct PL as (_ & _ & H & _). vm_compute in H. discriminate H.
Qed.
Definition threw {A} (o : outcome A) : bool := match o with Thrown => true | _ => false end.
Definition readOne (o : outcome (list N * Board)) (x : N) : bool := match o with Done r => match fst r with [y] => y =? x | _ => false end | _ => false end.
Definition readBack (b : Board) (mv : move) : outcome (list N * Board) := obind (moveToKi2 b (code (bpos b) mv)) (parseMoveStr 9 z0 b).
Lemma gold_confused_runs : readOne (readBack twoGolds goldMove) (code (bpos twoGolds) goldDrop) = true.
Proof. vm_compute. reflexivity. Qed.
Lemma gold_straight_runs : threw (readBack threeGolds goldUp) = true.
Proof. vm_compute. reflexivity. Qed.
(* three opening moves on one line, with the spaces KI2 files put between them *)
Definition threeOnALine : Text := u "▲７六歩    △３四歩    ▲２六歩".
Definition eachOnALine : list Text := [u "▲７六歩"; u "△３四歩"; u "▲２六歩"].
Definition readThree (o : outcome (list N * Board)) : bool := match o with Done r => (List.length (fst r) =? 3)%nat | _ => false end.
Lemma line_runs : threw (parseMoveStr 9 z0 start1 threeOnALine) = true. Proof. vm_compute. reflexivity. Qed.
Lemma each_runs : readThree (parseMoveLines 9 z0 start1 eachOnALine) = true. Proof. vm_compute. reflexivity. Qed.
(* a move of a pawn *)
Lemma pawn_clear P s t pr : legal P (Go s t pr) -> at_square P s = Some (side P, FU) -> clear_move P (Go s t pr).
Proof.
  intros [[PL _] _] At k At'. rewrite At in At'. injection At' as <-. left.
  assert (H : forall s' pr', at_square P s' = Some (side P, FU) -> pseudo_legal P (Go s' t pr') -> s' = (fst t, snd t - forward (side P))%Z).
  { intros s' pr' A PL'. cbn [pseudo_legal] in PL'. destruct PL' as (_ & _ & k & A' & At2 & _). rewrite A in A'. injection A' as <-. destruct At2 as [(d & [<-|[]] & ->)|(d & n & [] & _)].
    unfold displaced. destruct s' as [f r]. cbn [fst snd]. f_equal; lia. }
  intros s' [A [pr' PL']]. rewrite (H s' pr' A PL'), (H s pr At PL). reflexivity.
Qed.
Fixpoint ki2_codes (z : Zob) (b : Board) (ms : list move) : list N := match ms with [] => [] | m :: ms => code (bpos b) m :: ki2_codes z (push z b (code (bpos b) m)) ms end.
Lemma two_clear : clear_game z0 start1 (ki2_codes z0 start1 twoMoves).
Proof.
  destruct two_legal1 as [L1 [L2 _]]. cbn [twoMoves ki2_codes] in *. pose proof (set_up_reachable _ _ start1_set_up) as R. apply clear_cons; [exact L1|apply pawn_clear; [exact L1|vm_compute; reflexivity]|].
  assert (L2' : legal (abs (bpos (push z0 start1 (code (bpos start1) (Go (7, 7)%Z (7, 6)%Z false))))) (Go (3, 3)%Z (3, 4)%Z false)) by (eapply legal_same; [apply same_sym; exact (push_same z0 start1 _ okZob0 R L1)|exact L2]).
  apply clear_cons; [exact L2'|apply pawn_clear; [exact L2'|vm_compute; reflexivity]|]. apply clear_nil.
Qed.
Lemma threw_eq {A} (o : outcome A) : threw o = true -> o = Thrown. Proof. destruct o; discriminate || reflexivity. Qed.
Lemma read_one o x : readOne o x = true -> exists b', o = Done ([x], b').
Proof. destruct o as [[l b']| |]; try discriminate. cbn [readOne fst]. destruct l as [|y [|? ?]]; try discriminate. intros E. apply N.eqb_eq in E. subst y. now exists b'. Qed.
Lemma back_text b mv o : readBack b mv = o -> forall Q : outcome (list N * Board) -> Prop, (match moveToKi2 b (code (bpos b) mv) with Done _ => true | _ => false end = true) -> Q o ->
  exists txt, moveToKi2 b (code (bpos b) mv) = Done txt /\ Q (parseMoveStr 9 z0 b txt).
Proof. unfold readBack. intros E Q. generalize dependent (moveToKi2 b (code (bpos b) mv)). intros w E D H. destruct w as [t| |]; try discriminate D. exists t. split; [reflexivity|]. cbn [obind] in E. now rewrite E. Qed.
Lemma gold_written b mv : reachable z0 b /\ playable (abs (bpos b)) -> legal (abs (bpos b)) mv -> (match moveToKi2 b (code (bpos b) mv) with Done _ => true | _ => false end = true).
Proof. intros [R K] L. destruct (near_read z0 b okZob0 R K mv L) as (t & E & _). now rewrite E. Qed.
Lemma gold_codes_differ : (code (bpos twoGolds) goldMove =? code (bpos twoGolds) goldDrop) = false. Proof. vm_compute. reflexivity. Qed.
Lemma gold_confused0 : exists txt, moveToKi2 twoGolds (code (bpos twoGolds) goldMove) = Done txt /\ exists b', parseMoveStr 9 z0 twoGolds txt = Done ([code (bpos twoGolds) goldDrop], b').
Proof.
  destruct (read_one (readBack twoGolds goldMove) (code (bpos twoGolds) goldDrop) gold_confused_runs) as [b' E].
  exact (back_text twoGolds goldMove (Done ([code (bpos twoGolds) goldDrop], b')) E (fun o => exists b', o = Done ([code (bpos twoGolds) goldDrop], b')) (gold_written twoGolds goldMove two_golds_playable gold_move_legal) (ex_intro _ b' eq_refl)).
Qed.
Lemma gold_straight0 : exists txt, moveToKi2 threeGolds (code (bpos threeGolds) goldUp) = Done txt /\ parseMoveStr 9 z0 threeGolds txt = Thrown.
Proof.
  exact (back_text threeGolds goldUp Thrown (threw_eq (readBack threeGolds goldUp) gold_straight_runs) (fun o => o = Thrown) (gold_written threeGolds goldUp three_golds_playable gold_up_legal) eq_refl).
Qed.
Lemma read_three o : readThree o = true -> exists r, o = Done r /\ List.length (fst r) = 3%nat.
Proof. destruct o as [r| |]; try discriminate. cbn [readThree]. intros E. exists r. split; [reflexivity|now apply Nat.eqb_eq]. Qed.
Lemma three_each : exists r, parseMoveLines 9 z0 start1 eachOnALine = Done r /\ List.length (fst r) = 3%nat.
Proof. exact (read_three (parseMoveLines 9 z0 start1 eachOnALine) each_runs). Qed.
Lemma three_one : parseMoveStr 9 z0 start1 threeOnALine = Thrown.
Proof. exact (threw_eq (parseMoveStr 9 z0 start1 threeOnALine) line_runs). Qed.
Lemma gold_differ : code (bpos twoGolds) goldMove <> code (bpos twoGolds) goldDrop. Proof. apply N.eqb_neq. exact gold_codes_differ. Qed.
