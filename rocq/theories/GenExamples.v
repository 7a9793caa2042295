(* Concrete boards that meet the hypotheses of the move-list theorems. *)
From Verif Require Export GenClaims.
Local Open Scope N_scope.

Definition sparse (l : list (N * N)) : list N :=
  map (fun s => match find (fun x => fst x =? s) l with Some (_, c) => c | None => 0 end) squares.
Definition boardOf (c : N) (pieces : list N) (inHand : list (list N)) : Board := boardSetPieces z0 (mkBoard (setTurnField clearPos c) []) pieces inHand.
Lemma boardOf_set_up c pieces inHand : properB pieces inHand c = true -> set_up z0 (boardOf c pieces inHand).
Proof. intros H. destruct (properB_ok _ _ _ H) as (A & B & D & E). exact (su_pieces z0 (mkBoard (setTurnField clearPos c) []) pieces inHand D A B E). Qed.
Lemma boardOf_playable c pieces inHand : properB pieces inHand c = true -> wellFormedB (bpos (boardOf c pieces inHand)) = true ->
  reachable z0 (boardOf c pieces inHand) /\ playable (abs (bpos (boardOf c pieces inHand))).
Proof.
  intros H W. pose proof (boardOf_set_up c pieces inHand H) as S. split; [now apply set_up_reachable|]. apply wf_playable. apply wellFormedB_ok; auto. apply (set_up_ok z0 _ S).
Qed.
Lemma start_playable : reachable z0 (startBoard z0) /\ playable (abs (bpos (startBoard z0))).
Proof. destruct (start_well_formed z0) as [S W]. split; [now apply set_up_reachable|now apply wf_playable]. Qed.
(* gote's king on 1a behind sente's gold on 1c; with the knight on 3c the pawn drop on 1b is mate *)
Definition mateSet : list N := sparse [(0, 24); (2, 7); (20, 3); (80, 8)].
Definition openSet : list N := sparse [(0, 24); (2, 7); (80, 8)].
Definition onePawn : list (list N) := [[1; 0; 0; 0; 0; 0; 0]; [0; 0; 0; 0; 0; 0; 0]].
Definition mateBoard : Board := boardOf 0 mateSet onePawn.
Definition openBoard : Board := boardOf 0 openSet onePawn.
Definition pawnDrop : move := Drop FU (1, 2)%Z.
Lemma mate_proper : properB mateSet onePawn 0 && properB openSet onePawn 0 = true. Proof. vm_compute. reflexivity. Qed.
Lemma mate_wf : wellFormedB (bpos mateBoard) && wellFormedB (bpos openBoard) = true. Proof. vm_compute. reflexivity. Qed.
Lemma mate_playable : reachable z0 mateBoard /\ playable (abs (bpos mateBoard)).
Proof. apply boardOf_playable; [exact (proj1 (andb_prop _ _ mate_proper))|exact (proj1 (andb_prop _ _ mate_wf))]. Qed.
Lemma open_playable : reachable z0 openBoard /\ playable (abs (bpos openBoard)).
Proof. apply boardOf_playable; [exact (proj2 (andb_prop _ _ mate_proper))|exact (proj2 (andb_prop _ _ mate_wf))]. Qed.
Lemma drop_checks b : reachable z0 b -> legal0B (bpos b) pawnDrop && inCheck (bpos (push z0 b (code (bpos b) pawnDrop))) = true ->
  legal_but_drop_mate (abs (bpos b)) pawnDrop /\ in_check (play (abs (bpos b)) pawnDrop) (other (side (abs (bpos b)))).
Proof.
  intros R H. apply andb_prop in H as [L I]. destruct (reachable_ok z0 b okZob0 R) as [G C]. apply legal0B_iff in L; auto. split; auto.
  destruct (check_after_push z0 b pawnDrop okZob0 R L) as (_ & X & _). now apply X.
Qed.
Lemma mate_drop_run : legal0B (bpos mateBoard) pawnDrop && inCheck (bpos (push z0 mateBoard (code (bpos mateBoard) pawnDrop))) = true. Proof. vm_compute. reflexivity. Qed.
Lemma open_drop_run : legal0B (bpos openBoard) pawnDrop && inCheck (bpos (push z0 openBoard (code (bpos openBoard) pawnDrop))) = true. Proof. vm_compute. reflexivity. Qed.
Definition memB (x : N) (l : list N) : bool := existsb (N.eqb x) l.
Lemma memB_In x l : memB x l = true <-> In x l.
Proof. unfold memB. rewrite existsb_exists. split; [intros (y & I & E); apply N.eqb_eq in E; now subst|intros I; exists x; split; auto; apply N.eqb_refl]. Qed.
Lemma drop_runs : memB (code (bpos mateBoard) pawnDrop) (legalMoves (bpos mateBoard)) = false /\ memB (code (bpos openBoard) pawnDrop) (legalMoves (bpos openBoard)) = true.
Proof. split; vm_compute; reflexivity. Qed.
(* gote to move, mated by a gold on 1b under a lance *)
Definition matedBoard : Board := boardOf 1 (sparse [(0, 24); (1, 7); (8, 2); (80, 8)]) noHands.
Lemma mated_playable : reachable z0 matedBoard /\ playable (abs (bpos matedBoard)).
Proof. apply boardOf_playable; vm_compute; reflexivity. Qed.
Lemma mated_over : isGameOver (bpos matedBoard) = true. Proof. vm_compute. reflexivity. Qed.
Lemma start_goes_on : isGameOver (bpos (startBoard z0)) = false. Proof. vm_compute. reflexivity. Qed.
(* 7g7f+ in the initial position *)
Definition badPromotion : move := Go (7, 7)%Z (7, 6)%Z true.
Lemma badPromotion_runs : let p := bpos (startBoard z0) in boardMoveIsLegal p (code p badPromotion) = true /\ memB (code p badPromotion) (legalMoves p) = false.
Proof. split; vm_compute; reflexivity. Qed.
Lemma accepts_intro b m : reachable z0 b /\ playable (abs (bpos b)) -> boardMoveIsLegal (bpos b) m = true /\ memB m (legalMoves (bpos b)) = false ->
  exists b m, reachable z0 b /\ playable (abs (bpos b)) /\ boardMoveIsLegal (bpos b) m = true /\ ~ In m (legalMoves (bpos b)).
Proof. intros [R K] [A B]. exists b, m. do 3 (split; [assumption|]). intros I. apply memB_In in I. congruence. Qed.
Lemma is_legal_accepts : exists b m, reachable z0 b /\ playable (abs (bpos b)) /\ boardMoveIsLegal (bpos b) m = true /\ ~ In m (legalMoves (bpos b)).
Proof. exact (accepts_intro (startBoard z0) (code (bpos (startBoard z0)) badPromotion) start_playable badPromotion_runs). Qed.
