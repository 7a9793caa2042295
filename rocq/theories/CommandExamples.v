(* Concrete position commands, and the initial position. *)
From Verif Require Export SfenExamples MoveExamples BoardFinal GenClaims Examples.
From Verif Require Export CommandFinal.
Local Open Scope N_scope.

(* the initial position at move 1 *)
Definition start1 : Board := boardSetPieces z0 (mkBoard (setGamePly clearPos 1) []) startPieces noHands.
Definition startArray : position := array_position startPieces noHands 0.
Lemma start_arrays z b : turn (bpos b) = 0 -> set_up z (boardSetPieces z b startPieces noHands) /\ same_position (abs (bpos (boardSetPieces z b startPieces noHands))) startArray.
Proof.
  intros T. destruct (properB_ok _ _ _ start_ok) as (A & B & C & D). rewrite <- T in C, D. split; [exact (su_pieces z b startPieces noHands C A B D)|].
  destruct (okBoard_set z b startPieces noHands C A B D) as (_ & _ & S & _). rewrite T in S. exact S.
Qed.
Lemma start1_set_up : set_up z0 start1. Proof. exact (proj1 (start_arrays z0 (mkBoard (setGamePly clearPos 1) []) eq_refl)). Qed.
Lemma start_same z : same_position (abs (bpos (startBoard z))) startArray. Proof. exact (proj2 (start_arrays z emptyBoard eq_refl)). Qed.
Lemma start1_array : same_position (abs (bpos start1)) startArray. Proof. exact (proj2 (start_arrays z0 (mkBoard (setGamePly clearPos 1) []) eq_refl)). Qed.
Lemma start1_same z : same_position (abs (bpos start1)) (abs (bpos (startBoard z))). Proof. eapply same_trans; [exact start1_array|apply same_sym, start_same]. Qed.
Lemma start1_text : toSfen start1 = startSfen. Proof. vm_compute. reflexivity. Qed.
Lemma start1_denotes : sfen_denotes startSfen (abs (bpos start1)) 1.
Proof.
  rewrite <- start1_text. apply (sfen_written z0 start1 okZob0 (set_up_reachable _ _ start1_set_up)). vm_compute. discriminate.
Qed.
Lemma start1_wf : well_formed (abs (bpos start1)). Proof. eapply well_formed_same; [apply same_sym; exact (start1_same z0)|exact (proj2 (start_well_formed z0))]. Qed.
Theorem reset_initial z : okZob z -> exists b, resetBoard z = Done b /\ same_position (abs (bpos b)) (abs (bpos (startBoard z))) /\ gamePly (bpos b) = 1%Z /\ set_up z b /\ well_formed (abs (bpos b)).
Proof.
  intros Z. destruct (sfen_denoted z _ _ _ Z start1_denotes (wf_proper _ start1_wf) ltac:(vm_compute; discriminate)) as (b & E & S & N & U & _). exists b. split; [exact E|]. split.
  - eapply same_trans; [exact S|apply start1_same].
  - split; [exact N|]. split; [exact U|]. eapply well_formed_same; [apply same_sym; exact S|exact start1_wf].
Qed.

(* two moves and an impossible third *)
Definition twoMoves : list move := [Go (7, 7) (7, 6) false; Go (3, 3) (3, 4) false]%Z.
Definition noMove : move := Go (5, 5)%Z (5, 4)%Z false.
Lemma go_legal P s t pr : legal_but_drop_mate P (Go s t pr) -> legal P (Go s t pr).
Proof. intros L. split; [exact L|]. intros ((x & E) & _). discriminate. Qed.
Lemma two_legal : legal_moves (abs (bpos (startBoard z0))) twoMoves.
Proof. pose proof (game_line _ _ _ _ demo2_game) as L. cbn [legal_line] in L. destruct L as (B & A & _). split; [exact (go_legal _ _ _ _ A)|]. split; [exact (go_legal _ _ _ _ B)|exact I]. Qed.
Lemma two_legal1 : legal_moves (abs (bpos start1)) twoMoves. Proof. exact (legal_moves_same _ _ _ (same_sym _ _ (start1_same z0)) two_legal). Qed.
Lemma none_there : at_square (play_all (abs (bpos start1)) twoMoves) (5, 5)%Z = None. Proof. vm_compute. reflexivity. Qed.
Lemma third_fits : fits (play_all (abs (bpos start1)) twoMoves) noMove.
Proof.
  unfold noMove. cbn [fits]. cbv zeta. pose proof none_there as E. split; [unfold on_board; cbn [fst snd]; lia|]. split; [unfold on_board; cbn [fst snd]; lia|]. intros k X. rewrite E in X. discriminate.
Qed.
Lemma third_illegal : ~ legal (play_all (abs (bpos start1)) twoMoves) noMove.
Proof. intros [[PL _] _]. unfold noMove in PL. cbn [pseudo_legal] in PL. cbv zeta in PL. destruct PL as (_ & _ & k & E & _). rewrite none_there in E. discriminate. Qed.
Lemma two_text : command startSfen (map usi_text twoMoves) = "sfen lnsgkgsnl/1r5b1/ppppppppp/9/9/9/PPPPPPPPP/1B5R1/LNSGKGSNL b - 1 moves 7g7f 3c3d"%string. Proof. reflexivity. Qed.
Lemma two_called : exists b, calls z0 start1 (map Play twoMoves) = Some b.
Proof. destruct (push_legal_moves z0 twoMoves okZob0 start1 (set_up_reachable _ _ start1_set_up) start1_wf two_legal1) as (b & _ & E & _). now exists b. Qed.
Lemma two_words : words_of "startpos  moves 7g7f 3c3d" ["startpos"; "moves"; "7g7f"; "3c3d"]%string.
Proof.
  assert (W : forall w, forallb (fun c => negb (isSpace c)) (list_ascii_of_string w) = true -> w <> ""%string -> word w).
  { intros w H N. split; [exact N|]. intros c Hc. rewrite forallb_forall in H. specialize (H c Hc). rewrite white_iff. destruct (isSpace c); discriminate. }
  apply (words_more "startpos" " "); [apply W; [reflexivity|discriminate]|exact white_blank|]. apply words_white; [exact white_blank|].
  apply (words_more "moves" " "); [apply W; [reflexivity|discriminate]|exact white_blank|]. apply (words_more "7g7f" " "); [apply W; [reflexivity|discriminate]|exact white_blank|].
  apply words_last. apply W; [reflexivity|discriminate].
Qed.
(* accepted by set_position although doMove then leaves its tables: a gold that promotes *)
Definition goldText : string := "startpos moves 4i4h+".
Lemma gold_undefined : setPosition z0 goldText = Undefined. Proof. vm_compute. reflexivity. Qed.
