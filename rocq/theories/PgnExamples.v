(* A game for PGN.Exporter, and what it gets wrong. *)
From Verif Require Export Ki2Examples PgnFinal.
Local Open Scope N_scope.

Definition noPawnDrop (mv : move) : bool := match mv with Drop FU _ => false | _ => true end.
Fixpoint pgnB (b : Board) (mvs : list move) : bool :=
  match mvs with [] => true | mv :: mvs => if legal0B (bpos b) mv && noPawnDrop mv then pgnB (push z0 b (code (bpos b) mv)) mvs else false end.
Fixpoint pgn_texts (b : Board) (mvs : list move) : list (list ascii) :=
  match mvs with [] => [] | mv :: mvs => san_text "+K" (abs (bpos b)) mv :: pgn_texts (push z0 b (code (bpos b) mv)) mvs end.
Lemma pgnB_game mvs : forall b, reachable z0 b -> pgnB b mvs = true -> pgn_game z0 b (ki2_codes z0 b mvs) (pgn_texts b mvs).
Proof.
  induction mvs as [|mv mvs IH]; intros b R H; [constructor|]. cbn [pgnB] in H. destruct (legal0B (bpos b) mv && noPawnDrop mv) eqn:E; [|discriminate]. apply andb_true_iff in E as [E1 E2].
  assert (L : legal (abs (bpos b)) mv) by (apply no_pawn; auto; destruct mv as [[] ?|]; (exact I || discriminate)). cbn [ki2_codes pgn_texts].
  apply pgn_cons; [exact L|]. apply IH; [apply reachable_push; [exact okZob0|exact R|exact (proj1 L)]|exact H].
Qed.
Definition tenMoves : list move :=
  [Go (7, 7) (7, 6) false; Go (3, 3) (3, 4) false; Go (8, 8) (2, 2) false; Go (3, 1) (2, 2) false; Drop KA (5, 5);
   Go (8, 3) (8, 4) false; Go (2, 7) (2, 6) false; Go (8, 4) (8, 5) false; Go (2, 6) (2, 5) false; Go (4, 1) (3, 2) false]%Z.
Lemma ten_runs : pgnB start1 tenMoves = true. Proof. vm_compute. reflexivity. Qed.
Definition tenCodes : list N := ki2_codes z0 start1 tenMoves.
Lemma ten_game : pgn_game z0 start1 tenCodes (pgn_texts start1 tenMoves).
Proof. exact (pgnB_game tenMoves start1 (set_up_reachable _ _ start1_set_up) ten_runs). Qed.
Lemma ten_text : movetext 0 tenCodes = Done (chars "1. Pc3c4 Pg7g6 2. Bb2h8 Sg9h8 3. B@e5 Pb7b6 4. Ph3h4 Pb6b5 5. Ph4h5 Gf9g8 1/2-1/2" ++ [lf; lf]).
Proof. vm_compute. reflexivity. Qed.
Lemma ten_wide : exists t, movetext 0 tenCodes = Done t /\ In 81%nat (line_lengths 0 t).
Proof. exists (chars "1. Pc3c4 Pg7g6 2. Bb2h8 Sg9h8 3. B@e5 Pb7b6 4. Ph3h4 Pb6b5 5. Ph4h5 Gf9g8 1/2-1/2" ++ [lf; lf]). split; [exact ten_text|]. vm_compute. now left. Qed.
Lemma ten_some : tenCodes <> []. Proof. discriminate. Qed.
(* a promoted knight *)
Definition narikei : Board := boardOf 0 (sparse [(0, 24); (80, 8); (40, 11)]) noHands.
Lemma narikei_proper : properB (sparse [(0, 24); (80, 8); (40, 11)]) noHands 0 = true. Proof. vm_compute. reflexivity. Qed.
Lemma narikei_wf : wellFormedB (bpos narikei) = true. Proof. vm_compute. reflexivity. Qed.
Lemma narikei_reachable : reachable z0 narikei. Proof. exact (proj1 (boardOf_playable _ _ _ narikei_proper narikei_wf)). Qed.
Definition narikeiMove : move := Go (5, 5)%Z (5, 4)%Z false.
Lemma narikei_runs : legal0B (bpos narikei) narikeiMove = true. Proof. vm_compute. reflexivity. Qed.
Lemma narikei_legal : legal (abs (bpos narikei)) narikeiMove. Proof. exact (no_pawn _ _ narikei_reachable narikei_runs I). Qed.
Lemma narikei_text : moveToSan (code (bpos narikei) narikeiMove) <> Done (san_text "+N" (abs (bpos narikei)) narikeiMove). Proof. vm_compute. discriminate. Qed.
Lemma kind_names k : k <> NK -> pgn_kind "+K" k = pgn_kind "+N" k. Proof. destruct k; (reflexivity || contradiction). Qed.
Lemma named p mv : good p -> legal (abs p) mv -> (forall s t pr, mv = Go s t pr -> at_square (abs p) s <> Some (side (abs p), NK)) -> moveToSan (code p mv) = Done (san_text "+N" (abs p) mv).
Proof.
  intros G L H. rewrite (san_written p mv G L). f_equal. pose proof (legal_shape p mv G L) as S. destruct mv as [k t|s t pr]; cbn [san_text].
  - destruct S as (_ & K & _). rewrite kind_names; [reflexivity|]. intros ->. cbn in K. lia.
  - destruct S as (_ & _ & k & A). rewrite A. rewrite kind_names; [reflexivity|]. intros ->. exact (H _ _ _ eq_refl A).
Qed.
Lemma first_move_named : forall s t pr, Go (7, 7)%Z (7, 6)%Z false = Go s t pr -> at_square (abs (bpos start1)) s <> Some (side (abs (bpos start1)), NK).
Proof. intros s t pr E. injection E as <- _ _. vm_compute. discriminate. Qed.
Lemma no_moves : forall result, exists t, movetext result [] = Done t /\ ~ In (resultText result) (words_of t).
Proof. intros r. exists [lf; lf]. split; [reflexivity|]. intros []. Qed.
Lemma moves_told_apart p mv mv' : good p -> legal (abs p) mv -> legal (abs p) mv' -> moveToSan (code p mv) = moveToSan (code p mv') -> mv = mv'.
Proof. intros G L L' E. rewrite (san_written p mv G L), (san_written p mv' G L') in E. injection E as E. exact (san_inj p mv mv' G L L' E). Qed.
Lemma no_moves_marked : forall result, exists t, movetext result [] = Done t /\ ~ In (result_mark result) (words_of t).
Proof. intros r; rewrite <- result_written; exact (no_moves r). Qed.
