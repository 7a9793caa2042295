(* Games between engines. *)
From Verif Require Export MatchProofs CommandExamples FeaturesProofs.
Local Open Scope Z_scope.

(* one move and a resignation, with a minute for each side *)
Definition shortTerms : terms := mkTerms 256 (Some 3000) (Some 1000, None).
Definition minute : option Z * option Z := (Some 60000, Some 60000).
Definition shortReplies : list reply := [mkReply "7g7f" 1500 (Some 45); mkReply "resign" 200 None].
Lemma start1_ply : gamePly (bpos start1) = 1. Proof. vm_compute. reflexivity. Qed.
Lemma start1_side : side (abs (bpos start1)) = Sente. Proof. vm_compute. reflexivity. Qed.
Lemma short_judged : judged z0 shortTerms (abs (bpos start1)) (gamePly (bpos start1)) [] minute shortReplies (Won Sente) [Go (7, 7) (7, 6) false].
Proof.
  rewrite start1_ply. destruct two_legal1 as (A & B & _). eapply (played z0 shortTerms _ _ [] minute _ _ (Some 59500) (Go (7, 7) (7, 6) false)).
  - cbn. lia.
  - cbn [after]. rewrite start1_side. cbn [mine shortTerms minute tInc fst rTime]. exact (time_left (Some 1000) 60000 1500 ltac:(cbn; lia)).
  - intros (x & s & X & Y & L). cbn in X, Y. injection X as <-. injection Y as <-. lia.
  - reflexivity.
  - exact A.
  - unfold seldom, alike. cbn. lia.
  - eexists. exact B.
  - change (Won Sente) with (Won (other Gote)). replace Gote with (side (after (abs (bpos start1)) [Some (Go (7, 7) (7, 6) false)])) by (cbn [after play side]; rewrite start1_side; reflexivity).
    eapply (resigned z0 shortTerms _ _ _ _ _ _ (Some 59800)); [cbn; lia| |reflexivity]. cbn [after play side]. rewrite start1_side. cbn [other mine with_mine shortTerms minute tInc snd rTime].
    exact (time_left None 60000 200 ltac:(cbn; lia)).
Qed.
(* the position the game starts from is not counted *)
Definition rp1 (pt sq c : N) : N := (((pt * 1048576 + sq * 4096 + c * 7 + 12345) ^ 5) mod 18446744073709551557)%N.
Definition rh1 (hp c : N) : N := (((hp * 65536 + c * 11 + 54321) ^ 5) mod 18446744073709551557)%N.
Definition z1 : Zob := initZobrist rp1 rh1.
Definition startIn (z : Zob) : Board := boardSetPieces z (mkBoard (setGamePly clearPos 1) []) startPieces noHands.
Definition cycle : list move := [Go (4, 9) (4, 8) false; Go (4, 1) (4, 2) false; Go (4, 8) (4, 9) false; Go (4, 2) (4, 1) false].
Definition openTerms : terms := mkTerms 256 None (None, None).
Definition say (m : move) : reply := mkReply (usi_text m) 100 None.
Lemma start_in z : set_up z (startIn z) /\ same_position (abs (bpos (startIn z))) startArray. Proof. exact (start_arrays z (mkBoard (setGamePly clearPos 1) []) eq_refl). Qed.
Lemma put_off b t x s : on_board t -> ~ on_board s -> put b t x s = b s.
Proof. intros T N. unfold put. destruct (square_eqb s t) eqn:E; [|reflexivity]. apply sq_eqb_iff in E. subst. contradiction. Qed.
Lemma play_off P s t pr x : on_board s -> on_board t -> ~ on_board x -> at_square (play P (Go s t pr)) x = at_square P x.
Proof. intros S T N. cbn [play at_square]. rewrite !put_off by assumption. reflexivity. Qed.
Lemma cycle_run : samePosB (play_all (abs (bpos (startIn z1))) cycle) (abs (bpos (startIn z1))) = true. Proof. vm_compute. reflexivity. Qed.
Lemma cycle_back : same_position (play_all (abs (bpos (startIn z1))) cycle) (abs (bpos (startIn z1))).
Proof.
  apply samePosB_ok; [|exact cycle_run]. intros s N. unfold play_all, cycle. cbn [fold_left]. rewrite !play_off; try exact N; try reflexivity; unfold on_board; cbn [fst snd]; lia.
Qed.
Lemma not_counted : gameLoop z1 openTerms (map say (cycle ++ cycle ++ cycle)) (startIn z1) [] (None, None) = Done None.
Proof. vm_compute. reflexivity. Qed.
(* a declaration is believed *)
Lemma not_declarable : ~ may_declare (abs (bpos start1)).
Proof. intros H. apply (nyugyoku_exact z0 start1 okZob0 (set_up_reachable _ _ start1_set_up)) in H. vm_compute in H. discriminate H. Qed.
Lemma believed : gameLoop z0 openTerms [mkReply "win" 100 None] start1 [] (None, None) = Done (Some (start1, Nyugyoku)) /\ winOf openTerms start1 Nyugyoku = 0%N.
Proof. split; [reflexivity|vm_compute; reflexivity]. Qed.
