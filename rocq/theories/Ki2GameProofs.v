(* KI2 games: moves, comments and the end are read back. *)
From Verif Require Export Ki2GameSpec.
From Verif Require Import Ki2Final KifText KifFinal Ki2Text Ki2Proofs Rules Bridge GenClaims CommandFinal ClaimProofs.
Local Open Scope N_scope.

Definition colonFree (t : Text) : Prop := existsb (N.eqb (ch "：")) t = false.
Definition moveText (t : Text) : Prop := exists c r, t = c :: r /\ (c = uBlack \/ c = uWhite) /\ colonFree r.
Lemma free_app s t : colonFree s -> colonFree t -> colonFree (s ++ t).
Proof. unfold colonFree. intros A B. now rewrite existsb_app, A, B. Qed.
Lemma free_nth l i : colonFree l -> colonFree [nthN 0 l i].
Proof.
  unfold colonFree, nthN. intros H. cbn [existsb]. rewrite orb_false_r. revert l H. induction (N.to_nat i) as [|n IH]; intros [|c l] H; try reflexivity; cbn [existsb nth] in *; apply orb_false_iff in H as [H1 H2]; [exact H1|exact (IH l H2)].
Qed.
Lemma free_nths (l : list Text) i : forallb (fun t => negb (existsb (N.eqb (ch "：")) t)) l = true -> colonFree (nthN [] l i).
Proof.
  unfold colonFree, nthN. revert l. induction (N.to_nat i) as [|n IH]; intros [|c l] H; try reflexivity; cbn [forallb nth] in *; apply andb_true_iff in H as [H1 H2]; [now apply negb_true_iff|exact (IH l H2)].
Qed.
Lemma free_rel r : colonFree (relText r). Proof. destruct r; reflexivity. Qed.
Lemma free_motion r : colonFree (motionText r). Proof. destruct r; reflexivity. Qed.
Lemma free_to b to : colonFree (ki2To b to).
Proof.
  unfold ki2To. destruct (negb (peek b =? 0) && (mvTo (peek b) =? to)); [reflexivity|]. unfold squareName. apply (free_app [_] [_]); now apply free_nth.
Qed.
Lemma space_text t : moveText t -> moveText (ki2Space t).
Proof.
  intros (c & r & -> & C & F). destruct r as [|x [|y [|w r]]]; try (exists c; eexists; split; [reflexivity|]; split; [exact C|exact F]). cbn [ki2Space]. destruct (x =? uSame); [|exists c; eexists; split; [reflexivity|]; split; [exact C|exact F]].
  exists c, [x; uSpace; y]. split; [reflexivity|]. split; [exact C|]. unfold colonFree in *. cbn [existsb] in *. change (ch "：" =? uSpace) with false. exact F.
Qed.
Lemma head_text us b to rest : colonFree rest -> moveText (((if us =? Black then uBlack else uWhite) :: ki2To b to) ++ rest).
Proof. intros F. exists (if us =? Black then uBlack else uWhite), (ki2To b to ++ rest). split; [reflexivity|]. split; [destruct (us =? Black); tauto|]. apply free_app; [apply free_to|exact F]. Qed.
Lemma done_same {A} (x y : A) : Done x = Done y -> y = x. Proof. intros E. now injection E. Qed.
Lemma written_text b m txt : moveToKi2 b m = Done txt -> moveText txt.
Proof.
  unfold moveToKi2. destruct (mvDrop m).
  - intros E. apply done_same in E. rewrite E. apply space_text, head_text. apply free_app; [now apply free_nth|]. match goal with |- colonFree (if ?x then _ else _) => destruct x end; reflexivity.
  - match goal with |- context [let '(_, _) := ?x in _] => destruct x as [rel motion] end. destruct (mvPromo m).
    + intros E. apply done_same in E. rewrite E. apply space_text, head_text. repeat apply free_app; try apply free_rel; try apply free_motion; [now apply free_nths|reflexivity].
    + match goal with |- context [if ?x =? 0 then _ else _] => generalize x end. intros n E. destruct (n =? 0); [discriminate|]. apply done_same in E. rewrite E. apply space_text, head_text.
      repeat apply free_app; try apply free_rel; try apply free_motion; [now apply free_nths|destruct (n =? 2); reflexivity].
Qed.
(* a move line is taken for nothing else *)
Lemma move_step fuel z b ms cs txt ls : moveText txt -> parseKi2 fuel z b ms cs (txt :: ls) = obind (parseMoveStr fuel z b txt) (fun q => parseKi2 fuel z (snd q) (ms ++ fst q) cs ls).
Proof.
  intros (c & r & -> & C & F). cbn [parseKi2]. assert (E1 : (c =? 42) = false) by (destruct C as [-> | ->]; reflexivity). rewrite E1.
  assert (E2 : existsb (N.eqb (ch "：")) (c :: r) = false) by (cbn [existsb]; rewrite F, orb_false_r; destruct C as [-> | ->]; reflexivity). rewrite E2.
  assert (E3 : ki2Result (c :: r) = None) by (destruct C as [-> | ->]; reflexivity). rewrite E3. reflexivity.
Qed.
Lemma pad_more n cs : (List.length cs <= n)%nat -> padTo (S n) cs = padTo n cs ++ [None].
Proof. intros L. unfold padTo. rewrite <- app_assoc. f_equal. rewrite Nat.sub_succ_l by exact L. apply repeat_cons. Qed.
Lemma pad_length n cs : (List.length cs <= n)%nat -> List.length (padTo n cs) = n.
Proof. intros L. unfold padTo. rewrite app_length, repeat_length. lia. Qed.
Lemma pad_full cs : padTo (List.length cs) cs = cs.
Proof. unfold padTo. now rewrite Nat.sub_diag, app_nil_r. Qed.
Lemma comment_step fuel z b ms m cs c : (List.length cs <= List.length ms)%nat -> exists cs1, (List.length cs1 <= S (List.length ms))%nat /\
  padTo (S (List.length ms)) cs1 = padTo (List.length ms) cs ++ [comment_of (mkNoted m c)] /\
  forall ls, parseKi2 fuel z b (ms ++ [m]) cs (commentLines c ++ ls) = parseKi2 fuel z b (ms ++ [m]) cs1 ls.
Proof.
  intros L. destruct c as [[|a t]|]; [exists cs; repeat split; [lia|now apply pad_more]| |exists cs; repeat split; [lia|now apply pad_more]].
  assert (N : exists x l, ms ++ [m] = x :: l) by (destruct ms as [|x l]; [exists m, []|exists x, (l ++ [m])]; reflexivity). destruct N as (x & l & N).
  pose proof (pad_length _ _ L) as P. assert (Q : List.length (padTo (List.length ms) cs ++ [Some (a :: t)]) = S (List.length ms)) by (rewrite app_length, P; cbn [List.length]; lia).
  exists (padTo (List.length ms) cs ++ [Some (a :: t)]). split; [lia|]. split; [rewrite <- Q at 1; apply pad_full|].
  intros ls. cbn [commentLines app parseKi2]. rewrite !N.eqb_refl. assert (Ln : (List.length (ms ++ [m]) - 1 = List.length ms)%nat) by (rewrite app_length; cbn [List.length]; lia). rewrite Ln, N. reflexivity.
Qed.
Lemma moves_read z : okZob z -> forall b ns, clear_game z b (played ns) -> reachable z b -> well_formed (abs (bpos b)) -> exists ls, exportNotes z b ns = Done ls /\
  forall n ms cs, (List.length cs <= List.length ms)%nat -> exists cs', (List.length cs' <= List.length (ms ++ played ns))%nat /\ padTo (List.length (ms ++ played ns)) cs' = padTo (List.length ms) cs ++ map comment_of ns /\
    forall tail, parseKi2 (S (S n)) z b ms cs (ls ++ tail) = parseKi2 (S (S n)) z (ki2_board z b (played ns)) (ms ++ played ns) cs' tail.
Proof.
  intros Z b ns. revert b. induction ns as [|[m c] ns IH]; intros b C R W.
  - exists []. split; [reflexivity|]. intros n ms cs L. exists cs. cbn [played map app ki2_board]. rewrite !app_nil_r. auto.
  - unfold played in C. cbn [map nMove] in C. fold (played ns) in C. inversion C as [|b0 mv ms0 Lg CL Cn Eb Em]. subst. destruct (move_read z b Z R (wf_playable _ W) mv Lg CL) as (txt & E & P). destruct (push_wf z b mv Z R W Lg) as [R1 W1].
    destruct (IH _ Cn R1 W1) as (ls & E' & P'). exists (txt :: commentLines c ++ ls). split; [cbn [exportNotes nMove nComment]; rewrite E; cbn [obind]; rewrite E'; reflexivity|]. intros n ms cs L.
    set (m := code (bpos b) mv) in *.
    pose proof (comment_step (S (S n)) z (push z b m) ms m cs c L) as X.
    destruct X as (cs1 & L1 & Q1 & S1). assert (L1' : (List.length cs1 <= List.length (ms ++ [m]))%nat) by (rewrite app_length; cbn [List.length]; lia). destruct (P' n (ms ++ [m]) cs1 L1') as (cs2 & L2 & Q2 & S2).
    assert (Ea : (ms ++ [m]) ++ played ns = ms ++ played (mkNoted m c :: ns)) by (rewrite <- app_assoc; reflexivity). rewrite Ea in L2, Q2, S2. exists cs2. split; [exact L2|]. split.
    + rewrite Q2. assert (Ln : List.length (ms ++ [m]) = S (List.length ms)) by (rewrite app_length; cbn [List.length]; lia). rewrite Ln, Q1, <- app_assoc. reflexivity.
    + intros tail. cbn [app]. rewrite (move_step _ _ _ _ _ txt _ (written_text _ _ _ E)), P. cbn [obind fst snd]. rewrite <- app_assoc, S1, S2. reflexivity.
Qed.

(* ---- the end ---- *)
Lemma white_side p : turn p = 0 \/ turn p = 1 -> (turn p =? White) = match side (abs p) with Gote => true | Sente => false end.
Proof. unfold abs. cbn [side]. unfold colorN. intros [-> | ->]; reflexivity. Qed.
Lemma number_text n : (0 <= n)%Z -> numZ n = num (Z.to_N n).
Proof. intros H. unfold numZ, printZ, num. destruct (Z.ltb_spec n 0); [lia|reflexivity]. Qed.
Lemma ki2_split n w : ki2Result (u "まで" ++ num n ++ u "手で" ++ w) = ki2Outcome w.
Proof.
  unfold ki2Result. rewrite strip_word. destruct (num_cons n) as (d & t & E & D).
  assert (Sp : span isDig (num n ++ u "手で" ++ w) = (num n, u "手で" ++ w)) by (exact (span_run isDig (num n) (ch "手") (ch "で" :: w) (proj1 (proj2 (num_facts n))) eq_refl)).
  rewrite Sp. rewrite E at 1. rewrite strip_word. reflexivity.
Qed.
(* the sign that is read after a win by the opponent's illegal action is that of the winner *)
Definition ki2_code (r : reason) (P : position) : string := match r with IllegalWin => end_code r (mkPosition (at_square P) (in_hand P) (other (side P))) | _ => end_code r P end.
Lemma ki2_end_result r b : turn (bpos b) = 0 \/ turn (bpos b) = 1 -> (0 < gamePly (bpos b))%Z -> ki2Result (ki2End r b) = Some (end_win r (abs (bpos b)), ki2_code r (abs (bpos b))).
Proof.
  intros T H. unfold ki2End. rewrite (white_side _ T). destruct r; rewrite number_text by lia; rewrite ki2_split; unfold ki2_code, end_win, end_code, winner; cbn [side other]; destruct (side (abs (bpos b))); vm_compute; reflexivity.
Qed.
Lemma ki2_end_parts r b : exists w, ki2End r b = u "まで" ++ w /\ colonFree w.
Proof.
  assert (X : forall n w, colonFree w -> colonFree (numZ n ++ w)).
  { intros n w Hw. apply free_app; [|exact Hw]. unfold numZ, printZ. destruct (n <? 0)%Z; [|exact (calm_colon _ (num_calm _))]. apply (free_app [_] (map N_of_ascii _)); [reflexivity|exact (calm_colon _ (num_calm _))]. }
  destruct r; unfold ki2End; eexists; (split; [reflexivity|]); apply X; try reflexivity; unfold blackIf; destruct (turn (bpos b) =? White); reflexivity.
Qed.
Lemma ki2_end_read fuel z b ms cs r : turn (bpos b) = 0 \/ turn (bpos b) = 1 -> (0 < gamePly (bpos b))%Z ->
  parseKi2 fuel z b ms cs [ki2End r b] = Done (mkKi2Read ms (padTo (List.length ms) cs) (end_win r (abs (bpos b))) (ki2_code r (abs (bpos b))) b).
Proof.
  intros T H. pose proof (ki2_end_result r b T H) as Q. destruct (ki2_end_parts r b) as (w & E & C). rewrite E in *. change (u "まで") with [12414; 12391] in *. cbn [app] in *. cbn [parseKi2]. change (12414 =? 42) with false.
  change (existsb (N.eqb (ch "：")) (12414 :: 12391 :: w)) with (existsb (N.eqb (ch "：")) w). rewrite C, Q. reflexivity.
Qed.
Lemma last_board z : okZob z -> forall b ms, clear_game z b ms -> reachable z b -> reachable z (ki2_board z b ms) /\ (gamePly (bpos b) <= gamePly (bpos (ki2_board z b ms)))%Z.
Proof.
  intros Z b ms C. induction C as [b|b mv ms L CL C IH]; intros R; cbn [ki2_board]; [split; [exact R|lia]|]. destruct (IH (reachable_push z b mv Z R (proj1 L))) as [R1 P]. rewrite push_ply in P. split; [exact R1|lia].
Qed.
Lemma ki2_game_read z b ns : okZob z -> reachable z b -> well_formed (abs (bpos b)) -> clear_game z b (played ns) -> exists ls, exportNotes z b ns = Done ls /\ let last := ki2_board z b (played ns) in
  (forall n, parseKi2 (S (S n)) z b [] [] ls = Done (mkKi2Read (played ns) (map comment_of ns) None "" last)) /\
  ((0 < gamePly (bpos b))%Z -> forall n r, parseKi2 (S (S n)) z b [] [] (ls ++ [ki2End r last]) = Done (mkKi2Read (played ns) (map comment_of ns) (end_win r (abs (bpos last))) (ki2_code r (abs (bpos last))) last)).
Proof.
  intros Z R W C. destruct (moves_read z Z b ns C R W) as (ls & E & P). exists ls. split; [exact E|]. intros last. destruct (last_board z Z b _ C R) as [R1 Y]. fold last in R1, Y. split.
  - intros n. destruct (P n [] [] (le_n 0)) as (cs & L & Q & X). cbn [app List.length] in *. rewrite <- (app_nil_r ls), X. cbn [parseKi2]. rewrite Q. reflexivity.
  - intros Y1 n r. destruct (P n [] [] (le_n 0)) as (cs & L & Q & X). cbn [app List.length] in *. rewrite X. fold last. rewrite (ki2_end_read _ z last (played ns) cs r); [rewrite Q; reflexivity| |lia].
    destruct (reachable_ok z last Z R1) as [G _]. pose proof (good_turn _ G). lia.
Qed.
Lemma ki2_end_as_meant z b ns r : okZob z -> reachable z b -> well_formed (abs (bpos b)) -> (0 < gamePly (bpos b))%Z -> clear_game z b (played ns) -> r <> IllegalWin ->
  exists ls, exportNotes z b ns = Done ls /\ let last := ki2_board z b (played ns) in forall n, parseKi2 (S (S n)) z b [] [] (ls ++ [ki2End r last]) =
    Done (mkKi2Read (played ns) (map comment_of ns) (end_win r (abs (bpos last))) (end_code r (abs (bpos last))) last).
Proof. intros Z R W Y C N. destruct (ki2_game_read z b ns Z R W C) as (ls & E & _ & P). exists ls. split; [exact E|]. intros last n. unfold last. rewrite (P Y n r). destruct r; try reflexivity. now destruct N. Qed.
Lemma ki2_illegal z b ns : okZob z -> reachable z b -> well_formed (abs (bpos b)) -> (0 < gamePly (bpos b))%Z -> clear_game z b (played ns) ->
  exists ls, exportNotes z b ns = Done ls /\ let last := ki2_board z b (played ns) in forall n, exists q, parseKi2 (S (S n)) z b [] [] (ls ++ [ki2End IllegalWin last]) = Done q /\
    kWin q = end_win IllegalWin (abs (bpos last)) /\ kEndgame q <> end_code IllegalWin (abs (bpos last)).
Proof.
  intros Z R W Y C. destruct (ki2_game_read z b ns Z R W C) as (ls & E & _ & P). exists ls. split; [exact E|]. intros last n. eexists. split; [exact (P Y n IllegalWin)|]. split; [reflexivity|].
  cbn [kEndgame ki2_code end_code side]. fold last. destruct (side (abs (bpos last))); discriminate.
Qed.
(* the number of moves is written as a negative number *)
Lemma ki2_negative fuel z b r : r <> Jishogi -> r <> IllegalLose -> (gamePly (bpos b) <= 0)%Z -> parseKi2 (S fuel) z b [] [] [ki2End r b] = Done (mkKi2Read [] [] None "" b).
Proof.
  intros N1 N2 H. destruct (ki2_end_parts r b) as (w & E & C).
  assert (F : exists w', w = 45 :: w').
  { destruct r; try contradiction; unfold ki2End in E; apply app_inv_head in E; rewrite <- E; unfold numZ, printZ; (destruct (Z.ltb_spec (gamePly (bpos b) - 1) 0) as [_|]; [|lia]); cbn [map app]; eexists; reflexivity. }
  destruct F as (w' & ->). rewrite E. clear E. change (u "まで") with [12414; 12391]. cbn [app]. cbn [parseKi2]. change (12414 =? 42) with false. change (existsb (N.eqb (ch "：")) (12414 :: 12391 :: 45 :: w')) with (existsb (N.eqb (ch "：")) (45 :: w')). rewrite C.
  assert (Q : ki2Result (12414 :: 12391 :: 45 :: w') = None) by reflexivity. rewrite Q.
  assert (M : parseMoveStr (S fuel) z b (12414 :: 12391 :: 45 :: w') = Done ([], b)).
  { unfold parseMoveStr. change (12414 :: 12391 :: 45 :: w') with ([12414; 12391] ++ 45 :: w'). rewrite (normalize_app [12414; 12391] (45 :: w') eq_refl). cbn [moveLoop skipn app]. reflexivity. }
  rewrite M. reflexivity.
Qed.
