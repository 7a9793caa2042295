(* KIF move lines: games and their ends are read back. *)
From Verif Require Export KifProofs.
From Verif Require Import KifText Ki2Text Ki2Proofs Rules Bridge GenClaims CommandFinal ClaimProofs PgnProofs.
Local Open Scope N_scope.

Lemma calm_colon t : forallb calm t = true -> existsb (N.eqb (ch "：")) t = false.
Proof.
  induction t as [|c t IH]; [reflexivity|]. cbn [forallb existsb]. rewrite andb_true_iff. intros [C F]. rewrite (IH F), orb_false_r. unfold calm in C. rewrite !andb_true_iff, negb_true_iff in C. rewrite N.eqb_sym. tauto.
Qed.
Lemma line_kept number body sec sum : existsb (N.eqb (ch "：")) body = false -> passedOver (kifLine number body sec sum) = false.
Proof.
  intros B. unfold kifLine. destruct (padLeft blank 4 (num number)) as [|c t] eqn:E.
  - exfalso. unfold padLeft in E. apply app_eq_nil in E as [_ E]. exact (proj1 (num_facts number) E).
  - assert (C : (c =? 42) = false).
    { unfold padLeft in E. destruct (num_cons number) as (d & t' & En & D). destruct (4 - List.length (num number))%nat as [|j]; cbn [repeat app] in E; [|injection E as <- _; reflexivity].
      rewrite En in E. injection E as <- _. unfold isDig in D. rewrite andb_true_iff, !N.leb_le in D. apply N.eqb_neq. lia. }
    assert (X : forall l, l = c :: t -> existsb (N.eqb (ch "：")) l = false -> passedOver (l ++ blank :: body ++ repeat blank 6 ++ stamp sec sum) = false).
    { intros l -> Q. cbn [app passedOver]. rewrite C. change (c :: t ++ ?x) with ((c :: t) ++ x). rewrite existsb_app, Q. cbn [existsb]. rewrite !existsb_app, B, (calm_colon _ (stamp_calm sec sum)), (calm_colon _ (blanks_calm 6)). reflexivity. }
    apply X; [reflexivity|]. rewrite <- E. apply calm_colon, pad_calm.
Qed.
Lemma time_back sec : timeOf [] (num (sec / 60) ++ colon :: two (sec mod 60)) 0 = Done sec.
Proof. rewrite time_value. f_equal. pose proof (N.div_mod sec 60 ltac:(lia)). lia. Qed.

(* ---- a move ---- *)
Lemma drop_line b k t number sec sum : on_board t -> nkind k < 8 -> k <> OU -> let m := code (bpos b) (Drop k t) in let l := moveLine number m (peek b) sec sum in
  passedOver l = false /\ parseKifMove b l = Done (mkRead (Some m) (Some sec) None).
Proof.
  intros T K O m l. destruct (ki2_drop_fields (bpos b) k t T K) as (E1 & E2 & E3 & E4). fold m in E1, E2, E3, E4. pose proof (nsquare_lt t T) as Lt.
  destruct (dest_read b m ltac:(rewrite E1; exact Lt)) as (a & c & dest & Ed & Ca & Cc & Sa & Na & Rd & Sq). destruct (hand_read k m K O E2) as [Cp Ip]. set (pc := nthN 0 handSymbols (moveDropHandPiece m)) in *.
  assert (Et : moveToKif m (peek b) = [a; c; pc; uDrop]) by (unfold moveToKif; rewrite E4, Ed; reflexivity).
  assert (Ep : padding m = repeat blank 4) by (unfold padding; rewrite E4; reflexivity).
  assert (Cb : forallb calm [a; c; pc; uDrop] = true) by (cbn [forallb]; rewrite Ca, Cc, Cp; reflexivity).
  assert (Bd : forall r, kifBody ([a; c; pc; uDrop] ++ r) = Some (SaidMove dest pc None, r)).
  { intros r. cbn [app]. unfold kifBody. rewrite (no_end a _ Na), Rd, Ip. cbn [kifOrigin]. rewrite N.eqb_refl. reflexivity. }
  unfold l, moveLine. rewrite Et, Ep. split.
  - apply line_kept. apply calm_colon. rewrite forallb_app, Cb. exact (blanks_calm 4).
  - unfold parseKifMove. rewrite (line_match number [a; c; pc; uDrop] 4 (SaidMove dest pc None) sec sum); [| |exists a, [c; pc; uDrop]; split; [reflexivity|exact Sa]|exact Bd].
    + rewrite time_back. cbn [obind]. rewrite Ip, Sq. cbn [obind]. rewrite E1. replace (nkind k - 1 + 1) with (nkind k) by (destruct k; reflexivity). rewrite (drop_made (bpos b) k t T K). reflexivity.
    + rewrite <- (app_nil_r (stamp sec sum)) at 1. rewrite !normalize_app by (exact Cb || apply blanks_calm || apply stamp_calm). cbn [normalize]. change (normalize []) with (@nil N). now rewrite app_nil_r.
Qed.
Lemma go_line b s t pr k number sec sum : good (bpos b) -> on_board s -> on_board t -> at_square (abs (bpos b)) s = Some (side (abs (bpos b)), k) ->
  let m := code (bpos b) (Go s t pr) in let l := moveLine number m (peek b) sec sum in passedOver l = false /\ parseKifMove b l = Done (mkRead (Some m) (Some sec) None).
Proof.
  intros G S T A m l. destruct (ki2_go_fields (bpos b) s t pr k G S T A) as (E1 & E2 & E3 & E4 & E5). fold m in E1, E2, E3, E4, E5. pose proof (nsquare_lt t T) as Lt. pose proof (nsquare_lt s S) as Ls.
  destruct (dest_read b m ltac:(rewrite E1; exact Lt)) as (a & c & dest & Ed & Ca & Cc & Sa & Na & Rd & Sq). destruct (piece_read k) as [Cp Ip]. set (pc := nthN 0 pieceSymbols (nkind k - 1)) in *.
  destruct (origin_read (nsquare s) Ls) as (x & y & Ef & Cx & Cy & Ro & X0 & X10 & Xi).
  set (body := [a; c; pc] ++ (if pr then [uPro] else []) ++ open_ :: [x; y] ++ [close_]).
  assert (Et : moveToKif m (peek b) = body) by (unfold moveToKif; rewrite E5, Ed, E4, E3, E2, Ef; reflexivity).
  set (kk := (if pr then 0 else 2)%nat). assert (Ep : padding m = repeat blank kk) by (unfold padding, kk; rewrite E5, E3; reflexivity).
  assert (Bd : forall r, kifBody (body ++ r) = Some (SaidMove dest pc (Some (pr, x, y)), r)).
  { intros r. unfold body. cbn [app]. unfold kifBody. rewrite (no_end a _ Na), Rd, Ip. pose proof (Ro pr r) as Q. rewrite <- app_assoc. cbn [app] in *. rewrite Q. reflexivity. }
  assert (Nm : forall r, normalize r = r -> normalize (body ++ r) = body ++ r).
  { intros r Nr. unfold body. rewrite <- !app_assoc. rewrite (normalize_app [a; c; pc]) by (cbn [forallb]; rewrite Ca, Cc, Cp; reflexivity). f_equal.
    assert (Q : normalize ([x; y; close_] ++ r) = [x; y; close_] ++ r) by (rewrite normalize_app by (cbn [forallb]; rewrite Cx, Cy; reflexivity); now rewrite Nr).
    destruct pr; cbn [app] in *; [rewrite normalize_pro; now rewrite Q|]. rewrite normalize_cons by reflexivity. now rewrite Q. }
  unfold l, moveLine. rewrite Et, Ep. split.
  - apply line_kept. unfold body. rewrite !existsb_app. rewrite (calm_colon [a; c; pc]) by (cbn [forallb]; rewrite Ca, Cc, Cp; reflexivity). rewrite (calm_colon _ (blanks_calm kk)).
    rewrite (calm_colon (open_ :: [x; y] ++ [close_])) by (cbn [app forallb]; rewrite Cx, Cy; reflexivity). destruct pr; reflexivity.
  - unfold parseKifMove. rewrite (line_match number body kk (SaidMove dest pc (Some (pr, x, y))) sec sum); [| |exists a, ([c; pc] ++ (if pr then [uPro] else []) ++ open_ :: [x; y] ++ [close_]); split; [reflexivity|exact Sa]|exact Bd].
    + rewrite time_back. cbn [obind]. rewrite Ip, Sq. cbn [obind]. rewrite X0, X10, Xi, E1. cbn [andb]. rewrite (go_made (bpos b) s t pr S T). reflexivity.
    + apply Nm. rewrite <- (app_nil_r (stamp sec sum)) at 1. rewrite !normalize_app by (apply blanks_calm || apply stamp_calm). change (normalize []) with (@nil N). now rewrite app_nil_r.
Qed.
Lemma move_line b mv number sec sum : good (bpos b) -> legal (abs (bpos b)) mv -> let m := code (bpos b) mv in let l := moveLine number m (peek b) sec sum in
  passedOver l = false /\ parseKifMove b l = Done (mkRead (Some m) (Some sec) None).
Proof.
  intros G L. pose proof (legal_shape (bpos b) mv G L) as S. destruct mv as [k t|s t pr].
  - destruct S as (T & K & O). now apply drop_line.
  - destruct S as (S & T & k & A). now apply (go_line b s t pr k).
Qed.

(* ---- a game ---- *)
Lemma peek_push z b m : peek (push z b m) = m. Proof. reflexivity. Qed.
Definition andThen (ms : list timed) (q : parsed) : parsed := mkParsed (map tMove ms ++ pMoves q) (map tSec ms ++ pTimes q) (pWin q) (pEndgame q) (pBoard q).
Lemma game_lines_read z : okZob z -> forall b ms, kif_game z b ms -> reachable z b -> well_formed (abs (bpos b)) -> forall number ls q, parseKif z (kif_board z b ms) ls = Done q ->
  parseKif z b (exportKif number (peek b) ms ++ ls) = Done (andThen ms q).
Proof.
  intros Z b ms H. induction H as [b|b mv sec sum ms L H IH]; intros R W number ls q Q.
  - cbn [exportKif app kif_board] in *. rewrite Q. destruct q; reflexivity.
  - destruct (reachable_ok z b Z R) as [G _]. destruct (move_line b mv number sec sum G L) as [P M]. cbn [exportKif app parseKif tMove tSec tSum]. rewrite P, M. cbn [obind rMove rTime].
    assert (LT : boardMoveIsLegal (bpos b) (code (bpos b) mv) = true).
    { apply (listed_is_legal z b _ Z R (wf_playable _ W)). exact (proj1 (proj2 (moves_complete z b Z R (wf_playable _ W))) mv L). }
    rewrite LT. destruct (push_wf z b mv Z R W L) as [R1 W1]. specialize (IH R1 W1 (number + 1) ls q Q). rewrite peek_push in IH. rewrite IH. reflexivity.
Qed.
Lemma game_read_back z b ms : okZob z -> kif_game z b ms -> reachable z b -> well_formed (abs (bpos b)) -> peek b = 0 ->
  parseKif z b (exportKif 1 0 ms) = Done (mkParsed (map tMove ms) (map tSec ms) None None (kif_board z b ms)).
Proof.
  intros Z H R W P. pose proof (game_lines_read z Z b ms H R W 1 [] _ eq_refl) as E. rewrite app_nil_r, P in E. rewrite E. unfold andThen. cbn [pMoves pTimes pWin pEndgame pBoard]. now rewrite !app_nil_r.
Qed.

(* ---- the end of a game ---- *)
Definition wordOf (r : reason) : Text := u match r with Resign => "投了" | Win => "入玉宣言" | Jishogi => "持将棋" | Sennichite => "千日手" | IllegalWin => "反則勝ち" | IllegalLose => "反則負け" end.
Definition gapOf (r : reason) : nat := match r with Resign => 8 | Win => 4 | Jishogi => 6 | Sennichite => 6 | IllegalWin => 4 | IllegalLose => 4 end.
Lemma end_text r : endWord r = wordOf r ++ repeat blank (gapOf r). Proof. destruct r; vm_compute; reflexivity. Qed.
Lemma end_calm r : forallb calm (wordOf r) = true. Proof. destruct r; vm_compute; reflexivity. Qed.
Lemma end_body r t : r <> Win -> kifBody (wordOf r ++ t) = Some (SaidEnd (wordOf r), t).
Proof. intros H. destruct r; try contradiction; reflexivity. Qed.
Lemma end_first r : exists c t, wordOf r = c :: t /\ isSpaceU c = false. Proof. destruct r; eexists _, _; (split; [vm_compute; reflexivity|reflexivity]). Qed.
Lemma end_line b r number sec sum : r <> Win -> let l := kifLine number (endWord r) sec sum in passedOver l = false /\ parseKifMove b l = Done (mkRead None (Some sec) (Some (wordOf r))).
Proof.
  intros H l. unfold l. rewrite end_text. split.
  - apply line_kept. apply calm_colon. rewrite forallb_app, end_calm. apply blanks_calm.
  - unfold parseKifMove. rewrite (line_match number (wordOf r) (gapOf r) (SaidEnd (wordOf r)) sec sum); [| |apply end_first|intros t; now apply end_body].
    + rewrite time_back. reflexivity.
    + rewrite <- (app_nil_r (stamp sec sum)) at 1. rewrite !normalize_app by (apply end_calm || apply blanks_calm || apply stamp_calm). change (normalize []) with (@nil N). now rewrite app_nil_r.
Qed.
Definition afterNumber (t : Text) : option (option N * string) :=
  match oneOf sideWords t with
  | Some (s, t) => match stripWord (u "手の") t with
                   | Some t => match oneOf howWords t with Some (h, _) => Some (decide (textEqb s (u "先") || textEqb s (u "下")) h) | None => None end
                   | None => None end
  | None => match oneOf drawWords t with Some (w, _) => Some (if textEqb w (u "中断") then (None, "%CHUDAN"%string) else (Some 0, "%SENNICHITE"%string)) | None => None end
  end.
Lemma strip_word w t : stripWord w (w ++ t) = Some t.
Proof. induction w as [|c w IH]; [reflexivity|]. cbn [app stripWord]. now rewrite N.eqb_refl. Qed.
Lemma result_split n w : matchResult (u "まで" ++ num n ++ u "手で" ++ w) = afterNumber w.
Proof.
  unfold matchResult. assert (S : snd (span (N.eqb uSpace) (u "まで" ++ num n ++ u "手で" ++ w)) = u "まで" ++ num n ++ u "手で" ++ w) by reflexivity. rewrite S, strip_word. clear S.
  destruct (num_cons n) as (d & t & E & D). assert (C : stripWord (u "、") (num n ++ u "手で" ++ w) = None).
  { rewrite E. change (u "、") with [12289]. cbn [app stripWord]. destruct (N.eqb_spec 12289 d) as [<-|]; [discriminate D|reflexivity]. }
  rewrite C. clear C. assert (Sp : span isDig (num n ++ u "手で" ++ w) = (num n, u "手で" ++ w)) by (exact (span_run isDig (num n) (ch "手") (ch "で" :: w) (proj1 (proj2 (num_facts n))) eq_refl)).
  rewrite Sp. rewrite E at 1. rewrite strip_word. reflexivity.
Qed.
Definition sideOf (number : N) : color := if number mod 2 =? 0 then Gote else Sente.
Definition read_code (r : reason) (number : N) : string :=
  match r with
  | Resign => "%TORYO" | Sennichite | Jishogi => "%SENNICHITE" | Win => ""
  | IllegalWin => match sideOf number with Gote => "%+ILLEGAL_ACTION" | Sente => "%-ILLEGAL_ACTION" end
  | IllegalLose => "%ILLEGAL_MOVE"
  end.
Definition read_win (r : reason) (c : color) : option N :=
  match r with Resign | IllegalWin => Some (winner (other c)) | IllegalLose => Some (winner c) | _ => Some 0 end.
Lemma result_read r number : r <> Win -> matchResult (resultLine r number) = Some (read_win r (sideOf number), read_code r number).
Proof.
  intros H. destruct r; try contradiction; unfold resultLine, read_code, sideOf, lastPlayer, read_win.
  - rewrite result_split. destruct (number mod 2 =? 0); vm_compute; reflexivity.
  - change (u "手で持将棋") with (u "手で" ++ u "持将棋"). rewrite result_split. vm_compute. reflexivity.
  - change (u "手で千日手") with (u "手で" ++ u "千日手"). rewrite result_split. vm_compute. reflexivity.
  - rewrite result_split. destruct (number mod 2 =? 0); vm_compute; reflexivity.
  - rewrite result_split. destruct (number mod 2 =? 0); vm_compute; reflexivity.
Qed.
Lemma win_not_read number : matchResult (resultLine Win number) = None.
Proof. unfold resultLine. change (u "手で入玉宣言") with (u "手で" ++ u "入玉宣言"). rewrite result_split. vm_compute. reflexivity. Qed.
Lemma result_parts r number : exists w, resultLine r number = u "まで" ++ w /\ existsb (N.eqb (ch "：")) w = false.
Proof.
  assert (X : forall n w, existsb (N.eqb (ch "：")) w = false -> existsb (N.eqb (ch "：")) (num n ++ w) = false) by (intros n w Hw; rewrite existsb_app, (calm_colon _ (num_calm n)); exact Hw).
  destruct r; eexists; (split; [reflexivity|]); apply X; try reflexivity; unfold lastPlayer; destruct (number mod 2 =? 0); reflexivity.
Qed.
Lemma result_line b r number : let l := resultLine r number in passedOver l = false /\ parseKifMove b l = Done (mkRead None None None).
Proof.
  intros l. destruct (result_parts r number) as (w & E & C). unfold l. rewrite E. split.
  - change (u "まで") with [12414; 12391]. cbn [app passedOver]. change (12414 =? 42) with false. change (existsb ?f (12414 :: 12391 :: w)) with (f 12414 || (f 12391 || existsb f w)). rewrite C. reflexivity.
  - unfold parseKifMove. rewrite normalize_app by reflexivity. reflexivity.
Qed.
Lemma end_read z b r number sec sum : r <> Win -> parseKif z b (exportEnd r number sec sum) = Done (mkParsed [] [sec] (read_win r (sideOf number)) (Some (read_code r number)) b).
Proof.
  intros H. unfold exportEnd. destruct (end_line b r number sec sum H) as [P M]. destruct (result_line b r number) as [P2 M2]. cbn [parseKif]. rewrite P, M. cbn [obind rMove rTime]. rewrite P2, M2. cbn [obind rMove rTime].
  rewrite (result_read r number H). reflexivity.
Qed.
Lemma side_push z b mv : okZob z -> reachable z b -> legal (abs (bpos b)) mv -> side (abs (bpos (push z b (code (bpos b) mv)))) = other (side (abs (bpos b))).
Proof. intros Z R L. destruct (push_same z b mv Z R L) as (_ & _ & ->). destruct mv; reflexivity. Qed.
Lemma side_after z : okZob z -> forall b ms, kif_game z b ms -> reachable z b -> forall i, side (abs (bpos b)) = sideOf i -> side (abs (bpos (kif_board z b ms))) = sideOf (i + N.of_nat (List.length ms)).
Proof.
  intros Z b ms H. induction H as [b|b mv sec sum ms L H IH]; intros R i S; cbn [kif_board tMove List.length]; [now rewrite N.add_0_r|].
  rewrite (IH (reachable_push z b mv Z R (proj1 L)) (i + 1)); [f_equal; lia|]. rewrite (side_push z b mv Z R L), S. unfold sideOf.
  pose proof (N.mod_lt i 2 ltac:(lia)). pose proof (N.mod_lt (i + 1) 2 ltac:(lia)). pose proof (N.div_mod i 2 ltac:(lia)). pose proof (N.div_mod (i + 1) 2 ltac:(lia)).
  destruct (N.eqb_spec (i mod 2) 0), (N.eqb_spec ((i + 1) mod 2) 0); try reflexivity; lia.
Qed.
Lemma game_end_read z b ms r sec sum : okZob z -> kif_game z b ms -> reachable z b -> well_formed (abs (bpos b)) -> peek b = 0 -> r <> Win ->
  parseKif z b (with_end ms r sec sum) = Done (mkParsed (map tMove ms) (map tSec ms ++ [sec]) (read_win r (sideOf (1 + N.of_nat (List.length ms)))) (Some (read_code r (1 + N.of_nat (List.length ms)))) (kif_board z b ms)).
Proof.
  intros Z H R W P N. pose proof (game_lines_read z Z b ms H R W 1 _ _ (end_read z (kif_board z b ms) r (1 + N.of_nat (List.length ms)) sec sum N)) as E. rewrite P in E. unfold with_end. rewrite E.
  unfold andThen. cbn [pMoves pTimes pWin pEndgame pBoard]. now rewrite app_nil_r.
Qed.
(* by resignation, repetition or an illegal move, from a board with Black to move *)
Lemma end_as_meant z b ms r sec sum : okZob z -> kif_game z b ms -> reachable z b -> well_formed (abs (bpos b)) -> peek b = 0 -> side (abs (bpos b)) = Sente -> r = Resign \/ r = Sennichite \/ r = IllegalLose ->
  let P := abs (bpos (kif_board z b ms)) in
  parseKif z b (with_end ms r sec sum) = Done (mkParsed (map tMove ms) (map tSec ms ++ [sec]) (end_win r P) (Some (end_code r P)) (kif_board z b ms)).
Proof.
  intros Z H R W P S D Q. assert (N : r <> Win) by (destruct D as [->|[->| ->]]; discriminate). rewrite (game_end_read z b ms r sec sum Z H R W P N).
  pose proof (side_after z Z b ms H R 1 S) as E. fold Q in E. rewrite <- E. destruct D as [->|[->| ->]]; reflexivity.
Qed.
(* ---- ends that are not read as they were meant ---- *)
Lemma side_next i : sideOf (1 + i) = other (sideOf i).
Proof.
  unfold sideOf. pose proof (N.mod_lt i 2 ltac:(lia)). pose proof (N.mod_lt (1 + i) 2 ltac:(lia)). pose proof (N.div_mod i 2 ltac:(lia)). pose proof (N.div_mod (1 + i) 2 ltac:(lia)).
  destruct (N.eqb_spec (i mod 2) 0), (N.eqb_spec ((1 + i) mod 2) 0); try reflexivity; lia.
Qed.
Lemma handicap_end z b ms sec sum : okZob z -> kif_game z b ms -> reachable z b -> well_formed (abs (bpos b)) -> peek b = 0 -> side (abs (bpos b)) = Gote ->
  exists q, parseKif z b (with_end ms Resign sec sum) = Done q /\ pWin q <> end_win Resign (abs (bpos (kif_board z b ms))).
Proof.
  intros Z H R W P S. eexists. split; [apply (game_end_read z b ms Resign sec sum Z H R W P); discriminate|]. cbn [pWin read_win end_win]. pose proof (side_after z Z b ms H R 0 S) as E. rewrite N.add_0_l in E. rewrite E, side_next.
  destruct (sideOf (N.of_nat (List.length ms))); discriminate.
Qed.
Lemma jishogi_end z b ms sec sum : okZob z -> kif_game z b ms -> reachable z b -> well_formed (abs (bpos b)) -> peek b = 0 ->
  exists q, parseKif z b (with_end ms Jishogi sec sum) = Done q /\ pEndgame q <> Some (end_code Jishogi (abs (bpos (kif_board z b ms)))).
Proof. intros Z H R W P. eexists. split; [apply (game_end_read z b ms Jishogi sec sum Z H R W P); discriminate|]. discriminate. Qed.
Lemma illegal_end z b ms sec sum : okZob z -> kif_game z b ms -> reachable z b -> well_formed (abs (bpos b)) -> peek b = 0 -> side (abs (bpos b)) = Sente ->
  exists q, parseKif z b (with_end ms IllegalWin sec sum) = Done q /\ pWin q = end_win IllegalWin (abs (bpos (kif_board z b ms))) /\ pEndgame q <> Some (end_code IllegalWin (abs (bpos (kif_board z b ms)))).
Proof.
  intros Z H R W P S. eexists. split; [apply (game_end_read z b ms IllegalWin sec sum Z H R W P); discriminate|]. cbn [pWin pEndgame read_win end_win read_code end_code]. rewrite (side_after z Z b ms H R 1 S).
  split; [reflexivity|]. destruct (sideOf _); discriminate.
Qed.
