(* Repetition tests at the level of boards, and concrete games. *)
From Verif Require Export DrawProofs BoardFinal GenExamples.
Local Open Scope Z_scope.

Lemma draw_exact z b0 es line n : okZob z -> set_up z b0 -> let P0 := abs (bpos b0) in game no_double_pass P0 es line -> no_collision z P0 line n ->
  exists b r, calls z b0 es = Some b /\ isDraw (bpos b) n = Some r /\ repetition P0 line n r.
Proof.
  intros Z S P0 G NC. destruct (set_up_fresh z b0 S) as [F _]. exists (replay z b0 line). destruct (isDraw_ok z b0 line Z F (game_line _ _ _ _ G) n NC) as (r & E & R). exists r.
  split; [now apply history_exact|]. split; auto.
Qed.
Lemma draw_never_missed z b0 es line n : okZob z -> set_up z b0 -> let P0 := abs (bpos b0) in game no_double_pass P0 es line ->
  exists b r, calls z b0 es = Some b /\ isDraw (bpos b) n = Some r /\ forall i r', candidate line n i -> judgement P0 line i r' -> r <> NotRepetition.
Proof.
  intros Z S P0 G. destruct (set_up_fresh z b0 S) as [F _]. exists (replay z b0 line). pose proof (isDraw_hit z b0 line Z F (game_line _ _ _ _ G) n) as Hit.
  destruct (isDraw_scan z b0 line Z F (game_line _ _ _ _ G) n) as [(i & s & r & _ & _ & Lk & _ & Ed)|[Ed _]].
  - exists r. split; [now apply history_exact|]. split; [exact Ed|]. intros _ _ _ _. now apply look_real in Lk.
  - exists NotRepetition. split; [now apply history_exact|]. split; [exact Ed|]. intros i r' Ca J. destruct (Hit i r' Ca J) as (r2 & E2 & N2). congruence.
Qed.
Lemma repetition_unique P0 line n r r' : repetition P0 line n r -> repetition P0 line n r' -> r = r'.
Proof.
  assert (One : forall i r r', judgement P0 line i r -> judgement P0 line i r' -> r = r').
  { intros i a b A B. inversion A; inversion B; subst; try reflexivity; exfalso; auto. }
  intros A B. destruct A as [i r Ca J Le|Le], B as [i' r' Ca' J' Le'|Le'].
  - destruct (Nat.lt_trichotomy i i') as [L|[->|L]]; [now destruct (Le' i r Ca L)|eapply One; eauto|now destruct (Le i' r' Ca' L)].
  - now destruct (Le' i r Ca).
  - now destruct (Le i' r' Ca').
  - reflexivity.
Qed.
Lemma predict_agrees z b0 es line m n r : okZob z -> set_up z b0 -> let P0 := abs (bpos b0) in let line' := Some m :: line in
  game no_double_pass P0 es line -> legal_but_drop_mate (after P0 line) m -> no_collision z P0 line' n ->
  repetition P0 line' n r -> r <> RepetitionSuperior -> r <> RepetitionInferior ->
  (forall i, candidate line' n i -> same_position (after P0 line') (ago P0 line' i) ->
     (forall i', candidate line' n i' -> (i' < i)%nat -> ~ same_position (after P0 line') (ago P0 line' i')) ->
     unbroken line i /\ ~ (all_checks P0 line' Sente i /\ all_checks P0 line' Gote i)) ->
  exists b, calls z b0 es = Some b /\ let c := code (bpos b) m in isDraw (bpos (push z b c)) n = Some r /\ moveIsDraw z (bpos b) c n = Some r.
Proof.
  intros Z S P0 line' G L NC Rp N1 N2 Cond. destruct (set_up_fresh z b0 S) as [F _]. exists (replay z b0 line). split; [now apply history_exact|].
  assert (H : legal_line no_double_pass P0 line') by (split; [exact L|exact (game_line _ _ _ _ G)]).
  destruct (isDraw_ok z b0 line' Z F H n NC) as (r' & E & R). assert (r' = r) as -> by (eapply repetition_unique; eauto). cbv zeta. split; [exact E|].
  now apply (pred_same z b0 line m Z F H n r).
Qed.
Lemma predict_detects z b0 es line m n : okZob z -> set_up z b0 -> let P0 := abs (bpos b0) in game no_double_pass P0 es line -> legal_but_drop_mate (after P0 line) m ->
  exists b r r', calls z b0 es = Some b /\ let c := code (bpos b) m in isDraw (bpos (push z b c)) n = Some r /\ moveIsDraw z (bpos b) c n = Some r' /\
    (r = NotRepetition -> r' = NotRepetition) /\ r' <> RepetitionSuperior /\ r' <> RepetitionInferior.
Proof.
  intros Z S P0 G L. destruct (set_up_fresh z b0 S) as [F _]. exists (replay z b0 line).
  assert (H : legal_line no_double_pass P0 (Some m :: line)) by (split; [exact L|exact (game_line _ _ _ _ G)]).
  pose proof (pred_not z b0 line m Z F H n) as PN.
  assert (Ex : exists r, isDraw (bpos (replay z b0 (Some m :: line))) n = Some r) by (destruct (isDraw_scan z b0 _ Z F H n) as [(i & s & r & _ & _ & _ & _ & Ed)|[Ed _]]; eauto).
  destruct Ex as (r & Er). exists r.
  destruct (pred_scan z b0 line m Z F H n) as [(i & s & r' & _ & _ & Lk & _ & Ed)|[Ed _]]; [exists r'|exists NotRepetition]; (split; [now apply history_exact|]); cbv zeta; (split; [exact Er|]); (split; [exact Ed|]).
  - split; [intros ->; specialize (PN Er); congruence|]. revert Lk. unfold mlook. repeat match goal with |- context [if ?b then _ else _] => destruct b end; try discriminate; intros [= <-]; split; discriminate.
  - split; [reflexivity|]. split; discriminate.
Qed.

(* ---- deciding the collision hypothesis on concrete lines ---- *)
Definition listEqb (a b : list N) : bool := if list_eq_dec N.eq_dec a b then true else false.
Definition apart (p q : Position) : bool :=
  if listEqb (board p) (board q) && (turn p =? turn q)%N then listEqb (hands p) (hands q) || negb (getKey p =? getKey q)%N
  else negb (getKey p =? getKey q)%N && negb (boardKey (st p) =? boardKey (st q))%N.
(* the boards along a line, latest first *)
Fixpoint trail (z : Zob) (b0 : Board) (line : list (option move)) : list Board :=
  match line with
  | [] => [b0]
  | Some m :: line => let t := trail z b0 line in let b := hd b0 t in push z b (code (bpos b) m) :: t
  | None :: line => let t := trail z b0 line in let b := hd b0 t in mkBoard (fst (doNull (bpos b))) ((MoveNull, Some (snd (doNull (bpos b)))) :: bhist b) :: t
  end.
Lemma trail_hd z b0 line : hd b0 (trail z b0 line) = replay z b0 line.
Proof. induction line as [|[m|] l IH]; [reflexivity| |]; cbn [trail hd replay]; cbv zeta; now rewrite IH. Qed.
Lemma trail_nth z b0 line : forall i, (i <= length line)%nat -> nth_error (trail z b0 line) i = Some (replay z b0 (skipn i line)).
Proof.
  induction line as [|x l IH]; intros i Hi.
  - destruct i; [reflexivity|cbn in Hi; lia].
  - destruct i as [|i].
    + pose proof (trail_hd z b0 (x :: l)) as E. cbn [skipn]. rewrite <- E. destruct x; reflexivity.
    + cbn [length] in Hi. cbn [skipn]. rewrite <- (IH i) by lia. destruct x; reflexivity.
Qed.
Definition noCollisionB (z : Zob) (b0 : Board) (line : list (option move)) : bool :=
  let t := trail z b0 line in
  forallb (fun i => negb (Nat.even i) || match nth_error t i with Some b => apart (bpos (hd b0 t)) (bpos b) | None => false end) (seq 4 (DrawProofs.run line - 3)).
Lemma legal_line_skip may P0 line i : (i <= DrawProofs.run line)%nat -> legal_line may P0 line -> legal_line may P0 (skipn i line).
Proof.
  revert i. induction line as [|[m|] l IH]; intros [|i] Hi L; cbn [DrawProofs.run] in Hi; try exact L; try lia. cbn [skipn]. apply IH; [lia|apply L].
Qed.
Lemma noCollisionB_ok z b0 es line n : okZob z -> set_up z b0 -> game no_double_pass (abs (bpos b0)) es line -> noCollisionB z b0 line = true -> no_collision z (abs (bpos b0)) line n.
Proof.
  intros Z S G B i (Ev & H4 & _ & U). apply run_unbroken in U. destruct (set_up_ok z b0 S) as (G0 & C0 & _). apply game_line in G. pose proof (legal_line_skip _ _ _ i U G) as Gi.
  destruct (replay_ok _ z b0 line Z G0 C0 G) as (Gp & Cp & Sp). destruct (replay_ok _ z b0 _ Z G0 C0 Gi) as (Gq & Cq & Sq). fold (ago (abs (bpos b0)) line i) in Sq.
  unfold noCollisionB in B. cbv zeta in B. rewrite forallb_forall in B. specialize (B i ltac:(apply in_seq; lia)). cbv beta in B. rewrite Ev, trail_hd, trail_nth in B by (apply run_unbroken in U; apply U). cbn [negb orb] in B. revert Gp Cp Sp Gq Cq Sq B. clear -Z.
  generalize (bpos (replay z b0 line)) as p, (bpos (replay z b0 (skipn i line))) as q, (after (abs (bpos b0)) line) as P, (ago (abs (bpos b0)) line i) as Q. intros p q P Q. intros.
  assert (K1 : Z.of_N (getKey p) = scratch_hash z P) by (rewrite (hash_scratch z p) by auto; now apply scratch_same).
  assert (K2 : Z.of_N (getKey q) = scratch_hash z Q) by (rewrite (hash_scratch z q) by auto; now apply scratch_same).
  assert (L1 : Z.of_N (boardKey (st p)) = scratch_board_hash z P) by (rewrite (board_hash_scratch z p) by auto; apply board_hash_same; now apply same_same_board).
  assert (L2 : Z.of_N (boardKey (st q)) = scratch_board_hash z Q) by (rewrite (board_hash_scratch z q) by auto; apply board_hash_same; now apply same_same_board).
  unfold apart in B. destruct (listEqb (board p) (board q) && (turn p =? turn q)%N) eqn:E.
  - apply andb_prop in E as [E1 E2]. unfold listEqb in E1. destruct (list_eq_dec N.eq_dec (board p) (board q)) as [Eb|]; [|discriminate]. apply N.eqb_eq in E2.
    assert (SB : same_board P Q).
    { destruct Sp as (A1 & A2 & A3), Sq as (B1 & B2 & B3). split; [|rewrite <- A3, <- B3; cbn [abs side]; now rewrite E2]. intros s. rewrite <- A1, <- B1. cbn [abs at_square]. unfold pieceAt. now rewrite Eb. }
    split; [|intros _; exact SB]. intros X. apply orb_prop in B as [B|B].
    + unfold listEqb in B. destruct (list_eq_dec N.eq_dec (hands p) (hands q)) as [Eh|]; [|discriminate]. destruct Sp as (A1 & A2 & A3), Sq as (B1 & B2 & B3). destruct SB as [SB1 SB2]. split; [exact SB1|]. split; [|exact SB2].
      intros c k. rewrite <- A2, <- B2. cbn [abs in_hand]. unfold handOf. now rewrite Eh.
    + apply negb_true_iff, N.eqb_neq in B. exfalso. apply B. apply N2Z.inj. congruence.
  - apply andb_prop in B as [B1 B2]. apply negb_true_iff, N.eqb_neq in B1. apply negb_true_iff, N.eqb_neq in B2.
    split; intros X; exfalso; [apply B1|apply B2]; apply N2Z.inj; congruence.
Qed.

(* ---- a rook checks the king on the first and second rank in turn; gote to move, in check ---- *)
Definition perpBoard : Board := boardOf 1 (sparse [(0, 24); (36, 6); (80, 8)]%N) noHands.
Definition k1 : move := Go (1, 1) (1, 2) false.  Definition r1 : move := Go (5, 1) (5, 2) false.
Definition k2 : move := Go (1, 2) (1, 1) false.  Definition r2 : move := Go (5, 2) (5, 1) false.
Definition round : list (option move) := [Some r2; Some k2; Some r1; Some k1].
Definition twice : list (option move) := round ++ round.
Definition plays (line : list (option move)) : list event := map (fun x => match x with Some m => Play m | None => Pass end) (rev line).
Lemma runs_game b0 line : set_up z0 b0 -> option_map snd (runB false z0 b0 [] (plays line)) = Some line -> game no_double_pass (abs (bpos b0)) (plays line) line.
Proof.
  intros S R. destruct (runB false z0 b0 [] (plays line)) as [[b l]|] eqn:E; [|discriminate R]. cbn [option_map snd] in R. injection R as ->.
  exact (proj1 (runB_ok false z0 b0 okZob0 S _ [] b0 [] b _ (g_start _ _) eq_refl E)).
Qed.
Lemma perp_set_up : set_up z0 perpBoard. Proof. apply boardOf_set_up. vm_compute. reflexivity. Qed.
Lemma twice_runs : option_map snd (runB false z0 perpBoard [] (plays twice)) = Some twice. Proof. vm_compute. reflexivity. Qed.
Lemma twice_game : game no_double_pass (abs (bpos perpBoard)) (plays twice) twice. Proof. exact (runs_game _ _ perp_set_up twice_runs). Qed.
Lemma twice_apart : noCollisionB z0 perpBoard twice = true. Proof. vm_compute. reflexivity. Qed.
Lemma twice_no_collision n : no_collision z0 (abs (bpos perpBoard)) twice n. Proof. exact (noCollisionB_ok z0 perpBoard _ twice n okZob0 perp_set_up twice_game twice_apart). Qed.
Lemma twice_draw : isDraw (bpos (replay z0 perpBoard twice)) 100 = Some RepetitionWin. Proof. vm_compute. reflexivity. Qed.
Lemma twice_repetition : repetition (abs (bpos perpBoard)) twice 100 RepetitionWin.
Proof.
  destruct (draw_exact z0 perpBoard _ twice 100 okZob0 perp_set_up twice_game (twice_no_collision 100)) as (b & r & E & D & R). rewrite (history_exact z0 perpBoard _ _ okZob0 perp_set_up twice_game) in E. assert (b = replay z0 perpBoard twice) as -> by congruence.
  pose proof twice_draw as T. assert (r = RepetitionWin) as -> by congruence. exact R.
Qed.
(* the first time round *)
Lemma legal_line_app may P0 a b : legal_line may P0 (a ++ b) -> legal_line may P0 b.
Proof. induction a as [|[m|] a IH]; cbn [app legal_line]; intros H; [exact H|apply IH, H|apply IH, H]. Qed.
Lemma line_game may P0 line : legal_line may P0 line -> game may P0 (plays line) line.
Proof.
  unfold plays. induction line as [|[m|] l IH]; intros L; [apply g_start| |]; cbn [rev]; rewrite map_app; cbn [map].
  - apply g_play; [apply IH|]; apply L.
  - apply g_pass; [apply IH| |]; apply L.
Qed.
Lemma tail_game may P0 a m l : legal_line may P0 (a ++ Some m :: l) -> exists es, game may P0 es l /\ legal_but_drop_mate (after P0 l) m.
Proof. intros H. apply legal_line_app in H. exists (plays l). split; [apply line_game|]; apply H. Qed.
Lemma round_game : exists es, game no_double_pass (abs (bpos perpBoard)) es (tl round) /\ legal_but_drop_mate (after (abs (bpos perpBoard)) (tl round)) r2.
Proof. exact (tail_game _ _ round r2 (tl round) (game_line _ _ _ _ twice_game)). Qed.
Lemma round_runs : let b := replay z0 perpBoard (tl round) in let c := code (bpos b) r2 in
  isDraw (bpos (push z0 b c)) 100 = Some RepetitionWin /\ moveIsDraw z0 (bpos b) c 100 = Some RepetitionDraw.
Proof. vm_compute. split; reflexivity. Qed.
Lemma predict_start_wrong : exists b0 es line m b, set_up z0 b0 /\ game no_double_pass (abs (bpos b0)) es line /\ legal_but_drop_mate (after (abs (bpos b0)) line) m /\ calls z0 b0 es = Some b /\
  let c := code (bpos b) m in isDraw (bpos (push z0 b c)) 100 = Some RepetitionWin /\ moveIsDraw z0 (bpos b) c 100 = Some RepetitionDraw.
Proof.
  destruct round_game as (es & G & L). exists perpBoard, es, (tl round), r2, (replay z0 perpBoard (tl round)). split; [exact perp_set_up|]. split; [exact G|]. split; [exact L|]. split; [exact (history_exact z0 perpBoard _ _ okZob0 perp_set_up G)|]. exact round_runs.
Qed.
(* the second time round the prediction is right *)
Lemma twice_same4 : let p := bpos (replay z0 perpBoard twice) in let q := bpos (replay z0 perpBoard round) in board p = board q /\ hands p = hands q /\ turn p = turn q.
Proof. vm_compute. repeat split; reflexivity. Qed.
Lemma twice_calm : inCheck (bpos (replay z0 perpBoard (tl twice))) = false. Proof. vm_compute. reflexivity. Qed.
Lemma same_replay z b0 l l' : okZob z -> set_up z b0 -> legal_line no_double_pass (abs (bpos b0)) l -> legal_line no_double_pass (abs (bpos b0)) l' ->
  (let p := bpos (replay z b0 l) in let q := bpos (replay z b0 l') in board p = board q /\ hands p = hands q /\ turn p = turn q) ->
  same_position (after (abs (bpos b0)) l) (after (abs (bpos b0)) l').
Proof.
  intros Z S L L' (E1 & E2 & E3). destruct (set_up_ok z b0 S) as (G0 & C0 & _). destruct (replay_ok _ z b0 l Z G0 C0 L) as (_ & _ & A). destruct (replay_ok _ z b0 l' Z G0 C0 L') as (_ & _ & B).
  eapply same_trans; [apply same_sym; exact A|]. eapply same_trans; [|exact B]. apply same_intro; [intros s _; unfold pieceAt; now rewrite E1|intros c hp _ _; unfold handOf; now rewrite E2|exact E3].
Qed.
Lemma calm_replay z b0 l : okZob z -> set_up z b0 -> legal_line no_double_pass (abs (bpos b0)) l -> inCheck (bpos (replay z b0 l)) = false ->
  ~ in_check (after (abs (bpos b0)) l) (side (after (abs (bpos b0)) l)).
Proof.
  intros Z S L E X. destruct (set_up_ok z b0 S) as (G0 & C0 & _). destruct (replay_ok _ z b0 l Z G0 C0 L) as (G & C & A). apply not_true_iff_false in E. apply E. apply (inCheck_exact z); auto.
  rewrite (proj2 (proj2 A)). eapply in_check_same; [apply same_sym; exact A|exact X].
Qed.
Lemma cond_generic z b0 (r0 r3 : list (option move)) m : okZob z -> set_up z b0 -> let P0 := abs (bpos b0) in let line := r3 ++ r0 in let line' := Some m :: line in
  DrawProofs.run line' = 8%nat -> length r3 = 3%nat -> legal_line no_double_pass P0 line' -> side P0 = Gote -> r0 <> [] -> same_position (after P0 line') (after P0 r0) ->
  side (after P0 line) = Sente -> ~ in_check (after P0 line) (side (after P0 line)) -> forall n,
  forall i, candidate line' n i -> same_position (after P0 line') (ago P0 line' i) ->
     (forall i', candidate line' n i' -> (i' < i)%nat -> ~ same_position (after P0 line') (ago P0 line' i')) ->
     unbroken line i /\ ~ (all_checks P0 line' Sente i /\ all_checks P0 line' Gote i).
Proof.
  intros Z S P0 line line' R L3 LL Sg _ S4 Ss NC n i Ca Sm First. pose proof Ca as (Ev & H4 & Hn & U). apply run_unbroken in U.
  assert (A4 : ago P0 line' 4 = after P0 r0). { unfold ago, line', line. destruct r3 as [|a [|b [|c [|]]]]; try discriminate L3. reflexivity. }
  assert (i <= 7)%nat.
  { destruct (Nat.le_gt_cases i 7) as [X|X]; [exact X|]. exfalso. apply (First 4%nat); [|lia|now rewrite A4]. split; [reflexivity|]. split; [lia|]. split; [lia|]. apply run_unbroken. lia. }
  split; [apply run_unbroken; unfold line' in R; cbn [DrawProofs.run] in R; lia|]. intros [_ X]. apply NC. specialize (X 1%nat ltac:(lia)). change (ago P0 line' 1) with (after P0 line) in X. cbn [other] in X. rewrite Ss. now apply X.
Qed.
Lemma side_move P0 m l : side (after P0 (Some m :: l)) = other (side (after P0 l)). Proof. now destruct m. Qed.
Lemma perp_side : side (abs (bpos perpBoard)) = Gote. Proof. reflexivity. Qed.
Lemma twice_cond n : let P0 := abs (bpos perpBoard) in let line' := Some r2 :: tl twice in
  forall i, candidate line' n i -> same_position (after P0 line') (ago P0 line' i) ->
     (forall i', candidate line' n i' -> (i' < i)%nat -> ~ same_position (after P0 line') (ago P0 line' i')) ->
     unbroken (tl twice) i /\ ~ (all_checks P0 line' Sente i /\ all_checks P0 line' Gote i).
Proof.
  pose proof (game_line _ _ _ _ twice_game) as L. pose proof (legal_line_app _ _ round round L) as L0. pose proof (legal_line_app _ _ [Some r2] (tl twice) L) as L1.
  refine (cond_generic z0 perpBoard round (tl round) r2 okZob0 perp_set_up eq_refl eq_refl L perp_side _ (same_replay z0 perpBoard twice round okZob0 perp_set_up L L0 twice_same4) _ (calm_replay z0 perpBoard (tl twice) okZob0 perp_set_up L1 twice_calm) n); [discriminate|].
  unfold round. cbn [tl app]. rewrite !side_move. cbn [after]. now rewrite perp_side.
Qed.
Lemma twice_tail : game no_double_pass (abs (bpos perpBoard)) (plays (tl twice)) (tl twice) /\ legal_but_drop_mate (after (abs (bpos perpBoard)) (tl twice)) r2.
Proof. pose proof (game_line _ _ _ _ twice_game) as L. split; [exact (line_game _ _ _ (legal_line_app _ _ [Some r2] (tl twice) L))|exact (proj1 L)]. Qed.
(* gote drops a pawn, sente's rook takes it and goes home: the same squares, but gote has a pawn less *)
Definition pawnBoard : Board := boardOf 1 (sparse [(0, 24); (40, 6); (80, 8)]%N) [[0; 0; 0; 0; 0; 0; 0]; [1; 0; 0; 0; 0; 0; 0]]%N.
Definition pawnLine : list (option move) :=
  [Some (Go (1, 2) (1, 1) false); Some (Go (5, 4) (5, 3) false); Some (Go (1, 1) (1, 2) false); Some (Go (5, 5) (5, 4) false); Some (Drop FU (5, 4))].
Definition home : move := Go (5, 3) (5, 5) false.
Lemma pawn_set_up : set_up z0 pawnBoard. Proof. apply boardOf_set_up. vm_compute. reflexivity. Qed.
Lemma pawn_runs : option_map snd (runB false z0 pawnBoard [] (plays (Some home :: pawnLine))) = Some (Some home :: pawnLine). Proof. vm_compute. reflexivity. Qed.
Lemma pawn_game : game no_double_pass (abs (bpos pawnBoard)) (plays (Some home :: pawnLine)) (Some home :: pawnLine). Proof. exact (runs_game _ _ pawn_set_up pawn_runs). Qed.
Lemma pawn_game1 : game no_double_pass (abs (bpos pawnBoard)) (plays pawnLine) pawnLine. Proof. exact (line_game _ _ _ (legal_line_app _ _ [Some home] _ (game_line _ _ _ _ pawn_game))). Qed.
Lemma home_legal : legal_but_drop_mate (after (abs (bpos pawnBoard)) pawnLine) home.
Proof. pose proof (game_line _ _ _ _ pawn_game) as L. exact (proj1 L). Qed.
Lemma home_runs : let b := replay z0 pawnBoard pawnLine in let c := code (bpos b) home in
  isDraw (bpos (push z0 b c)) 100 = Some RepetitionInferior /\ moveIsDraw z0 (bpos b) c 100 = Some NotRepetition.
Proof. vm_compute. split; reflexivity. Qed.
Lemma predict_inferior_wrong : exists b0 es line m b, set_up z0 b0 /\ game no_double_pass (abs (bpos b0)) es line /\ legal_but_drop_mate (after (abs (bpos b0)) line) m /\ calls z0 b0 es = Some b /\
  let c := code (bpos b) m in isDraw (bpos (push z0 b c)) 100 = Some RepetitionInferior /\ moveIsDraw z0 (bpos b) c 100 = Some NotRepetition.
Proof.
  exists pawnBoard, (plays pawnLine), pawnLine, home, (replay z0 pawnBoard pawnLine). split; [exact pawn_set_up|]. split; [exact pawn_game1|]. split; [exact home_legal|]. split; [exact (history_exact z0 pawnBoard _ _ okZob0 pawn_set_up pawn_game1)|]. exact home_runs.
Qed.
Lemma pawn_apart : noCollisionB z0 pawnBoard (Some home :: pawnLine) = true. Proof. vm_compute. reflexivity. Qed.
Lemma pawn_no_collision n : no_collision z0 (abs (bpos pawnBoard)) (Some home :: pawnLine) n. Proof. exact (noCollisionB_ok z0 pawnBoard _ _ n okZob0 pawn_set_up pawn_game pawn_apart). Qed.
(* two passes in a row, both taken back, lose the count of consecutive checks *)
Definition spoilt : list event := plays (Some k1 :: round) ++ [Pass; Pass; Unpass; Unpass].
Lemma spoilt_runs : option_map (fun x => (snd x, isDraw (bpos (push z0 (fst x) (code (bpos (fst x)) r1))) 100)) (runB true z0 perpBoard [] spoilt) = Some (Some k1 :: round, Some RepetitionDraw).
Proof. vm_compute. reflexivity. Qed.
Lemma unspoilt_runs : let b := replay z0 perpBoard (Some k1 :: round) in isDraw (bpos (push z0 b (code (bpos b) r1))) 100 = Some RepetitionWin.
Proof. vm_compute. reflexivity. Qed.
Lemma two_passes_wrong : exists b0 es line m b1 b2, set_up z0 b0 /\ game any_pass (abs (bpos b0)) es line /\ game any_pass (abs (bpos b0)) (es ++ [Pass; Pass; Unpass; Unpass]) line /\
  legal_but_drop_mate (after (abs (bpos b0)) line) m /\ calls z0 b0 es = Some b1 /\ calls z0 b0 (es ++ [Pass; Pass; Unpass; Unpass]) = Some b2 /\ b1 <> b2 /\
  isDraw (bpos (push z0 b1 (code (bpos b1) m))) 100 = Some RepetitionWin /\ isDraw (bpos (push z0 b2 (code (bpos b2) m))) 100 = Some RepetitionDraw.
Proof.
  pose proof (game_line _ _ _ _ twice_game) as L. pose proof (legal_line_app _ _ [Some r2; Some k2] (Some r1 :: Some k1 :: round) L) as L1. pose proof (legal_line_app _ _ [Some r1] (Some k1 :: round) L1) as L2. pose proof (line_game _ _ _ L2) as G1.
  pose proof spoilt_runs as R. destruct (runB true z0 perpBoard [] spoilt) as [[b2 l]|] eqn:E; [|discriminate R]. cbn [option_map fst snd] in R.
  assert (l = Some k1 :: round) as -> by congruence. assert (R2 : isDraw (bpos (push z0 b2 (code (bpos b2) r1))) 100 = Some RepetitionDraw) by congruence. clear R.
  destruct (runB_ok true z0 perpBoard okZob0 perp_set_up spoilt [] perpBoard [] b2 (Some k1 :: round) (g_start _ _) eq_refl E) as [G2 C2].
  exists perpBoard, (plays (Some k1 :: round)), (Some k1 :: round), r1, (replay z0 perpBoard (Some k1 :: round)), b2.
  split; [exact perp_set_up|]. split; [exact (game_weaken _ _ _ G1)|]. split; [exact G2|]. split; [exact (proj1 L1)|]. split; [exact (history_exact z0 perpBoard _ _ okZob0 perp_set_up G1)|]. split; [exact C2|].
  pose proof unspoilt_runs as R1. cbv zeta in R1. split; [|split; [exact R1|exact R2]]. intros X. rewrite X in R1. congruence.
Qed.
