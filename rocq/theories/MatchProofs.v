(* Games between engines are judged by the rules, and matches counted. *)
From Verif Require Export MatchSpec.
From Verif Require Import KeyProofs Rules Bridge IsLegal GenClaims BoardFinal PlayProofs TextProofs CommandFinal ClaimProofs DrawProofs DrawFinal.
Local Open Scope Z_scope.

Lemma zero_illegal p : boardMoveIsLegal p 0 = false.
Proof.
  unfold boardMoveIsLegal, moveIsPseudoLegal. cbv zeta. change (mvDrop 0) with false. cbn iota. change (mvPtFrom 0) with 0%N. change (mvTo 0) with 0%N.
  destruct (negb (pieceAt p (mvFrom 0) =? mkPiece (turn p) 0)%N || isSet (bbC p (turn p)) 0); [reflexivity|]. reflexivity.
Qed.
Lemma move_no_word P m : fits P m -> String.eqb (usi_text m) "resign" = false /\ String.eqb (usi_text m) "win" = false.
Proof.
  destruct m as [k t|s t pr]; cbn [fits]; cbv zeta; intros F.
  - destruct k; split; reflexivity.
  - destruct F as (O & _). destruct s as [x y]. unfold on_board in O. cbn [fst snd] in O. unfold usi_text, usi_square. cbn [fst String.append].
    assert (X : x = 1 \/ x = 2 \/ x = 3 \/ x = 4 \/ x = 5 \/ x = 6 \/ x = 7 \/ x = 8 \/ x = 9) by lia. repeat (destruct X as [->|X]; [split; reflexivity|]). subst x; split; reflexivity.
Qed.
Lemma mine_side {A} p (x : A * A) : ofSide (turn p) x = mine (side (abs p)) x.
Proof. unfold ofSide. cbn [abs side]. unfold colorN. change Black with 0%N. destruct (turn p =? 0)%N; reflexivity. Qed.
Lemma set_mine {A} p v (x : A * A) : setSide (turn p) v x = with_mine (side (abs p)) v x.
Proof. unfold setSide. cbn [abs side]. unfold colorN. change Black with 0%N. destruct (turn p =? 0)%N; reflexivity. Qed.
Lemma charge_in inc r t r' : in_time inc r t r' -> charge inc r t = Some r'.
Proof.
  intros H. destruct H as [t|r t L|r t L]; [reflexivity| |]; unfold charge; replace (match inc with Some i => r + i | None => r end) with (r + extra inc) by (destruct inc; cbn [extra]; lia); cbv zeta.
  - destruct (Z.ltb_spec (r + extra inc - t) 0); [lia|reflexivity].
  - destruct (Z.ltb_spec (r + extra inc - t) 0); [|lia]. destruct (Z.ltb_spec (-1000) (r + extra inc - t)); [reflexivity|lia].
Qed.
Lemma charge_out inc r t : too_late inc r t -> charge inc r t = None.
Proof.
  intros (x & -> & L). unfold charge; replace (match inc with Some i => x + i | None => x end) with (x + extra inc) by (destruct inc; cbn [extra]; lia); cbv zeta.
  destruct (Z.ltb_spec (x + extra inc - t) 0); [|lia]. destruct (Z.ltb_spec (-1000) (x + extra inc - t)); [lia|reflexivity].
Qed.
Definition lowB (g : terms) (r : reply) : bool := match tResign g, rPoints r with Some x, Some s => s <=? - x | _, _ => false end.
Lemma low_iff g r : lowB g r = true <-> hopeless g r.
Proof.
  unfold lowB, hopeless. split.
  - destruct (tResign g) as [x|]; [|discriminate]. destruct (rPoints r) as [s|]; [|discriminate]. intros L. exists x, s. split; [reflexivity|]. split; [reflexivity|]. now apply Z.leb_le.
  - intros (x & s & -> & -> & L). now apply Z.leb_le.
Qed.
Lemma low_no g r : ~ hopeless g r -> lowB g r = false.
Proof. intros N. destruct (lowB g r) eqn:E; [|reflexivity]. apply low_iff in E. contradiction. Qed.
(* the hashes that are kept are those of the positions reached *)
Definition hashes (z : Zob) (keys : list N) (seen : list position) : Prop := Forall2 (fun k Q => Z.of_N k = scratch_hash z Q) keys seen.
Lemma count_hashes z keys seen k P : hashes z keys seen -> Z.of_N k = scratch_hash z P -> count_occ N.eq_dec keys k = alike z P seen.
Proof.
  unfold alike.
  intros F E. induction F as [|k' Q keys seen E' F IH]; [reflexivity|]. cbn [count_occ filter]. rewrite <- E, <- E' in *. destruct (N.eq_dec k' k) as [->|N].
  - rewrite Z.eqb_refl. cbn [List.length]. now rewrite IH.
  - destruct (Z.eqb_spec (Z.of_N k') (Z.of_N k)) as [X|_]; [apply N2Z.inj in X; contradiction|exact IH].
Qed.
Lemma verdict_other p v : v = Won (other (side (abs p))) -> (turn p < 2)%N -> opp (turn p) = verdict_code v.
Proof. intros -> L. cbn [abs side]. assert (X : turn p = 0%N \/ turn p = 1%N) by lia. destruct X as [->| ->]; reflexivity. Qed.
Lemma verdict_own p : (turn p < 2)%N -> turn p = verdict_code (Won (side (abs p))).
Proof. intros L. cbn [abs side]. assert (X : turn p = 0%N \/ turn p = 1%N) by lia. destruct X as [->| ->]; reflexivity. Qed.

Section Games.
Variables (z : Zob) (g : terms).
Hypothesis OK : okZob z.
Definition agrees (b : Board) (P : position) (n : Z) : Prop := reachable z b /\ well_formed (abs (bpos b)) /\ same_position (abs (bpos b)) P /\ gamePly (bpos b) = n.
Lemma agrees_turn b P n : agrees b P n -> (turn (bpos b) < 2)%N.
Proof. intros (R & _). destruct (reachable_ok z b OK R) as [G _]. exact (v_turn _ (g_views _ G)). Qed.
Lemma over_same b P n : agrees b P n -> (isGameOver (bpos b) = true <-> forall m, ~ legal P m).
Proof.
  intros (R & W & S & _). rewrite (game_over z b OK R (wf_playable _ W)). split; intros H m L; apply (H m); eapply legal_same; eauto using same_sym.
Qed.
Lemma win_short b f n : gamePly (bpos b) = n -> n <= tDraw g -> winOf g b f = match f with Fourfold => 2%N | Nyugyoku | RepWin => turn (bpos b) | NoFlag | Illegal | RepLose | Timeup => opp (turn (bpos b)) end.
Proof. intros E L. unfold winOf. rewrite E. destruct (Z.ltb_spec (tDraw g) n); [lia|]. now destruct (isGameOver (bpos b)). Qed.
Lemma pushed b P n m : agrees b P n -> legal P m -> exists b1, b1 = push z b (code (bpos b) m) /\ agrees b1 (play P m) (n + 1) /\ legal (abs (bpos b)) m /\
  usiToMove (bpos b) (usi_text m) = Some (code (bpos b) m) /\ boardMoveIsLegal (bpos b) (code (bpos b) m) = true /\ inTables (code (bpos b) m) = true.
Proof.
  intros (R & W & S & E) L. pose proof (legal_same _ _ m (same_sym _ _ S) L) as L'. eexists. split; [reflexivity|]. destruct (push_wf z b m OK R W L') as [R1 W1]. destruct (reachable_ok z b OK R) as [G C].
  split; [split; [exact R1|split; [exact W1|split; [|rewrite push_ply; lia]]]|].
  - eapply same_trans; [apply push_same; auto|]. now apply play_same.
  - split; [exact L'|]. split; [apply (usi_round_trip z b m OK R (wf_playable _ W) L')|]. split; [|now apply legal_tables].
    apply (is_legal_exact z); auto; [apply (wf_playable _ W)|now apply legal_fits].
Qed.
Definition follows (b0 b : Board) (line : list (option move)) : Prop := exists es, game no_double_pass (abs (bpos b0)) es line /\ calls z b0 es = Some b.
Lemma follows_push b0 b line m : follows b0 b line -> legal (after (abs (bpos b0)) line) m -> follows b0 (push z b (code (bpos b) m)) (Some m :: line).
Proof. intros (es & G & E) L. exists (es ++ [Play m]). split; [apply g_play; [exact G|apply L]|]. now rewrite calls_app, E. Qed.
Lemma game_judged b0 (Su : set_up z b0) n0 line cl rs v ms : judged z g (abs (bpos b0)) n0 line cl rs v ms -> forall b keys, agrees b (after (abs (bpos b0)) line) (n0 + Z.of_nat (List.length line)) ->
  hashes z keys (reached (abs (bpos b0)) line) -> follows b0 b line ->
  exists b' f, gameLoop z g rs b keys cl = Done (Some (b', f)) /\ winOf g b' f = verdict_code v /\ calls z b (map Play ms) = Some b'.
Proof.
  intros J. induction J as [line cl rs P n L M|line cl r rs P n L T|line cl r rs t P n L T Hp|line cl r rs t P n L T B|line cl r rs t P n L T Hp B|line cl r rs t m P n L T B F I|line cl r rs t m P n L T Hp B I Sel O|line cl r rs t m rep P n L T Hp B I Sel NC Rp|line cl r rs t m P n L T Hp B I Sel O|line cl r rs t m v ms P n L T Hp B I Sel O J IH];
    intros b keys A K Fo; fold P in A; fold n in A; pose proof A as (R & W & Sb & E); pose proof (agrees_turn b P n A) as Tn; pose proof (proj2 (proj2 Sb)) as Sd;
    [|rewrite <- Sd in *; cbn [gameLoop]; rewrite E; destruct (Z.ltb_spec (tDraw g) n) as [X|_]; [lia|]; cbv zeta; rewrite !mine_side ..].
  - exists b, NoFlag. split; [|split; [|reflexivity]].
    + destruct rs; cbn [gameLoop]; rewrite E; destruct (Z.ltb_spec (tDraw g) n); [reflexivity|lia|reflexivity|lia].
    + unfold winOf. rewrite E. destruct (isGameOver (bpos b)) eqn:O.
      * exfalso. destruct M as [m M]. exact (proj1 (over_same b P n A) O m M).
      * destruct (Z.ltb_spec (tDraw g) n); [reflexivity|lia].
  - rewrite (charge_out _ _ _ T). exists b, Timeup. split; [reflexivity|]. split; [|reflexivity]. rewrite (win_short b _ n E L). now apply verdict_other.
  - rewrite (charge_in _ _ _ _ T). fold (lowB g r). rewrite (proj2 (low_iff g r) Hp). exists b, NoFlag. split; [reflexivity|]. split; [|reflexivity]. rewrite (win_short b _ n E L). now apply verdict_other.
  - rewrite (charge_in _ _ _ _ T). fold (lowB g r). rewrite B. exists b, NoFlag. split; [destruct (lowB g r); reflexivity|]. split; [|reflexivity]. rewrite (win_short b _ n E L). now apply verdict_other.
  - rewrite (charge_in _ _ _ _ T). fold (lowB g r). rewrite (low_no g r Hp), B. exists b, Nyugyoku. split; [reflexivity|]. split; [|reflexivity]. rewrite (win_short b _ n E L). now apply verdict_own.
  - rewrite (charge_in _ _ _ _ T). fold (lowB g r). destruct (move_no_word P m F) as [N1 N2]. rewrite B, N1, N2.
    destruct (usi_decides z b m OK R (wf_playable _ W) (fits_same _ _ m (same_sym _ _ Sb) F)) as [[X _]|[_ X]]; [exfalso; apply I; eapply legal_same; eauto|].
    rewrite X, zero_illegal. cbn [negb]. destruct (lowB g r).
    + exists b, NoFlag. split; [reflexivity|]. split; [|reflexivity]. rewrite (win_short b _ n E L). now apply verdict_other.
    + exists b, Illegal. split; [reflexivity|]. split; [|reflexivity]. rewrite (win_short b _ n E L). now apply verdict_other.
  - rewrite (charge_in _ _ _ _ T). fold (lowB g r). destruct (pushed b P n m A I) as (b1 & Eb & A1 & I' & U & Lg & Tb). destruct (reachable_ok z b OK R) as [G _].
    destruct (move_no_word _ m (legal_fits _ _ G I')) as [N1 N2]. rewrite (low_no g r Hp), B, N1, N2, U, Lg, Tb. cbn [negb]. rewrite <- Eb. cbn [count_occ]. destruct (N.eq_dec (getKey (bpos b1)) (getKey (bpos b1))) as [_|X]; [|congruence].
    assert (Kh : Z.of_N (getKey (bpos b1)) = scratch_hash z (play P m)) by (rewrite (hash_reachable z b1 OK (proj1 A1)); apply scratch_same; apply A1).
    rewrite (count_hashes z keys _ _ _ K Kh). unfold seldom in Sel. destruct (Nat.eqb_spec (S (alike z (play P m) (reached (abs (bpos b0)) line))) 4) as [X|_]; [lia|].
    pose proof (proj2 (over_same b1 _ _ A1) O) as Ov. rewrite Ov. exists b1, NoFlag. split; [reflexivity|]. split; [|cbn [map calls callOf step]; rewrite Eb; reflexivity].
    unfold winOf. rewrite Ov. assert (Sd1 : side (abs (bpos b1)) = other (side (abs (bpos b)))) by (rewrite (proj2 (proj2 (proj1 (proj2 (proj2 A1))))), Sd; destruct m; reflexivity).
    apply verdict_other; [|exact (agrees_turn b1 _ _ A1)]. rewrite Sd1. destruct (side (abs (bpos b))); reflexivity.
  - rewrite (charge_in _ _ _ _ T). fold (lowB g r). destruct (pushed b P n m A I) as (b1 & Eb & A1 & I' & U & Lg & Tb). destruct (reachable_ok z b OK R) as [G _].
    destruct (move_no_word _ m (legal_fits _ _ G I')) as [N1 N2]. rewrite (low_no g r Hp), B, N1, N2, U, Lg, Tb. cbn [negb]. rewrite <- Eb. cbn [count_occ]. destruct (N.eq_dec (getKey (bpos b1)) (getKey (bpos b1))) as [_|X]; [|congruence].
    assert (Kh : Z.of_N (getKey (bpos b1)) = scratch_hash z (play P m)) by (rewrite (hash_reachable z b1 OK (proj1 A1)); apply scratch_same; apply A1).
    rewrite (count_hashes z keys _ _ _ K Kh). unfold third_time in Sel. rewrite Sel. cbn [Nat.eqb].
    pose proof (follows_push b0 b line m Fo I) as Fo1. rewrite <- Eb in Fo1. destruct Fo1 as (es & Ge & Ec). destruct (draw_exact z b0 es (Some m :: line) intMax OK Su Ge NC) as (b2 & r2 & Ec2 & D & R2). rewrite Ec in Ec2. injection Ec2 as <-.
    pose proof (repetition_unique _ _ _ _ _ Rp R2) as Er. subst r2. change 2147483647 with intMax. rewrite D.
    assert (Sd1 : side (abs (bpos b1)) = side (play P m)) by (apply A1). rewrite <- Sd1. assert (Tn1 := agrees_turn b1 _ _ A1). assert (Cl : calls z b (map Play [m]) = Some b1) by (cbn [map calls callOf step]; rewrite Eb; reflexivity).
    assert (Pl : gamePly (bpos b1) = n + 1) by (apply A1).
    destruct rep; [exists b1, Fourfold|exists b1, Fourfold|exists b1, RepWin|exists b1, RepLose|exists b1, Fourfold|exists b1, Fourfold]; (split; [reflexivity|split; [rewrite (win_short b1 _ (n + 1) Pl ltac:(lia)); cbn [repetition_verdict]|exact Cl]]);
      solve [reflexivity|now apply verdict_own|now apply verdict_other].
  - rewrite (charge_in _ _ _ _ T). fold (lowB g r). destruct (pushed b P n m A I) as (b1 & Eb & A1 & I' & U & Lg & Tb). destruct (reachable_ok z b OK R) as [G _].
    destruct (move_no_word _ m (legal_fits _ _ G I')) as [N1 N2]. rewrite (low_no g r Hp), B, N1, N2, U, Lg, Tb. cbn [negb]. rewrite <- Eb. cbn [count_occ]. destruct (N.eq_dec (getKey (bpos b1)) (getKey (bpos b1))) as [_|X]; [|congruence].
    assert (Kh : Z.of_N (getKey (bpos b1)) = scratch_hash z (play P m)) by (rewrite (hash_reachable z b1 OK (proj1 A1)); apply scratch_same; apply A1).
    rewrite (count_hashes z keys _ _ _ K Kh). unfold third_time in Sel. rewrite Sel. cbn [Nat.eqb].
    pose proof (follows_push b0 b line m Fo I) as Fo1. rewrite <- Eb in Fo1. destruct Fo1 as (es & Ge & Ec). destruct (draw_never_missed z b0 es (Some m :: line) intMax OK Su Ge) as (b2 & r2 & Ec2 & D & _). rewrite Ec in Ec2. injection Ec2 as <-.
    change 2147483647 with intMax. rewrite D. assert (Cl : calls z b (map Play [m]) = Some b1) by (cbn [map calls callOf step]; rewrite Eb; reflexivity). assert (Pl : gamePly (bpos b1) = n + 1) by (apply A1).
    assert (Wn : forall f, winOf g b1 f = 2%N).
    { intros f. unfold winOf. destruct (isGameOver (bpos b1)) eqn:Ov; [exfalso; destruct O as [m' O]; exact (proj1 (over_same b1 _ _ A1) Ov m' O)|]. rewrite Pl. destruct (Z.ltb_spec (tDraw g) (n + 1)); [reflexivity|lia]. }
    destruct r2; [exists b1, Fourfold|exists b1, Fourfold|exists b1, RepWin|exists b1, RepLose|exists b1, Fourfold|exists b1, Fourfold]; (split; [reflexivity|split; [apply Wn|exact Cl]]).
  - rewrite (charge_in _ _ _ _ T). fold (lowB g r). destruct (pushed b P n m A I) as (b1 & Eb & A1 & I' & U & Lg & Tb). destruct (reachable_ok z b OK R) as [G _].
    destruct (move_no_word _ m (legal_fits _ _ G I')) as [N1 N2]. rewrite (low_no g r Hp), B, N1, N2, U, Lg, Tb. cbn [negb]. rewrite <- Eb. cbn [count_occ]. destruct (N.eq_dec (getKey (bpos b1)) (getKey (bpos b1))) as [_|X]; [|congruence].
    assert (Kh : Z.of_N (getKey (bpos b1)) = scratch_hash z (play P m)) by (rewrite (hash_reachable z b1 OK (proj1 A1)); apply scratch_same; apply A1).
    rewrite (count_hashes z keys _ _ _ K Kh). unfold seldom in Sel. destruct (Nat.eqb_spec (S (alike z (play P m) (reached (abs (bpos b0)) line))) 4) as [X|_]; [lia|].
    destruct (isGameOver (bpos b1)) eqn:Ov; [exfalso; destruct O as [m' O]; exact (proj1 (over_same b1 _ _ A1) Ov m' O)|].
    rewrite set_mine. pose proof (follows_push b0 b line m Fo I) as Fo1. rewrite <- Eb in Fo1.
    assert (A2 : agrees b1 (after (abs (bpos b0)) (Some m :: line)) (n0 + Z.of_nat (List.length (Some m :: line)))) by (replace (n0 + Z.of_nat (List.length (Some m :: line))) with (n + 1) by (unfold n; cbn [List.length]; lia); exact A1).
    destruct (IH b1 (getKey (bpos b1) :: keys) A2 (Forall2_cons _ _ Kh K) Fo1) as (b' & f & X1 & X2 & X3). exists b', f. split; [exact X1|]. split; [exact X2|]. cbn [map calls callOf step]. rewrite <- Eb. exact X3.
Qed.
Lemma game_from_start b0 cl rs v ms : set_up z b0 -> well_formed (abs (bpos b0)) -> judged z g (abs (bpos b0)) (gamePly (bpos b0)) [] cl rs v ms ->
  exists b f, gameLoop z g rs b0 [] cl = Done (Some (b, f)) /\ winOf g b f = verdict_code v /\ calls z b0 (map Play ms) = Some b.
Proof.
  intros Su W J. apply (game_judged b0 Su _ _ _ _ _ _ J).
  - split; [exact (set_up_reachable z b0 Su)|]. split; [exact W|]. split; [apply PlayProofs.same_refl|]. cbn [List.length]. lia.
  - constructor.
  - exists []. split; [constructor|reflexivity].
Qed.
End Games.
(* ---- counting ---- *)
Local Arguments N.add : simpl never.
Lemma both_assoc a b c : both (both a b) c = both a (both b c).
Proof. unfold both. cbn. f_equal; lia. Qed.
Lemma both_none a : both a (mkStanding 0 0 0 0 0 0) = a.
Proof. destruct a. unfold both. cbn. f_equal; lia. Qed.
Lemma none_both a : both (mkStanding 0 0 0 0 0 0) a = a.
Proof. destruct a. reflexivity. Qed.
Lemma game_counted (keep : bool) n v c1 c2 : countGame (if keep then false else negb (Nat.even n)) (verdict_code v) (c1, c2) =
  (both c1 (score_of (side_of_first keep n) v), both c2 (score_of (other (side_of_first keep n)) v)).
Proof.
  unfold side_of_first. destruct c1, c2. destruct keep; [|destruct (Nat.even n)]; destruct v as [[|]|]; cbv -[N.add]; f_equal; f_equal; lia.
Qed.
Lemma match_counted keep vs : forall n c1 c2, countMatch keep n (map verdict_code vs) (c1, c2) = (both c1 (tally keep (fun c => c) n vs), both c2 (tally keep other n vs)).
Proof.
  induction vs as [|v vs IH]; intros n c1 c2; cbn [map countMatch tally]; [now rewrite !both_none|]. rewrite game_counted, IH, !both_assoc. reflexivity.
Qed.
Lemma match_total keep vs : countMatch keep 0 (map verdict_code vs) (noGames, noGames) = (tally keep (fun c => c) 0 vs, tally keep other 0 vs).
Proof. rewrite match_counted. unfold noGames. now rewrite !none_both. Qed.
Lemma total_games keep who vs : forall n, games_of (tally keep who n vs) = N.of_nat (List.length vs).
Proof.
  induction vs as [|v vs IH]; intros n; [reflexivity|]. cbn [tally List.length]. specialize (IH (S n)). unfold games_of, both in *. cbn in *.
  assert (X : games_of (score_of (who (side_of_first keep n)) v) = 1%N) by (destruct v as [[|]|], (who (side_of_first keep n)); reflexivity). unfold games_of in X. lia.
Qed.
Lemma match_count : forall keep vs, let c := countMatch keep 0 (map verdict_code vs) (noGames, noGames) in
  c = (tally keep (fun s => s) 0 vs, tally keep other 0 vs) /\ games_of (fst c) = N.of_nat (List.length vs) /\ games_of (snd c) = N.of_nat (List.length vs).
Proof. intros keep vs c. unfold c. rewrite match_total. cbn [fst snd]. rewrite !total_games. auto. Qed.
