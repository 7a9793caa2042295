(* Board.mate_move and Board.is_mate. *)
From Verif Require Export MateProofs.
Local Open Scope Z_scope.

Lemma odd_half n : n mod 2 = 1 -> 3 <= n -> exists h : nat, n = 2 * Z.of_nat h + 1 /\ (1 <= h)%nat.
Proof. intros M H. exists (Z.to_nat (n / 2)). pose proof (Z_div_mod_eq_full n 2). lia. Qed.
Lemma even_half n : n mod 2 = 0 -> 2 <= n -> exists h : nat, n = 2 * Z.of_nat h /\ (1 <= h)%nat.
Proof. intros M H. exists (Z.to_nat (n / 2)). pose proof (Z_div_mod_eq_full n 2). lia. Qed.

Section V.
Variables (z : Zob) (b : Board) (V : list move -> Rep -> Prop) (L : Z).
Hypotheses (Z : okZob z) (R : reachable z b) (W : well_formed (abs (bpos b))).
Hypothesis HV : forall ms r, legal_line no_double_pass (abs (bpos b)) (map Some ms) -> Z.of_nat (length ms) <= L -> r = RepetitionWin \/ r = RepetitionLose ->
  isDraw (bpos (replay z b (map Some ms))) 16 = Some r -> V ms r.
Lemma mateMove_sound ply m : Z.max 2 (ply - 3) <= L -> mateMove z b ply = Some m -> m <> 0%N ->
  exists mv, m = code (bpos b) mv /\ legal (abs (bpos b)) mv /\ in_check (play (abs (bpos b)) mv) (other (side (abs (bpos b)))) /\ lost V (abs (bpos b)) (Z.to_nat (ply - 1)) [mv].
Proof.
  intros B E N. unfold mateMove in E. destruct ((ply mod 2 =? 1) && (3 <=? ply)) eqn:A; [|discriminate E]. apply andb_prop in A as [A1 A2]. apply Z.eqb_eq in A1. apply Z.leb_le in A2.
  destruct (odd_half ply A1 A2) as (h & -> & Hh). destruct (oddPly _ _ _ _ _) as [[m'|]|] eqn:O; cbn [option_map] in E; try discriminate E; [|injection E as E; now rewrite <- E in N].
  injection E as ->. destruct (odd_ply z b V L Z HV (evenPly z (Z.to_nat (2 * Z.of_nat h + 1))) (2 * h) [] b (2 * Z.of_nat h + 1) m (here_start z b R W) ltac:(cbn [length]; lia)) as (mv & E & Lg & IC & Lo); [|exact O|].
  - intros ms' b1 Len H1 C1 E1. cbn [length] in Len. replace (2 * Z.of_nat h + 1 - 1) with (2 * Z.of_nat h) in E1 by lia. refine (even_ply z b V L Z HV _ h ms' b1 H1 C1 Hh _ E1). rewrite Len. lia.
  - exists mv. do 3 (split; auto). replace (Z.to_nat (2 * Z.of_nat h + 1 - 1)) with (2 * h)%nat by lia. exact Lo.
Qed.
Lemma isMate_sound ply : 2 <= ply -> Z.max 1 (ply - 3) <= L -> isMate z b ply = Some true -> lost V (abs (bpos b)) (Z.to_nat ply) [].
Proof.
  intros H2 B E. unfold isMate in E. destruct (Z.eqb_spec (ply mod 2) 0) as [A|A]; [|discriminate E]. destruct (inCheck (bpos b)) eqn:C; [|discriminate E].
  destruct (even_half ply A H2) as (h & -> & Hh). replace (Z.to_nat (2 * Z.of_nat h)) with (2 * h)%nat by lia. refine (even_ply z b V L Z HV _ h [] b (here_start z b R W) C Hh _ E). cbn [length]. lia.
Qed.
End V.

(* with the answers of is_draw as verdicts *)
Lemma mate_move_sound z b ply m : okZob z -> reachable z b -> well_formed (abs (bpos b)) -> mateMove z b ply = Some m -> m <> 0%N ->
  exists mv, m = code (bpos b) mv /\ legal (abs (bpos b)) mv /\ in_check (play (abs (bpos b)) mv) (other (side (abs (bpos b)))) /\ lost (is_draw_says z b) (abs (bpos b)) (Z.to_nat (ply - 1)) [mv].
Proof. intros Z R W. apply (mateMove_sound z b _ (Z.max 2 (ply - 3)) Z R W); [|lia]. intros ms r _ _ _ E. exact E. Qed.
Lemma is_mate_sound z b ply : okZob z -> reachable z b -> well_formed (abs (bpos b)) -> 2 <= ply -> isMate z b ply = Some true -> lost (is_draw_says z b) (abs (bpos b)) (Z.to_nat ply) [].
Proof. intros Z R W H. apply (isMate_sound z b _ (Z.max 1 (ply - 3)) Z R W); [|auto|lia]. intros ms r _ _ _ E. exact E. Qed.

(* histories *)
Lemma replay_app z b0 l l' : replay z b0 (l ++ l') = replay z (replay z b0 l') l.
Proof. induction l as [|[m|] l IH]; [reflexivity| |]; cbn [app replay]; now rewrite IH. Qed.
Lemma legal_app P P0 ms line : same_position P (after P0 line) -> legal_line no_double_pass P0 line -> legal_line no_double_pass P (map Some ms) ->
  legal_line no_double_pass P0 (map Some ms ++ line) /\ same_position (after P (map Some ms)) (after P0 (map Some ms ++ line)).
Proof.
  intros S H. induction ms as [|m ms IH]; cbn [map app legal_line after]; intros H'; [auto|]. destruct H' as [L H']. destruct (IH H') as [A B]. split.
  - split; [eapply legal0_same; eauto|exact A].
  - now apply play_same.
Qed.
Lemma history_ok z b0 es line : okZob z -> set_up z b0 -> game no_double_pass (abs (bpos b0)) es line ->
  calls z b0 es = Some (replay z b0 line) /\ reachable z (replay z b0 line) /\ same_position (abs (bpos (replay z b0 line))) (after (abs (bpos b0)) line) /\ legal_line no_double_pass (abs (bpos b0)) line.
Proof.
  intros Z S G. pose proof (history_exact z b0 es line Z S G) as E. pose proof (game_line _ _ _ _ G) as Ln. split; [exact E|].
  destruct (set_up_ok z b0 S) as (G0 & C0 & _). destruct (replay_ok _ z b0 line Z G0 C0 Ln) as (_ & _ & SP). split; [|auto].
  exists b0, es, line. split; [exact S|]. split; [|exact E]. clear - G. induction G; econstructor; eauto; exact I.
Qed.
Lemma rule_history z b0 line ms n r : okZob z -> set_up z b0 -> legal_line no_double_pass (abs (bpos b0)) line -> same_position (abs (bpos (replay z b0 line))) (after (abs (bpos b0)) line) ->
  legal_line no_double_pass (abs (bpos (replay z b0 line))) (map Some ms) -> no_collision z (abs (bpos b0)) (map Some ms ++ line) n ->
  isDraw (bpos (replay z (replay z b0 line) (map Some ms))) n = Some r -> repetition (abs (bpos b0)) (map Some ms ++ line) n r.
Proof.
  intros Z S Ln SP Lm NC E. destruct (legal_app _ _ ms line SP Ln Lm) as [La _]. destruct (set_up_fresh z b0 S) as [F _]. destruct (isDraw_ok z b0 _ Z F La n NC) as (r' & E' & Rp).
  rewrite replay_app in E'. congruence.
Qed.
Lemma draw_defined z b0 line ms n : okZob z -> set_up z b0 -> legal_line no_double_pass (abs (bpos b0)) line -> same_position (abs (bpos (replay z b0 line))) (after (abs (bpos b0)) line) ->
  legal_line no_double_pass (abs (bpos (replay z b0 line))) (map Some ms) -> exists r, isDraw (bpos (replay z (replay z b0 line) (map Some ms))) n = Some r.
Proof.
  intros Z S Ln SP Lm. destruct (legal_app _ _ ms line SP Ln Lm) as [La _]. destruct (set_up_fresh z b0 S) as [F _]. rewrite <- replay_app.
  destruct (isDraw_scan z b0 _ Z F La n) as [(i & s & r & _ & _ & _ & _ & Ed)|[Ed _]]; eauto.
Qed.
(* no repetition in fewer than four plies *)
Lemma draw_short z b0 ms n : okZob z -> set_up z b0 -> legal_line no_double_pass (abs (bpos b0)) (map Some ms) -> (length ms < 4)%nat -> isDraw (bpos (replay z b0 (map Some ms))) n = Some NotRepetition.
Proof.
  intros Z S Ln H. destruct (set_up_fresh z b0 S) as [F _]. destruct (isDraw_scan z b0 _ Z F Ln n) as [(i & s & r & (_ & I4 & _ & U & _) & _)|[Ed _]]; [|exact Ed]. rewrite map_length in U. lia.
Qed.

Lemma mate_move_rule z b0 es line ply : okZob z -> set_up z b0 -> let P0 := abs (bpos b0) in well_formed P0 -> game no_double_pass P0 es line ->
  (forall ms, legal_line no_double_pass P0 (map Some ms ++ line) -> Z.of_nat (length ms) <= Z.max 2 (ply - 3) -> no_collision z P0 (map Some ms ++ line) 16) ->
  exists b, calls z b0 es = Some b /\ forall m, mateMove z b ply = Some m -> m <> 0%N ->
  exists mv, m = code (bpos b) mv /\ legal (abs (bpos b)) mv /\ in_check (play (abs (bpos b)) mv) (other (side (abs (bpos b)))) /\
    lost (fun ms => repetition P0 (map Some ms ++ line) 16) (abs (bpos b)) (Z.to_nat (ply - 1)) [mv].
Proof.
  intros Z S P0 W G NC. destruct (history_ok z b0 es line Z S G) as (E & R & SP & Ln). exists (replay z b0 line). split; [exact E|]. intros m.
  assert (W' : well_formed (abs (bpos (replay z b0 line)))) by (eapply well_formed_same; [apply same_sym; exact SP|]; eapply line_well_formed; eauto).
  apply (mateMove_sound z _ _ (Z.max 2 (ply - 3)) Z R W'); [|lia]. intros ms r Lm B _ D. apply (rule_history z b0 line ms 16 r Z S Ln SP Lm); auto. apply NC; auto. exact (proj1 (legal_app _ _ ms line SP Ln Lm)).
Qed.
Lemma is_mate_rule z b0 es line ply : okZob z -> set_up z b0 -> let P0 := abs (bpos b0) in well_formed P0 -> game no_double_pass P0 es line -> 2 <= ply ->
  (forall ms, legal_line no_double_pass P0 (map Some ms ++ line) -> Z.of_nat (length ms) <= Z.max 1 (ply - 3) -> no_collision z P0 (map Some ms ++ line) 16) ->
  exists b, calls z b0 es = Some b /\ (isMate z b ply = Some true -> lost (fun ms => repetition P0 (map Some ms ++ line) 16) (abs (bpos b)) (Z.to_nat ply) []).
Proof.
  intros Z S P0 W G H2 NC. destruct (history_ok z b0 es line Z S G) as (E & R & SP & Ln). exists (replay z b0 line). split; [exact E|].
  assert (W' : well_formed (abs (bpos (replay z b0 line)))) by (eapply well_formed_same; [apply same_sym; exact SP|]; eapply line_well_formed; eauto).
  apply (isMate_sound z _ _ (Z.max 1 (ply - 3)) Z R W'); [|auto|lia]. intros ms r Lm B _ D. apply (rule_history z b0 line ms 16 r Z S Ln SP Lm); auto. apply NC; auto. exact (proj1 (legal_app _ _ ms line SP Ln Lm)).
Qed.
Lemma mate_move_fresh z b ply m : okZob z -> set_up z b -> well_formed (abs (bpos b)) -> ply <= 5 -> mateMove z b ply = Some m -> m <> 0%N ->
  exists mv, m = code (bpos b) mv /\ legal (abs (bpos b)) mv /\ in_check (play (abs (bpos b)) mv) (other (side (abs (bpos b)))) /\ lost no_rule (abs (bpos b)) (Z.to_nat (ply - 1)) [mv].
Proof.
  intros Z S W H. apply (mateMove_sound z b _ 3 Z (set_up_reachable z b S) W); [|lia]. intros ms r Ln B Rr E. rewrite (draw_short z b ms 16 Z S Ln) in E by lia. destruct Rr; congruence.
Qed.
Lemma is_mate_fresh z b ply : okZob z -> set_up z b -> well_formed (abs (bpos b)) -> 2 <= ply <= 6 -> isMate z b ply = Some true -> lost no_rule (abs (bpos b)) (Z.to_nat ply) [].
Proof.
  intros Z S W H. apply (isMate_sound z b _ 3 Z (set_up_reachable z b S) W); [|lia|lia]. intros ms r Ln B Rr E. rewrite (draw_short z b ms 16 Z S Ln) in E by lia. destruct Rr; congruence.
Qed.
Lemma search_defined z b0 es line ply : okZob z -> set_up z b0 -> well_formed (abs (bpos b0)) -> game no_double_pass (abs (bpos b0)) es line ->
  exists b, calls z b0 es = Some b /\ (ply mod 2 = 1 -> 3 <= ply -> exists m, mateMove z b ply = Some m) /\ (ply mod 2 = 0 -> 2 <= ply -> exists r, isMate z b ply = Some r).
Proof.
  intros Z S W G. destruct (history_ok z b0 es line Z S G) as (E & R & SP & Ln). exists (replay z b0 line). split; [exact E|].
  assert (W' : well_formed (abs (bpos (replay z b0 line)))) by (eapply well_formed_same; [apply same_sym; exact SP|]; eapply line_well_formed; eauto).
  assert (HD : forall ms, legal_line no_double_pass (abs (bpos (replay z b0 line))) (map Some ms) -> exists r, isDraw (bpos (replay z (replay z b0 line) (map Some ms))) 16 = Some r)
    by (intros ms Lm; exact (draw_defined z b0 line ms 16 Z S Ln SP Lm)).
  revert R W' HD. generalize (replay z b0 line) as b. intros b R W' HD. split.
  - intros A1 A2. unfold mateMove. rewrite A1, (proj2 (Z.leb_le _ _) A2). cbn [Z.eqb Pos.eqb andb]. destruct (odd_half ply A1 A2) as (h & -> & Hh).
    destruct (odd_defined z b Z HD (evenPly z (Z.to_nat (2 * Z.of_nat h + 1))) [] b (2 * Z.of_nat h + 1) (here_start z b R W')) as (o & ->); [|cbn [option_map]; eauto].
    intros mv b1 H1 C1. replace (2 * Z.of_nat h + 1 - 1) with (2 * Z.of_nat h) by lia. apply (even_defined z b Z HD _ h _ _ H1 C1). lia.
  - intros A1 A2. unfold isMate. rewrite A1. cbn [Z.eqb]. destruct (inCheck (bpos b)) eqn:C; [|eauto]. destruct (even_half ply A1 A2) as (h & -> & Hh).
    apply (even_defined z b Z HD _ h _ _ (here_start z b R W') C). lia.
Qed.

(* ---- concrete cases ---- *)
Lemma short_no_collision z P0 ms n : (length ms < 4)%nat -> no_collision z P0 (map Some ms ++ []) n.
Proof. intros H i (_ & I4 & _ & U & _). rewrite app_nil_r, map_length in U. lia. Qed.
Local Open Scope N_scope.
(* a rook and a bishop against a bare king in the corner: mate in three *)
Definition threeBoard : Board := boardOf 0 (sparse [(0, 24); (80, 8); (29, 6); (18, 5)]) [[0;0;0;0;0;0;0];[0;0;0;0;0;0;0]].
(* the same after the rook's move, with the king in check *)
Definition twoBoard : Board := boardOf 1 (sparse [(0, 24); (80, 8); (2, 14); (18, 5)]) [[0;0;0;0;0;0;0];[0;0;0;0;0;0;0]].
Lemma three_set_up : set_up z0 threeBoard /\ well_formed (abs (bpos threeBoard)).
Proof. assert (S : set_up z0 threeBoard) by (apply boardOf_set_up; vm_compute; reflexivity). split; [exact S|]. apply wellFormedB_ok; [apply (set_up_ok z0 _ S)|vm_compute; reflexivity]. Qed.
Lemma two_set_up : set_up z0 twoBoard /\ well_formed (abs (bpos twoBoard)).
Proof. assert (S : set_up z0 twoBoard) by (apply boardOf_set_up; vm_compute; reflexivity). split; [exact S|]. apply wellFormedB_ok; [apply (set_up_ok z0 _ S)|vm_compute; reflexivity]. Qed.
Lemma three_runs : mateMove z0 threeBoard 3 = Some 413314. Proof. vm_compute. reflexivity. Qed.
Lemma two_runs : isMate z0 twoBoard 2 = Some true /\ andMoves (bpos twoBoard) = [524297]. Proof. vm_compute. split; reflexivity. Qed.
Lemma fresh_game P : game no_double_pass P [] []. Proof. constructor. Qed.
