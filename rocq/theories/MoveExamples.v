(* Concrete cases for the move-text, move-code and label theorems. *)
From Verif Require Export Labels GenExamples.
Local Open Scope N_scope.

Definition optEqb (a b : option N) : bool := match a, b with Some x, Some y => x =? y | None, None => true | _, _ => false end.
Lemma optEqb_eq a b : optEqb a b = true -> a = b.
Proof. destruct a, b; cbn [optEqb]; try discriminate; try reflexivity. intros E. apply N.eqb_eq in E. now subst. Qed.
(* a text that is accepted although its move is not on the list *)
Definition acceptsB (read : Position -> string -> option N) (b : Board) (s : string) : bool :=
  match read (bpos b) s with Some m => negb (m =? 0) && negb (memB m (legalMoves (bpos b))) | None => false end.
Lemma accepts_text read b s : reachable z0 b /\ playable (abs (bpos b)) -> acceptsB read b s = true ->
  exists b s m, reachable z0 b /\ playable (abs (bpos b)) /\ read (bpos b) s = Some m /\ m <> 0 /\ ~ In m (legalMoves (bpos b)).
Proof.
  intros [R K] A. unfold acceptsB in A. destruct (read (bpos b) s) as [m|] eqn:E; [|discriminate]. apply andb_prop in A as [A B]. exists b, s, m. do 3 (split; [assumption|]).
  split; [intros ->; discriminate A|]. intros I. apply memB_In in I. rewrite I in B. discriminate.
Qed.
Lemma usi_bad_promotion_run : acceptsB usiToMove (startBoard z0) "7g7f+" = true. Proof. vm_compute. reflexivity. Qed.
Lemma csa_promoted_drop_run : acceptsB csaToMove openBoard "0055TO" = true. Proof. vm_compute. reflexivity. Qed.
Lemma text_runs : toUSI (code (bpos (startBoard z0)) (Go (7, 7)%Z (7, 6)%Z false)) = "7g7f"%string /\ toCSA (code (bpos (startBoard z0)) (Go (7, 7)%Z (7, 6)%Z false)) = "7776FU"%string.
Proof. split; vm_compute; reflexivity. Qed.
(* the opening move 7g7f is legal, and the pawn drop on 1b of openBoard *)
Lemma opening_listed : memB (code (bpos (startBoard z0)) (Go (7, 7)%Z (7, 6)%Z false)) (legalMoves (bpos (startBoard z0))) = true. Proof. vm_compute. reflexivity. Qed.
Lemma listed_legal_move b mv : reachable z0 b /\ playable (abs (bpos b)) -> on_board (match mv with Drop _ t => t | Go _ t _ => t end) /\ fits (abs (bpos b)) mv -> memB (code (bpos b) mv) (legalMoves (bpos b)) = true ->
  (reachable z0 b /\ playable (abs (bpos b))) /\ legal (abs (bpos b)) mv.
Proof.
  intros [R K] [_ F] M. split; [split; assumption|]. apply memB_In in M. destruct (legal_test z0 b mv okZob0 R K F) as [A B]. apply A, B. exact M.
Qed.
Lemma opening_fits : on_board (7, 6)%Z /\ fits (abs (bpos (startBoard z0))) (Go (7, 7)%Z (7, 6)%Z false).
Proof.
  split; [unfold on_board; cbn; lia|]. cbn [fits]. cbv zeta. split; [unfold on_board; cbn; lia|]. split; [unfold on_board; cbn; lia|]. intros k E. split; [discriminate|]. intros _ D.
  assert (X : side (abs (bpos (startBoard z0))) = Sente) by (vm_compute; reflexivity). rewrite X in D. destruct k; cbn in D; lia || contradiction.
Qed.
Lemma opening_legal : (reachable z0 (startBoard z0) /\ playable (abs (bpos (startBoard z0)))) /\ legal (abs (bpos (startBoard z0))) (Go (7, 7)%Z (7, 6)%Z false).
Proof. exact (listed_legal_move (startBoard z0) (Go (7, 7)%Z (7, 6)%Z false) start_playable opening_fits opening_listed). Qed.
Lemma opening_squares : on_board (7, 7)%Z /\ on_board (7, 6)%Z. Proof. unfold on_board. cbn. lia. Qed.
(* openBoard seen from the other side *)
Definition openTurned : Board := boardOf 1 (sparse [(80, 8); (78, 23); (0, 24)]) [[0; 0; 0; 0; 0; 0; 0]; [1; 0; 0; 0; 0; 0; 0]].
Definition samePosB (P Q : position) : bool :=
  forallb (fun s => match at_square P s, at_square Q s with Some (c, k), Some (c', k') => color_eqb c c' && kind_eqb k k' | None, None => true | _, _ => false end) all_squares &&
  forallb (fun c => forallb (fun k => (in_hand P c k =? in_hand Q c k)%Z) [FU; KY; KE; GI; KI; KA; HI; OU; TO; NY; NK; NG; UM; RY]) [Sente; Gote] && color_eqb (side P) (side Q).
Lemma samePosB_ok P Q : (forall s, ~ on_board s -> at_square P s = at_square Q s) -> samePosB P Q = true -> same_position P Q.
Proof.
  intros Off H. unfold samePosB in H. apply andb_prop in H as [H C]. apply andb_prop in H as [A B]. rewrite forallb_forall in A, B. split; [|split].
  - intros s. destruct (on_boardb s) eqn:E.
    + apply on_boardb_iff in E. specialize (A s (proj2 (all_squares_iff s) E)). destruct (at_square P s) as [[c k]|], (at_square Q s) as [[c' k']|]; try discriminate; auto.
      apply andb_prop in A as [A1 A2]. destruct c, c'; try discriminate; destruct k, k'; try discriminate; reflexivity.
    + apply Off. intros X. apply on_boardb_iff in X. congruence.
  - intros c k. assert (I : In c [Sente; Gote]) by (destruct c; cbn; tauto). specialize (B c I). rewrite forallb_forall in B. apply Z.eqb_eq, B. destruct k; cbn; tauto.
  - destruct (side P), (side Q); try discriminate; reflexivity.
Qed.
Lemma turned_off P s : (forall s, at_square P s <> None -> on_board s) -> ~ on_board s -> at_square (turn_position P) s = None.
Proof.
  intros H N. rewrite turn_at. destruct (at_square P (turn_square s)) as [[c k]|] eqn:E; [|reflexivity]. exfalso. apply N. rewrite <- (turn_turn s). apply turn_on, H. rewrite E. discriminate.
Qed.
Lemma openTurned_playable : reachable z0 openTurned /\ playable (abs (bpos openTurned)). Proof. apply boardOf_playable; vm_compute; reflexivity. Qed.
Lemma openTurned_run : samePosB (abs (bpos openTurned)) (turn_position (abs (bpos openBoard))) = true. Proof. vm_compute. reflexivity. Qed.
Lemma turned_same b b' : reachable z0 b -> samePosB (abs (bpos b')) (turn_position (abs (bpos b))) = true -> same_position (abs (bpos b')) (turn_position (abs (bpos b))).
Proof.
  intros R H. apply samePosB_ok; [|exact H]. intros s N. rewrite abs_off by exact N. symmetry. apply turned_off; [|exact N]. destruct (reachable_ok z0 b okZob0 R) as [G _]. exact (pr_board _ (good_proper _ G)).
Qed.
Lemma openTurned_same : same_position (abs (bpos openTurned)) (turn_position (abs (bpos openBoard))).
Proof. exact (turned_same openBoard openTurned (proj1 open_playable) openTurned_run). Qed.
