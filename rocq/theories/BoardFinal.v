(* The property theorems about boards and histories, assembled from the proof files. *)
From Verif Require Export Examples BookProofs ViewsOut.
Local Open Scope N_scope.
Local Opaque N.mul N.add N.sub N.div N.modulo.

Lemma in_hand_list p c k hp : good p -> handSlot k = Some hp -> in_hand (abs p) c k = Z.of_N (nthN 0 (piecesInHand p (ncolor c)) hp).
Proof.
  intros G H. cbn [abs in_hand]. rewrite H. pose proof (ncolor_lt c) as Hc. assert (hp < 7) by (destruct k; try discriminate H; injection H as <-; lia).
  rewrite piecesInHand_num; auto. apply G.
Qed.
(* what board.pieces and board.pieces_in_hand show *)
Definition lists_show (p : Position) : Prop :=
  length (piecesList p) = 81%nat /\
  (forall s, on_board s -> nthN 0 (piecesList p) (nsquare s) = npiece (at_square (abs p) s)) /\
  (forall c k hp, handSlot k = Some hp -> Z.of_N (nthN 0 (piecesInHand p (ncolor c)) hp) = in_hand (abs p) c k).
Lemma lists_ok p : good p -> lists_show p.
Proof.
  intros G. pose proof (g_views p G) as V. pose proof (v_board p V) as Ok. unfold lists_show. rewrite (piecesList_board p V). split; [apply Ok|]. split.
  - intros s Hs. pose proof (nsquare_lt s Hs) as L. rewrite <- (square_inv' s Hs) at 2. rewrite abs_at by auto. change (nthN 0 (board p) (nsquare s)) with (pieceAt p (nsquare s)).
    destruct (vpc_cases _ (okB_at p _ Ok L)) as [E|(c & pt & Hc & Hp & E)]; rewrite E; [reflexivity|]. rewrite pieceN_mk by auto. cbn [npiece]. rewrite color_inv, kind_inv' by auto. apply mkPiece_arith; lia.
  - intros c k hp H. symmetry. now apply in_hand_list.
Qed.
Lemma views_history rp rh b0 es line : let z := initZobrist rp rh in set_up z b0 -> game any_pass (abs (bpos b0)) es line ->
  exists b, calls z b0 es = Some b /\ same_position (abs (bpos b)) (after (abs (bpos b0)) line) /\ agree (bpos b) /\ lists_show (bpos b).
Proof.
  intros z S G. destruct (reachable_game z b0 es line (okZob_init rp rh) S G) as (b & E & R & SP). exists b. do 2 (split; auto).
  destruct (reachable_ok z b (okZob_init rp rh) R) as [Gb Cb]. split; [now apply (good_agree z)|now apply lists_ok].
Qed.
Lemma setup_position z b pieces inHand : turn (bpos b) < 2 -> length pieces = 81%nat -> Forall piece_code pieces ->
  proper (array_position pieces inHand (turn (bpos b))) ->
  let b' := boardSetPieces z b pieces inHand in
  same_position (abs (bpos b')) (array_position pieces inHand (turn (bpos b))) /\ agree (bpos b') /\ lists_show (bpos b').
Proof.
  intros T L F P b'. destruct (okBoard_set z b pieces inHand T L F P) as (G & C & S & _). split; auto. split; [now apply (good_agree z)|now apply lists_ok].
Qed.

(* ---- push and pop ---- *)
Lemma pop_push z b m : okZob z -> reachable z b -> legal_but_drop_mate (abs (bpos b)) m -> pop (push z b (code (bpos b) m)) = Some (b, code (bpos b) m).
Proof.
  intros Z R L. destruct (reachable_ok z b Z R) as [G C]. unfold pop, push. cbn [bhist bpos]. pose proof (doMove_prev z (bpos b) (code (bpos b) m)) as NP. destruct (prev (doMove z _ _)); [contradiction|].
  rewrite undo_doMove; [|exact G|apply wf_code; auto; apply L]. now destruct b.
Qed.
Fixpoint legal_sequence (P : position) (ms : list move) : Prop :=
  match ms with [] => True | m :: ms => legal_but_drop_mate P m /\ legal_sequence (play P m) ms end.
Lemma legal_sequence_same P Q ms : same_position P Q -> legal_sequence P ms -> legal_sequence Q ms.
Proof.
  revert P Q. induction ms as [|m ms IH]; intros P Q S H; cbn [legal_sequence] in *; [exact I|]. destruct H as [L H]. split; [eapply legal0_same; eauto|]. eapply IH; [|exact H]. now apply play_same.
Qed.
Lemma pushes_pops z ms : okZob z -> forall b, reachable z b -> legal_sequence (abs (bpos b)) ms ->
  exists b', calls z b (map Play ms) = Some b' /\ reachable z b' /\ calls z b' (repeat Unplay (length ms)) = Some b.
Proof.
  intros Z. induction ms as [|m ms IH]; intros b R H; cbn [legal_sequence] in H; [exists b; repeat split; auto|]. destruct H as [L H].
  pose proof (reachable_push z b m Z R L) as R1. destruct (reachable_ok z b Z R) as [G C].
  assert (S : same_position (play (abs (bpos b)) m) (abs (bpos (push z b (code (bpos b) m))))).
  { apply same_sym. cbn [push bpos]. unfold doMove. cbv zeta. apply abs_doMoveCI; auto. apply L. }
  destruct (IH _ R1 (legal_sequence_same _ _ _ S H)) as (b' & E & R' & U). exists b'. split; [exact E|]. split; auto.
  replace (repeat Unplay (length (m :: ms))) with (repeat Unplay (length ms) ++ [Unplay]) by (cbn [length]; now rewrite <- repeat_cons).
  rewrite calls_app, U. cbn [callOf step]. now rewrite pop_push.
Qed.
Lemma history_exact z b0 es line : okZob z -> set_up z b0 -> game no_double_pass (abs (bpos b0)) es line -> calls z b0 es = Some (replay z b0 line).
Proof. intros Z S G. destruct (set_up_ok z b0 S) as (G0 & C0 & K & _). now apply game_exact. Qed.

(* ---- hash ---- *)
Lemma hash_reachable z b : okZob z -> reachable z b -> Z.of_N (getKey (bpos b)) = scratch_hash z (abs (bpos b)).
Proof. intros Z R. destruct (reachable_ok z b Z R). now apply hash_scratch. Qed.
Lemma hash_transposition z b b' : okZob z -> reachable z b -> reachable z b' -> same_position (abs (bpos b)) (abs (bpos b')) -> getKey (bpos b) = getKey (bpos b').
Proof. intros Z R R' S. apply N2Z.inj. rewrite !(hash_reachable z) by auto. now apply scratch_same. Qed.
Lemma keys_after z zb b m : okZob z -> reachable z b -> legal_but_drop_mate (abs (bpos b)) m ->
  let p := bpos b in let p' := bpos (push z b (code p m)) in
  bookKeyAfter zb p (bookKey zb p) (code p m) = bookKey zb p' /\ getKeyAfter z p (code p m) = getKey p'.
Proof.
  intros Z R L. cbv zeta. destruct (reachable_ok z b Z R) as [G C]. destruct (wf_code _ m G (proj1 L)) as (W & _). cbn [push bpos]. unfold doMove. cbv zeta. split.
  - apply bookKeyAfter_ok; auto; apply G.
  - apply getKeyAfter_ok; auto. apply G.
Qed.

(* ---- check ---- *)
Lemma check_status z b : okZob z -> reachable z b -> let p := bpos b in
  (inCheck p = true <-> in_check (abs p) (side (abs p))) /\
  forall s k, on_board s -> on_board k -> at_square (abs p) k = Some (side (abs p), OU) ->
    (isSet (checkers p) (nsquare s) = true <-> piece_attacks (abs p) (other (side (abs p))) s k).
Proof.
  intros Z R. cbv zeta. destruct (reachable_ok z b Z R) as [G C]. split; [now apply (inCheck_exact z)|]. intros s k Hs Hk K.
  rewrite <- (square_inv' k Hk) in K. rewrite (checkers_exact z (bpos b) (nsquare s) (nsquare k)) by (auto using nsquare_lt). now rewrite !square_inv'.
Qed.
Lemma check_after_push z b m : okZob z -> reachable z b -> legal_but_drop_mate (abs (bpos b)) m ->
  let p := bpos b in let p' := bpos (push z b (code p m)) in
  same_position (abs p') (play (abs p) m) /\
  (inCheck p' = true <-> in_check (play (abs p) m) (other (side (abs p)))) /\
  moveGivesCheck p (code p m) (checkInfo p) = inCheck p' /\
  forall s k, on_board s -> on_board k -> at_square (play (abs p) m) k = Some (other (side (abs p)), OU) ->
    (isSet (checkers p') (nsquare s) = true <-> piece_attacks (play (abs p) m) (side (abs p)) s k).
Proof.
  intros Z R L. cbv zeta. destruct (reachable_ok z b Z R) as [G C]. pose proof (reachable_push z b m Z R L) as R'. pose proof (check_status z _ Z R') as AB. cbv zeta in AB. destruct AB as [A B].
  assert (S : same_position (abs (bpos (push z b (code (bpos b) m)))) (play (abs (bpos b)) m)) by (cbn [push bpos]; unfold doMove; cbv zeta; apply abs_doMoveCI; auto; apply L).
  assert (Sd : side (play (abs (bpos b)) m) = other (side (abs (bpos b)))) by now destruct m.
  split; [exact S|]. split; [|split].
  - rewrite A, (proj2 (proj2 S)), Sd. split; intros X; eapply in_check_same; eauto using same_sym.
  - cbn [push bpos]. apply gives_inCheck_code; auto. apply L.
  - intros s k Hs Hk K. rewrite (B s k Hs Hk) by (rewrite (proj2 (proj2 S)), Sd, (proj1 S); exact K). rewrite (proj2 (proj2 S)), Sd, other_other. split; intros (kd & E & At); exists kd; (split; [first [rewrite <- (proj1 S)|rewrite (proj1 S)]; exact E|]).
    + destruct At as [At|(d & n & At1 & At2 & At3 & At4)]; [left; exact At|right; exists d, n; repeat split; auto]. intros i Hi Oc. apply (At4 i Hi). unfold occupied in *. now rewrite (proj1 S).
    + destruct At as [At|(d & n & At1 & At2 & At3 & At4)]; [left; exact At|right; exists d, n; repeat split; auto]. intros i Hi Oc. apply (At4 i Hi). unfold occupied in *. now rewrite <- (proj1 S).
Qed.

(* ---- passes ---- *)
Lemma pass_undo z b0 es line : okZob z -> set_up z b0 -> game no_double_pass (abs (bpos b0)) es line ->
  let P := after (abs (bpos b0)) line in ~ in_check P (side P) -> no_double_pass line ->
  exists b b', calls z b0 es = Some b /\ pushPass b = Some b' /\ same_position (abs (bpos b')) (pass (abs (bpos b))) /\
    gamePly (bpos b') = gamePly (bpos b) /\ popPass b' = Some b.
Proof.
  intros Z S G P NC ND. destruct (set_up_ok z b0 S) as (G0 & C0 & K & _). assert (G1 := g_pass _ _ es line G NC ND). pose proof (game_exact z b0 _ _ Z G0 C0 K G) as E. pose proof (game_exact z b0 _ _ Z G0 C0 K G1) as E1.
  pose proof (game_exact z b0 _ _ Z G0 C0 K (g_unpass _ _ _ _ G1)) as E2. rewrite calls_app, E in E1. cbn [callOf step] in E1. exists (replay z b0 line), (replay z b0 (None :: line)). split; auto. split; auto.
  destruct (replay_ok _ z b0 line Z G0 C0 (game_line _ _ _ _ G)) as (Gl & Cl & Sl). split; [cbn [replay bpos]; apply abs_null; now apply good_turn|]. split; [reflexivity|].
  rewrite !calls_app, E in E2. cbn [callOf step] in E2. rewrite E1 in E2. exact E2.
Qed.

(* the same position object with other counters of consecutive checks *)
Definition with_counters (p : Position) (cc : list N) : Position :=
  mkPos (byType p) (byColor p) (golds p) (board p) (kingSq p) (hands p) (turn p) (gamePly p)
    (mkSt (pliesFromNull (st p)) cc (boardKey (st p)) (handKey (st p)) (checkersBB (st p)) (stHand (st p))) (prev p).
Lemma pass_undo_any z b : okZob z -> reachable z b -> ~ in_check (abs (bpos b)) (side (abs (bpos b))) ->
  exists b' b'' cc, pushPass b = Some b' /\ same_position (abs (bpos b')) (pass (abs (bpos b))) /\ gamePly (bpos b') = gamePly (bpos b) /\
    popPass b' = Some b'' /\ bhist b'' = bhist b /\ bpos b'' = with_counters (bpos b) cc.
Proof.
  intros Z R NC. destruct (reachable_ok z b Z R) as [G C]. pose proof (not_in_check z b _ G C (same_refl _) NC) as N.
  unfold pushPass. rewrite N. eexists _, _, (contCheck (st (undoNull (fst (doNull (bpos b))) (snd (doNull (bpos b)))))). split; [reflexivity|]. cbn [bpos bhist].
  split; [apply abs_null; now apply good_turn|]. split; [reflexivity|]. unfold popPass. cbn [bhist bpos]. split; [reflexivity|]. cbn [bhist bpos]. split; [reflexivity|].
  pose proof (undo_null_sim z _ (bpos b) G C (sim_refl _)) as S. unfold sim in S. revert S. generalize (undoNull (fst (doNull (bpos b))) (snd (doNull (bpos b)))) as q. generalize (bpos b) as p. clear.
  intros [a1 a2 a3 a4 a5 a6 a7 a8 [b1 b2 b3 b4 b5 b6] a10] [c1 c2 c3 c4 c5 c6 c7 c8 [d1 d2 d3 d4 d5 d6] c10]. unfold strip, stripSt, with_counters. cbn. congruence.
Qed.

(* ---- conservation and well-formedness ---- *)
Lemma total_same P Q k : same_position P Q -> total P k = total Q k.
Proof.
  intros (A & B & C). unfold total, on_board_count. rewrite !B. f_equal. f_equal. f_equal. f_equal. apply filter_ext. intros s. now rewrite A.
Qed.
Lemma total_pass P k : total (pass P) k = total P k.
Proof. unfold total, on_board_count, pass. cbn [at_square in_hand]. reflexivity. Qed.
Lemma proper_pass P : proper P -> ~ in_check P (side P) -> proper (pass P).
Proof.
  intros [A B C D E F] N. constructor; [exact A|exact B|exact C|exact D|intros k Hk; rewrite total_pass; exact (E k Hk)|]. cbn [pass side]. rewrite other_other. exact N.
Qed.
Lemma well_formed_pass P : well_formed P -> ~ in_check P (side P) -> well_formed (pass P).
Proof. intros [A B C D] N. constructor; [now apply proper_pass|exact B|exact C|exact D]. Qed.
Lemma line_total may P0 line k : proper P0 -> legal_line may P0 line -> total (after P0 line) k = total P0 k.
Proof.
  intros Pr. assert (H : legal_line may P0 line -> proper (after P0 line) /\ total (after P0 line) k = total P0 k); [|now intros L; apply H].
  induction line as [|[m|] l IH]; cbn [legal_line after]; intros L; [auto|..].
  - destruct L as [L L']. destruct (IH L') as [Pl Tl]. split; [now apply play_proper|]. rewrite <- Tl. apply play_total; [apply Pl|apply L].
  - destruct L as (NC & _ & L'). destruct (IH L') as [Pl Tl]. split; [now apply proper_pass|rewrite total_pass; exact Tl].
Qed.
Lemma line_well_formed may P0 line : well_formed P0 -> legal_line may P0 line -> well_formed (after P0 line).
Proof.
  intros W. induction line as [|[m|] l IH]; cbn [legal_line after]; intros L; [auto|..].
  - destruct L as [L L']. apply play_well_formed; auto.
  - destruct L as (NC & _ & L'). apply well_formed_pass; auto.
Qed.
Lemma well_formed_same P Q : same_position P Q -> well_formed P -> well_formed Q.
Proof.
  intros S [A B C D]. pose proof (proj1 S) as E. constructor.
  - eapply proper_same; eauto.
  - intros c. destruct (B c) as (s & H). exists s. now rewrite <- E.
  - intros s c k. rewrite <- E. apply C.
  - intros c s t. rewrite <- !E. apply D.
Qed.
Lemma pieces_conserved rp rh b0 es line : let z := initZobrist rp rh in set_up z b0 -> game any_pass (abs (bpos b0)) es line ->
  exists b, calls z b0 es = Some b /\ forall k, total (abs (bpos b)) k = total (abs (bpos b0)) k.
Proof.
  intros z S G. destruct (reachable_game z b0 es line (okZob_init rp rh) S G) as (b & E & R & SP). exists b. split; auto. intros k. rewrite (total_same _ _ k SP).
  destruct (set_up_ok z b0 S) as (G0 & _). eapply line_total; [now apply good_proper|eapply game_line; eauto].
Qed.
Lemma well_formed_history rp rh b0 es line : let z := initZobrist rp rh in set_up z b0 -> well_formed (abs (bpos b0)) -> game any_pass (abs (bpos b0)) es line ->
  exists b, calls z b0 es = Some b /\ well_formed (abs (bpos b)).
Proof.
  intros z S W G. destruct (reachable_game z b0 es line (okZob_init rp rh) S G) as (b & E & R & SP). exists b. split; auto. eapply well_formed_same; [apply same_sym; exact SP|].
  eapply line_well_formed; eauto. eapply game_line; eauto.
Qed.
(* a decision procedure for well_formed on boards *)
Definition wellFormedB (p : Position) : bool :=
  (kingSquare p 0 <? 81) && (kingSquare p 1 <? 81) &&
  forallb (fun s => let x := pieceAt p s in (x =? 0) || negb (deadB (colorOf x) (ptOf x) s)) squares &&
  forallb (fun s => forallb (fun t => negb ((pieceAt p s =? pieceAt p t) && (ptOf (pieceAt p s) =? 1) && (s / 9 =? t / 9)) || (s =? t)) squares) squares.
Lemma wellFormedB_ok p : good p -> wellFormedB p = true -> well_formed (abs p).
Proof.
  intros G H. unfold wellFormedB in H. rewrite !andb_true_iff, !N.ltb_lt, !forallb_forall in H. destruct H as (((K0 & K1) & D) & NF).
  pose proof (g_views p G) as V. pose proof (v_board p V) as Ok. pose proof (good_turn p G) as Ht.
  assert (AT : forall s c k, at_square (abs p) s = Some (c, k) -> nsquare s < 81 /\ on_board s /\ pieceAt p (nsquare s) = mkPiece (ncolor c) (nkind k)).
  { intros s c k E. assert (B : on_board s) by (apply (pr_board _ (good_proper p G)); congruence). pose proof (nsquare_lt s B) as L. split; auto. split; auto. rewrite <- (square_inv' s B) in E. rewrite abs_at in E by auto.
    destruct (vpc_cases _ (okB_at p _ Ok L)) as [X|(c' & pt & Hc & Hp & X)]; rewrite X in *; [discriminate E|]. rewrite pieceN_mk in E by auto. injection E as <- <-. rewrite color_inv, kind_inv' by auto. reflexivity. }
  constructor.
  - now apply good_proper.
  - intros c. assert (L : kingSquare p (ncolor c) < 81) by (destruct c; assumption). exists (squareN (kingSquare p (ncolor c))). pose proof (ncolor_lt c) as Hc.
    assert (Ec : c = colorN (ncolor c)) by (now destruct c). rewrite Ec at 2. apply king_iff; auto. rewrite kingSquare_view in * by auto. destruct (kingOf_cases (board p) (ncolor c)) as [[_ K]|[E _]]; [exact K|lia].
  - intros s c k E. destruct (AT s c k E) as (L & B & X). specialize (D (nsquare s) (proj2 (in_squares _) L)). cbv zeta in D. rewrite X, mk_nz in D by (apply ncolor_lt || apply nkind_lt).
    pose proof (ncolor_lt c). pose proof (nkind_lt k). rewrite pt_mk, col_mk in D by auto. cbn [orb] in D. apply negb_true_iff in D. intros De. apply not_true_iff_false in D. apply D.
    rewrite <- (dead_end_N (ncolor c) (nkind k) (nsquare s)) by auto. rewrite kind_inv, square_inv' by auto. destruct c; exact De.
  - intros c s t E F X. destruct (AT s _ _ E) as (L & B & Y). destruct (AT t _ _ F) as (L' & B' & Y'). specialize (NF _ (proj2 (in_squares _) L)). cbv beta in NF. rewrite forallb_forall in NF.
    specialize (NF _ (proj2 (in_squares _) L')). cbv beta in NF. rewrite Y, Y', N.eqb_refl in NF. pose proof (ncolor_lt c). pose proof (nkind_lt FU). rewrite pt_mk in NF by auto. change (nkind FU =? 1) with true in NF.
    rewrite <- (square_inv' s B), <- (square_inv' t B') in X. unfold squareN in X. cbn [fst] in X. assert (X' : nsquare s / 9 = nsquare t / 9) by lia. rewrite X', N.eqb_refl in NF. cbn [andb negb orb] in NF.
    apply N.eqb_eq in NF. rewrite <- (square_inv' s B), <- (square_inv' t B'). now rewrite NF.
Qed.
Lemma set_pieces_restores z b : okZob z -> reachable z b ->
  let p := bpos b in let q := bpos (boardSetPieces z b (piecesList p) [piecesInHand p 0; piecesInHand p 1]) in
  same_position (abs q) (abs p) /\ board q = board p /\ hands q = hands p /\ turn q = turn p /\ gamePly q = gamePly p /\
  getKey q = getKey p /\ inCheck q = inCheck p /\ checkers q = checkers p.
Proof.
  intros Z R. cbv zeta. destruct (reachable_ok z b Z R) as [G C]. destruct (setPieces_restores z (bpos b) G C) as (A & B & T & Pl & _ & _ & _ & _ & K & Ch & _).
  cbn [boardSetPieces bpos]. change [piecesInHand (bpos b) 0; piecesInHand (bpos b) 1] with (handLists (bpos b)).
  split; [rewrite (abs_ext _ _ A B T); apply same_refl|]. do 5 (split; [assumption|]). unfold inCheck, checkers. rewrite Ch. auto.
Qed.
(* the initial position *)
Lemma wfB_ext p q : board p = board q -> kingSq p = kingSq q -> wellFormedB p = wellFormedB q.
Proof. intros A B. unfold wellFormedB, pieceAt, kingSquare. now rewrite A, B. Qed.
Lemma refresh_wfB z q : wellFormedB (refreshState z q) = wellFormedB q.
Proof. apply wfB_ext; reflexivity. Qed.
Lemma setPieces_refresh p pieces inHand : exists q, forall z, setPieces z p pieces inHand = refreshState z q.
Proof. eexists. intros z. unfold setPieces. cbv zeta. reflexivity. Qed.
Lemma setPieces_indep z z' p pieces inHand : wellFormedB (setPieces z p pieces inHand) = wellFormedB (setPieces z' p pieces inHand).
Proof. destruct (setPieces_refresh p pieces inHand) as (q & E). now rewrite !E, !refresh_wfB. Qed.
Lemma start_wfB : wellFormedB (bpos (startBoard (mkZob (fun _ _ _ => 0) (fun _ _ => 0)))) = true. Proof. vm_compute. reflexivity. Qed.
Lemma start_well_formed z : set_up z (startBoard z) /\ well_formed (abs (bpos (startBoard z))).
Proof.
  split; [apply start_set_up|]. destruct (set_up_ok z _ (start_set_up z)) as (G & _). apply wellFormedB_ok; [exact G|]. unfold startBoard, boardSetPieces. cbn [bpos].
  rewrite (setPieces_indep z (mkZob (fun _ _ _ => 0) (fun _ _ => 0))). exact start_wfB.
Qed.
Lemma demo_quiet : inCheck (bpos demo2) = false. Proof. vm_compute. reflexivity. Qed.
