(* Moves of the model against moves of Spec.v: codes, effect of doMove, legality. *)
From Verif Require Export Bridge.
Local Open Scope N_scope.

(* ---- fields of a move code ---- *)
Definition codeOf (a b : N) (pr : bool) (c d : N) : N := a + 128 * b + (if pr then 16384 else 0) + 65536 * c + 1048576 * d.
Lemma div_of m n q r : r < n -> m = n * q + r -> m / n = q.
Proof. intros H E. symmetry. now apply N.div_unique with r. Qed.
Lemma mod_of m n q r : r < n -> m = n * q + r -> m mod n = r.
Proof. intros H E. symmetry. now apply N.mod_unique with q. Qed.
Lemma code_fields a b pr c d : a < 128 -> b < 128 -> c < 16 -> d < 16 ->
  let m := codeOf a b pr c d in mvTo m = a /\ mvFrom m = b /\ mvPromo m = pr /\ mvPtFrom m = c /\ mvCap m = d.
Proof.
  intros Ha Hb Hc Hd m. set (P := if pr then 1 else 0). assert (Em : m = a + 128 * (b + 128 * (P + 4 * (c + 16 * d)))) by (unfold m, codeOf, P; destruct pr; lia).
  assert (HP : P < 2) by (unfold P; destruct pr; lia).
  unfold mvTo, mvFrom, mvPromo, mvPtFrom, mvCap. rewrite !N.shiftr_div_pow2.
  change 0x7f with (N.ones 7). change 0xf with (N.ones 4). rewrite !N.land_ones.
  change (2 ^ 7) with 128. change (2 ^ 4) with 16. change (2 ^ 16) with 65536. change (2 ^ 20) with 1048576.
  split; [apply mod_of with (b + 128 * (P + 4 * (c + 16 * d))); lia|].
  split; [rewrite (div_of m 128 (b + 128 * (P + 4 * (c + 16 * d))) a) by lia; apply mod_of with (P + 4 * (c + 16 * d)); lia|].
  split.
  - unfold PromoteFlag. change 16384 with (2 ^ 14).
    assert (T : N.testbit m 14 = pr).
    { rewrite testbit_arith. change (2 ^ 14) with 16384. rewrite (div_of m 16384 (P + 4 * (c + 16 * d)) (a + 128 * b)) by lia.
      rewrite (mod_of (P + 4 * (c + 16 * d)) 2 (2 * (c + 16 * d)) P) by lia. unfold P. now destruct pr. }
    destruct pr.
    + apply negb_true_iff, N.eqb_neq. rewrite land_bit_zero, T. discriminate.
    + apply negb_false_iff, N.eqb_eq. now rewrite land_bit_zero.
  - split.
    + rewrite (div_of m 65536 (c + 16 * d) (a + 128 * b + 16384 * P)) by lia. apply mod_of with d; lia.
    + rewrite (div_of m 1048576 d (a + 128 * b + 16384 * P + 65536 * c)) by lia. rewrite N.mod_small; lia.
Qed.
Definition moveN (m : N) : move :=
  if mvDrop m then Drop (kindN (mvPtDropped m)) (squareN (mvTo m)) else Go (squareN (mvFrom m)) (squareN (mvTo m)) (mvPromo m).

Lemma code_drop p k t : code p (Drop k t) = codeOf (nsquare t) (80 + nkind k) false 0 0.
Proof. unfold codeOf. cbn [code]. lia. Qed.
Lemma code_go p s t pr : code p (Go s t pr) = codeOf (nsquare t) (nsquare s) pr (ptOf (pieceAt p (nsquare s))) (ptOf (pieceAt p (nsquare t))).
Proof. unfold codeOf. cbn [code]. rewrite !ptOf_arith. reflexivity. Qed.
Lemma ptOf_lt x : ptOf x < 16.
Proof. rewrite ptOf_arith. apply N.mod_lt. lia. Qed.
Lemma drop_fields p k t : on_board t -> let m := code p (Drop k t) in
  mvTo m = nsquare t /\ mvDrop m = true /\ mvPtDropped m = nkind k /\ mvPromo m = false /\ mvPtFrom m = 0 /\ mvCap m = 0.
Proof.
  intros Ht m. pose proof (nsquare_lt t Ht). pose proof (nkind_lt k).
  destruct (code_fields (nsquare t) (80 + nkind k) false 0 0) as (A & B & C & D & E); try lia.
  unfold m. rewrite code_drop. unfold mvDrop, mvPtDropped. rewrite A, B, C, D, E. repeat split; lia.
Qed.
Lemma go_fields p s t pr : on_board s -> on_board t -> let m := code p (Go s t pr) in
  mvTo m = nsquare t /\ mvFrom m = nsquare s /\ mvDrop m = false /\ mvPromo m = pr /\ mvPtFrom m = ptOf (pieceAt p (nsquare s)) /\ mvCap m = ptOf (pieceAt p (nsquare t)).
Proof.
  intros Hs Ht m. pose proof (nsquare_lt t Ht). pose proof (nsquare_lt s Hs).
  destruct (code_fields (nsquare t) (nsquare s) pr (ptOf (pieceAt p (nsquare s))) (ptOf (pieceAt p (nsquare t)))) as (A & B & C & D & E); try lia; try apply ptOf_lt.
  unfold m. rewrite code_go. unfold mvDrop. rewrite A, B, C, D, E. repeat split; lia.
Qed.

(* ---- check, as a function of the board ---- *)
Definition inCheckB (bd : list N) (c : N) : bool :=
  (kingOf bd c <? 81) && existsb (fun s => isCol bd (opp c) s && att bd s (kingOf bd c)) squares.
Lemma kingOf_here bd c k : oneKing bd -> c < 2 -> k < 81 -> isKing bd c k = true -> kingOf bd c = k.
Proof.
  intros O Hc Hk H. destruct (kingOf_cases bd c) as [[L K]|[_ K]]; [|rewrite (K k Hk) in H; discriminate].
  now apply (O c).
Qed.
Lemma king_iff p c s : okBoard (board p) -> c < 2 -> s < 81 -> (at_square (abs p) (squareN s) = Some (colorN c, OU) <-> isKing (board p) c s = true).
Proof.
  intros Ok Hc Hs. rewrite abs_at by auto. rewrite pieceN_iff by now apply okB_at. unfold isKing. rewrite N.eqb_eq, color_inv by auto. reflexivity.
Qed.
Lemma in_check_abs p c : okBoard (board p) -> oneKing (board p) -> c < 2 -> (in_check (abs p) (colorN c) <-> inCheckB (board p) c = true).
Proof.
  intros Ok O Hc. unfold in_check, inCheckB. rewrite andb_true_iff, N.ltb_lt. split.
  - intros (s & Hs & K & A). rewrite <- (square_inv' s Hs) in K, A. pose proof (nsquare_lt s Hs) as L. rewrite king_iff in K by auto.
    rewrite (kingOf_here _ _ _ O Hc L K). split; auto. rewrite <- colorN_opp in A by auto. apply attacked_by_abs in A; auto. now apply opp_lt.
  - intros [L A]. destruct (kingOf_cases (board p) c) as [[_ K]|[E _]]; [|lia]. exists (squareN (kingOf (board p) c)). split; [now apply on_board_N|].
    split; [now apply king_iff|]. rewrite <- colorN_opp by auto. apply attacked_by_abs; auto. now apply opp_lt.
Qed.

(* a position the rest of the development starts from: indices agree with the board, at most one king
   a side, hands well-formed, no more pieces than a shogi set, the side not to move not in check *)
Record good (p : Position) : Prop := {
  g_views : views p;
  g_one : oneKing (board p);
  g_hands : okHands p;
  g_mat : okMaterial p;
  g_safe : inCheckB (board p) (opp (turn p)) = false
}.
Lemma good_turn p : good p -> turn p < 2. Proof. intros G. apply G. Qed.
Lemma good_ok p : good p -> okBoard (board p). Proof. intros G. apply G. Qed.
Lemma existsb_false_at {A} (f : A -> bool) l x : existsb f l = false -> In x l -> f x = false.
Proof. intros E H. destruct (f x) eqn:F; [|reflexivity]. rewrite <- E. symmetry. apply existsb_exists. eauto. Qed.
Lemma inCheckB_safe bd c s : c < 2 -> kingOf bd c < 81 -> s < 81 -> inCheckB bd c = false -> chk bd (opp c) (kingOf bd c) s = false.
Proof.
  intros Hc. unfold inCheckB. generalize (kingOf bd c) as k. intros k Hk Hs S. rewrite (proj2 (N.ltb_lt k 81) Hk) in S. rewrite andb_true_l in S.
  apply (existsb_false_at _ _ s) in S; [|now apply in_squares]. cbv beta in S. unfold chk. destruct (isCol bd (opp c) s); [|reflexivity]. rewrite andb_true_l in S. rewrite S. apply andb_false_r.
Qed.
Lemma oppSafe_good p : good p -> oppSafe p.
Proof.
  intros G. unfold oppSafe. cbv zeta. intros Hk s Hs. pose proof (g_safe p G) as S. pose proof (good_turn p G) as Ht.
  pose proof (inCheckB_safe (board p) (opp (turn p)) s (opp_lt _ Ht) Hk Hs S) as X. rewrite (opp_opp (turn p) Ht) in X. exact X.
Qed.

Lemma handSlot_ptToHand k hp : handSlot k = Some hp -> nkind k <= 7 /\ hp = ptToHand (nkind k) /\ hp < 7.
Proof. destruct k; cbn [handSlot]; intros E; inversion E; subst; cbn; repeat split; lia. Qed.
Lemma hand_pos p c k : c < 2 -> (0 < in_hand (abs p) (colorN c) k)%Z -> nkind k <= 7 /\ 0 < numOf (handOf p c) (ptToHand (nkind k)).
Proof.
  intros Hc H. cbn [abs in_hand] in H. rewrite color_inv in H by auto. destruct (handSlot k) as [hp|] eqn:E; [|lia].
  apply handSlot_ptToHand in E as (E1 & -> & E2). lia.
Qed.
Lemma pieceN_kind p c k s : okBoard (board p) -> c < 2 -> s < 81 ->
  (at_square (abs p) (squareN s) = Some (colorN c, k) <-> pieceAt p s = mkPiece c (nkind k)).
Proof. intros Ok Hc Hs. rewrite abs_at by auto. rewrite pieceN_iff by now apply okB_at. now rewrite color_inv by auto. Qed.
Lemma att_self_neq bd s t : okBoard bd -> s < 81 -> t < 81 -> att bd s t = true -> s <> t.
Proof.
  intros Ok Hs Ht A ->. unfold att, attOcc in A. apply andb_prop in A as [A0 R]. apply andb_prop in R as [R _]. clear Hs.
  apply negb_true_iff, N.eqb_neq in A0. destruct (vpc_facts _ (proj2 Ok t Ht) A0) as (P & C & _). rewrite reach_eq in R. apply orb_prop in R as [R|R].
  - unfold stepIn in R. apply existsb_exists in R as (d & Hd & R). apply stepHits_iff in R; auto. apply (steps_incl _ _ C P) in Hd.
    apply stepDir_cases in Hd as [Hd|Hd]; [now apply off_neq in R|]. destruct R. lia.
  - apply sreach_iff in R as (d & k & Hd & Hk & R); auto. apply off_neq in R; auto. now apply slides_allDirs in Hd.
Qed.

Lemma inCheckB_no bd us s t : oneKing bd -> us < 2 -> s < 81 -> t < 81 -> isKing bd (opp us) t = true -> isCol bd us s = true -> att bd s t = true ->
  inCheckB bd (opp us) = false -> False.
Proof.
  intros O Hu Hs Ht K C A. unfold inCheckB. rewrite (kingOf_here _ _ _ O (opp_lt _ Hu) Ht K), opp_opp by auto. rewrite (proj2 (N.ltb_lt t 81) Ht), andb_true_l.
  intros S. apply (existsb_false_at _ _ s) in S; [|now apply in_squares]. cbv beta in S. rewrite C, A in S. discriminate.
Qed.
(* a pseudo-legal move of Spec.v has a code that fits the position *)
Lemma wf_code p mv : good p -> pseudo_legal (abs p) mv -> wfMove p (code p mv) /\ pseudoGo p (code p mv) /\ moveN (code p mv) = mv.
Proof.
  intros G PL. pose proof (good_turn p G) as Ht. pose proof (good_ok p G) as Ok. pose proof (g_one p G) as O.
  destruct mv as [k t|s t pr]; unfold pseudo_legal in PL; cbv zeta in PL; change (side (abs p)) with (colorN (turn p)) in PL.
  - destruct PL as (Bt & Et & Hh & _ & _). destruct (drop_fields p k t Bt) as (A & B & C & D & E & F). pose proof (nsquare_lt t Bt) as Lt.
    apply hand_pos in Hh as (Hk & Hh); auto. pose proof (nkind_lt k) as Hk'. split; [|split].
    + left. unfold wfDrop. rewrite A, B, C. split; auto. split; [lia|]. split; auto. split; auto.
      rewrite <- (square_inv' t Bt) in Et. rewrite abs_at in Et by auto. now apply pieceN_none in Et.
    + intros X. rewrite B in X. discriminate.
    + unfold moveN. rewrite A, B, C. now rewrite kind_inv, square_inv'.
  - destruct PL as (Bs & Bt & k & Es & At & Nt & Pr & _). destruct (go_fields p s t pr Bs Bt) as (A & B & C & D & E & F).
    pose proof (nsquare_lt t Bt) as Lt. pose proof (nsquare_lt s Bs) as Ls. pose proof (nkind_lt k) as Hk.
    assert (At' : piece_attacks (abs p) (colorN (turn p)) s t) by (exists k; auto).
    rewrite <- (square_inv' s Bs) in At', Es. rewrite <- (square_inv' t Bt) in At', Nt. apply piece_attacks_abs in At'; auto.
    apply pieceN_kind in Es; auto. apply andb_prop in At' as [Cs At'].
    assert (Hne : nsquare s <> nsquare t) by now apply (att_self_neq (board p)).
    split; [|split].
    + right. unfold wfGo. rewrite A, B, C, D, E, F. rewrite Es. rewrite pt_mk by auto. split; auto. split; auto. split; auto. split; auto. split; auto. split.
      * pose proof (okB_at p (nsquare t) Ok Lt) as Vt. destruct (N.eq_dec (pieceAt p (nsquare t)) 0) as [Z|Z].
        { left. rewrite Z. split; reflexivity. }
        right. destruct (vpc_facts _ Vt Z) as (P1 & P2 & P3). assert (Pc : colorOf (pieceAt p (nsquare t)) = opp (turn p)).
        { apply opp_eq; auto. intros X. apply (Nt (kindN (ptOf (pieceAt p (nsquare t))))). rewrite abs_at by auto. rewrite pieceN_some by auto. now rewrite <- X. }
        rewrite <- Pc, <- P3. split; auto. split; auto. intros P8. rewrite P8, Pc in P3.
        assert (K : isKing (board p) (opp (turn p)) (nsquare t) = true) by (apply N.eqb_eq; exact P3).
        exact (inCheckB_no (board p) (turn p) (nsquare s) (nsquare t) O Ht Ls Lt K Cs At' (g_safe p G)).
      * intros X. destruct (Pr X) as [Y _]. destruct k; cbn in *; try lia; now destruct Y.
    + intros _. now rewrite A, B.
    + unfold moveN. rewrite A, B, C, D. now rewrite !square_inv'.
Qed.
