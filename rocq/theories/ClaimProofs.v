(* Lemmas behind the property theorems on reachable boards. *)
From Verif Require Export HistProofs Claims.
Local Open Scope N_scope.

Lemma okZob_init rp rh : okZob (initZobrist rp rh).
Proof.
  intros pt s c. cbn [initZobrist zPiece]. rewrite <- N.negb_odd, <- N.bit0_odd, N.ldiff_spec. change (N.testbit 1 0) with true. now rewrite andb_false_r.
Qed.
Lemma piece_code_vpc x : piece_code x <-> vpc x = true.
Proof.
  split.
  - intros [->|(c & k & ->)]; [reflexivity|]. now destruct c, k.
  - intros H. destruct (vpc_cases x H) as [->|(c & pt & Hc & Hp & ->)]; [now left|]. right. exists (colorN c), (kindN pt). cbn [npiece].
    rewrite color_inv, kind_inv' by auto. apply mkPiece_arith; lia.
Qed.
Lemma okBoard_set z b pieces inHand : turn (bpos b) < 2 -> length pieces = 81%nat -> Forall piece_code pieces -> proper (array_position pieces inHand (turn (bpos b))) ->
  let q := setPieces z (bpos b) pieces inHand in good q /\ cached z q /\ same_position (abs q) (array_position pieces inHand (turn (bpos b))) /\
  gamePly q = gamePly (bpos b) /\ turn q = turn (bpos b) /\ prev q = [] /\ contCheck (st q) = [0; 0] /\ pliesFromNull (st q) = 0.
Proof.
  intros Ht L F P. apply setPieces_ok; auto. intros s Hs. apply piece_code_vpc. rewrite Forall_forall in F. apply F. unfold nthN. apply nth_In. lia.
Qed.
Lemma set_up_ok z b : set_up z b -> good (bpos b) /\ cached z (bpos b) /\ ccOk (bpos b) /\ bhist b = [] /\ prev (bpos b) = [].
Proof.
  intros H. destruct H as [b pieces inHand Ht L F P]. destruct (okBoard_set z b pieces inHand Ht L F P) as (G & C & _ & _ & Et & Ep & Ec & _).
  cbn [boardSetPieces bpos bhist]. do 2 (split; auto). split; [|auto]. split; [now rewrite Ec|]. intros _. rewrite Ec, Et. assert (turn (bpos b) = 0 \/ turn (bpos b) = 1) as [->| ->] by lia; reflexivity.
Qed.
Lemma reachable_ok z b : okZob z -> reachable z b -> good (bpos b) /\ cached z (bpos b).
Proof.
  intros Z (b0 & es & line & S & G & E). destruct (set_up_ok z b0 S) as (G0 & C0 & _). destruct (game_ok any_pass z b0 es line Z G0 C0 G) as (b' & E' & G' & C' & _).
  rewrite E in E'. injection E' as <-. auto.
Qed.
Lemma reachable_game z b0 es line : okZob z -> set_up z b0 -> game any_pass (abs (bpos b0)) es line ->
  exists b, calls z b0 es = Some b /\ reachable z b /\ same_position (abs (bpos b)) (after (abs (bpos b0)) line).
Proof.
  intros Z S G. destruct (set_up_ok z b0 S) as (G0 & C0 & _). destruct (game_ok any_pass z b0 es line Z G0 C0 G) as (b' & E' & G' & C' & S' & _).
  exists b'. split; auto. split; auto. exists b0, es, line. auto.
Qed.
(* one more call on a reachable board *)
Lemma reachable_push z b m : okZob z -> reachable z b -> legal_but_drop_mate (abs (bpos b)) m -> reachable z (push z b (code (bpos b) m)).
Proof.
  intros Z (b0 & es & line & S & G & E) L. destruct (set_up_ok z b0 S) as (G0 & C0 & _). destruct (game_ok any_pass z b0 es line Z G0 C0 G) as (b' & E' & _ & _ & S' & _).
  rewrite E in E'. injection E' as <-. exists b0, (es ++ [Play m]), (Some m :: line). split; auto. split; [apply g_play; auto; eapply legal0_same; eauto|]. now rewrite calls_app, E.
Qed.
Lemma reachable_pass z b : okZob z -> reachable z b -> ~ in_check (abs (bpos b)) (side (abs (bpos b))) -> exists b', pushPass b = Some b' /\ reachable z b'.
Proof.
  intros Z (b0 & es & line & S & G & E) L. destruct (set_up_ok z b0 S) as (G0 & C0 & _). destruct (game_ok any_pass z b0 es line Z G0 C0 G) as (b1 & E' & Gb & Cb & S' & _).
  rewrite E in E'. injection E' as <-. pose proof (not_in_check z b _ Gb Cb (same_refl _) L) as N. unfold pushPass. rewrite N. eexists. split; [reflexivity|].
  exists b0, (es ++ [Pass]), (None :: line). split; auto. split; [apply g_pass; auto; [|exact I]; intros X; apply L; rewrite (proj2 (proj2 S')); eapply in_check_same; [apply same_sym; exact S'|exact X]|].
  rewrite calls_app, E. cbn [callOf step]. unfold pushPass. now rewrite N.
Qed.

(* ---- all views agree ---- *)
Lemma good_agree z p : good p -> cached z p -> agree p.
Proof.
  intros G C. pose proof (g_views p G) as V. pose proof (v_board p V) as Ok. pose proof (good_turn p G) as Ht.
  assert (VP : forall s, on_board s -> vpc (pieceAt p (nsquare s)) = true) by (intros s Hs; apply okB_at; auto; now apply nsquare_lt).
  assert (AT : forall s, on_board s -> at_square (abs p) s = pieceN (pieceAt p (nsquare s))).
  { intros s Hs. cbn [abs at_square]. now rewrite (proj2 (on_boardb_iff s) Hs). }
  assert (PF : forall s, on_board s -> pieceAt p (nsquare s) = 0 /\ at_square (abs p) s = None \/
     exists c k, pieceAt p (nsquare s) = mkPiece (ncolor c) (nkind k) /\ at_square (abs p) s = Some (c, k)).
  { intros s Hs. rewrite AT by auto. destruct (vpc_cases _ (VP s Hs)) as [E|(c & pt & Hc & Hp & E)]; [left; rewrite E; now split|].
    right. exists (colorN c), (kindN pt). rewrite E, color_inv, kind_inv', pieceN_mk by auto. now split. }
  assert (P0 : ptOf 0 = 0) by reflexivity. constructor.
  - intros s Hs. apply piece_code_vpc. auto.
  - intros s c k Hs. pose proof (nsquare_lt s Hs) as L. pose proof (nkind_lt k) as K. pose proof (ncolor_lt c) as Cc. unfold bbTC. rewrite isSet_and, isSet_bbT, isSet_bbC by auto.
    destruct (PF s Hs) as [[E ->]|(c' & k' & E & ->)]; rewrite E.
    + split; [|discriminate]. change (0 =? 0) with true. rewrite andb_false_r. discriminate.
    + pose proof (nkind_lt k') as K'. pose proof (ncolor_lt c') as Cc'. rewrite pt_mk, mk_nz, col_mk by auto. cbn [negb andb]. rewrite andb_true_iff, !N.eqb_eq. split.
      * intros [X Y]. apply (f_equal kindN) in X. apply (f_equal colorN) in Y. rewrite !kind_inv in X. rewrite !color_inv' in Y. now subst.
      * intros X. injection X as -> ->. auto.
  - intros s k Hs. pose proof (nsquare_lt s Hs) as L. pose proof (nkind_lt k) as K. rewrite isSet_bbT by auto.
    destruct (PF s Hs) as [[E ->]|(c' & k' & E & ->)]; rewrite E.
    + rewrite P0. split; [intros X; apply N.eqb_eq in X; lia|intros (? & ?); discriminate].
    + pose proof (nkind_lt k') as K'. pose proof (ncolor_lt c') as Cc'. rewrite pt_mk by auto. rewrite N.eqb_eq. split.
      * intros X. apply (f_equal kindN) in X. rewrite !kind_inv in X. subst. eauto.
      * intros (c & X). injection X as -> ->. auto.
  - intros s c Hs. pose proof (nsquare_lt s Hs) as L. pose proof (ncolor_lt c) as Cc. rewrite isSet_bbC by auto.
    destruct (PF s Hs) as [[E ->]|(c' & k' & E & ->)]; rewrite E.
    + split; [discriminate|intros (? & ?); discriminate].
    + pose proof (nkind_lt k') as K'. pose proof (ncolor_lt c') as Cc'. rewrite mk_nz, col_mk by auto. cbn [negb andb]. rewrite N.eqb_eq. split.
      * intros Y. apply (f_equal colorN) in Y. rewrite !color_inv' in Y. subst. eauto.
      * intros (k & X). injection X as -> ->. auto.
  - intros s Hs. pose proof (nsquare_lt s Hs) as L. rewrite isSet_occBB by auto.
    destruct (PF s Hs) as [[E ->]|(c' & k' & E & ->)]; rewrite E; [split; [discriminate|contradiction]|]. pose proof (nkind_lt k') as K'. pose proof (ncolor_lt c') as Cc'. rewrite mk_nz by auto.
    split; [discriminate|reflexivity].
  - intros s Hs. pose proof (nsquare_lt s Hs) as L. rewrite isSet_golds by auto.
    destruct (PF s Hs) as [[E ->]|(c' & k' & E & ->)]; rewrite E; [split; [discriminate|intros (? & ? & ? & _); discriminate]|]. pose proof (nkind_lt k') as K'. pose proof (ncolor_lt c') as Cc'. rewrite pt_mk by auto.
    split.
    + intros X. exists c', k'. split; auto. revert X. clear. destruct k'; intros X; try discriminate X; cbn [In]; tauto.
    + intros (c & k & X & Y). injection X as -> ->. revert Y. clear. cbn [In]. intros [<-|[<-|[<-|[<-|[<-|[]]]]]]; reflexivity.
  - intros s c Hs. pose proof (nsquare_lt s Hs) as L. pose proof (ncolor_lt c) as Cc. rewrite kingSquare_view by auto.
    pose proof (king_iff p (ncolor c) (nsquare s) Ok Cc L) as KI. rewrite square_inv', color_inv' in KI by auto. rewrite KI. split.
    + intros E. destruct (kingOf_cases (board p) (ncolor c)) as [[_ K]|[E' _]]; [now rewrite E in K|lia].
    + intros K. apply kingOf_here; auto. apply G.
  - intros c Hn. pose proof (ncolor_lt c) as Cc. rewrite kingSquare_view by auto. destruct (kingOf_cases (board p) (ncolor c)) as [[B K]|[E _]]; [|exact E].
    exfalso. apply (Hn (squareN (kingOf (board p) (ncolor c)))). rewrite <- (color_inv' c) at 2. now apply king_iff.
  - apply (c_hand z p C).
  - exact Ht.
Qed.

(* ---- a good position is determined by what it shows ---- *)
Lemma good_same_eq p q : good p -> good q -> same_position (abs p) (abs q) ->
  board p = board q /\ hands p = hands q /\ turn p = turn q /\ byType p = byType q /\ byColor p = byColor q /\ golds p = golds q /\ kingSq p = kingSq q.
Proof.
  intros G G' (A & H & S). pose proof (g_views p G) as V. pose proof (g_views q G') as V'.
  assert (Eb : board p = board q).
  { apply (nthN_ext 0); [now rewrite (proj1 (v_board p V)), (proj1 (v_board q V'))|]. intros i Hi. rewrite (proj1 (v_board p V)) in Hi. assert (Li : i < 81) by lia.
    specialize (A (squareN i)). rewrite !abs_at in A by auto. change (pieceAt p i = pieceAt q i). pose proof (okB_at p i (v_board p V) Li) as X. pose proof (okB_at q i (v_board q V') Li) as Y.
    destruct (vpc_cases _ X) as [E|(c & pt & Hc & Hp & E)].
    - rewrite E in A. symmetry in A. apply pieceN_none in A. congruence.
    - rewrite E, pieceN_mk in A by auto. symmetry in A. apply pieceN_iff in A; auto. rewrite color_inv, kind_inv' in A by auto. congruence. }
  assert (Et : turn p = turn q).
  { pose proof (good_turn p G) as T. pose proof (good_turn q G') as T'. cbn [abs side] in S. apply (f_equal ncolor) in S. now rewrite !color_inv in S. }
  assert (Eh : hands p = hands q).
  { destruct (g_hands p G) as [L O], (g_hands q G') as [L' O']. apply (nthN_ext 0); [congruence|]. intros i Hi. rewrite L in Hi. assert (Li : i < 2) by lia.
    change (handOf p i = handOf q i). apply handOk_ext; auto. intros hp Hh. pose proof (kindN_slot hp Hh) as Ek. specialize (H (colorN i) (slotKind hp)). cbn [abs in_hand] in H. rewrite Ek, color_inv in H by auto. lia. }
  do 3 (split; auto). rewrite (v_type p V), (v_type q V'), (v_color p V), (v_color q V'), (v_golds p V), (v_golds q V'), (v_king p V), (v_king q V'), (v_type p V), (v_type q V'), Eb. auto.
Qed.

(* ---- the hash ---- *)
Lemma sumZ_sum (f : N -> Z) l : sumZ f l = sum f l.
Proof. induction l as [|a l IH]; cbn [sumZ sum fold_right]; auto. now rewrite IH. Qed.
Lemma sum_map {A B} (f : B -> Z) (g : A -> B) l : sum f (map g l) = sum (fun x => f (g x)) l.
Proof. induction l as [|a l IH]; cbn [map sum fold_right]; auto. f_equal. exact IH. Qed.
Lemma sum_ext {A} (f g : A -> Z) l : (forall x, In x l -> f x = g x) -> sum f l = sum g l.
Proof. intros H. induction l as [|a l IH]; cbn [sum fold_right]; auto. rewrite (H a) by now left. f_equal. apply IH. intros x Hx. apply H. now right. Qed.
Lemma bsum_abs z p : okBoard (board p) -> bsum z (board p) = sum (square_value z (abs p)) all_squares.
Proof.
  intros Ok. unfold bsum. rewrite sumZ_sum, all_squares_N, sum_map. apply sum_ext. intros s Hs. apply in_squares in Hs. unfold square_value. rewrite abs_at by auto.
  unfold bval. change (at_ (board p) s) with (pieceAt p s). pose proof (okB_at p s Ok Hs) as V. destruct (vpc_cases _ V) as [E|(c & pt & Hc & Hp & E)]; rewrite E; [reflexivity|].
  rewrite mk_nz, pieceN_mk, pt_mk, col_mk, square_inv, kind_inv', color_inv by auto. reflexivity.
Qed.
Lemma hsum_abs z p : hsum z (hands p) = (sum (hand_value z (abs p) Sente) hand_kinds + sum (hand_value z (abs p) Gote) hand_kinds)%Z.
Proof.
  unfold hsum, hps, hand_kinds, hand_value, hval. cbn [sumZ sum fold_right handSlot abs in_hand ncolor]. unfold handOf. ring.
Qed.
Theorem hash_scratch z p : okZob z -> good p -> cached z p -> Z.of_N (getKey p) = scratch_hash z (abs p).
Proof.
  intros Z G C. destruct (c_keys z p C) as [K1 K2]. unfold getKey, stKey. rewrite add64_Z, K1, K2. pose proof (good_turn p G) as Ht.
  rewrite computeBoardKey_Z, computeHandKey_Z by auto. rewrite bsum_abs by (apply (v_board p (g_views p G))). rewrite hsum_abs. unfold scratch_hash. change (2 ^ 64)%Z with W64.
  replace (match side (abs p) with Sente => 0 | Gote => 1 end)%Z with (Z.of_N (turn p)) by (cbn [abs side]; unfold colorN; assert (turn p = 0 \/ turn p = 1) as [->| ->] by lia; reflexivity).
  rewrite Zplus_mod_idemp_r. rewrite <- Z.add_assoc, Zplus_mod_idemp_l. f_equal. ring.
Qed.
Lemma scratch_same z P Q : same_position P Q -> scratch_hash z P = scratch_hash z Q.
Proof.
  intros (A & B & C). unfold scratch_hash. rewrite C. rewrite (sum_ext (square_value z P) (square_value z Q)) by (intros s _; unfold square_value; now rewrite A).
  rewrite (sum_ext (hand_value z P Sente) (hand_value z Q Sente)) by (intros s _; unfold hand_value; now rewrite B).
  now rewrite (sum_ext (hand_value z P Gote) (hand_value z Q Gote)) by (intros s _; unfold hand_value; now rewrite B).
Qed.
