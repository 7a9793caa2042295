(* doMove/undoMove keep every stored view consistent with the board, preserve material, and
   undoMove restores the position exactly. *)
From Verif Require Export AttackersProofs HandProofs.

(* ---- pieces and hands ---- *)
Definition okHands (p : Position) : Prop := length (hands p) = 2%nat /\ forall c, c < 2 -> handOk (handOf p c).
(* number of squares satisfying f *)
Definition cnt (f : N -> bool) : N := N.of_nat (length (filter f squares)).
(* pieces on the board that would go to the hand slot hp when captured *)
Definition boardCount (bd : list N) (hp : N) : N := cnt (fun s => ptToHand (ptOf (at_ bd s)) =? hp).
Definition material (p : Position) (hp : N) : N :=
  boardCount (board p) hp + numOf (handOf p 0) hp + numOf (handOf p 1) hp.
(* a full shogi set *)
Definition fullSet (hp : N) : N := nthN 0 [18; 4; 4; 4; 4; 2; 2] hp.
Definition okMaterial (p : Position) : Prop := forall hp, hp < 7 -> material p hp <= fullSet hp.

(* a move that fits the position: the piece named is on its square or in hand, and the target and the
   capture field agree with the board.  No rule of shogi beyond that. *)
Definition wfDrop (p : Position) (m : N) : Prop :=
  mvDrop m = true /\ 1 <= mvPtDropped m <= 7 /\ mvTo m < 81 /\ pieceAt p (mvTo m) = 0 /\
  0 < numOf (handOf p (turn p)) (ptToHand (mvPtDropped m)).
Definition wfGo (p : Position) (m : N) : Prop :=
  mvDrop m = false /\ mvFrom m <> mvTo m /\ mvTo m < 81 /\ 1 <= mvPtFrom m < 15 /\
  pieceAt p (mvFrom m) = mkPiece (turn p) (mvPtFrom m) /\
  (pieceAt p (mvTo m) = 0 /\ mvCap m = 0 \/
   pieceAt p (mvTo m) = mkPiece (opp (turn p)) (mvCap m) /\ 1 <= mvCap m < 15 /\ mvCap m <> 8) /\
  (mvPromo m = true -> mvPtFrom m <= 6).
Definition wfMove (p : Position) (m : N) : Prop := wfDrop p m \/ wfGo p m.

(* ---- lists of bitboards ---- *)
Lemma length_xorAt l i s : length (xorAt l i s) = length l.
Proof. apply length_updN. Qed.
Lemma nth_xorAt l i s j : i < N.of_nat (length l) ->
  nthN allZeroBB (xorAt l i s) j = if i =? j then xorBit (nthN allZeroBB l i) s else nthN allZeroBB l j.
Proof. intros H. unfold xorAt. now apply nthN_updN. Qed.
Lemma isSet_xorAt l i s j x : i < N.of_nat (length l) -> s < 81 -> x < 81 ->
  isSet (nthN allZeroBB (xorAt l i s) j) x = xorb (isSet (nthN allZeroBB l j) x) ((i =? j) && (s =? x)).
Proof.
  intros H Hs Hx. rewrite nth_xorAt by auto. destruct (N.eqb_spec i j) as [->|]; cbn [andb].
  - now apply isSet_xorBit.
  - now rewrite xorb_false_r.
Qed.
Lemma wf_xorAt l i s j : i < N.of_nat (length l) -> s < 81 -> wfBB (nthN allZeroBB l i) -> wfBB (nthN allZeroBB l j) ->
  wfBB (nthN allZeroBB (xorAt l i s) j).
Proof. intros H Hs W W'. rewrite nth_xorAt by auto. destruct (i =? j); auto. now apply wf_xorBit. Qed.

Lemma length_byTypeOf bd : length (byTypeOf bd) = 15%nat.
Proof. unfold byTypeOf. now rewrite map_length, length_seqN. Qed.
Lemma nth_byTypeOf bd j : j < 15 -> nthN allZeroBB (byTypeOf bd) j = fbb (isPt bd j).
Proof. intros H. unfold byTypeOf. now rewrite nthN_map_seqN by (cbn; lia). Qed.
Lemma nth_byColorOf bd c : c < 2 -> nthN allZeroBB (byColorOf bd) c = fbb (isCol bd c).
Proof. intros H. unfold byColorOf. cbn [map]. rewrite nthN_2 by auto. assert (c = 0 \/ c = 1) as [->| ->] by lia; reflexivity. Qed.
Lemma byType_ext l bd : length l = 15%nat -> (forall j, j < 15 -> wfBB (nthN allZeroBB l j)) ->
  (forall j s, j < 15 -> s < 81 -> isSet (nthN allZeroBB l j) s = isPt bd j s) -> l = byTypeOf bd.
Proof.
  intros HL HW HS. apply (nthN_ext allZeroBB); [now rewrite length_byTypeOf|]. rewrite HL. intros j Hj. change (N.of_nat 15) with 15 in Hj.
  rewrite nth_byTypeOf by auto. apply fbb_ext; auto.
Qed.
Lemma byColor_ext l bd : length l = 2%nat -> (forall j, j < 2 -> wfBB (nthN allZeroBB l j)) ->
  (forall j s, j < 2 -> s < 81 -> isSet (nthN allZeroBB l j) s = isCol bd j s) -> l = byColorOf bd.
Proof.
  intros HL HW HS. apply (nthN_ext allZeroBB); [exact HL|]. rewrite HL. intros j Hj. change (N.of_nat 2) with 2 in Hj.
  rewrite nth_byColorOf by auto. apply fbb_ext; auto.
Qed.

(* ---- kings ---- *)
Lemma mkPiece_inj c pt c' pt' : c < 2 -> c' < 2 -> 1 <= pt < 15 -> 1 <= pt' < 15 -> mkPiece c pt = mkPiece c' pt' -> c = c' /\ pt = pt'.
Proof.
  intros Hc Hc' Hp Hp' E. destruct (mkPiece_facts c pt Hc Hp) as (A & B & _). destruct (mkPiece_facts c' pt' Hc' Hp') as (A' & B' & _).
  rewrite E in A, B. split; congruence.
Qed.
Lemma kingOf_cases bd c : (kingOf bd c < 81 /\ isKing bd c (kingOf bd c) = true) \/
  (kingOf bd c = 81 /\ forall s, s < 81 -> isKing bd c s = false).
Proof.
  unfold kingOf. destruct (filter (isKing bd c) squares) as [|k l] eqn:E.
  - right. split; [reflexivity|]. intros s Hs. destruct (isKing bd c s) eqn:K; [|reflexivity].
    assert (In s (filter (isKing bd c) squares)) by (apply filter_In; split; [now apply in_squares|auto]). rewrite E in H. destruct H.
  - left. cbn [hd]. assert (H : In k (filter (isKing bd c) squares)) by (rewrite E; now left). apply filter_In in H as [H K].
    apply in_squares in H. auto.
Qed.
Lemma kingOf_eq bd c s : oneKing bd -> c < 2 -> s < 81 -> isKing bd c s = true -> kingOf bd c = s.
Proof.
  intros O Hc Hs K. destruct (kingOf_cases bd c) as [[L K']|[_ N]]; [now apply (O c)|]. rewrite N in K by auto. discriminate.
Qed.
Lemma kingOf_ext bd bd' c : (forall s, s < 81 -> isKing bd' c s = isKing bd c s) -> kingOf bd' c = kingOf bd c.
Proof.
  intros H. unfold kingOf. f_equal. apply filter_ext_in. intros s Hs. apply H. now apply in_squares.
Qed.
Lemma kingOf_le bd c : kingOf bd c <= 81.
Proof. destruct (kingOf_cases bd c) as [[L _]|[E _]]; lia. Qed.

(* ---- boards ---- *)
Lemma at_upd bd s v x : s < N.of_nat (length bd) -> at_ (updN bd s v) x = if s =? x then v else at_ bd x.
Proof. intros H. unfold at_. now apply nthN_updN. Qed.
Lemma okBoard_upd bd s v : okBoard bd -> vpc v = true -> okBoard (updN bd s v).
Proof.
  intros [L H] Hv. split; [now rewrite length_updN|]. intros x Hx. unfold at_.
  destruct (N.lt_ge_cases s 81) as [Hs|Hs].
  - rewrite nthN_updN by (rewrite L; cbn; lia). destruct (s =? x); [auto|now apply H].
  - rewrite nthN_updN_neq by lia. now apply H.
Qed.
Lemma at_out bd s : okBoard bd -> 81 <= s -> at_ bd s = 0.
Proof. intros [L _] H. unfold at_, nthN. apply nth_overflow. lia. Qed.

Definition newBoard (p : Position) (m : N) : list N :=
  if mvDrop m then updN (board p) (mvTo m) (mkPiece (turn p) (mvPtDropped m))
  else updN (updN (board p) (mvFrom m) 0) (mvTo m) (mkPiece (turn p) (mvPtToOf m (mvPtFrom m))).

Lemma mvPtToOf_eq m pt : mvPtToOf m pt = pt + (if mvPromo m then 8 else 0).
Proof.
  unfold mvPtToOf, mvPromo, PromoteFlag. f_equal. change 0x4000 with (N.shiftl 1 14). rewrite land_pow2_testbit.
  destruct (N.testbit m 14) eqn:E.
  - replace (N.land m (N.shiftl 1 14)) with (N.shiftl 1 14); [reflexivity|]. apply N.bits_inj. intros i.
    rewrite N.land_spec, N.shiftl_1_l, N.pow2_bits_eqb. destruct (N.eqb_spec 14 i) as [<-|]; [now rewrite E|now rewrite andb_false_r].
  - replace (N.land m (N.shiftl 1 14)) with 0; [reflexivity|]. apply N.bits_inj. intros i.
    rewrite N.land_spec, N.bits_0, N.shiftl_1_l, N.pow2_bits_eqb. destruct (N.eqb_spec 14 i) as [<-|]; [now rewrite E|now rewrite andb_false_r].
Qed.
Lemma wfGo_ptTo p m : wfGo p m -> 1 <= mvPtToOf m (mvPtFrom m) < 15 /\ (mvPtToOf m (mvPtFrom m) = 8 <-> mvPtFrom m = 8) /\
  ptToHand (mvPtToOf m (mvPtFrom m)) = ptToHand (mvPtFrom m).
Proof.
  intros (_ & _ & _ & Hp & _ & _ & Hpr). rewrite mvPtToOf_eq. destruct (mvPromo m).
  - specialize (Hpr eq_refl). split; [lia|]. split; [lia|].
    assert (G : forallb (fun x => ptToHand (x + 8) =? ptToHand x) (seqN 1 6) = true) by reflexivity.
    pose proof (forallb_seqN _ _ _ G (mvPtFrom m) ltac:(lia)) as E. cbv beta in E. now apply N.eqb_eq.
  - rewrite N.add_0_r. split; [lia|]. split; [lia|reflexivity].
Qed.
Lemma wfGo_from p m : wfGo p m -> mvFrom m < 81.
Proof. intros (H & _). unfold mvDrop in H. lia. Qed.

Lemma vpc_mk c pt : c < 2 -> 1 <= pt < 15 -> vpc (mkPiece c pt) = true.
Proof. intros. now apply mkPiece_facts. Qed.
Lemma pt_mk c pt : c < 2 -> 1 <= pt < 15 -> ptOf (mkPiece c pt) = pt.
Proof. intros. now apply mkPiece_facts. Qed.
Lemma col_mk c pt : c < 2 -> 1 <= pt < 15 -> colorOf (mkPiece c pt) = c.
Proof. intros. now apply mkPiece_facts. Qed.
Lemma mk_nz c pt : c < 2 -> 1 <= pt < 15 -> (mkPiece c pt =? 0) = false.
Proof. intros. apply N.eqb_neq. now apply mkPiece_facts. Qed.

Lemma okBoard_new p m : views p -> wfMove p m -> okBoard (newBoard p m).
Proof.
  intros V [W|W]; unfold newBoard; pose proof (v_turn p V) as Ht.
  - destruct W as (-> & Hp & _). apply okBoard_upd; [apply V|]. apply vpc_mk; lia.
  - pose proof (wfGo_ptTo p m W) as (Hp & _). destruct W as (-> & _). repeat apply okBoard_upd; try apply V; [reflexivity|]. now apply vpc_mk.
Qed.
Lemma len_board p : views p -> N.of_nat (length (board p)) = 81.
Proof. intros V. destruct (v_board p V) as [-> _]. reflexivity. Qed.
Lemma at_newDrop p m x : views p -> wfDrop p m ->
  at_ (newBoard p m) x = if mvTo m =? x then mkPiece (turn p) (mvPtDropped m) else pieceAt p x.
Proof. intros V (E & _ & Ht & _). unfold newBoard. rewrite E. rewrite at_upd by (rewrite len_board; auto). reflexivity. Qed.
Lemma at_newGo p m x : views p -> wfGo p m ->
  at_ (newBoard p m) x = if mvTo m =? x then mkPiece (turn p) (mvPtToOf m (mvPtFrom m)) else if mvFrom m =? x then 0 else pieceAt p x.
Proof.
  intros V W. pose proof (wfGo_from p m W). destruct W as (E & _ & Ht & _). unfold newBoard. rewrite E.
  rewrite at_upd by (rewrite length_updN, len_board; auto). rewrite at_upd by (rewrite len_board; auto). reflexivity.
Qed.

Ltac neqb := repeat match goal with
  | |- context [(?a =? ?a)] => rewrite (N.eqb_refl a)
  | H : ?a <> ?b |- context [(?a =? ?b)] => rewrite (proj2 (N.eqb_neq a b) H)
  | H : ?b <> ?a |- context [(?a =? ?b)] => rewrite (proj2 (N.eqb_neq a b) (not_eq_sym H))
  end.

Lemma isPt_at bd bd' j x : at_ bd x = at_ bd' x -> isPt bd j x = isPt bd' j x.
Proof. unfold isPt. now intros ->. Qed.
Lemma isCol_at bd bd' j x : at_ bd x = at_ bd' x -> isCol bd j x = isCol bd' j x.
Proof. unfold isCol. now intros ->. Qed.

Lemma isPt_pos bd j x : 1 <= j -> isPt bd j x = (ptOf (at_ bd x) =? j).
Proof. intros H. unfold isPt. now replace (j =? 0) with false by lia. Qed.
Lemma isCol_or bd x : okBoard bd -> x < 81 -> isCol bd 0 x || isCol bd 1 x = negb (at_ bd x =? 0).
Proof.
  intros [_ O] Hx. unfold isCol. destruct (N.eqb_spec (at_ bd x) 0) as [|E]; [reflexivity|]. cbn [negb andb].
  destruct (vpc_facts _ (O x Hx) E) as (_ & Hc & _). assert (colorOf (at_ bd x) = 0 \/ colorOf (at_ bd x) = 1) as [->| ->] by lia; reflexivity.
Qed.

(* ---- byColor ---- *)
Lemma view_isPt p j x : views p -> j < 15 -> x < 81 -> isSet (nthN allZeroBB (byType p) j) x = isPt (board p) j x.
Proof. intros V Hj Hx. rewrite (v_type p V), nth_byTypeOf by auto. now apply isSet_fbb. Qed.
Lemma view_wfT p j : views p -> j < 15 -> wfBB (nthN allZeroBB (byType p) j).
Proof. intros V Hj. rewrite (v_type p V), nth_byTypeOf by auto. apply wf_fbb. Qed.
Lemma view_isCol p c x : views p -> c < 2 -> x < 81 -> isSet (nthN allZeroBB (byColor p) c) x = isCol (board p) c x.
Proof. intros V Hj Hx. rewrite (v_color p V), nth_byColorOf by auto. now apply isSet_fbb. Qed.
Lemma view_wfC p c : views p -> c < 2 -> wfBB (nthN allZeroBB (byColor p) c).
Proof. intros V Hj. rewrite (v_color p V), nth_byColorOf by auto. apply wf_fbb. Qed.
Lemma len_T p : views p -> N.of_nat (length (byType p)) = 15.
Proof. intros V. rewrite (v_type p V), length_byTypeOf. reflexivity. Qed.
Lemma len_C p : views p -> N.of_nat (length (byColor p)) = 2.
Proof. intros V. now rewrite (v_color p V). Qed.
Lemma lenT_nat p : views p -> length (byType p) = 15%nat.
Proof. intros V. now rewrite (v_type p V), length_byTypeOf. Qed.
Lemma lenC_nat p : views p -> length (byColor p) = 2%nat.
Proof. intros V. now rewrite (v_color p V). Qed.

(* the list operations of doMove, named *)
Definition dropBT p m := xorAt (xorAt (byType p) Occupied (mvTo m)) (mvPtDropped m) (mvTo m).
Definition dropBC p m := xorAt (byColor p) (turn p) (mvTo m).
Definition goBC1 p m := updN (byColor p) (turn p) (xorBit2 (bbC p (turn p)) (mvFrom m) (mvTo m)).
Definition goBC p m := if negb (mvCap m =? 0) then xorAt (goBC1 p m) (opp (turn p)) (mvTo m) else goBC1 p m.
Definition goBT1 p m := xorAt (xorAt (byType p) (mvPtFrom m) (mvFrom m)) (mvPtToOf m (mvPtFrom m)) (mvTo m).
Definition goBT2 p m := if negb (mvCap m =? 0) then xorAt (goBT1 p m) (mvCap m) (mvTo m) else goBT1 p m.
Definition goBT p m := updN (goBT2 p m) Occupied (bbOr (nthN allZeroBB (goBC p m) Black) (nthN allZeroBB (goBC p m) White)).

Lemma dropBC_ok p m : views p -> wfDrop p m -> dropBC p m = byColorOf (newBoard p m).
Proof.
  intros V W. pose proof (v_turn p V) as Ht. pose proof W as (Hd & Hp & Hto & He & _).
  apply byColor_ext.
  - unfold dropBC. now rewrite length_xorAt, lenC_nat.
  - intros j Hj. apply wf_xorAt; try rewrite len_C; auto; now apply view_wfC.
  - intros j x Hj Hx. unfold dropBC. rewrite isSet_xorAt, view_isCol by (try rewrite len_C; auto).
    unfold isCol. rewrite (at_newDrop p m x V W). change (at_ (board p) x) with (pieceAt p x).
    destruct (N.eqb_spec (mvTo m) x) as [<-|Hn].
    + rewrite He. rewrite col_mk, mk_nz by lia. cbn [negb andb N.eqb]. rewrite N.eqb_refl, andb_true_r. cbn. now destruct (turn p =? j).
    + now rewrite andb_false_r, xorb_false_r.
Qed.
Lemma dropBT_ok p m : views p -> wfDrop p m -> dropBT p m = byTypeOf (newBoard p m).
Proof.
  intros V W. pose proof (v_turn p V) as Ht. pose proof W as (Hd & Hp & Hto & He & _).
  apply byType_ext.
  - unfold dropBT. now rewrite !length_xorAt, lenT_nat.
  - intros j Hj. unfold dropBT. apply wf_xorAt; rewrite ?length_xorAt, ?len_T; auto; try lia;
      apply wf_xorAt; rewrite ?len_T; auto; try (apply view_wfT; auto); try (cbv; reflexivity); lia.
  - intros j x Hj Hx. unfold dropBT. rewrite !isSet_xorAt, view_isPt by (rewrite ?length_xorAt, ?len_T; auto; try (cbv; reflexivity); lia).
    destruct (N.eqb_spec (mvTo m) x) as [E|Hn].
    + subst x. rewrite !andb_true_r. unfold isPt. rewrite (at_newDrop p m _ V W). change (at_ (board p) (mvTo m)) with (pieceAt p (mvTo m)).
      rewrite He, (N.eqb_refl (mvTo m)). rewrite pt_mk, mk_nz by lia. unfold Occupied. rewrite (N.eqb_sym 0 j). destruct (N.eqb_spec j 0) as [->|Hj0].
      * replace (mvPtDropped m =? 0) with false by lia. reflexivity.
      * change (ptOf 0) with 0. replace (0 =? j) with false by lia. now rewrite xorb_false_r, xorb_false_l.
    + rewrite !andb_false_r, !xorb_false_r. apply isPt_at. rewrite (at_newDrop p m x V W). now neqb.
Qed.
Lemma goBC_ok p m : views p -> wfGo p m -> goBC p m = byColorOf (newBoard p m).
Proof.
  intros V W. pose proof (v_turn p V) as Ht. pose proof (opp_lt _ Ht) as Ho. pose proof (wfGo_from p m W) as Hf.
  pose proof (wfGo_ptTo p m W) as (Hpt & _). pose proof W as (Hd & Hne & Hto & Hpf & Hat & Hcap & Hpr).
  assert (L1 : N.of_nat (length (goBC1 p m)) = 2) by (unfold goBC1; rewrite length_updN; now apply len_C).
  assert (S1 : forall j x, j < 2 -> x < 81 -> isSet (nthN allZeroBB (goBC1 p m) j) x
     = xorb (isCol (board p) j x) ((turn p =? j) && ((mvFrom m =? x) || (mvTo m =? x)))).
  { intros j x Hj Hx. unfold goBC1. rewrite nthN_updN by (rewrite len_C; auto). destruct (N.eqb_spec (turn p) j) as [<-|Hn]; cbn [andb].
    - unfold bbC. rewrite isSet_xorBit2 by auto. rewrite view_isCol by auto. destruct (isCol _ _ _), (N.eqb_spec (mvFrom m) x), (N.eqb_spec (mvTo m) x); try reflexivity; congruence.
    - rewrite xorb_false_r. now apply view_isCol. }
  assert (W1 : forall j, j < 2 -> wfBB (nthN allZeroBB (goBC1 p m) j)).
  { intros j Hj. unfold goBC1. rewrite nthN_updN by (rewrite len_C; auto). destruct (turn p =? j); [apply wf_xorBit2; auto|]; now apply view_wfC. }
  apply byColor_ext.
  - unfold goBC. destruct (negb _); rewrite ?length_xorAt; unfold goBC1; now rewrite length_updN, lenC_nat.
  - intros j Hj. unfold goBC. destruct (negb _); [apply wf_xorAt; rewrite ?L1; auto|auto].
  - intros j x Hj Hx.
    assert (E : isSet (nthN allZeroBB (goBC p m) j) x = xorb (xorb (isCol (board p) j x) ((turn p =? j) && ((mvFrom m =? x) || (mvTo m =? x))))
       (negb (mvCap m =? 0) && ((opp (turn p) =? j) && (mvTo m =? x)))).
    { unfold goBC. destruct (negb (mvCap m =? 0)); cbn [andb]; [rewrite isSet_xorAt by (rewrite ?L1; auto); now rewrite S1|rewrite xorb_false_r; now apply S1]. }
    rewrite E. unfold isCol. rewrite (at_newGo p m x V W). change (at_ (board p) x) with (pieceAt p x).
    destruct (N.eqb_spec (mvTo m) x) as [Ex|Hx1].
    + subst x. rewrite orb_true_r, !andb_true_r. rewrite col_mk, mk_nz by auto. cbn [negb andb].
      destruct Hcap as [[Hz Hc]|(Hz & Hc & Hc8)].
      * rewrite Hz, Hc. cbn [N.eqb negb andb]. now destruct (turn p =? j).
      * rewrite Hz. rewrite col_mk, mk_nz by auto. replace (mvCap m =? 0) with false by lia. cbn [negb andb].
        destruct (N.eqb_spec (turn p) j) as [<-|]; [|now destruct (opp (turn p) =? j)]. pose proof (opp_neq _ Ht). neqb. reflexivity.
    + rewrite orb_false_r, !andb_false_r, xorb_false_r. destruct (N.eqb_spec (mvFrom m) x) as [Ex|Hx2].
      * subst x. rewrite Hat. rewrite col_mk, mk_nz by auto. cbn [negb andb]. rewrite N.eqb_refl, andb_true_r. cbn. now destruct (turn p =? j).
      * now rewrite andb_false_r, xorb_false_r.
Qed.
Lemma goBT_ok p m : views p -> wfGo p m -> goBT p m = byTypeOf (newBoard p m).
Proof.
  intros V W. pose proof (v_turn p V) as Ht. pose proof (opp_lt _ Ht) as Ho. pose proof (wfGo_from p m W) as Hf.
  pose proof (wfGo_ptTo p m W) as (Hpt & _). pose proof W as (Hd & Hne & Hto & Hpf & Hat & Hcap & Hpr).
  assert (Hc15 : mvCap m < 15) by (destruct Hcap as [[_ ->]|(_ & ? & _)]; lia).
  assert (L1 : N.of_nat (length (goBT1 p m)) = 15) by (unfold goBT1; rewrite !length_xorAt; now apply len_T).
  assert (L2 : length (goBT2 p m) = 15%nat) by (unfold goBT2; destruct (negb _); rewrite ?length_xorAt; unfold goBT1; now rewrite !length_xorAt, lenT_nat).
  assert (W1 : forall j, j < 15 -> wfBB (nthN allZeroBB (goBT1 p m) j)).
  { intros j Hj. unfold goBT1. apply wf_xorAt; rewrite ?length_xorAt, ?len_T; auto; try lia; apply wf_xorAt; rewrite ?len_T; auto; try lia; apply view_wfT; auto; lia. }
  assert (W2 : forall j, j < 15 -> wfBB (nthN allZeroBB (goBT2 p m) j)).
  { intros j Hj. unfold goBT2. destruct (negb _); [apply wf_xorAt; rewrite ?L1; auto|auto]. }
  apply byType_ext.
  - unfold goBT. now rewrite length_updN.
  - intros j Hj. unfold goBT. rewrite nthN_updN by (rewrite L2; cbv; reflexivity). destruct (Occupied =? j); [|now apply W2].
    rewrite (goBC_ok p m V W). apply wf_or; rewrite nth_byColorOf by (cbv; reflexivity); apply wf_fbb.
  - intros j x Hj Hx. unfold goBT. rewrite nthN_updN by (rewrite L2; cbv; reflexivity). unfold Occupied. destruct (N.eqb_spec 0 j) as [<-|Hj0].
    + rewrite (goBC_ok p m V W). unfold Black, White. rewrite isSet_or, !nth_byColorOf, !isSet_fbb by (auto; cbv; reflexivity).
      rewrite isCol_or by (auto; apply okBoard_new; auto; now right). reflexivity.
    + assert (E : isSet (nthN allZeroBB (goBT2 p m) j) x = xorb (xorb (xorb (isPt (board p) j x) ((mvPtFrom m =? j) && (mvFrom m =? x)))
          ((mvPtToOf m (mvPtFrom m) =? j) && (mvTo m =? x))) (negb (mvCap m =? 0) && ((mvCap m =? j) && (mvTo m =? x)))).
      { assert (E1 : isSet (nthN allZeroBB (goBT1 p m) j) x = xorb (xorb (isPt (board p) j x) ((mvPtFrom m =? j) && (mvFrom m =? x)))
          ((mvPtToOf m (mvPtFrom m) =? j) && (mvTo m =? x))).
        { unfold goBT1. rewrite !isSet_xorAt, view_isPt by (rewrite ?length_xorAt, ?len_T; auto; lia). reflexivity. }
        unfold goBT2. destruct (negb (mvCap m =? 0)); cbn [andb]; [rewrite isSet_xorAt by (rewrite ?L1; auto); now rewrite E1|rewrite xorb_false_r; apply E1]. }
      rewrite E. rewrite !isPt_pos by lia. rewrite (at_newGo p m x V W). change (at_ (board p) x) with (pieceAt p x).
      destruct (N.eqb_spec (mvTo m) x) as [Ex|Hx1].
      * subst x. neqb. rewrite !andb_false_r, !andb_true_r, xorb_false_r. rewrite pt_mk by auto.
        destruct Hcap as [[Hz Hc]|(Hz & Hc & Hc8)].
        -- rewrite Hz, Hc. change (ptOf 0) with 0. replace (0 =? j) with false by lia. change (negb (0 =? 0)) with false. cbn [andb]. now rewrite xorb_false_r, xorb_false_l.
        -- rewrite Hz. rewrite pt_mk by auto. replace (mvCap m =? 0) with false by lia. cbn [negb andb]. rewrite xorb_comm, <- xorb_assoc, xorb_nilpotent. apply xorb_false_l.
      * rewrite !andb_false_r, !xorb_false_r. destruct (N.eqb_spec (mvFrom m) x) as [Ex|Hx2].
        -- subst x. rewrite Hat. rewrite pt_mk by auto. rewrite andb_true_r. change (ptOf 0) with 0. replace (0 =? j) with false by lia. apply xorb_nilpotent.
        -- now rewrite andb_false_r, xorb_false_r.
Qed.

(* ---- kings after a move ---- *)
Lemma updN_2 {A} (a b v : A) c : c < 2 -> updN [a; b] c v = [if 0 =? c then v else a; if 1 =? c then v else b].
Proof. intros H. assert (c = 0 \/ c = 1) as [->| ->] by lia; reflexivity. Qed.
Lemma isKing_pt bd c s : c < 2 -> isKing bd c s = true -> ptOf (at_ bd s) = 8 /\ colorOf (at_ bd s) = c.
Proof. intros Hc H. unfold isKing in H. apply N.eqb_eq in H. rewrite H. split; [apply pt_mk|apply col_mk]; auto; unfold King; lia. Qed.
Lemma isKing_mk c pt c' : c < 2 -> c' < 2 -> 1 <= pt < 15 -> (mkPiece c pt =? mkPiece c' King) = (c =? c') && (pt =? 8).
Proof.
  intros Hc Hc' Hp. apply eq_true_iff_eq. rewrite andb_true_iff, !N.eqb_eq. split.
  - intros E. apply mkPiece_inj in E; auto. unfold King; lia.
  - intros [-> ->]. reflexivity.
Qed.
Lemma isKing_0 c : c < 2 -> (0 =? mkPiece c King) = false.
Proof. intros H. rewrite N.eqb_sym. apply mk_nz; auto. unfold King; lia. Qed.
Lemma isKing_new p m c s : views p -> wfMove p m -> c < 2 -> s < 81 ->
  isKing (newBoard p m) c s =
  if negb (mvDrop m) && (mvPtFrom m =? 8) && (c =? turn p) then (mvTo m =? s) || (isKing (board p) c s && negb (mvFrom m =? s))
  else isKing (board p) c s.
Proof.
  intros V W Hc Hs. pose proof (v_turn p V) as Ht. pose proof (opp_lt _ Ht) as Ho. destruct W as [W|W].
  - pose proof W as (Hd & Hp & Hto & He & _). rewrite Hd. cbn [negb andb]. unfold isKing. rewrite (at_newDrop p m s V W).
    destruct (N.eqb_spec (mvTo m) s) as [E|E]; [|reflexivity]. subst s. change (at_ (board p) (mvTo m)) with (pieceAt p (mvTo m)). rewrite He.
    rewrite isKing_mk, isKing_0 by lia. replace (mvPtDropped m =? 8) with false by lia. now rewrite andb_false_r.
  - pose proof (wfGo_from p m W) as Hf. pose proof (wfGo_ptTo p m W) as (Hpt & H8 & _). pose proof W as (Hd & Hne & Hto & Hpf & Hat & Hcap & Hpr).
    rewrite Hd. cbn [negb andb]. unfold isKing. rewrite (at_newGo p m s V W). change (at_ (board p) s) with (pieceAt p s).
    destruct (N.eqb_spec (mvTo m) s) as [E|E].
    + subst s. rewrite isKing_mk by auto. assert (E8 : (mvPtToOf m (mvPtFrom m) =? 8) = (mvPtFrom m =? 8)) by (apply eq_true_iff_eq; rewrite !N.eqb_eq; tauto).
      rewrite E8. assert (pieceAt p (mvTo m) =? mkPiece c King = false) as Ek.
      { destruct Hcap as [[-> _]|(-> & Hc1 & Hc8)]; [now apply isKing_0|]. rewrite isKing_mk by auto. replace (mvCap m =? 8) with false by lia. now rewrite andb_false_r. }
      rewrite Ek. rewrite (N.eqb_sym c). destruct (turn p =? c), (mvPtFrom m =? 8); reflexivity.
    + destruct (N.eqb_spec (mvFrom m) s) as [E'|E'].
      * subst s. rewrite Hat. rewrite isKing_mk, isKing_0 by auto. rewrite (N.eqb_sym c). destruct (turn p =? c), (mvPtFrom m =? 8); reflexivity.
      * cbn [negb orb]. rewrite andb_true_r. now destruct (_ && _).
Qed.
Lemma oneKing_new p m : views p -> oneKing (board p) -> wfMove p m -> oneKing (newBoard p m).
Proof.
  intros V O W c s s' Hc Hs Hs'. rewrite !isKing_new by auto.
  destruct (negb (mvDrop m) && (mvPtFrom m =? 8) && (c =? turn p)) eqn:E; [|now apply O].
  apply andb_prop in E as [E Ec]. apply andb_prop in E as [Ed Ep]. apply N.eqb_eq in Ec, Ep. subst c. apply negb_true_iff in Ed.
  destruct W as [W|W]; [destruct W; congruence|]. pose proof (wfGo_from p m W) as Hf. pose proof W as (_ & Hne & Hto & Hpf & Hat & _).
  assert (K : isKing (board p) (turn p) (mvFrom m) = true).
  { unfold isKing. change (at_ (board p) (mvFrom m)) with (pieceAt p (mvFrom m)). rewrite Hat, Ep. apply N.eqb_refl. }
  assert (G : forall x, x < 81 -> (mvTo m =? x) || (isKing (board p) (turn p) x && negb (mvFrom m =? x)) = true -> x = mvTo m).
  { intros x Hx H. apply orb_prop in H as [H|H]; [lia|]. apply andb_prop in H as [H1 H2]. assert (mvFrom m = x) by (apply (O (turn p)); auto). subst x. rewrite N.eqb_refl in H2. discriminate. }
  intros H H'. rewrite (G s), (G s') by auto. reflexivity.
Qed.
Lemma kings_new p m : views p -> oneKing (board p) -> wfMove p m ->
  (if negb (mvDrop m) && (mvPtFrom m =? 8) then updN (kingSq p) (turn p) (mvTo m) else kingSq p) = kingsOf (newBoard p m).
Proof.
  intros V O W. pose proof (v_turn p V) as Ht. pose proof (oneKing_new p m V O W) as O'.
  assert (K : forall c, c < 2 -> kingOf (newBoard p m) c = if negb (mvDrop m) && (mvPtFrom m =? 8) && (c =? turn p) then mvTo m else kingOf (board p) c).
  { intros c Hc. destruct (negb (mvDrop m) && (mvPtFrom m =? 8) && (c =? turn p)) eqn:E.
    - assert (Hto : mvTo m < 81) by (destruct W as [(_ & _ & W & _)|(_ & _ & W & _)]; auto). apply kingOf_eq; auto. rewrite isKing_new by auto. rewrite E. now rewrite N.eqb_refl.
    - apply kingOf_ext. intros s Hs. rewrite isKing_new by auto. now rewrite E. }
  unfold kingsOf. rewrite !K by (cbv; reflexivity). rewrite (v_king p V). unfold kingsOf.
  destruct (negb (mvDrop m) && (mvPtFrom m =? 8)); cbn [andb]; [|reflexivity]. now apply updN_2.
Qed.

(* ---- doMove keeps the views ---- *)
Lemma doMoveCI_board z p m ci b : board (doMoveCI z p m ci b) = newBoard p m.
Proof. unfold doMoveCI, newBoard. destruct (mvDrop m); reflexivity. Qed.
Lemma doMoveCI_turn z p m ci b : turn (doMoveCI z p m ci b) = opp (turn p).
Proof. unfold doMoveCI. destruct (mvDrop m); reflexivity. Qed.
Lemma doMoveCI_byColor z p m ci b : byColor (doMoveCI z p m ci b) = if mvDrop m then dropBC p m else goBC p m.
Proof. unfold doMoveCI. destruct (mvDrop m); reflexivity. Qed.
Lemma doMoveCI_byType z p m ci b : byType (doMoveCI z p m ci b) = if mvDrop m then dropBT p m else goBT p m.
Proof. unfold doMoveCI. destruct (mvDrop m); reflexivity. Qed.
Lemma doMoveCI_golds z p m ci b : golds (doMoveCI z p m ci b) = goldsOf (byType (doMoveCI z p m ci b)).
Proof. unfold doMoveCI. destruct (mvDrop m); reflexivity. Qed.
Lemma doMoveCI_kings z p m ci b : kingSq (doMoveCI z p m ci b) =
  if negb (mvDrop m) && (mvPtToOf m (mvPtFrom m) =? King) then updN (kingSq p) (turn p) (mvTo m) else kingSq p.
Proof. unfold doMoveCI. destruct (mvDrop m); reflexivity. Qed.
Definition newHands (p : Position) (m : N) : list N :=
  if mvDrop m then updN (hands p) (turn p) (minusOne (handOf p (turn p)) (ptToHand (mvPtDropped m)))
  else if negb (mvCap m =? 0) then updN (hands p) (turn p) (plusOne (handOf p (turn p)) (ptToHand (mvCap m))) else hands p.
Lemma doMoveCI_hands z p m ci b : hands (doMoveCI z p m ci b) = newHands p m.
Proof. unfold doMoveCI, newHands. destruct (mvDrop m); [reflexivity|]. destruct (negb _); reflexivity. Qed.
Lemma doMoveCI_ply z p m ci b : gamePly (doMoveCI z p m ci b) = (gamePly p + 1)%Z.
Proof. unfold doMoveCI. destruct (mvDrop m); reflexivity. Qed.
Lemma doMoveCI_prev z p m ci b : prev (doMoveCI z p m ci b) = st p :: prev p.
Proof. unfold doMoveCI. destruct (mvDrop m); reflexivity. Qed.

Theorem views_doMoveCI z p m ci b : views p -> oneKing (board p) -> wfMove p m ->
  views (doMoveCI z p m ci b) /\ oneKing (board (doMoveCI z p m ci b)).
Proof.
  intros V O W. rewrite doMoveCI_board. split; [|now apply oneKing_new].
  constructor.
  - rewrite doMoveCI_board. now apply okBoard_new.
  - rewrite doMoveCI_board, doMoveCI_byType. destruct W as [W|W]; pose proof W as (Hd & _); rewrite Hd; [now apply dropBT_ok|now apply goBT_ok].
  - rewrite doMoveCI_board, doMoveCI_byColor. destruct W as [W|W]; pose proof W as (Hd & _); rewrite Hd; [now apply dropBC_ok|now apply goBC_ok].
  - apply doMoveCI_golds.
  - rewrite doMoveCI_board, doMoveCI_kings, <- kings_new by auto. destruct W as [W|W].
    + destruct W as (-> & _). reflexivity.
    + pose proof (wfGo_ptTo p m W) as (_ & H8 & _). unfold King.
      assert (E8 : (mvPtToOf m (mvPtFrom m) =? 8) = (mvPtFrom m =? 8)) by (apply eq_true_iff_eq; rewrite !N.eqb_eq; tauto). now rewrite E8.
  - rewrite doMoveCI_turn. apply opp_lt. apply V.
Qed.

(* ---- sums over the squares ---- *)
Open Scope Z_scope.
Fixpoint sumZ (f : N -> Z) (l : list N) : Z := match l with [] => 0 | x :: r => f x + sumZ f r end.
Lemma sumZ_ext f g l : (forall x, In x l -> f x = g x) -> sumZ f l = sumZ g l.
Proof. induction l as [|a l IH]; intros H; cbn; [reflexivity|]. rewrite H by now left. rewrite IH; [reflexivity|]. intros; apply H; now right. Qed.
Lemma sumZ_upd f g l s : NoDup l -> In s l -> (forall x, x <> s -> g x = f x) -> sumZ g l = sumZ f l - f s + g s.
Proof.
  induction l as [|a l IH]; intros ND Hs H; [destruct Hs|]. inversion ND; subst. cbn.
  destruct Hs as [->|Hs].
  - rewrite (sumZ_ext g f l); [lia|]. intros x Hx. apply H. now intros ->.
  - rewrite IH by auto. rewrite H by (intros ->; contradiction). lia.
Qed.
Lemma sumZ_nonneg f l : (forall x, In x l -> 0 <= f x) -> 0 <= sumZ f l.
Proof. induction l as [|a l IH]; intros H; cbn; [lia|]. pose proof (H a (or_introl eq_refl)). assert (0 <= sumZ f l) by (apply IH; intros; apply H; now right). lia. Qed.
Lemma sumZ_ge f l s : (forall x, In x l -> 0 <= f x) -> In s l -> f s <= sumZ f l.
Proof.
  induction l as [|a l IH]; intros H Hs; [destruct Hs|]. cbn. pose proof (H a (or_introl eq_refl)).
  assert (forall x, In x l -> 0 <= f x) by (intros; apply H; now right). pose proof (sumZ_nonneg f l H1).
  destruct Hs as [->|Hs]; [lia|]. specialize (IH H1 Hs). lia.
Qed.
Definition b2z (b : bool) : Z := if b then 1 else 0.
Lemma cnt_sum f : Z.of_N (cnt f) = sumZ (fun s => b2z (f s)) squares.
Proof.
  unfold cnt. rewrite nat_N_Z. generalize squares as l. induction l as [|a l IH]; [reflexivity|]. cbn [filter sumZ].
  destruct (f a); cbn [length b2z]; lia.
Qed.
Lemma sum_upd (g : N -> N -> Z) bd s v : length bd = 81%nat -> (s < 81)%N ->
  sumZ (fun x => g x (at_ (updN bd s v) x)) squares = sumZ (fun x => g x (at_ bd x)) squares - g s (at_ bd s) + g s v.
Proof.
  intros L Hs. rewrite (sumZ_upd (fun x => g x (at_ bd x)) _ squares s).
  - rewrite at_upd by (rewrite L; exact Hs). now rewrite N.eqb_refl.
  - apply NoDup_squares.
  - now apply in_squares.
  - intros x Hx. rewrite at_upd by (rewrite L; exact Hs). destruct (N.eqb_spec s x); [congruence|reflexivity].
Qed.
(* the sum of any piece value over the board after a move *)
Lemma sum_newBoard (g : N -> N -> Z) p m : views p -> wfMove p m ->
  sumZ (fun x => g x (at_ (newBoard p m) x)) squares =
  if mvDrop m then sumZ (fun x => g x (at_ (board p) x)) squares - g (mvTo m) 0%N + g (mvTo m) (mkPiece (turn p) (mvPtDropped m))
  else sumZ (fun x => g x (at_ (board p) x)) squares - g (mvFrom m) (mkPiece (turn p) (mvPtFrom m)) + g (mvFrom m) 0%N
       - g (mvTo m) (if (mvCap m =? 0)%N then 0%N else mkPiece (opp (turn p)) (mvCap m)) + g (mvTo m) (mkPiece (turn p) (mvPtToOf m (mvPtFrom m))).
Proof.
  intros V W. destruct (v_board p V) as [L _]. unfold newBoard. destruct W as [W|W].
  - pose proof W as (Hd & Hp & Hto & He & _). rewrite Hd. rewrite sum_upd by auto. change (at_ (board p) (mvTo m)) with (pieceAt p (mvTo m)). now rewrite He.
  - pose proof (wfGo_from p m W) as Hf. pose proof W as (Hd & Hne & Hto & Hpf & Hat & Hcap & Hpr). rewrite Hd.
    rewrite sum_upd by (rewrite ?length_updN; auto). rewrite sum_upd by auto.
    rewrite at_upd by (rewrite L; exact Hf). rewrite (proj2 (N.eqb_neq _ _) Hne).
    change (at_ (board p) (mvTo m)) with (pieceAt p (mvTo m)). change (at_ (board p) (mvFrom m)) with (pieceAt p (mvFrom m)). rewrite Hat.
    destruct Hcap as [[-> ->]|(-> & Hc & _)]; [reflexivity|]. now replace (mvCap m =? 0)%N with false by lia.
Qed.
Close Scope Z_scope.

(* ---- hands and material ---- *)
Lemma ptToHand_lt pt : 1 <= pt < 15 -> pt <> 8 -> ptToHand pt < 7.
Proof.
  intros H H8. assert (G : forallb (fun x => (x =? 8) || (ptToHand x <? 7)) (seqN 1 14) = true) by reflexivity.
  pose proof (forallb_seqN _ _ _ G pt ltac:(lia)) as E. cbv beta in E. lia.
Qed.
Lemma ptToHand_8 : ptToHand 8 = 7. Proof. reflexivity. Qed.
Lemma ptToHand_0 : ptToHand 0 = 7. Proof. reflexivity. Qed.
Lemma handOf_upd p c v c' : length (hands p) = 2%nat -> c < 2 -> nthN 0 (updN (hands p) c v) c' = if c =? c' then v else handOf p c'.
Proof. intros L H. rewrite nthN_updN by (rewrite L; exact H). reflexivity. Qed.

Lemma boardCount_Z bd hp : Z.of_N (boardCount bd hp) = sumZ (fun s => b2z (ptToHand (ptOf (at_ bd s)) =? hp)) squares.
Proof. apply cnt_sum. Qed.
Definition hv (hp x pc : N) : Z := b2z (ptToHand (ptOf pc) =? hp).
Lemma boardCount_new p m hp : views p -> wfMove p m -> hp < 7 ->
  (Z.of_N (boardCount (newBoard p m) hp) = Z.of_N (boardCount (board p) hp)
   + (if mvDrop m then b2z (ptToHand (mvPtDropped m) =? hp)%N else - b2z (negb (mvCap m =? 0) && (ptToHand (mvCap m) =? hp))%N))%Z.
Proof.
  intros V W Hh. pose proof (v_turn p V) as Ht. pose proof (opp_lt _ Ht) as Ho. rewrite !boardCount_Z.
  change (fun s => b2z (ptToHand (ptOf (at_ (newBoard p m) s)) =? hp)) with (fun s => hv hp s (at_ (newBoard p m) s)).
  change (fun s => b2z (ptToHand (ptOf (at_ (board p) s)) =? hp)) with (fun s => hv hp s (at_ (board p) s)).
  rewrite sum_newBoard by auto.
  assert (H0 : forall x, hv hp x 0 = 0%Z). { intros x. unfold hv. change (ptOf 0) with 0. rewrite ptToHand_0. replace (7 =? hp) with false by lia. reflexivity. }
  destruct W as [W|W].
  - pose proof W as (Hd & Hp & _). rewrite Hd, H0. unfold hv at 2. rewrite pt_mk by lia. lia.
  - pose proof (wfGo_ptTo p m W) as (Hpt & _ & Heq). pose proof W as (Hd & Hne & Hto & Hpf & Hat & Hcap & Hpr). rewrite Hd, H0.
    unfold hv at 2 4. rewrite !pt_mk by auto. rewrite Heq.
    destruct Hcap as [[_ ->]|(_ & Hc & Hc8)].
    + change (0 =? 0) with true. cbn [negb andb b2z]. rewrite H0. lia.
    + replace (mvCap m =? 0) with false by lia. cbn [negb andb]. unfold hv. rewrite pt_mk by auto. lia.
Qed.
Lemma board_cap_count p m : views p -> wfGo p m -> mvCap m <> 0 -> 1 <= boardCount (board p) (ptToHand (mvCap m)).
Proof.
  intros V W Hc0. pose proof W as (_ & _ & Hto & _ & _ & [[_ H]|(Hat & Hc & _)] & _); [congruence|].
  pose proof (boardCount_Z (board p) (ptToHand (mvCap m))) as E.
  assert (1 <= sumZ (fun s => b2z (ptToHand (ptOf (at_ (board p) s)) =? ptToHand (mvCap m))%N) squares)%Z; [|lia].
  transitivity (b2z (ptToHand (ptOf (at_ (board p) (mvTo m))) =? ptToHand (mvCap m))).
  - change (at_ (board p) (mvTo m)) with (pieceAt p (mvTo m)). rewrite Hat. rewrite pt_mk; auto; [|apply opp_lt, V]. rewrite N.eqb_refl. cbn. lia.
  - apply (sumZ_ge (fun s => b2z (ptToHand (ptOf (at_ (board p) s)) =? ptToHand (mvCap m)))); [|now apply in_squares].
    intros x _. unfold b2z. destruct (_ =? _); lia.
Qed.
Lemma fullSet_fits hp : hp < 7 -> fullSet hp < 2 ^ handW hp.
Proof. intros H. hpcases H; cbv; reflexivity. Qed.
Lemma hand_le_material p c hp : c < 2 -> numOf (handOf p c) hp + boardCount (board p) hp <= material p hp.
Proof. intros H. unfold material. assert (c = 0 \/ c = 1) as [->| ->] by lia; lia. Qed.

Definition newHandSpec (p : Position) (m c : N) (h : N) : Prop :=
  handOk h /\ forall hp, hp < 7 -> Z.of_N (numOf h hp) =
    (Z.of_N (numOf (handOf p c) hp) +
     (if (c =? turn p)%N then
        if mvDrop m then - b2z (ptToHand (mvPtDropped m) =? hp)%N else b2z (negb (mvCap m =? 0) && (ptToHand (mvCap m) =? hp))%N
      else 0))%Z.
Lemma newHands_spec p m c : views p -> okHands p -> okMaterial p -> wfMove p m -> c < 2 ->
  newHandSpec p m c (nthN 0 (newHands p m) c).
Proof.
  intros V [L Hk] Mt W Hc. pose proof (v_turn p V) as Ht. unfold newHands, newHandSpec. rewrite (N.eqb_sym c). destruct W as [W|W].
  - pose proof W as (Hd & Hp & Hto & He & Hn). rewrite Hd. rewrite handOf_upd by auto.
    destruct (N.eqb_spec (turn p) c) as [E|E].
    + subst c. destruct (minusOne_spec (handOf p (turn p)) (ptToHand (mvPtDropped m))) as [A B]; auto; [apply ptToHand_lt; lia|].
      split; [exact A|]. intros hp Hhp. rewrite B by auto.
      destruct (N.eqb_spec (ptToHand (mvPtDropped m)) hp) as [<-|]; unfold b2z; lia.
    + split; [now apply Hk|]. intros; lia.
  - pose proof W as (Hd & Hne & Hto & Hpf & Hat & Hcap & Hpr). rewrite Hd. destruct (N.eqb_spec (mvCap m) 0) as [E0|E0]; cbn [negb andb b2z].
    + split; [now apply Hk|]. intros. change (nthN 0 (hands p) c) with (handOf p c). destruct (turn p =? c); lia.
    + rewrite handOf_upd by auto. destruct (N.eqb_spec (turn p) c) as [E|E].
      * subst c. assert (Hh : ptToHand (mvCap m) < 7) by (destruct Hcap as [[_ ?]|(_ & ? & ?)]; [congruence|now apply ptToHand_lt]).
        destruct (plusOne_spec (handOf p (turn p)) (ptToHand (mvCap m))) as [A B]; auto.
        { pose proof (board_cap_count p m V W E0). pose proof (hand_le_material p (turn p) (ptToHand (mvCap m)) Ht). specialize (Mt _ Hh). pose proof (fullSet_fits _ Hh). lia. }
        split; [exact A|]. intros hp Hhp. rewrite B by auto.
        destruct (N.eqb_spec (ptToHand (mvCap m)) hp) as [<-|]; unfold b2z; lia.
      * split; [now apply Hk|]. intros; lia.
Qed.
Lemma length_newHands p m : length (newHands p m) = length (hands p).
Proof. unfold newHands. destruct (mvDrop m); [apply length_updN|]. destruct (negb _); [apply length_updN|reflexivity]. Qed.

Theorem material_doMoveCI z p m ci b : views p -> okHands p -> okMaterial p -> wfMove p m ->
  okHands (doMoveCI z p m ci b) /\ forall hp, hp < 7 -> material (doMoveCI z p m ci b) hp = material p hp.
Proof.
  intros V Hk Mt W. pose proof (v_turn p V) as Ht. split.
  - split; [rewrite doMoveCI_hands, length_newHands; apply Hk|]. intros c Hc. unfold handOf. rewrite doMoveCI_hands.
    apply (newHands_spec p m c); auto.
  - intros hp Hh. unfold material, handOf. rewrite doMoveCI_board, doMoveCI_hands.
    pose proof (boardCount_new p m hp V W Hh) as B.
    destruct (newHands_spec p m 0 V Hk Mt W) as [_ H0]; [cbv; reflexivity|]. destruct (newHands_spec p m 1 V Hk Mt W) as [_ H1]; [cbv; reflexivity|].
    specialize (H0 hp Hh). specialize (H1 hp Hh). unfold handOf in H0, H1.
    assert (turn p = 0 \/ turn p = 1) as [Et|Et] by lia; rewrite Et in H0, H1; cbn [N.eqb Pos.eqb] in H0, H1;
    [change (1 =? 0) with false in H1; change (0 =? 0) with true in H0|change (1 =? 1) with true in H1; change (0 =? 1) with false in H0];
    destruct (mvDrop m); lia.
Qed.
