(* Building positions: the setters establish every invariant. *)
From Verif Require Export PlayProofs Board.
Local Open Scope N_scope.

(* ---- views while pieces are being placed ---- *)
Record pre (bd : list N) (p : Position) : Prop := {
  pre_ok : okBoard bd;
  pre_bd : board p = bd;
  pre_type : byType p = byTypeOf bd;
  pre_color : byColor p = byColorOf bd
}.
Lemma at_repeat0 n s : at_ (repeat 0 n) s = 0.
Proof. unfold at_, nthN. apply nth_repeat. Qed.
Lemma fbb_false f : (forall s, s < 81 -> f s = false) -> fbb f = allZeroBB.
Proof. intros H. symmetry. apply fbb_ext; [apply wf_zero|]. intros s Hs. rewrite isSet_zero. symmetry. now apply H. Qed.
Lemma pre_clear : pre (repeat 0 81) clearPos.
Proof.
  assert (Ok : okBoard (repeat 0 81)) by (split; [apply repeat_length|]; intros s Hs; now rewrite at_repeat0).
  constructor; [exact Ok|reflexivity| |]; cbn [clearPos byType byColor].
  - apply byType_ext; [apply repeat_length| |].
    + intros j Hj. unfold nthN. rewrite nth_repeat. apply wf_zero.
    + intros j s Hj Hs. unfold nthN. rewrite nth_repeat, isSet_zero. unfold isPt. rewrite at_repeat0. destruct (N.eqb_spec j 0); [reflexivity|].
      change (ptOf 0) with 0. symmetry. apply N.eqb_neq. lia.
  - apply byColor_ext; [reflexivity| |].
    + intros j Hj. unfold nthN. rewrite nth_repeat. apply wf_zero.
    + intros j s Hj Hs. unfold nthN. rewrite nth_repeat, isSet_zero. unfold isCol. now rewrite at_repeat0.
Qed.
Lemma at_updN bd s x t : s < N.of_nat (length bd) -> at_ (updN bd s x) t = if s =? t then x else at_ bd t.
Proof. intros H. unfold at_. now apply nthN_updN. Qed.
Lemma okBoard_upd bd s pc : okBoard bd -> s < 81 -> vpc pc = true -> okBoard (updN bd s pc).
Proof.
  intros [L V] Hs Hp. split; [now rewrite length_updN|]. intros t Ht. rewrite at_updN by lia. destruct (s =? t); auto.
Qed.
Lemma pre_setPiece bd p s c pt : pre bd p -> s < 81 -> c < 2 -> 1 <= pt < 15 -> at_ bd s = 0 ->
  pre (updN bd s (mkPiece c pt)) (setPiece p (mkPiece c pt) s).
Proof.
  intros [Ok Eb Et Ec] Hs Hc Hp E0. destruct (mkPiece_facts c pt Hc Hp) as (P1 & P2 & P3 & P4). pose proof (proj1 Ok) as L.
  assert (LT : length (byType p) = 15%nat) by (rewrite Et; apply length_byTypeOf).
  assert (LC : length (byColor p) = 2%nat) by (rewrite Ec; reflexivity).
  constructor.
  - now apply okBoard_upd.
  - cbn [setPiece board]. now rewrite Eb.
  - unfold setPiece. rewrite P1, P2. cbn [byType]. unfold bbT, Occupied. rewrite nthN_updN by (rewrite LT; cbn; lia).
    destruct (N.eqb_spec pt 0) as [|_]; [lia|]. apply byType_ext; [now rewrite !length_updN| |].
    + intros j Hj. rewrite nthN_updN by (rewrite length_updN, LT; cbn; lia). destruct (N.eqb_spec 0 j) as [<-|D].
      * apply wf_setBit; auto. rewrite Et, nth_byTypeOf by lia. apply wf_fbb.
      * rewrite nthN_updN by (rewrite LT; cbn; lia). destruct (N.eqb_spec pt j) as [<-|D'].
        -- apply wf_setBit; auto. rewrite Et, nth_byTypeOf by lia. apply wf_fbb.
        -- rewrite Et, nth_byTypeOf by lia. apply wf_fbb.
    + intros j x Hj Hx. rewrite nthN_updN by (rewrite length_updN, LT; cbn; lia). unfold isPt. rewrite at_updN by lia. destruct (N.eqb_spec 0 j) as [<-|D].
      * rewrite isSet_setBit by auto. rewrite Et, nth_byTypeOf by lia. rewrite isSet_fbb by auto. unfold isPt. cbn [N.eqb].
        destruct (N.eqb_spec s x) as [<-|]; [|now rewrite ?orb_false_l]. rewrite orb_true_l. symmetry. apply negb_true_iff, N.eqb_neq. exact P4.
      * destruct (N.eqb_spec j 0); [lia|]. rewrite nthN_updN by (rewrite LT; cbn; lia). destruct (N.eqb_spec pt j) as [<-|D'].
        -- rewrite isSet_setBit by auto. rewrite Et, nth_byTypeOf by lia. rewrite isSet_fbb by auto. unfold isPt. destruct (N.eqb_spec pt 0); [lia|].
           destruct (N.eqb_spec s x) as [<-|]; [|now rewrite ?orb_false_l]. rewrite orb_true_l, P1. symmetry. apply N.eqb_refl.
        -- rewrite Et, nth_byTypeOf by lia. rewrite isSet_fbb by auto. unfold isPt. destruct (N.eqb_spec j 0); [lia|].
           destruct (N.eqb_spec s x) as [<-|]; [|reflexivity]. rewrite E0, P1. change (ptOf 0) with 0. transitivity false; [apply N.eqb_neq; lia|symmetry; apply N.eqb_neq; lia].
  - unfold setPiece. rewrite P1, P2. cbn [byColor]. unfold bbC. apply byColor_ext; [now rewrite length_updN| |].
    + intros j Hj. rewrite nthN_updN by (rewrite LC; cbn; lia). destruct (N.eqb_spec c j) as [<-|D].
      * apply wf_setBit; auto. rewrite Ec, nth_byColorOf by lia. apply wf_fbb.
      * rewrite Ec, nth_byColorOf by lia. apply wf_fbb.
    + intros j x Hj Hx. rewrite nthN_updN by (rewrite LC; cbn; lia). unfold isCol. rewrite at_updN by lia. destruct (N.eqb_spec c j) as [<-|D].
      * rewrite isSet_setBit by auto. rewrite Ec, nth_byColorOf by lia. rewrite isSet_fbb by auto. unfold isCol.
        destruct (N.eqb_spec s x) as [<-|]; [|now rewrite ?orb_false_l]. rewrite orb_true_l, P2, N.eqb_refl, andb_true_r. symmetry. apply negb_true_iff, N.eqb_neq. exact P4.
      * rewrite Ec, nth_byColorOf by lia. rewrite isSet_fbb by auto. unfold isCol. destruct (N.eqb_spec s x) as [<-|]; [|reflexivity]. rewrite E0, P2.
        cbn [N.eqb negb andb]. symmetry. apply andb_false_iff. right. now apply N.eqb_neq.
Qed.
(* pieces placed one by one on distinct squares *)
Lemma pre_fold (f : N -> N) : (forall s, s < 81 -> vpc (f s) = true) -> forall l bd p, pre bd p -> NoDup l -> (forall s, In s l -> s < 81 /\ at_ bd s = 0) ->
  exists bd', pre bd' (fold_left (fun q sq => if f sq =? 0 then q else setPiece q (f sq) sq) l p) /\
    forall s, s < 81 -> at_ bd' s = if existsb (N.eqb s) l then f s else at_ bd s.
Proof.
  intros Hf. induction l as [|a l IH]; intros bd p P ND Hl; cbn [fold_left existsb].
  - exists bd. auto.
  - inversion ND as [|? ? Na ND']; subst. destruct (Hl a (or_introl eq_refl)) as [Ha E0]. destruct (N.eqb_spec (f a) 0) as [Z|NZ].
    + destruct (IH bd p P ND') as (bd' & P' & A'); [intros; apply Hl; now right|]. exists bd'. split; auto. intros s Hs. rewrite A' by auto.
      destruct (N.eqb_spec s a) as [->|]; [|reflexivity]. cbn [orb]. rewrite Z, E0. now destruct (existsb _ l).
    + destruct (vpc_facts _ (Hf a Ha) NZ) as (B1 & B2 & B3).
      assert (P1 : pre (updN bd a (f a)) (setPiece p (f a) a)) by (rewrite B3; apply pre_setPiece; auto).
      destruct (IH _ _ P1 ND') as (bd' & P' & A').
      { intros s Hs. split; [apply Hl; now right|]. rewrite at_updN by (rewrite (proj1 (pre_ok _ _ P)); lia). destruct (N.eqb_spec a s) as [<-|]; [contradiction|]. apply Hl. now right. }
      exists bd'. split; auto. intros s Hs. rewrite A' by auto. rewrite at_updN by (rewrite (proj1 (pre_ok _ _ P)); lia). rewrite (N.eqb_sym a s).
      destruct (N.eqb_spec s a) as [->|]; [|reflexivity]. cbn [orb]. now destruct (existsb _ l).
Qed.

(* ---- kings and golds ---- *)
Lemma pre_bbT bd p pt : pre bd p -> pt < 15 -> bbT p pt = fbb (isPt bd pt).
Proof. intros P H. unfold bbT. rewrite (pre_type _ _ P). now apply nth_byTypeOf. Qed.
Lemma pre_bbC bd p c : pre bd p -> c < 2 -> bbC p c = fbb (isCol bd c).
Proof. intros P H. unfold bbC. rewrite (pre_color _ _ P). now apply nth_byColorOf. Qed.
Lemma king_bit bd p c s : pre bd p -> c < 2 -> s < 81 -> isSet (bbTC p King c) s = isKing bd c s.
Proof.
  intros P Hc Hs. unfold bbTC, King. rewrite isSet_and. rewrite (pre_bbT bd) by (auto; lia). rewrite (pre_bbC bd) by auto. rewrite !isSet_fbb by auto.
  unfold isPt, isCol, isKing, King. pose proof (proj2 (pre_ok _ _ P) s Hs) as V. apply eq_true_iff_eq. rewrite !andb_true_iff, !N.eqb_eq, negb_true_iff, N.eqb_neq. split.
  - intros (A & B & C). destruct (vpc_facts _ V B) as (_ & _ & E). change (8 =? 0) with false in A. cbn [negb] in A. rewrite E, C. apply N.eqb_eq in A. now rewrite A.
  - intros E. destruct (mkPiece_facts c 8 Hc ltac:(lia)) as (A & B & _ & D). rewrite E. change (8 =? 0) with false. cbn [negb]. rewrite A, B, N.eqb_refl. repeat split; auto.
Qed.
Lemma kingSquareOrNum_view bd p c : pre bd p -> oneKing bd -> c < 2 -> kingSquareOrNum (bbTC p King c) = kingOf bd c.
Proof.
  intros P O Hc. assert (W : wfBB (bbTC p King c)).
  { unfold bbTC, King. rewrite (pre_bbT bd), (pre_bbC bd) by (auto; lia). apply wf_and_l, wf_fbb. }
  unfold kingSquareOrNum. destruct (isAny (bbTC p King c)) eqn:A.
  - destruct (firstSq_spec _ W A) as [L S]. rewrite (king_bit bd) in S by auto. symmetry. now apply kingOf_here.
  - destruct (kingOf_cases bd c) as [[L K]|[E _]]; [|now rewrite E]. rewrite <- (king_bit bd p) in K by auto. rewrite (isAny_false _ A) in K. discriminate.
Qed.
Lemma views_setKings bd p : pre bd p -> oneKing bd -> turn p < 2 -> views (setKingsGolds p).
Proof.
  intros P O Ht. constructor; cbn [setKingsGolds board byType byColor golds kingSq turn].
  - rewrite (pre_bd _ _ P). apply P.
  - rewrite (pre_bd _ _ P). apply P.
  - rewrite (pre_bd _ _ P). apply P.
  - reflexivity.
  - rewrite (pre_bd _ _ P). unfold Black, White. rewrite !(kingSquareOrNum_view bd) by (auto; lia). reflexivity.
  - exact Ht.
Qed.

(* ---- from the specification's conditions to the invariant ---- *)
Lemma all_squares_N : all_squares = map squareN squares.
Proof. vm_compute. reflexivity. Qed.
Lemma filter_map_len {A B} (f : B -> bool) (g : A -> B) l : length (filter f (map g l)) = length (filter (fun x => f (g x)) l).
Proof. induction l as [|a l IH]; cbn [map filter]; [reflexivity|]. destruct (f (g a)); cbn [length]; now rewrite IH. Qed.
Lemma filter_len_ext {A} (f g : A -> bool) l : (forall x, In x l -> f x = g x) -> length (filter f l) = length (filter g l).
Proof. intros H. f_equal. apply filter_ext_in. exact H. Qed.
Lemma unpromote_slot k k' hp : handSlot k = Some hp -> kind_eqb (unpromote k') k = (ptToHand (nkind k') =? hp).
Proof. destruct k; cbn [handSlot]; intros E; inversion E; subst hp; destruct k'; reflexivity. Qed.
Lemma on_board_count_abs p k hp : okBoard (board p) -> handSlot k = Some hp -> on_board_count (abs p) k = Z.of_N (boardCount (board p) hp).
Proof.
  intros Ok E. unfold on_board_count, boardCount, cnt. rewrite all_squares_N, filter_map_len. rewrite nat_N_Z. f_equal. apply filter_len_ext.
  intros s Hs. apply in_squares in Hs. rewrite abs_at by auto. change (pieceAt p s) with (at_ (board p) s). pose proof (proj2 Ok s Hs) as V.
  destruct (N.eq_dec (at_ (board p) s) 0) as [Z|NZ].
  - rewrite Z. change (pieceN 0) with (@None (color * kind)). change (ptToHand (ptOf 0)) with 7. apply handSlot_ptToHand in E as (_ & _ & L). symmetry. apply N.eqb_neq. lia.
  - rewrite (pieceN_some _ V NZ). rewrite (unpromote_slot k _ hp E). destruct (vpc_facts _ V NZ) as (B & _). now rewrite kind_inv' by lia.
Qed.
Lemma total_abs p k hp : okBoard (board p) -> handSlot k = Some hp -> total (abs p) k = Z.of_N (material p hp).
Proof.
  intros Ok E. unfold total, material. rewrite (on_board_count_abs p k hp Ok E). cbn [abs in_hand]. rewrite E. change (ncolor Sente) with 0. change (ncolor Gote) with 1. lia.
Qed.
Definition slotKind (hp : N) : kind := nthN FU hand_kinds hp.
Lemma slotKind_ok hp : hp < 7 -> handSlot (slotKind hp) = Some hp /\ In (slotKind hp) hand_kinds /\ full_set (slotKind hp) = Z.of_N (fullSet hp).
Proof. intros H. hpcases H; repeat split; cbn; tauto. Qed.
Lemma slotKind_inv k hp : handSlot k = Some hp -> hp < 7 /\ slotKind hp = k.
Proof. destruct k; cbn [handSlot]; intros E; inversion E; subst; split; reflexivity. Qed.
Lemma hand_kinds_iff k : In k hand_kinds <-> handSlot k <> None.
Proof. destruct k; cbn; split; intros; try discriminate; try tauto; repeat (destruct H as [H|H]; [discriminate|]); tauto. Qed.
Theorem good_proper p : good p -> proper (abs p).
Proof.
  intros G. pose proof (good_ok p G) as Ok. pose proof (good_turn p G) as Ht. constructor.
  - intros s H. cbn [abs at_square] in H. destruct (on_boardb s) eqn:E; [now apply on_boardb_iff|contradiction].
  - intros c s t Es Et. assert (Bs : on_board s) by (destruct (on_boardb s) eqn:E; [now apply on_boardb_iff|cbn [abs at_square] in Es; rewrite E in Es; discriminate]).
    assert (Bt : on_board t) by (destruct (on_boardb t) eqn:E; [now apply on_boardb_iff|cbn [abs at_square] in Et; rewrite E in Et; discriminate]).
    pose proof (nsquare_lt s Bs) as Ls. pose proof (nsquare_lt t Bt) as Lt. rewrite <- (square_inv' s Bs) in Es. rewrite <- (square_inv' t Bt) in Et.
    rewrite <- (color_inv' c) in Es, Et. rewrite king_iff in Es, Et by (auto; apply ncolor_lt).
    rewrite <- (square_inv' s Bs), <- (square_inv' t Bt). f_equal. exact (g_one p G (ncolor c) _ _ (ncolor_lt c) Ls Lt Es Et).
  - intros c k. cbn [abs in_hand]. destruct (handSlot k); lia.
  - intros c k H. cbn [abs in_hand]. rewrite hand_kinds_iff in H. destruct (handSlot k); [exfalso; apply H; discriminate|reflexivity].
  - intros k H. rewrite hand_kinds_iff in H. destruct (handSlot k) as [hp|] eqn:E; [|contradiction]. rewrite (total_abs p k hp Ok E).
    destruct (slotKind_inv k hp E) as [L <-]. destruct (slotKind_ok hp L) as (_ & _ & ->). pose proof (g_mat p G hp L). lia.
  - change (side (abs p)) with (colorN (turn p)). rewrite <- colorN_opp by auto. rewrite in_check_abs by (auto using opp_lt; apply G). rewrite (g_safe p G). discriminate.
Qed.
Theorem proper_good p : views p -> okHands p -> proper (abs p) -> good p.
Proof.
  intros V H P. pose proof (v_board p V) as Ok. pose proof (v_turn p V) as Ht.
  assert (O : oneKing (board p)).
  { intros c s s' Hc Hs Hs' K K'. rewrite <- king_iff in K, K' by auto. apply squareN_inj; auto. exact (pr_kings _ P _ _ _ K K'). }
  apply good_intro; auto.
  - intros hp Hh. destruct (slotKind_ok hp Hh) as (A & B & C). pose proof (pr_count _ P _ B) as D. rewrite (total_abs p _ hp Ok A), C in D. lia.
  - pose proof (pr_safe _ P) as S. change (side (abs p)) with (colorN (turn p)) in S. rewrite <- colorN_opp in S by auto. rewrite in_check_abs in S by (auto using opp_lt). now apply not_true_is_false in S.
Qed.

(* ---- the shared tail of the setters ---- *)
Lemma boardKey_ext z p q : board p = board q -> turn p = turn q -> computeBoardKey z p = computeBoardKey z q.
Proof. intros E T. unfold computeBoardKey, pieceAt. now rewrite E, T. Qed.
Lemma handKey_ext z p q : hands p = hands q -> computeHandKey z p = computeHandKey z q.
Proof. intros E. unfold computeHandKey, handOf. now rewrite E. Qed.
Lemma cached_refresh z p : cached z (refreshState z p).
Proof. constructor; [split|..]; reflexivity. Qed.
Lemma views_ext p q : byType q = byType p -> byColor q = byColor p -> golds q = golds p -> board q = board p -> kingSq q = kingSq p -> turn q = turn p -> views p -> views q.
Proof. intros A B C D E F V. destruct V as [V1 V2 V3 V4 V5 V6]. constructor; rewrite ?A, ?B, ?C, ?D, ?E, ?F; auto. Qed.
Lemma okHands_ext p q : hands q = hands p -> okHands p -> okHands q.
Proof. intros E. unfold okHands, handOf. now rewrite E. Qed.
Lemma abs_ext p q : board q = board p -> hands q = hands p -> turn q = turn p -> abs q = abs p.
Proof. intros A B C. unfold abs, pieceAt, handOf. now rewrite A, B, C. Qed.
Theorem setup_good z bd p n : pre bd p -> turn p < 2 -> okHands p -> proper (abs p) -> let q := refreshState z (setGamePly (setKingsGolds p) n) in
  good q /\ cached z q /\ abs q = abs p /\ gamePly q = n /\ prev q = prev p /\ turn q = turn p /\ contCheck (st q) = contCheck (st p) /\ pliesFromNull (st q) = pliesFromNull (st p).
Proof.
  intros P Ht H Pr q.
  assert (O : oneKing bd).
  { intros c s s' Hc Hs Hs' K K'. pose proof (pre_ok _ _ P) as Ok. rewrite <- (pre_bd _ _ P) in *. rewrite <- king_iff in K, K' by auto. apply squareN_inj; auto. exact (pr_kings _ Pr _ _ _ K K'). }
  assert (V : views q) by (apply (views_ext (setKingsGolds p)); auto; now apply (views_setKings bd)).
  assert (E : abs q = abs p) by reflexivity.
  split; [apply proper_good; [exact V|now apply (okHands_ext p)|now rewrite E]|]. split; [apply cached_refresh|]. repeat split.
Qed.

(* ---- hands set slot by slot ---- *)
Lemma setHandN_same q hp c n : board (setHandN q hp c n) = board q /\ byType (setHandN q hp c n) = byType q /\ byColor (setHandN q hp c n) = byColor q /\
  turn (setHandN q hp c n) = turn q /\ st (setHandN q hp c n) = st q /\ prev (setHandN q hp c n) = prev q.
Proof. repeat split. Qed.
Lemma pre_setHandN bd q hp c n : pre bd q -> pre bd (setHandN q hp c n).
Proof. intros [A B C D]. constructor; auto. Qed.
Lemma setHandN_spec q hp c n : okHands q -> c < 2 -> hp < 7 -> numOf (handOf q c) hp = 0 -> n < 2 ^ handW hp ->
  okHands (setHandN q hp c n) /\ forall c' hp', c' < 2 -> hp' < 7 ->
    numOf (handOf (setHandN q hp c n) c') hp' = if (c =? c') && (hp =? hp') then n else numOf (handOf q c') hp'.
Proof.
  intros [L Ho] Hc Hp H0 Hn. destruct (orEqual_spec (handOf q c) hp n (Ho c Hc) Hp H0 Hn) as [A B].
  assert (E : forall c', c' < 2 -> handOf (setHandN q hp c n) c' = if c =? c' then handOrEqual (handOf q c) n hp else handOf q c').
  { intros c' Hc'. unfold handOf at 1. cbn [setHandN hands]. rewrite nthN_updN by lia. reflexivity. }
  split; [split|].
  - cbn [setHandN hands]. now rewrite length_updN.
  - intros c' Hc'. rewrite E by auto. destruct (c =? c'); auto.
  - intros c' hp' Hc' Hp'. rewrite E by auto. destruct (N.eqb_spec c c') as [<-|]; cbn [andb]; [|reflexivity]. now rewrite B.
Qed.
Lemma setHands_fold (f : N -> N) c : c < 2 -> (forall hp, hp < 7 -> f hp < 2 ^ handW hp) -> forall l bd q, pre bd q -> okHands q -> NoDup l ->
  (forall hp, In hp l -> hp < 7 /\ numOf (handOf q c) hp = 0) ->
  let q' := fold_left (fun q hp => setHandN q hp c (f hp)) l q in
  pre bd q' /\ okHands q' /\ turn q' = turn q /\ st q' = st q /\ prev q' = prev q /\
  forall c' hp', c' < 2 -> hp' < 7 -> numOf (handOf q' c') hp' = if (c =? c') && existsb (N.eqb hp') l then f hp' else numOf (handOf q c') hp'.
Proof.
  intros Hc Hf. induction l as [|a l IH]; intros bd q P Ho ND Hl; cbn [fold_left existsb].
  - split; auto. split; auto. repeat split. intros. now rewrite andb_false_r.
  - inversion ND as [|? ? Na ND']; subst. destruct (Hl a (or_introl eq_refl)) as [Ha E0].
    destruct (setHandN_spec q a c (f a) Ho Hc Ha E0 (Hf a Ha)) as [A B].
    destruct (IH bd (setHandN q a c (f a)) (pre_setHandN _ _ _ _ _ P) A ND') as (P' & Ho' & E1 & E2 & E3 & N').
    { intros hp Hi. destruct (Hl hp (or_intror Hi)) as [Hh E]. split; auto. rewrite B by auto. destruct (N.eqb_spec a hp) as [<-|]; [contradiction|]. now rewrite andb_false_r. }
    split; auto. split; auto. split; [now rewrite E1|]. split; [now rewrite E2|]. split; [now rewrite E3|]. intros c' hp' Hc' Hp'. rewrite N' by auto. rewrite B by auto. rewrite (N.eqb_sym a hp').
    destruct (c =? c'); [|reflexivity]. rewrite !andb_true_l. destruct (N.eqb_spec hp' a) as [->|]; [|reflexivity]. cbn [orb]. now destruct (existsb _ l).
Qed.
Lemma existsb_seq7 hp : hp < 7 -> existsb (N.eqb hp) (seqN 0 7) = true.
Proof. intros H. apply existsb_exists. exists hp. split; [apply in_seqN; cbn; lia|apply N.eqb_refl]. Qed.
Lemma existsb_squares s : s < 81 -> existsb (N.eqb s) squares = true.
Proof. intros H. apply existsb_exists. exists s. split; [now apply in_squares|apply N.eqb_refl]. Qed.
Lemma fullSet_lt hp : hp < 7 -> fullSet hp < 2 ^ handW hp.
Proof. intros H. hpcases H; reflexivity. Qed.
Lemma kindN_slot hp : hp < 7 -> handSlot (slotKind hp) = Some hp. Proof. intros H. now apply slotKind_ok. Qed.
Lemma proper_hand P c hp : proper P -> hp < 7 -> (in_hand P c (slotKind hp) <= Z.of_N (fullSet hp))%Z.
Proof.
  intros Pr H. destruct (slotKind_ok hp H) as (_ & I & <-). pose proof (pr_count _ Pr _ I) as T. unfold total in T.
  pose proof (pr_hand _ Pr Sente (slotKind hp)). pose proof (pr_hand _ Pr Gote (slotKind hp)). unfold on_board_count in T. destruct c; lia.
Qed.
Lemma clearPos_hands : okHands clearPos /\ forall c hp, c < 2 -> hp < 7 -> numOf (handOf clearPos c) hp = 0.
Proof.
  assert (E : forall c, c < 2 -> handOf clearPos c = 0) by (intros c Hc; assert (c = 0 \/ c = 1) as [->| ->] by lia; reflexivity).
  split; [split; [reflexivity|]|].
  - intros c Hc. rewrite E by auto. reflexivity.
  - intros c hp Hc Hp. rewrite E by auto. clear E. hpcases Hp; reflexivity.
Qed.
Lemma setPiece_same q pc s : hands (setPiece q pc s) = hands q /\ turn (setPiece q pc s) = turn q /\ st (setPiece q pc s) = st q /\ prev (setPiece q pc s) = prev q /\ gamePly (setPiece q pc s) = gamePly q.
Proof. repeat split. Qed.
Lemma setPieces_fold_same (f : N -> N) l q : let q' := fold_left (fun q sq => if f sq =? 0 then q else setPiece q (f sq) sq) l q in
  hands q' = hands q /\ turn q' = turn q /\ st q' = st q /\ prev q' = prev q.
Proof.
  revert q. induction l as [|a l IH]; intros q; cbn [fold_left]; [repeat split|]. destruct (f a =? 0); [apply IH|].
  destruct (IH (setPiece q (f a) a)) as (A & B & C & D). cbv zeta in *. rewrite A, B, C, D. repeat split.
Qed.
Lemma abs_array p pieces inHand : (forall s, s < 81 -> pieceAt p s = nthN 0 pieces s) ->
  (forall c hp, c < 2 -> hp < 7 -> numOf (handOf p c) hp = nthN 0 (nthN [] inHand c) hp) -> same_position (abs p) (array_position pieces inHand (turn p)).
Proof.
  intros A B. repeat split; cbn [abs array_position at_square in_hand side].
  - intros s. destruct (on_boardb s) eqn:E; [|reflexivity]. apply on_boardb_iff in E. now rewrite A by now apply nsquare_lt.
  - intros c k. destruct (handSlot k) as [hp|] eqn:E; [|reflexivity]. apply slotKind_inv in E as [L _]. now rewrite B by (auto; apply ncolor_lt).
Qed.
Lemma on_board_count_same P Q k : same_position P Q -> on_board_count P k = on_board_count Q k.
Proof. intros (A & _). unfold on_board_count. do 2 f_equal. apply filter_ext. intros s. now rewrite A. Qed.
Lemma total_same P Q k : same_position P Q -> total P k = total Q k.
Proof. intros S. unfold total. rewrite (on_board_count_same P Q k S). destruct S as (_ & B & _). now rewrite !B. Qed.
Lemma proper_same P Q : same_position P Q -> proper P -> proper Q.
Proof.
  intros S [H1 H2 H3 H4 H5 H6]. pose proof S as (A & B & C). constructor.
  - intros s. rewrite <- A. auto.
  - intros c s t. rewrite <- !A. apply H2.
  - intros. now rewrite <- B.
  - intros. rewrite <- B. auto.
  - intros k Hk. rewrite <- (total_same P Q k S). auto.
  - rewrite <- C. intros X. apply H6. eapply in_check_same; [|exact X]. now apply same_sym.
Qed.
Theorem setPieces_ok z p pieces inHand : turn p < 2 -> length pieces = 81%nat -> (forall s, s < 81 -> vpc (nthN 0 pieces s) = true) ->
  proper (array_position pieces inHand (turn p)) -> let q := setPieces z p pieces inHand in
  good q /\ cached z q /\ same_position (abs q) (array_position pieces inHand (turn p)) /\ gamePly q = gamePly p /\ turn q = turn p /\ prev q = [] /\
  contCheck (st q) = [0; 0] /\ pliesFromNull (st q) = 0.
Proof.
  intros Ht L V Pr q. unfold q, setPieces. cbv zeta.
  destruct (pre_fold (fun s => nthN 0 pieces s) V squares _ _ pre_clear NoDup_squares) as (bd & P1 & A1); [intros s Hs; apply in_squares in Hs; split; auto; apply at_repeat0|].
  pose proof (setPieces_fold_same (fun s => nthN 0 pieces s) squares clearPos) as (B1 & B2 & B3 & B4). cbv beta zeta in *.
  assert (Ef : fold_left (fun q sq => if nthN 0 pieces sq =? Empty then q else setPiece q (nthN 0 pieces sq) sq) squares clearPos
    = fold_left (fun q sq => if nthN 0 pieces sq =? 0 then q else setPiece q (nthN 0 pieces sq) sq) squares clearPos) by reflexivity.
  rewrite Ef. clear Ef. revert P1 A1 B1 B2 B3 B4. generalize (fold_left (fun q sq => if nthN 0 pieces sq =? 0 then q else setPiece q (nthN 0 pieces sq) sq) squares clearPos) as p1. intros p1 P1 A1 B1 B2 B3 B4.
  cbn [fold_left]. unfold Black, White. destruct clearPos_hands as [C1 C2].
  assert (N0 : forall c hp, c < 2 -> hp < 7 -> numOf (handOf p1 c) hp = 0) by (intros; unfold handOf; rewrite B1; now apply C2).
  assert (F : forall c, c < 2 -> forall hp, hp < 7 -> nthN 0 (nthN [] inHand c) hp < 2 ^ handW hp).
  { intros c Hc hp Hp. pose proof (proper_hand _ (colorN c) hp Pr Hp) as X. cbn [array_position in_hand] in X. rewrite (kindN_slot hp Hp), (color_inv c Hc) in X. pose proof (fullSet_lt hp Hp). lia. }
  destruct (setHands_fold (fun hp => nthN 0 (nthN [] inHand 0) hp) 0 ltac:(lia) (F 0 ltac:(lia)) (seqN 0 7) bd p1 P1 (okHands_ext clearPos p1 B1 C1) (NoDup_seqN _ _)) as (P2 & O2 & T2 & S2 & V2 & N2).
  { intros hp Hi. apply in_seqN in Hi. change (N.of_nat 7) with 7 in Hi. split; [lia|]. apply N0; lia. }
  revert P2 O2 T2 S2 V2 N2. generalize (fold_left (fun q hp => setHandN q hp 0 (nthN 0 (nthN [] inHand 0) hp)) (seqN 0 7) p1) as p2. intros p2 P2 O2 T2 S2 V2 N2.
  destruct (setHands_fold (fun hp => nthN 0 (nthN [] inHand 1) hp) 1 ltac:(lia) (F 1 ltac:(lia)) (seqN 0 7) bd p2 P2 O2 (NoDup_seqN _ _)) as (P3 & O3 & T3 & S3 & V3 & N3).
  { intros hp Hi. apply in_seqN in Hi. change (N.of_nat 7) with 7 in Hi. split; [lia|]. rewrite N2 by lia. change (0 =? 1) with false. cbn [andb]. apply N0; lia. }
  revert P3 O3 T3 S3 V3 N3. generalize (fold_left (fun q hp => setHandN q hp 1 (nthN 0 (nthN [] inHand 1) hp)) (seqN 0 7) p2) as p3. intros p3 P3 O3 T3 S3 V3 N3.
  assert (P4 : pre bd (setTurnField p3 (turn p))) by (destruct P3 as [X1 X2 X3 X4]; constructor; auto).
  assert (O4 : okHands (setTurnField p3 (turn p))) by (apply (okHands_ext p3); auto).
  assert (Sm : same_position (abs (setTurnField p3 (turn p))) (array_position pieces inHand (turn p))).
  { apply (abs_array (setTurnField p3 (turn p))).
    - intros s Hs. unfold pieceAt. rewrite (pre_bd _ _ P4). fold (at_ bd s). rewrite A1 by auto. now rewrite existsb_squares.
    - intros c hp Hc Hp. change (handOf (setTurnField p3 (turn p)) c) with (handOf p3 c). rewrite N3, N2, (existsb_seq7 hp Hp), !andb_true_r by auto.
      assert (c = 0 \/ c = 1) as [->| ->] by lia; reflexivity. }
  destruct (setup_good z bd (setTurnField p3 (turn p)) (gamePly p) P4 Ht O4 (proper_same _ _ (same_sym _ _ Sm) Pr)) as (G & C & E & R1 & R2 & R3 & R4 & R5).
  cbv zeta in *. split; [exact G|]. split; [exact C|]. split; [rewrite E; exact Sm|]. split; [exact R1|]. split; [exact R3|].
  split; [rewrite R2; cbn [setTurnField prev]; rewrite V3, V2, B4; reflexivity|].
  split; [rewrite R4; cbn [setTurnField st]; rewrite S3, S2, B3; reflexivity|rewrite R5; cbn [setTurnField st]; rewrite S3, S2, B3; reflexivity].
Qed.
