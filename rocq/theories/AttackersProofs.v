(* attackersToAll, attackersToExceptKing and hiddenCheckers in terms of the board. *)
From Coq Require Export Permutation.
From Verif Require Export Views.

Theorem isSet_attackersToExceptKing p c sq s : views p -> c < 2 -> sq < 81 -> s < 81 ->
  isSet (attackersToExceptKing p c sq) s =
  (colorOf (pieceAt p s) =? c) && negb (ptOf (pieceAt p s) =? King) && attOcc (board p) (isSet (occBB p)) s sq.
Proof.
  intros V Hc Hq Hs. unfold attackersToExceptKing, bbT2. cbv zeta. set (occ := occBB p).
  rewrite isSet_and, isSet_bbC by auto. unfold attOcc. change (at_ (board p) s) with (pieceAt p s).
  destruct (N.eqb_spec (pieceAt p s) 0) as [E0|E0].
  { cbn [negb andb]. now rewrite !andb_false_r. }
  destruct (N.eqb_spec (colorOf (pieceAt p s)) c) as [Ec|Ec]; [|now rewrite !andb_false_r].
  cbn [negb andb]. rewrite andb_true_r.
  destruct (vpc_facts (pieceAt p s)) as (Hp & _ & _); [apply (v_board p V); auto|auto|].
  rewrite Ec. rewrite !isSet_or, !isSet_and, !isSet_or.
  rewrite !isSet_bbT, isSet_golds by (auto; cbv; intuition discriminate).
  rewrite (back_pawn c sq occ), (back_lance c sq occ), (back_knight c sq occ), (back_silver c sq occ),
    (back_gold c sq occ), (back_bishop c sq occ), (back_rook c sq occ) by auto.
  destruct (reach_unions c s sq Hc Hs Hq) as (U8 & U14 & U13 & _).
  destruct (clear (isSet occ) s sq); rewrite ?andb_true_r, ?andb_false_r; [|reflexivity].
  ptcases Hp; rewrite E; rewrite ?U14, ?U13; cbv [isGoldPt Pawn Lance Knight Silver King Dragon Horse Bishop Rook];
  cbn [N.eqb Pos.eqb orb negb andb]; rewrite ?andb_true_r, ?andb_false_r, ?orb_false_r; cbn [orb];
  try (now apply reach_gold);
  destruct (reach _ c s sq); rewrite ?orb_true_r; reflexivity.
Qed.

Theorem isSet_attackersToAll p sq occ s : views p -> sq < 81 -> s < 81 ->
  isSet (attackersToAll p sq occ) s = attOcc (board p) (isSet occ) s sq.
Proof.
  intros V Hq Hs. unfold attackersToAll, bbT3, bbT2. unfold attOcc. change (at_ (board p) s) with (pieceAt p s).
  rewrite !isSet_or, !isSet_and, !isSet_or, !isSet_and.
  rewrite !isSet_bbT, isSet_golds by (auto; cbv; intuition discriminate).
  rewrite !isSet_bbC by (auto; cbv; reflexivity).
  destruct (N.eqb_spec (pieceAt p s) 0) as [E0|E0].
  { rewrite E0. change (ptOf 0) with 0. cbv [isGoldPt Pawn Lance Knight Silver King Dragon Horse Bishop Rook Gold].
    cbn [negb andb N.eqb orb]. rewrite ?andb_false_r. reflexivity. }
  destruct (vpc_facts (pieceAt p s)) as (Hp & Hc & _); [apply (v_board p V); auto|auto|].
  change Black with (opp 1) at 1 2 3 4 5. change White with (opp 0) at 2 3 4 5 6.
  rewrite (back_pawn 1 sq occ), (back_lance 1 sq occ), (back_knight 1 sq occ), (back_silver 1 sq occ), (back_gold 1 sq occ) by (auto; lia).
  rewrite (back_pawn 0 sq occ), (back_lance 0 sq occ), (back_knight 0 sq occ), (back_silver 0 sq occ), (back_gold 0 sq occ) by (auto; lia).
  rewrite (back_bishop (colorOf (pieceAt p s)) sq occ), (back_rook (colorOf (pieceAt p s)) sq occ), (back_king (colorOf (pieceAt p s)) sq occ) by auto.
  destruct (reach_unions (colorOf (pieceAt p s)) s sq Hc Hs Hq) as (_ & _ & _ & U13 & U14).
  destruct (clear (isSet occ) s sq); rewrite ?andb_true_r, ?andb_false_r; [|reflexivity].
  cbn [negb andb].
  assert (Ecol : colorOf (pieceAt p s) = 0 \/ colorOf (pieceAt p s) = 1) by lia.
  ptcases Hp; rewrite E, ?U13, ?U14; destruct Ecol as [Ec|Ec]; rewrite Ec;
  cbv [isGoldPt Pawn Lance Knight Silver King Dragon Horse Bishop Rook White Black opp];
  cbn [N.eqb Pos.eqb orb negb andb]; rewrite ?andb_true_r, ?andb_false_r, ?orb_false_r; cbn [orb];
  rewrite ?orb_false_r;
  try (symmetry; now apply reach_gold); try reflexivity;
  destruct (reach 8 _ s sq); rewrite ?orb_true_r, ?orb_false_r; reflexivity.
Qed.

(* ---- hidden checkers ---- *)
(* sliding part of reach *)
Definition sreach (pt c s t : N) : bool := rayIn (slidesOf pt c) s t.
(* x is the only occupied square strictly between s and k *)
Definition sole (occ : N -> bool) (s k x : N) : bool :=
  memN x (betw s k) && occ x && forallb (fun y => (y =? x) || negb (occ y)) (betw s k).
(* the slider of colour c on s would attack k if x were removed *)
Definition hid (bd : list N) (c k x s : N) : bool :=
  isCol bd c s && sreach (ptOf (at_ bd s)) c s k && sole (occOf bd) s k x.

(* every subset of a list of squares, with its size *)
Fixpoint sizedSubsets (l : list N) : list (BB * nat) :=
  match l with
  | [] => [(allZeroBB, O)]
  | s :: r => let q := sizedSubsets r in q ++ map (fun bn => (setBit (fst bn) s, S (snd bn))) q
  end.
Lemma sizedSubsets_complete : forall l occ, In (list2bb (filter (isSet occ) l), length (filter (isSet occ) l)) (sizedSubsets l).
Proof.
  induction l as [|s r IH]; intros occ; cbn [sizedSubsets filter].
  - now left.
  - specialize (IH occ). apply in_or_app. destruct (isSet occ s); [|now left]. right. apply in_map_iff. eexists. split; [|exact IH]. reflexivity.
Qed.
Lemma oneBit_check : forallb (fun s => forallb (fun k =>
   forallb (fun bn => let one := (snd bn =? 1)%nat in
      Bool.eqb (isOneBit_merged (fst bn)) one && Bool.eqb (isOneBit_portable (fst bn)) one) (sizedSubsets (betw s k)))
     (seqN 0 (N.to_nat s))) squares = true.
Proof. vmtrue. Qed.
Lemma filter_length_ext {A} (f g : A -> bool) l : (forall x, In x l -> f x = g x) -> filter f l = filter g l.
Proof.
  induction l as [|a l IH]; intros H; cbn [filter]; [reflexivity|].
  rewrite H by now left. rewrite IH by (intros; apply H; now right). reflexivity.
Qed.

Lemma betw_perm s k : s < 81 -> k < 81 -> Permutation (betw s k) (betw k s).
Proof.
  intros Hs Hk. apply NoDup_Permutation; [now apply NoDup_betw|now apply NoDup_betw|].
  intros x. rewrite <- !memN_In. now rewrite memN_betw_sym.
Qed.
Lemma filter_perm_length {A} (f : A -> bool) l l' : Permutation l l' -> length (filter f l) = length (filter f l').
Proof. induction 1; cbn [filter]; repeat (match goal with |- context [if f ?x then _ else _] => destruct (f x) end); cbn [length]; congruence. Qed.
Lemma betweenBB_sym s k : s < 81 -> k < 81 -> betweenBB s k = betweenBB k s.
Proof. intros Hs Hk. apply BB_ext; [now apply wf_betweenBB|now apply wf_betweenBB|]. intros x Hx. rewrite !isSet_betweenBB by auto. now apply memN_betw_sym. Qed.
Lemma oneBit_both s k occ : s < 81 -> k < 81 ->
  isOneBit_merged (bbAnd (betweenBB s k) occ) = (length (filter (isSet occ) (betw s k)) =? 1)%nat /\
  isOneBit_portable (bbAnd (betweenBB s k) occ) = (length (filter (isSet occ) (betw s k)) =? 1)%nat.
Proof.
  assert (G : forall s k, s < 81 -> k < s ->
     isOneBit_merged (bbAnd (betweenBB s k) occ) = (length (filter (isSet occ) (betw s k)) =? 1)%nat /\
     isOneBit_portable (bbAnd (betweenBB s k) occ) = (length (filter (isSet occ) (betw s k)) =? 1)%nat).
  { clear s k. intros s k Hs Hk. rewrite betweenBB_list by (auto; lia).
    replace (bbAnd (list2bb (betw s k)) occ) with (list2bb (filter (isSet occ) (betw s k)))
      by (rewrite <- bbAnd_list2bb by apply betw_lt; unfold bbAnd; f_equal; apply N.land_comm).
    pose proof (forallb_squares _ oneBit_check s Hs) as G. cbv beta in G.
    pose proof (forallb_seqN _ _ _ G k ltac:(lia)) as G'. cbv beta in G'. rewrite forallb_forall in G'.
    specialize (G' _ (sizedSubsets_complete (betw s k) occ)). cbn [fst snd] in G'. cbv zeta in G'.
    apply andb_prop in G' as [G1 G2]. apply eqb_prop in G1, G2. auto. }
  intros Hs Hk. destruct (N.lt_trichotomy s k) as [L|[E|L]].
  - rewrite (betweenBB_sym s k), (filter_perm_length _ _ _ (betw_perm s k Hs Hk)) by auto. now apply G.
  - subst k. rewrite betweenBB_list by auto. replace (betw s s) with (@nil N); [split; reflexivity|].
    unfold betw. cbv zeta. now rewrite !Z.sub_diag.
  - now apply G.
Qed.
Lemma oneBit_between s k occ : s < 81 -> k < 81 ->
  isOneBit_merged (bbAnd (betweenBB s k) occ) = (length (filter (isSet occ) (betw s k)) =? 1)%nat.
Proof. intros. now apply oneBit_both. Qed.

Lemma sole_one occ s k x : s < 81 -> k < 81 ->
  sole occ s k x = (length (filter occ (betw s k)) =? 1)%nat && (memN x (betw s k) && occ x).
Proof.
  intros Hs Hk. unfold sole. destruct (memN x (betw s k) && occ x) eqn:E; [|now rewrite andb_false_r].
  rewrite andb_true_r. cbn [andb]. apply andb_prop in E as [E1 E2]. apply memN_In in E1.
  apply eq_true_iff_eq. rewrite forallb_forall, Nat.eqb_eq.
  assert (Hf : In x (filter occ (betw s k))) by (apply filter_In; auto).
  assert (ND : NoDup (filter occ (betw s k))) by (apply NoDup_filter, NoDup_betw; auto). split.
  - intros H. destruct (filter occ (betw s k)) as [|a [|b l]] eqn:Ef; [destruct Hf|reflexivity|exfalso].
    assert (Ga : In a (a :: b :: l)) by (now left). assert (Gb : In b (a :: b :: l)) by (right; now left).
    rewrite <- Ef in Ga, Gb. apply filter_In in Ga as [Ga Ga'], Gb as [Gb Gb'].
    apply H in Ga, Gb. rewrite Ga', orb_false_r in Ga. rewrite Gb', orb_false_r in Gb.
    apply N.eqb_eq in Ga, Gb. subst. inversion ND as [|? ? N1 _]. subst. apply N1. now left.
  - intros H y Hy. destruct (filter occ (betw s k)) as [|a [|b l]] eqn:Ef; try discriminate.
    destruct Hf as [->|[]]. destruct (occ y) eqn:Ey; [|now rewrite orb_true_r].
    assert (Gy : In y [x]) by (rewrite <- Ef; now apply filter_In). destruct Gy as [->|[]]. now rewrite N.eqb_refl.
Qed.

Lemma sole_other occ s k x y : sole occ s k x = true -> memN y (betw s k) = true -> occ y = true -> y = x.
Proof.
  unfold sole. intros H Hy Ho. apply andb_prop in H as [_ H]. rewrite forallb_forall in H.
  apply memN_In in Hy. specialize (H y Hy). rewrite Ho in H. cbn [negb] in H. rewrite orb_false_r in H. now apply N.eqb_eq.
Qed.

Lemma isSet_fold_or (P : N -> bool) (B : N -> BB) x : forall l acc,
  isSet (fold_left (fun r s => if P s then bbOr r (B s) else r) l acc) x = isSet acc x || existsb (fun s => P s && isSet (B s) x) l.
Proof.
  induction l as [|a l IH]; intros acc; cbn [fold_left existsb]; [now rewrite orb_false_r|].
  rewrite IH. destruct (P a); cbn [andb orb]; [|reflexivity]. rewrite isSet_or. now rewrite orb_assoc.
Qed.
Lemma wf_fold_or (P : N -> bool) (B : N -> BB) : forall l acc, wfBB acc -> (forall s, In s l -> wfBB (B s)) ->
  wfBB (fold_left (fun r s => if P s then bbOr r (B s) else r) l acc).
Proof.
  induction l as [|a l IH]; intros acc Ha Hl; cbn [fold_left]; [auto|]. apply IH; [|intros; apply Hl; now right].
  destruct (P a); auto. apply wf_or; auto. apply Hl. now left.
Qed.

Lemma clear_zero s t : clear (isSet allZeroBB) s t = true.
Proof. unfold clear. apply forallb_forall. intros. now rewrite isSet_zero. Qed.

Definition pinnersBB (p : Position) (pc kc k : N) : BB :=
  bbAnd (bbC p pc) (bbOr (bbOr (bbAnd (bbT p Lance) (lanceAttackToEdge kc k))
                                         (bbAnd (bbT2 p Rook Dragon) (rookAttackToEdge k)))
                                   (bbAnd (bbT2 p Bishop Horse) (bishopAttackToEdge k))).
Lemma wf_pinnersBB p pc kc k : views p -> pc < 2 -> wfBB (pinnersBB p pc kc k).
Proof. intros V H. apply wf_and_l. now apply wf_bbC. Qed.

Lemma isSet_pinners p pc k s : views p -> pc < 2 -> k < 81 -> s < 81 ->
  isSet (pinnersBB p pc (opp pc) k) s = isCol (board p) pc s && sreach (ptOf (pieceAt p s)) pc s k.
Proof.
  intros V Hc Hk Hs. unfold pinnersBB, bbT2, lanceAttackToEdge, rookAttackToEdge, bishopAttackToEdge.
  rewrite isSet_and, isSet_bbC by auto.
  change (negb (pieceAt p s =? 0) && (colorOf (pieceAt p s) =? pc)) with (isCol (board p) pc s).
  destruct (isCol (board p) pc s) eqn:EC; [cbn [andb]|reflexivity].
  rewrite !isSet_or, !isSet_and, !isSet_or.
  rewrite !isSet_bbT by (auto; cbv; intuition discriminate).
  rewrite (back_lance pc), (back_rook pc), (back_bishop pc) by auto. rewrite !clear_zero, !andb_true_r.
  unfold isCol in EC. apply andb_prop in EC as [E0 Ec].
  destruct (vpc_facts (at_ (board p) s)) as (Hp & _ & _); [apply (v_board p V); auto|lia|].
  change (at_ (board p) s) with (pieceAt p s) in Hp.
  ptcases Hp; rewrite E; cbv [Lance Rook Dragon Bishop Horse]; cbn [N.eqb Pos.eqb orb andb]; rewrite ?orb_false_r; reflexivity.
Qed.

Definition hcB (p : Position) (k sq : N) : BB := bbAnd (betweenBB sq k) (occBB p).
Definition hcP (p : Position) (k bc sq : N) : bool :=
  isAny (hcB p k sq) && isOneBit_merged (hcB p k sq) && andIsAny (hcB p k sq) (bbC p bc).
Definition hcCore (p : Position) (pc kc bc : N) : BB :=
  if negb (isInSquare (kingSquare p kc)) then allZeroBB else
  fold_left (fun result sq => if hcP p (kingSquare p kc) bc sq then bbOr result (hcB p (kingSquare p kc) sq) else result)
    (bbList (pinnersBB p pc kc (kingSquare p kc))) allZeroBB.
Lemma hiddenCheckers_eq (fp bu : bool) p : hiddenCheckers fp bu p =
  hcCore p (if fp then opp (turn p) else turn p) (if fp then turn p else opp (turn p)) (if bu then turn p else opp (turn p)).
Proof. unfold hiddenCheckers, hcCore, pinnersBB, hcP, hcB. destruct fp, bu; reflexivity. Qed.

Lemma isSet_hiddenCheckers (fp bu : bool) p x : views p -> x < 81 ->
  let pc := if fp then opp (turn p) else turn p in
  let k := kingOf (board p) (opp pc) in
  let bc := if bu then turn p else opp (turn p) in
  isSet (hiddenCheckers fp bu p) x = (k <? 81) && isCol (board p) bc x && existsb (hid (board p) pc k x) squares.
Proof.
  intros V Hx pc k bc. rewrite hiddenCheckers_eq.
  assert (Ht := v_turn p V).
  assert (Hpc : pc < 2) by (unfold pc; destruct fp; auto using opp_lt).
  assert (Hbc : bc < 2) by (unfold bc; destruct bu; auto using opp_lt).
  assert (Ekc : (if fp then turn p else opp (turn p)) = opp pc) by (unfold pc; destruct fp; [now rewrite opp_opp|reflexivity]).
  fold pc bc. rewrite Ekc. clear Ekc. unfold hcCore.
  rewrite kingSquare_view by (auto using opp_lt). fold k. clearbody pc bc. unfold isInSquare.
  destruct (N.ltb_spec k 81) as [Hk|Hk]; cbn [negb andb]; [|apply isSet_zero].
  rewrite isSet_fold_or, isSet_zero. cbn [orb].
  apply eq_true_iff_eq. rewrite existsb_exists, andb_true_iff, existsb_exists. split.
  - intros (s & Hin & E). apply in_bbList in Hin as [Hs Hp]; [|apply wf_pinnersBB; auto].
    rewrite isSet_pinners in Hp by auto.
    unfold hcP, hcB in E. apply andb_prop in E as [E Ex]. apply andb_prop in E as [E Ea]. apply andb_prop in E as [_ E1].
    rewrite oneBit_between in E1 by auto.
    rewrite isSet_and in Ex. apply andb_prop in Ex as [Ex1 Ex2].
    rewrite isSet_betweenBB in Ex1 by auto.
    rewrite (filter_length_ext _ (occOf (board p))) in E1 by (intros y Hy; apply isSet_occBB; auto; now apply betw_lt in Hy).
    assert (So : sole (occOf (board p)) s k x = true).
    { rewrite sole_one by auto. rewrite E1, Ex1. unfold occOf. change (at_ (board p) x) with (pieceAt p x). rewrite <- isSet_occBB by auto. now rewrite Ex2. }
    split.
    + apply andIsAny_true in Ea as (y & Hy & Ey1 & Ey2); [|right; now apply wf_bbC].
      rewrite isSet_and in Ey1. apply andb_prop in Ey1 as [Ey0 Ey1]. rewrite isSet_betweenBB in Ey0 by auto.
      rewrite isSet_occBB in Ey1 by auto.
      assert (Ey : y = x) by (apply (sole_other _ s k x y So Ey0); exact Ey1). subst y.
      rewrite isSet_bbC in Ey2 by auto. exact Ey2.
    + exists s. split; [now apply in_squares|]. unfold hid. rewrite So, andb_true_r. exact Hp.
  - intros [Hcx (s & Hin & E)]. apply in_squares in Hin. unfold hid in E. apply andb_prop in E as [Ep So].
    exists s. split; [apply in_bbList; [apply wf_pinnersBB; auto|split; auto; rewrite isSet_pinners by auto; exact Ep]|].
    assert (So' := So). rewrite sole_one in So by auto. apply andb_prop in So as [S1 S2]. apply andb_prop in S2 as [S2 S3].
    assert (Hb : isSet (bbAnd (betweenBB s k) (occBB p)) x = true).
    { rewrite isSet_and, isSet_betweenBB by auto. rewrite S2. rewrite isSet_occBB by auto. exact S3. }
    unfold hcP, hcB. rewrite Hb, andb_true_r. rewrite (isAny_ex_true _ _ Hb). rewrite oneBit_between by auto.
    rewrite (filter_length_ext _ (occOf (board p))) by (intros y Hy; apply isSet_occBB; auto; now apply betw_lt in Hy).
    rewrite S1. cbn [andb]. apply andIsAny_true; [right; now apply wf_bbC|]. exists x. split; auto. split; auto.
    rewrite isSet_bbC by auto. exact Hcx.
Qed.
Lemma wf_hiddenCheckers fp bu p : views p -> wfBB (hiddenCheckers fp bu p).
Proof.
  intros V. rewrite hiddenCheckers_eq. unfold hcCore.
  assert (Ht := v_turn p V).
  destruct (isInSquare _) eqn:E; cbn [negb]; [|apply wf_zero]. apply wf_fold_or; [apply wf_zero|].
  intros s Hs. unfold hcB. apply in_bbList in Hs as [Hs _]; [|apply wf_pinnersBB; auto; destruct fp; auto using opp_lt].
  apply wf_and_r. now apply wf_occBB.
Qed.
