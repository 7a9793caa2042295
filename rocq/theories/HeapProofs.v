(* Boards with pointers behave as values. *)
From Verif Require Export HeapSpec.
From Coq Require Import Lia Arith.

Inductive linked (o : place) (s0 : Cell) : list (N * Cell) -> addr -> list (N * option StateInfo) -> list StateInfo -> Prop :=
| linked_start : cPrev s0 = None -> linked o s0 [] (Start o) [] [cVal s0]
| linked_move m c l a bh ss :
    linked o s0 l a bh ss -> cPrev c = Some a ->
    linked o s0 ((m, c) :: l) (Node o (List.length l)) ((m, None) :: bh) (cVal c :: ss)
| linked_pass m c l a bh ss :
    linked o s0 l a bh ss -> cPrev c = None ->
    linked o s0 ((m, c) :: l) a ((m, Some (cVal c)) :: bh) ss.

Definition owned (o : place) (ob : Obj) (b : Board) : Prop :=
  oFields ob = bare (bpos b) /\ linked o (oStart ob) (oNodes ob) (oSt ob) (bhist b) (st (bpos b) :: prev (bpos b)).
Definition rep (h : Heap) (o : place) (b : Board) : Prop := exists ob, h o = Some ob /\ owned o ob b.

Lemma place_eqb_eq a b : place_eqb a b = true <-> a = b.
Proof.
  destruct a as [n|], b as [k|]; cbn; split; intros E; try discriminate; try reflexivity.
  - apply Nat.eqb_eq in E. now subst.
  - injection E as ->. apply Nat.eqb_refl.
Qed.
Lemma place_refl a : place_eqb a a = true. Proof. now apply place_eqb_eq. Qed.
Lemma place_neq a b : a <> b -> place_eqb a b = false.
Proof. intros N. destruct (place_eqb a b) eqn:E; [|reflexivity]. apply place_eqb_eq in E. contradiction. Qed.
Lemma put_same h o b : put h o b o = b. Proof. unfold put. now rewrite place_refl. Qed.
Lemma put_other h o b o' : o' <> o -> put h o b o' = h o'.
Proof. intros N. unfold put. now rewrite place_neq. Qed.

Lemma addr_eqb_eq a b : addr_eqb a b = true <-> a = b.
Proof.
  destruct a as [o|o i], b as [o'|o' i']; cbn; split; intros E; try discriminate.
  - apply place_eqb_eq in E. now subst.
  - injection E as ->. apply place_refl.
  - apply andb_prop in E. destruct E as [E1 E2]. apply place_eqb_eq in E1. apply Nat.eqb_eq in E2. now subst.
  - injection E as -> ->. now rewrite place_refl, Nat.eqb_refl.
Qed.

Lemma bare_withState p s l : bare (withState p s l) = bare p.
Proof. reflexivity. Qed.
Lemma withState_bare p s l : withState (bare p) s l = withState p s l.
Proof. reflexivity. Qed.
Lemma withState_self p : withState p (st p) (prev p) = p.
Proof. now destruct p. Qed.

Lemma nodeAt_lt l i c : nodeAt l i = Some c -> (i < List.length l)%nat.
Proof.
  induction l as [|[m d] l IH]; cbn; [discriminate|].
  destruct (Nat.eqb i (List.length l)) eqn:E; [apply Nat.eqb_eq in E; lia|]. intros H. specialize (IH H). lia.
Qed.
Lemma nodeAt_cons m d l i c : nodeAt l i = Some c -> nodeAt ((m, d) :: l) i = Some c.
Proof.
  intros H. cbn. pose proof (nodeAt_lt _ _ _ H) as L.
  destruct (Nat.eqb i (List.length l)) eqn:E; [apply Nat.eqb_eq in E; lia|exact H].
Qed.
Lemma nodeAt_head m d l : nodeAt ((m, d) :: l) (List.length l) = Some d.
Proof. cbn. now rewrite Nat.eqb_refl. Qed.

Lemma seen_ext o on on' l :
  (forall i, (i < List.length l)%nat -> existsb (addr_eqb (Node o i)) on = existsb (addr_eqb (Node o i)) on') ->
  seen o on l = seen o on' l.
Proof.
  induction l as [|[m c] l IH]; intros H; [reflexivity|]. cbn. rewrite (H (List.length l)) by (cbn; lia).
  rewrite IH; [reflexivity|]. intros i L. apply H. cbn. lia.
Qed.

Definition inside (o : place) (n : nat) (a : addr) : Prop :=
  match a with Start o' => o' = o | Node o' i => o' = o /\ (i < n)%nat end.
Lemma inside_absent o n l : Forall (inside o n) l -> existsb (addr_eqb (Node o n)) l = false.
Proof.
  induction 1 as [|a l I _ IH]; [reflexivity|]. cbn -[addr_eqb]. rewrite IH, Bool.orb_false_r.
  destruct (addr_eqb (Node o n) a) eqn:E; [|reflexivity]. apply addr_eqb_eq in E. subst a. cbn in I. lia.
Qed.
Lemma inside_mono o n k a : (n <= k)%nat -> inside o n a -> inside o k a.
Proof. destruct a; cbn; [auto|]. intros L [-> H]. split; [reflexivity|lia]. Qed.
Lemma linked_inside o s0 l a bh ss : linked o s0 l a bh ss -> inside o (List.length l) a.
Proof.
  induction 1 as [|m c l a bh ss L IH E|m c l a bh ss L IH E]; cbn; [reflexivity|split; [reflexivity|lia]|].
  eapply inside_mono; [|exact IH]. lia.
Qed.
Lemma linked_nonempty o s0 l a bh ss : linked o s0 l a bh ss -> ss <> [].
Proof. induction 1; [discriminate|discriminate|assumption]. Qed.

Lemma walk_linked h o s0 l a bh ss : linked o s0 l a bh ss -> deref h (Start o) = Some s0 ->
  (forall i c, nodeAt l i = Some c -> deref h (Node o i) = Some c) ->
  forall fuel, (List.length l < fuel)%nat ->
  map snd (walk fuel h a) = ss /\ seen o (map fst (walk fuel h a)) l = bh /\
  Forall (inside o (List.length l)) (map fst (walk fuel h a)).
Proof.
  intros L D0. induction L as [E|m c l a bh ss L IH E|m c l a bh ss L IH E]; intros D fuel F.
  - destruct fuel as [|fuel]; [cbn in F; lia|]. cbn -[deref]. rewrite D0, E. cbn. split; [reflexivity|]. split; [reflexivity|]. constructor; [reflexivity|constructor].
  - destruct fuel as [|fuel]; [cbn in F; lia|].
    destruct (IH (fun i d H => D i d (nodeAt_cons m c l i d H)) fuel) as (A & B & C); [cbn in F; lia|].
    cbn -[deref seen]. rewrite (D _ _ (nodeAt_head m c l)), E. cbn -[seen].
    split; [now rewrite A|]. split.
    + cbn -[addr_eqb]. rewrite (proj2 (addr_eqb_eq _ _) eq_refl). cbn -[addr_eqb]. f_equal. rewrite <- B.
      apply seen_ext. intros i Li. cbn -[addr_eqb].
      destruct (addr_eqb (Node o i) (Node o (List.length l))) eqn:X; [|reflexivity].
      apply addr_eqb_eq in X. injection X. lia.
    + constructor; [cbn; split; [reflexivity|lia]|]. eapply Forall_impl; [|exact C]. intros x. apply inside_mono. cbn. lia.
  - destruct (IH (fun i d H => D i d (nodeAt_cons m c l i d H)) fuel) as (A & B & C); [cbn in F; lia|].
    split; [exact A|]. split.
    + cbn -[addr_eqb]. now rewrite (inside_absent _ _ _ C), B.
    + eapply Forall_impl; [|exact C]. intros x. apply inside_mono. cbn. lia.
Qed.

Lemma rep_view h o b : rep h o b -> view h o = Some b.
Proof.
  intros (ob & E & F & L). unfold view. rewrite E.
  destruct (walk_linked h o _ _ _ _ _ L) with (fuel := S (List.length (oNodes ob))) as (A & B & _).
  - cbn. now rewrite E.
  - intros i c H. cbn. now rewrite E.
  - lia.
  - rewrite A, B, F, withState_bare, withState_self. now destruct b.
Qed.

(* writing through st_ *)
Definition storeAt (s0 : Cell) (l : list (N * Cell)) (a : addr) (c : Cell) : Cell * list (N * Cell) :=
  match a with Start _ => (c, l) | Node _ i => (s0, setNode l i c) end.
Definition readAt (s0 : Cell) (l : list (N * Cell)) (a : addr) : option Cell :=
  match a with Start _ => Some s0 | Node _ i => nodeAt l i end.
Lemma linked_read o s0 l a bh s ss : linked o s0 l a bh (s :: ss) ->
  exists c, readAt s0 l a = Some c /\ cVal c = s /\
    forall s', linked o (fst (storeAt s0 l a (mkCell s' (cPrev c)))) (snd (storeAt s0 l a (mkCell s' (cPrev c)))) a bh (s' :: ss).
Proof.
  remember (s :: ss) as t eqn:Et. intros L. revert s ss Et.
  induction L as [E|m c l a bh t L IH E|m c l a bh t L IH E]; intros s ss Et.
  - injection Et as <- <-. exists s0. cbn. split; [reflexivity|]. split; [reflexivity|]. intros s'. rewrite E.
    apply (linked_start o (mkCell s' None)). reflexivity.
  - injection Et as <- <-. exists c. cbn. rewrite Nat.eqb_refl. split; [reflexivity|]. split; [reflexivity|].
    intros s'. cbn. apply (linked_move o s0 m (mkCell s' (cPrev c)) l a bh t L). exact E.
  - destruct (IH s ss Et) as (d & R & V & W). exists d.
    destruct a as [o'|o' i]; cbn in R |- *.
    + split; [exact R|]. split; [exact V|]. intros s'. specialize (W s'). cbn in W. now apply linked_pass.
    + pose proof (nodeAt_lt _ _ _ R) as Lt.
      destruct (Nat.eqb i (List.length l)) eqn:X; [apply Nat.eqb_eq in X; lia|].
      split; [exact R|]. split; [exact V|]. intros s'. specialize (W s'). cbn in W. cbn. now apply linked_pass.
Qed.
Lemma deref_read h o ob a : h o = Some ob -> inside o (List.length (oNodes ob)) a ->
  deref h a = readAt (oStart ob) (oNodes ob) a.
Proof. intros E. destruct a as [o'|o' i]; cbn; [intros ->|intros [-> _]]; now rewrite E. Qed.
Lemma store_at h o ob a c : h o = Some ob -> inside o (List.length (oNodes ob)) a ->
  store h a c = put h o (Some (mkObj (oFields ob) (fst (storeAt (oStart ob) (oNodes ob) a c)) (oSt ob)
                                     (snd (storeAt (oStart ob) (oNodes ob) a c)))).
Proof. intros E. destruct a as [o'|o' i]; cbn; [intros ->|intros [-> _]]; now rewrite E. Qed.

(* ---- the calls on one board ---- *)
Definition only (h h' : Heap) (o : place) : Prop := forall o', o' <> o -> h' o' = h o'.
Lemma only_put h o b : only h (put h o b) o.
Proof. intros o' N. now apply put_other. Qed.
Lemma only_trans h1 h2 h3 o : only h1 h2 o -> only h2 h3 o -> only h1 h3 o.
Proof. intros A B o' N. now rewrite (B o' N), (A o' N). Qed.

Lemma rep_state h o b : rep h o b ->
  exists ob c, h o = Some ob /\ owned o ob b /\ deref h (oSt ob) = Some c /\ cVal c = st (bpos b) /\
    inside o (List.length (oNodes ob)) (oSt ob) /\
    forall s', linked o (fst (storeAt (oStart ob) (oNodes ob) (oSt ob) (mkCell s' (cPrev c))))
                        (snd (storeAt (oStart ob) (oNodes ob) (oSt ob) (mkCell s' (cPrev c)))) (oSt ob) (bhist b) (s' :: prev (bpos b)).
Proof.
  intros (ob & E & F & L). pose proof (linked_inside _ _ _ _ _ _ L) as I.
  destruct (linked_read _ _ _ _ _ _ _ L) as (c & R & V & W).
  exists ob, c. rewrite (deref_read h o ob _ E I). repeat split; auto.
Qed.

Lemma doMove_prev z p m s l : doMove z (withState p s l) m =
  withState (doMove z (withState p s []) m) (st (doMove z (withState p s []) m)) (s :: l).
Proof.
  unfold doMove. set (ci := checkInfo (withState p s l)). change (checkInfo (withState p s [])) with ci.
  set (g := moveGivesCheck (withState p s l) m ci). change (moveGivesCheck (withState p s []) m ci) with g.
  unfold doMoveCI. cbv zeta. destruct (mvDrop m); reflexivity.
Qed.
Lemma undoMove_prev p m s l s1 l1 : withState (undoMove (withState p s (s1 :: l1)) m) s1 l1 = undoMove (withState p s (s1 :: l1)) m
  /\ bare (undoMove (withState p s (s1 :: l1)) m) = bare (undoMove (withState p s l) m).
Proof. unfold undoMove. cbv zeta. destruct (mvDrop m); split; reflexivity. Qed.

Lemma push_rep z h o b m : rep h o b -> exists h', hPush z h o m = Some h' /\ rep h' o (push z b m) /\ only h h' o.
Proof.
  intros R. destruct (rep_state _ _ _ R) as (ob & c & E & [F L] & D & V & I & _).
  unfold hPush. rewrite E, D. eexists. split; [reflexivity|]. split; [|apply only_put].
  rewrite F, V, withState_bare.
  pose proof (doMove_prev z (bpos b) m (st (bpos b)) (prev (bpos b))) as X. rewrite withState_self in X.
  set (p := doMove z (withState (bpos b) (st (bpos b)) []) m) in *.
  eexists. split; [apply put_same|]. unfold owned, push. cbn [bpos bhist]. rewrite X. split; [reflexivity|].
  cbn [oStart oSt oNodes withState st prev].
  apply (linked_move o (oStart ob) m (mkCell (st p) (Some (oSt ob))) _ _ _ _ L). reflexivity.
Qed.

Lemma pop_rep h o b b' m : rep h o b -> pop b = Some (b', m) -> exists h', hPop h o = Some h' /\ rep h' o b' /\ only h h' o.
Proof.
  intros R P. destruct (rep_state _ _ _ R) as (ob & c & E & [F L] & D & V & I & _).
  unfold pop in P. destruct (bhist b) as [|[m0 [x|]] bh] eqn:H; try discriminate.
  destruct (prev (bpos b)) as [|s1 l1] eqn:Q; [discriminate|]. injection P as <- ->.
  unfold hPop. rewrite E, D.
  inversion L as [|m' c' l a bh' ss L' E' A B C|]; subst.
  rewrite <- A in I. cbn in I.
  rewrite (deref_read h o ob _ E) in D by (rewrite <- B; cbn; rewrite <- A; cbn; split; [reflexivity|lia]).
  rewrite <- B in D. cbn in D. rewrite <- A in D. rewrite nodeAt_head in D. injection D as <-.
  rewrite E'. eexists. split; [reflexivity|]. split; [|apply only_put].
  eexists. split; [apply put_same|]. unfold owned. cbn [oFields oStart oSt oNodes bpos bhist].
  destruct (undoMove_prev (bpos b) m (st (bpos b)) [] s1 l1) as [X1 X2].
  rewrite F, V, withState_bare, <- X2.
  assert (Y : withState (bpos b) (st (bpos b)) (s1 :: l1) = bpos b) by (rewrite <- Q; apply withState_self).
  rewrite Y in *. split; [reflexivity|]. rewrite <- X1. exact L'.
Qed.

Lemma inCheck_prev p l : inCheck (withState p (st p) l) = inCheck p.
Proof. reflexivity. Qed.
Lemma pushPass_rep h o b b' : rep h o b -> pushPass b = Some b' -> exists h', hPushPass h o = Some h' /\ rep h' o b' /\ only h h' o.
Proof.
  intros R P. destruct (rep_state _ _ _ R) as (ob & c & E & [F L] & D & V & I & W).
  unfold pushPass in P. unfold hPushPass. rewrite E, D, F, V, withState_bare, inCheck_prev.
  destruct (inCheck (bpos b)); [discriminate|]. injection P as <-. eexists. split; [reflexivity|].
  set (p := withState (bpos b) (st (bpos b)) []).
  set (ob1 := mkObj (bare (fst (doNull p))) (oStart ob) (oSt ob) ((MoveNull, mkCell (snd (doNull p)) None) :: oNodes ob)).
  assert (E1 : put h o (Some ob1) o = Some ob1) by apply put_same.
  rewrite (store_at _ o ob1 _ _ E1) by (cbn; eapply inside_mono; [|exact I]; lia).
  split; [|eapply only_trans; apply only_put].
  eexists. split; [apply put_same|]. split; [reflexivity|].
  cbn [oStart oSt oNodes bpos bhist oFields ob1].
  assert (X : linked o (fst (storeAt (oStart ob) (oNodes ob) (oSt ob) (mkCell (st (fst (doNull p))) (cPrev c))))
     ((MoveNull, mkCell (snd (doNull p)) None) :: snd (storeAt (oStart ob) (oNodes ob) (oSt ob) (mkCell (st (fst (doNull p))) (cPrev c))))
     (oSt ob) ((MoveNull, Some (snd (doNull (bpos b)))) :: bhist b) (st (fst (doNull (bpos b))) :: prev (fst (doNull (bpos b)))))
    by (apply linked_pass with (c := mkCell (snd (doNull p)) None); [apply W|reflexivity]).
  destruct (oSt ob) as [o'|o' i]; [exact X|]. cbn. cbn in I.
  destruct (Nat.eqb i (List.length (oNodes ob))) eqn:Y; [apply Nat.eqb_eq in Y; lia|]. exact X.
Qed.

Lemma popPass_rep h o b b' : rep h o b -> popPass b = Some b' -> exists h', hPopPass h o = Some h' /\ rep h' o b' /\ only h h' o.
Proof.
  intros R P. destruct (rep_state _ _ _ R) as (ob & c & E & [F L] & D & V & I & W).
  unfold popPass in P. unfold hPopPass. rewrite E, D, F, V, withState_bare.
  destruct (bhist b) as [|[m0 [x|]] bh] eqn:H; try discriminate. injection P as <-.
  inversion L as [| |m' c' l a bh' ss L' E' A B C]; subst.
  set (p := undoNull (withState (bpos b) (st (bpos b)) []) (cVal c')).
  rewrite (store_at _ o ob _ _ E I), put_same. eexists. split; [reflexivity|].
  split; [|eapply only_trans; apply only_put].
  eexists. split; [apply put_same|]. split; [reflexivity|].
  cbn [oStart oSt oNodes bpos bhist oFields].
  specialize (W (st p)). rewrite <- A in W |- *.
  pose proof (linked_inside _ _ _ _ _ _ L') as I'.
  destruct (oSt ob) as [o'|o' i]; cbn in W |- *.
  - inversion W; subst. assumption.
  - cbn in I'. destruct (Nat.eqb i (List.length l)) eqn:Y; [apply Nat.eqb_eq in Y; lia|].
    cbn in W |- *. inversion W; subst. assumption.
Qed.

Lemma setTurn_rep z h o b t : rep h o b -> exists h', hSetTurn z h o t = Some h' /\ rep h' o (boardSetTurn z b t) /\ only h h' o.
Proof.
  intros R. destruct (rep_state _ _ _ R) as (ob & c & E & [F L] & D & V & I & W).
  unfold hSetTurn. rewrite E, D, F, V, withState_bare. eexists. split; [reflexivity|].
  set (p := setTurn z (withState (bpos b) (st (bpos b)) []) t).
  set (ob1 := mkObj (bare p) (oStart ob) (oSt ob) (oNodes ob)).
  assert (E1 : put h o (Some ob1) o = Some ob1) by apply put_same.
  rewrite (store_at _ o ob1 _ _ E1 I). split; [|eapply only_trans; apply only_put].
  eexists. split; [apply put_same|]. split; [reflexivity|]. cbn [oStart oSt oNodes bpos bhist oFields ob1]. apply W.
Qed.

Lemma set_rep h o p : prev p = [] -> rep (hSet h o p) o (mkBoard p []) /\ only h (hSet h o p) o.
Proof.
  intros Q. split; [|apply only_put]. eexists. split; [apply put_same|]. split; [reflexivity|]. cbn. rewrite Q.
  apply (linked_start o (mkCell (st p) None)). reflexivity.
Qed.

(* ---- the setters leave no chain ---- *)
Lemma readBoard_prev l : forall p sq fl x, readBoard l p sq fl = Done x -> prev (fst x) = prev p.
Proof.
  induction l as [|c l IH]; intros p sq fl x E; cbn [readBoard] in E; [injection E as <-; reflexivity|].
  destruct (Ascii.eqb c " "); [injection E as <-; reflexivity|].
  destruct (isDigit c); [eapply IH; eassumption|]. destruct (Ascii.eqb c "/"); [eapply IH; eassumption|].
  destruct (Ascii.eqb c "+"); [eapply IH; eassumption|]. destruct (charPiece c) as [pc|]; [|discriminate].
  destruct (_ && _)%bool; [|discriminate]. unfold putPiece in E.
  destruct (_ && _)%bool; cbn [obind] in E; [|discriminate]. now apply IH in E.
Qed.
Lemma readHand_prev l : forall p d x, readHand l p d = Done x -> prev (fst x) = prev p.
Proof.
  induction l as [|c l IH]; intros p d x E; cbn [readHand] in E; [injection E as <-; reflexivity|].
  destruct (Ascii.eqb c " "); [injection E as <-; reflexivity|].
  destruct (Ascii.eqb c "-"); [now apply IH in E|].
  destruct (isDigit c); [cbv zeta in E; destruct (_ <=? _)%Z; [eapply IH; eassumption|discriminate]|].
  destruct (charPiece c) as [pc|]; [|discriminate]. destruct (_ =? _)%N; [discriminate|]. now apply IH in E.
Qed.
Lemma setSfen_prev z s b : setSfen z s = Done b -> prev (bpos b) = [] /\ bhist b = [].
Proof.
  unfold setSfen, setSfenPos. intros E.
  destruct (readBoard _ _ _ _) as [x| |] eqn:E1; cbn [obind] in E; try discriminate. cbv zeta in E.
  destruct (readTurn _ _) as [y| |] eqn:E2; cbn [obind] in E; try discriminate.
  destruct (readHand _ _ _) as [w| |] eqn:E3; cbn [obind] in E; try discriminate. injection E as <-.
  apply readBoard_prev in E1. apply readHand_prev in E3.
  cbn [refreshState setGamePly setKingsGolds setTurnField prev bpos bhist fst snd] in E1, E3 |- *. rewrite E3. split; [exact E1|reflexivity].
Qed.
Lemma readSquares_prev h l : forall p s x, readSquares h l p s = Done x -> prev (fst x) = prev p.
Proof.
  induction l as [|q l IH]; intros p s x E; cbn [readSquares] in E; [injection E as <-; reflexivity|].
  destruct (_ =? _)%N; [eapply IH; eassumption|]. destruct (readCode _ _ _ _) as [y| |]; cbn [obind] in E; try discriminate.
  apply IH in E. rewrite E. now destruct (_ =? _)%N.
Qed.
Lemma readHands_prev fuel h : forall p s q, readHands fuel h p s = Done q -> prev q = prev p.
Proof.
  induction fuel as [|fuel IH]; intros p s q E; cbn [readHands] in E; destruct (_ =? _)%N; try discriminate; try (injection E as <-; reflexivity).
  destruct (readCode _ _ _ _) as [y| |]; cbn [obind] in E; try discriminate. apply IH in E. rewrite E. now destruct (_ =? _)%N.
Qed.
Lemma setPacked_prev T z d q : setPacked T z d = Done q -> prev q = [].
Proof.
  unfold setPacked. destruct (getBit _) as [[t s]|]; [|discriminate].
  destruct (getBits s 7) as [[a s1]|]; [|discriminate]. destruct (getBits s1 7) as [[b s2]|]; [|discriminate].
  unfold setPieceAt. destruct (a <? 81)%N; cbn [obind]; [|discriminate]. destruct (b <? 81)%N; cbn [obind]; [|discriminate].
  destruct (readSquares _ squares _ s2) as [[q2 s4]| |] eqn:E1; cbn [obind fst snd]; try discriminate.
  destruct (readHands 257 _ q2 s4) as [q5| |] eqn:E2; cbn [obind]; try discriminate.
  intros E. injection E as <-. apply readHands_prev in E2. apply readSquares_prev in E1.
  change (prev q5 = []). rewrite E2. exact E1.
Qed.
Lemma fold_prev {A} (f : Position -> A -> Position) l : (forall p x, prev (f p x) = prev p) -> forall p, prev (fold_left f l p) = prev p.
Proof. intros H. induction l as [|x l IH]; intros p; cbn; [reflexivity|]. now rewrite IH, H. Qed.
Lemma finish_prev z p c n : prev (refreshState z (setGamePly (setKingsGolds (setTurnField p c)) n)) = prev p.
Proof. reflexivity. Qed.
Lemma folds_prev (f g : Position -> N -> Position) l1 l2 : (forall p x, prev (f p x) = prev p) -> (forall p x, prev (g p x) = prev p) ->
  forall p, prev (fold_left g l2 (fold_left f l1 p)) = prev p.
Proof. intros F G p. now rewrite (fold_prev g), (fold_prev f). Qed.
Lemma setPieces_prev z p a b : prev (setPieces z p a b) = [].
Proof.
  unfold setPieces. rewrite finish_prev. rewrite folds_prev; [reflexivity| |].
  - intros q s. now destruct (nthN 0%N a s =? Empty)%N.
  - intros q c. now apply fold_prev.
Qed.
Lemma setPieces_bare z p a b : setPieces z (bare p) a b = setPieces z p a b.
Proof. reflexivity. Qed.

(* ---- copying ---- *)
Lemma linked_remap src dst s0 s0' l a bh ss n : linked src s0 l a bh ss -> (List.length l <= n)%nat ->
  cVal s0' = cVal s0 -> cPrev s0' = None ->
  exists l' a', remapNodes src dst n l l = Some l' /\ List.length l' = List.length l /\ remap src dst n a = Some a' /\ linked dst s0' l' a' bh ss.
Proof.
  intros L Ln V P. induction L as [E|m c l a bh ss L IH E|m c l a bh ss L IH E].
  - exists [], (Start dst). cbn. rewrite place_refl. repeat split; try reflexivity. rewrite <- V. now apply linked_start.
  - destruct IH as (l' & a' & R & Len & A & Lk); [cbn in Ln; lia|].
    exists ((m, mkCell (cVal c) (Some a')) :: l'), (Node dst (List.length l)).
    cbn [remapNodes]. rewrite E. cbn [remapLink]. rewrite A, R. cbn [option_map]. split; [reflexivity|].
    split; [cbn; now rewrite Len|]. split.
    + cbn -[Nat.ltb]. rewrite place_refl. cbn in Ln. cbn [andb]. destruct (Nat.ltb_spec (List.length l) n); [reflexivity|lia].
    + rewrite <- Len. apply (linked_move dst s0' m (mkCell (cVal c) (Some a')) l' a' bh ss Lk). reflexivity.
  - destruct IH as (l' & a' & R & Len & A & Lk); [cbn in Ln; lia|].
    exists ((m, mkCell (cVal c) None) :: l'), a'.
    cbn [remapNodes]. rewrite E. cbn [remapLink]. rewrite R. split; [reflexivity|].
    split; [cbn; now rewrite Len|]. split; [exact A|].
    apply (linked_pass dst s0' m (mkCell (cVal c) None) l' a' bh ss Lk). reflexivity.
Qed.
Lemma linked_root o s0 l a bh ss : linked o s0 l a bh ss -> cPrev s0 = None.
Proof. induction 1; auto. Qed.

Lemma assign_rep h dst src b : dst <> src -> rep h src b -> exists h', hAssign h dst src = Some h' /\ rep h' dst b /\ only h h' dst.
Proof.
  intros N R. destruct (rep_state _ _ _ R) as (ob & c & E & [F L] & D & _).
  unfold hAssign. rewrite (place_neq _ _ N), E, D. unfold relink.
  rewrite put_same, put_other by congruence. rewrite E. cbn [oNodes oFields].
  pose proof (linked_root _ _ _ _ _ _ L) as Z. rewrite Z. cbn [remapLink].
  destruct (linked_remap src dst _ (mkCell (cVal (oStart ob)) None) _ _ _ _ (List.length (oNodes ob)) L) as (l' & a' & R1 & _ & R2 & Lk); try reflexivity.
  rewrite R1, R2. eexists. split; [reflexivity|]. split; [|eapply only_trans; apply only_put].
  eexists. split; [apply put_same|]. split; [exact F|exact Lk].
Qed.
Lemma rep_only h h' o o' b : only h h' o -> o' <> o -> rep h o' b -> rep h' o' b.
Proof. intros O N (ob & E & X). exists ob. split; [|exact X]. now rewrite (O o' N). Qed.
Lemma copy_rep h dst src b : rep h (Py src) b ->
  exists h', hCopy h dst src = Some h' /\ rep h' (Py dst) b /\ forall n, n <> dst -> h' (Py n) = h (Py n).
Proof.
  intros R. destruct (assign_rep h Tmp (Py src) b) as (h1 & E1 & R1 & O1); [discriminate|exact R|].
  destruct (assign_rep h1 (Py dst) Tmp b) as (h2 & E2 & R2 & O2); [discriminate|exact R1|].
  unfold hCopy. rewrite E1, E2. eexists. split; [reflexivity|]. split.
  - eapply rep_only; [apply only_put|discriminate|exact R2].
  - intros n N. rewrite put_other by discriminate. rewrite O2 by congruence. apply O1. discriminate.
Qed.

(* ---- the simulation ---- *)
Definition sim (h : Heap) (v : Values) : Prop := forall n, match v n with Some b => rep h (Py n) b | None => h (Py n) = None end.
Lemma sim_view h v : sim h v -> forall n, view h (Py n) = v n.
Proof.
  intros S n. specialize (S n). destruct (v n) as [b|]; [now apply rep_view|]. unfold view. now rewrite S.
Qed.
Lemma sim_set h h' v n b : sim h v -> rep h' (Py n) b -> (forall k, k <> n -> h' (Py k) = h (Py k)) -> sim h' (set_value v n (Some b)).
Proof.
  intros S R O k. unfold set_value. destruct (Nat.eqb_spec k n) as [->|N]; [exact R|].
  specialize (S k). destruct (v k) as [c|].
  - destruct S as (ob & E & X). exists ob. split; [|exact X]. now rewrite O.
  - now rewrite O.
Qed.
Lemma only_py h h' n : only h h' (Py n) -> forall k, k <> n -> h' (Py k) = h (Py k).
Proof. intros O k N. apply O. congruence. Qed.
Lemma step_sim z h v c v' : sim h v -> value_step z v c = Some v' -> exists h', hStep z h c = Some h' /\ sim h' v'.
Proof.
  intros S E. destruct c as [n s|n d|n d|n a i|n t|n o|dst src|n]; cbn [value_step hStep] in E |- *.
  - destruct (setSfen z s) as [b| |] eqn:X; cbn [made] in E; try discriminate. injection E as <-.
    apply setSfen_prev in X as [P H]. eexists. split; [reflexivity|].
    destruct (set_rep h (Py n) (bpos b) P) as [R O]. eapply sim_set; [exact S| |apply only_py; exact O]. destruct b; cbn in *; now subst.
  - unfold setHcp in *. destruct (setPacked hcpTables z d) as [q| |] eqn:X; cbn [obind made] in E; try discriminate. injection E as <-.
    apply setPacked_prev in X. eexists. split; [reflexivity|].
    destruct (set_rep h (Py n) q X) as [R O]. eapply sim_set; [exact S|exact R|apply only_py; exact O].
  - unfold setPsfen in *. destruct (setPacked psfenTables z d) as [q| |] eqn:X; cbn [obind made] in E; try discriminate. injection E as <-.
    apply setPacked_prev in X. eexists. split; [reflexivity|].
    destruct (set_rep h (Py n) q X) as [R O]. eapply sim_set; [exact S|exact R|apply only_py; exact O].
  - pose proof (S n) as Sn. destruct (v n) as [b|]; cbn in E; [|discriminate]. injection E as <-.
    destruct Sn as (ob & Eo & F & L). unfold hSetPieces. rewrite Eo, F, setPieces_bare. eexists. split; [reflexivity|].
    destruct (set_rep h (Py n) _ (setPieces_prev z (bpos b) a i)) as [R O]. eapply sim_set; [exact S|exact R|apply only_py; exact O].
  - pose proof (S n) as Sn. destruct (v n) as [b|]; cbn in E; [|discriminate]. injection E as <-.
    destruct (setTurn_rep z h (Py n) b t Sn) as (h' & E' & R & O). exists h'. split; [exact E'|]. eapply sim_set; [exact S|exact R|apply only_py; exact O].
  - pose proof (S n) as Sn. destruct (v n) as [b|]; cbn [changed] in E; [|discriminate].
    destruct (step z b o) as [b'|] eqn:X; cbn [changed] in E; [|discriminate]. injection E as <-.
    assert (W : exists h', hStep z h (Do n o) = Some h' /\ rep h' (Py n) b' /\ only h h' (Py n)).
    { destruct o; cbn [step hStep] in X |- *.
      - injection X as <-. now apply push_rep.
      - destruct (pop b) as [[b1 m1]|] eqn:Q; [|discriminate]. injection X as <-. eapply pop_rep; eassumption.
      - eapply pushPass_rep; eassumption.
      - eapply popPass_rep; eassumption. }
    destruct W as (h' & E' & R & O). exists h'. split; [exact E'|]. eapply sim_set; [exact S|exact R|apply only_py; exact O].
  - pose proof (S src) as Sn. destruct (v src) as [b|]; cbn [changed] in E; [|discriminate]. injection E as <-.
    destruct (copy_rep h dst src b Sn) as (h' & E' & R & O). exists h'. split; [exact E'|]. eapply sim_set; eassumption.
  - injection E as <-. eexists. split; [reflexivity|]. intros k. unfold set_value.
    destruct (Nat.eqb_spec k n) as [->|N]; [apply put_same|]. specialize (S k). destruct (v k) as [b|].
    + eapply rep_only; [apply only_put| |exact S]. congruence.
    + rewrite put_other by congruence. exact S.
Qed.
Lemma run_sim z l : forall h v v', sim h v -> values z v l = Some v' -> exists h', hRun z h l = Some h' /\ sim h' v'.
Proof.
  induction l as [|c l IH]; intros h v v' S E; cbn [values hRun] in E |- *; [injection E as <-; eauto|].
  destruct (value_step z v c) as [v1|] eqn:X; [|discriminate]. destruct (step_sim z h v c v1 S X) as (h1 & E1 & S1). rewrite E1.
  now apply (IH h1 v1).
Qed.
Lemma none_sim : sim none no_boards. Proof. intros n. reflexivity. Qed.

Theorem boards_are_values z l v : values z no_boards l = Some v -> exists h, hRun z none l = Some h /\ forall n, view h (Py n) = v n.
Proof. intros E. destruct (run_sim z l none no_boards v none_sim E) as (h & R & S). exists h. split; [exact R|]. now apply sim_view. Qed.

Lemma values_app z l1 : forall v l2, values z v (l1 ++ l2) = match values z v l1 with Some v' => values z v' l2 | None => None end.
Proof. induction l1 as [|c l1 IH]; intros v l2; cbn; [reflexivity|]. destruct (value_step z v c); [apply IH|reflexivity]. Qed.
Lemma hRun_app z l1 : forall h l2, hRun z h (l1 ++ l2) = match hRun z h l1 with Some h' => hRun z h' l2 | None => None end.
Proof. induction l1 as [|c l1 IH]; intros h l2; cbn; [reflexivity|]. destruct (hStep z h c); [apply IH|reflexivity]. Qed.
Lemma value_step_target z v c v' n : value_step z v c = Some v' -> target c <> n -> v' n = v n.
Proof.
  assert (K : forall k b, k <> n -> set_value v k b n = v n).
  { intros k b N. unfold set_value. destruct (Nat.eqb_spec n k); [congruence|reflexivity]. }
  destruct c as [k s|k d|k d|k a i|k t|k o|k src|k]; cbn [value_step target]; intros E N.
  - destruct (setSfen z s); cbn in E; try discriminate. injection E as <-. now apply K.
  - destruct (setHcp z d); cbn in E; try discriminate. injection E as <-. now apply K.
  - destruct (setPsfen z d); cbn in E; try discriminate. injection E as <-. now apply K.
  - destruct (v k); cbn in E; try discriminate. injection E as <-. now apply K.
  - destruct (v k); cbn in E; try discriminate. injection E as <-. now apply K.
  - destruct (match v k with Some b => step z b o | None => None end); cbn in E; try discriminate. injection E as <-. now apply K.
  - destruct (v src); cbn in E; try discriminate. injection E as <-. now apply K.
  - injection E as <-. now apply K.
Qed.
Lemma values_target z l : forall v v' n, values z v l = Some v' -> Forall (fun c => target c <> n) l -> v' n = v n.
Proof.
  induction l as [|c l IH]; intros v v' n E F; cbn in E; [congruence|].
  destruct (value_step z v c) as [v1|] eqn:X; [|discriminate]. inversion F; subst.
  rewrite (IH v1 v' n E) by assumption. eapply value_step_target; eassumption.
Qed.

Theorem copy_keeps z l v src dst b later v' : values z no_boards l = Some v -> v src = Some b ->
  values z (set_value v dst (Some b)) later = Some v' ->
  exists h h1 h', hRun z none l = Some h /\ view h (Py src) = Some b /\
    hRun z h [Copy dst src] = Some h1 /\ view h1 (Py dst) = Some b /\ view h1 (Py src) = Some b /\
    hRun z h1 later = Some h' /\
    (Forall (fun c => target c <> dst) later -> view h' (Py dst) = Some b) /\
    (src <> dst -> Forall (fun c => target c <> src) later -> view h' (Py src) = Some b).
Proof.
  intros E V E'. destruct (run_sim z l none no_boards v none_sim E) as (h & R & S).
  assert (X : value_step z v (Copy dst src) = Some (set_value v dst (Some b))) by (cbn; now rewrite V).
  destruct (step_sim z h v _ _ S X) as (h1 & R1 & S1).
  destruct (run_sim z later h1 _ v' S1 E') as (h' & R' & S').
  exists h, h1, h'. split; [exact R|]. split; [now rewrite (sim_view _ _ S)|].
  split; [cbn [hRun]; now rewrite R1|].
  assert (Ed : set_value v dst (Some b) dst = Some b) by (unfold set_value; now rewrite Nat.eqb_refl).
  assert (Es : set_value v dst (Some b) src = Some b) by (unfold set_value; destruct (Nat.eqb src dst); auto).
  split; [now rewrite (sim_view _ _ S1)|]. split; [now rewrite (sim_view _ _ S1)|]. split; [exact R'|].
  split; [intros F|intros N F]; rewrite (sim_view _ _ S'); erewrite values_target by eassumption; assumption.
Qed.
