(* Proofs about the declaration test. *)
From Verif Require Export Features FeaturesSpec ClaimProofs SpecProofs EnumN AttackFinal BoardFinal.
Local Open Scope N_scope.
Local Opaque N.mul N.add N.sub N.div N.modulo.

Lemma popCount_all b : wfBB b -> popCount b = N.of_nat (length (filter (fun s => isSet b (nsquare s)) all_squares)).
Proof.
  intros W. rewrite popCount_filter by exact W. rewrite all_squares_N, filter_map_len. apply (f_equal N.of_nat). apply filter_len_ext.
  intros s Hs. apply in_squares in Hs. now rewrite square_inv.
Qed.
Lemma field_bit c s : on_board s -> isSet (opponentsField (ncolor c)) (nsquare s) = in_zoneb c s.
Proof.
  intros Hs. unfold opponentsField. rewrite isSet_front123 by (auto using ncolor_lt, nsquare_lt). unfold in_zoneb.
  rewrite <- (square_inv' s Hs) at 2. rewrite <- (color_inv' c) at 2. rewrite rank_for_N by (auto using ncolor_lt, nsquare_lt).
  unfold zoneB. apply eq_true_iff_eq. rewrite N.leb_le, Z.leb_le. lia.
Qed.
Definition ownB (P : position) (c : color) (s : square) : bool :=
  match at_square P s with Some (c', k) => color_eqb c' c && in_zoneb c s | None => false end.
Definition bigKind (k : kind) : bool := match k with HI | KA | RY | UM => true | _ => false end.
Definition ownBig (P : position) (c : color) (s : square) : bool :=
  match at_square P s with Some (c', k) => color_eqb c' c && in_zoneb c s && bigKind k | None => false end.
Definition ownKing (P : position) (c : color) (s : square) : bool :=
  match at_square P s with Some (c', k) => color_eqb c' c && in_zoneb c s && kind_eqb k OU | None => false end.
Lemma color_eqb_iff a b : color_eqb a b = true <-> a = b.
Proof. destruct a, b; cbn; split; congruence. Qed.
Lemma kind_eqb_iff a b : kind_eqb a b = true <-> a = b.
Proof. destruct a, b; cbn; split; congruence. Qed.

Section one.
Variables (p : Position) (c : color).
Hypothesis V : views p.
Hypothesis A : agree p.
Let P := abs p.
Lemma own_bit s : on_board s -> isSet (bbAnd (bbC p (ncolor c)) (opponentsField (ncolor c))) (nsquare s) = ownB P c s.
Proof.
  intros Hs. rewrite isSet_and, field_bit by auto. unfold ownB. pose proof (ag_color p A s c Hs) as E. fold P in E.
  apply eq_true_iff_eq. rewrite andb_true_iff, E. destruct (at_square P s) as [[c' k]|].
  - rewrite andb_true_iff, color_eqb_iff. split; intros [X Y]; split; auto; [destruct X as (k' & X); congruence|subst; eauto].
  - split; [intros [(k & X) _]; discriminate|discriminate].
Qed.
Lemma big_type s : on_board s -> isSet (bigPieces p) (nsquare s) = match at_square P s with Some (_, k) => bigKind k | None => false end.
Proof.
  intros Hs. unfold bigPieces. rewrite !isSet_or. apply eq_true_iff_eq. rewrite !orb_true_iff.
  pose proof (ag_type p A s HI Hs) as E1. pose proof (ag_type p A s RY Hs) as E2. pose proof (ag_type p A s KA Hs) as E3. pose proof (ag_type p A s UM Hs) as E4.
  cbn [nkind] in E1, E2, E3, E4. unfold Rook, Dragon, Bishop, Horse. rewrite E1, E2, E3, E4. fold P. clear E1 E2 E3 E4.
  destruct (at_square P s) as [[c' k]|].
  - split.
    + intros [[(x & X)|(x & X)]|[(x & X)|(x & X)]]; injection X as _ ->; reflexivity.
    + destruct k; cbn; intros E; try discriminate E; eauto.
  - split; [|discriminate]. intros [[(x & X)|(x & X)]|[(x & X)|(x & X)]]; discriminate X.
Qed.
Lemma big_bit s : on_board s -> isSet (bbAnd (bbAnd (bigPieces p) (opponentsField (ncolor c))) (bbC p (ncolor c))) (nsquare s) = ownBig P c s.
Proof.
  intros Hs. pose proof (own_bit s Hs) as O. rewrite !isSet_and in *. rewrite big_type by auto. unfold ownBig. unfold ownB in O.
  rewrite <- andb_assoc. rewrite (andb_comm (isSet (opponentsField _) _)), O. destruct (at_square P s) as [[c' k]|]; [apply andb_comm|reflexivity].
Qed.
Lemma king_bit_ex : andIsAny (bbTC p King (ncolor c)) (opponentsField (ncolor c)) = true <-> king_entered P c.
Proof.
  assert (W : wfBB (bbTC p King (ncolor c))) by (apply wf_and_r, wf_bbC; auto using ncolor_lt).
  rewrite andIsAny_true by now left. unfold king_entered, in_zone. split.
  - intros (s & Hs & K & F). assert (B : on_board (squareN s)) by now apply on_board_N. exists (squareN s). split; auto.
    pose proof (ag_piece p A (squareN s) c OU B) as E. rewrite square_inv in E by auto. apply E in K. split; auto.
    rewrite <- (square_inv s Hs) in F. rewrite field_bit in F by auto. now apply Z.leb_le.
  - intros (s & Hs & K & F). exists (nsquare s). split; [now apply nsquare_lt|]. split; [now apply (ag_piece p A s c OU Hs)|].
    rewrite field_bit by auto. now apply Z.leb_le.
Qed.
End one.

(* ---- counting ---- *)
Local Open Scope Z_scope.
Lemma own_split P c : forall l, Z.of_nat (length (filter (ownB P c) l)) =
  Z.of_nat (length (filter (fun s => match at_square P s with Some (c', k) => color_eqb c' c && negb (kind_eqb k OU) && in_zoneb c s | None => false end) l))
  + Z.of_nat (length (filter (ownKing P c) l)).
Proof.
  induction l as [|s l IH]; [reflexivity|]. cbn [filter]. unfold ownB at 1, ownKing at 1. destruct (at_square P s) as [[c' k]|]; [|exact IH].
  destruct (color_eqb c' c), (in_zoneb c s), (kind_eqb k OU); cbn [andb negb length]; lia.
Qed.
Lemma worth_split P c : forall l,
  add_up (fun s => match at_square P s with Some (c', k) => if color_eqb c' c && in_zoneb c s then worth k else 0 | None => 0 end) l =
  Z.of_nat (length (filter (fun s => match at_square P s with Some (c', k) => color_eqb c' c && negb (kind_eqb k OU) && in_zoneb c s | None => false end) l))
  + 4 * Z.of_nat (length (filter (ownBig P c) l)).
Proof.
  induction l as [|s l IH]; [reflexivity|]. cbn [filter add_up fold_right]. fold (add_up (fun s => match at_square P s with Some (c', k) => if color_eqb c' c && in_zoneb c s then worth k else 0 | None => 0 end) l).
  rewrite IH. unfold ownBig at 2. destruct (at_square P s) as [[c' k]|]; [|lia].
  destruct (color_eqb c' c), (in_zoneb c s), k; cbn [andb negb length kind_eqb bigKind worth]; lia.
Qed.
Lemma filter_one {A} (f : A -> bool) : forall l, NoDup l -> (forall x y, In x l -> In y l -> f x = true -> f y = true -> x = y) ->
  (length (filter f l) = if existsb f l then 1 else 0)%nat.
Proof.
  induction l as [|a l IH]; intros N U; [reflexivity|]. inversion N as [|? ? Na Nl]; subst. cbn [filter existsb].
  assert (U' : forall x y, In x l -> In y l -> f x = true -> f y = true -> x = y) by (intros; apply U; auto; now right).
  specialize (IH Nl U'). destruct (f a) eqn:E; cbn [orb length]; [|exact IH].
  f_equal. rewrite IH. destruct (existsb f l) eqn:X; [|reflexivity]. apply existsb_exists in X as (y & I & F). exfalso. apply Na.
  rewrite (U a y); auto; [now left|now right].
Qed.
Lemma king_count P c : proper P -> Z.of_nat (length (filter (ownKing P c) all_squares)) = if existsb (ownKing P c) all_squares then 1 else 0.
Proof.
  intros Pr. rewrite filter_one; [destruct (existsb _ _); reflexivity|apply all_squares_NoDup|].
  assert (K : forall s, ownKing P c s = true -> at_square P s = Some (c, OU)).
  { intros s. unfold ownKing. destruct (at_square P s) as [[c' k]|]; [|discriminate]. rewrite !andb_true_iff, color_eqb_iff, kind_eqb_iff. intros [[-> _] ->]. reflexivity. }
  intros x y _ _ X Y. apply K in X. apply K in Y. exact (pr_kings _ Pr _ _ _ X Y).
Qed.
Lemma entered_iff P c : existsb (ownKing P c) all_squares = true <-> king_entered P c.
Proof.
  rewrite existsb_exists. unfold king_entered, in_zone, ownKing. split.
  - intros (s & I & K). apply all_squares_iff in I. exists s. split; auto. destruct (at_square P s) as [[c' k]|]; [|discriminate].
    rewrite !andb_true_iff, color_eqb_iff, kind_eqb_iff in K. destruct K as [[-> K] ->]. split; auto. now apply Z.leb_le.
  - intros (s & I & K & F). exists s. split; [now apply all_squares_iff|]. rewrite K. rewrite !andb_true_iff, color_eqb_iff, kind_eqb_iff. repeat split. now apply Z.leb_le.
Qed.

Section two.
Variables (p : Position) (c : color).
Hypothesis V : views p.
Hypothesis A : agree p.
Hypothesis Pr : proper (abs p).
Let P := abs p.
Definition inField : bool := andIsAny (bbTC p King (ncolor c)) (opponentsField (ncolor c)).
Definition ownN : Z := Z.of_N (popCount (bbAnd (bbC p (ncolor c)) (opponentsField (ncolor c)))) - (if inField then 1 else 0).
Definition bigN : Z := Z.of_N (popCount (bbAnd (bbAnd (bigPieces p) (opponentsField (ncolor c))) (bbC p (ncolor c)))).
Lemma own_count : ownN = camp_count P c.
Proof.
  assert (W : wfBB (bbAnd (bbC p (ncolor c)) (opponentsField (ncolor c)))) by (apply wf_and_l, wf_bbC; auto using ncolor_lt).
  unfold ownN. rewrite popCount_all by exact W. rewrite (filter_len_ext _ (ownB P c)) by (intros s I; apply own_bit; auto; now apply all_squares_iff).
  rewrite nat_N_Z, own_split. unfold camp_count. rewrite king_count by exact Pr.
  assert (E : inField = existsb (ownKing P c) all_squares) by (apply eq_true_iff_eq; rewrite entered_iff; now apply king_bit_ex).
  rewrite E. destruct (existsb _ _); lia.
Qed.
Lemma big_count : bigN = Z.of_nat (length (filter (ownBig P c) all_squares)).
Proof.
  assert (W : wfBB (bbAnd (bbAnd (bigPieces p) (opponentsField (ncolor c))) (bbC p (ncolor c)))) by (apply wf_and_r, wf_bbC; auto using ncolor_lt).
  unfold bigN. rewrite popCount_all by exact W. rewrite (filter_len_ext _ (ownBig P c)) by (intros s I; apply big_bit; auto; now apply all_squares_iff).
  apply nat_N_Z.
Qed.
Definition handN (hp : N) : Z := Z.of_N (numOf (handOf p (ncolor c)) hp).
Lemma points_eq : ownN - bigN + handN 0 + handN 1 + handN 2 + handN 3 + handN 4 + (bigN + handN 6 + handN 5) * 5 = points P c.
Proof.
  unfold points. rewrite worth_split. rewrite own_count, big_count. fold (camp_count P c). cbn [add_up fold_right hand_kinds worth].
  change (in_hand P c FU) with (handN 0). change (in_hand P c KY) with (handN 1). change (in_hand P c KE) with (handN 2). change (in_hand P c GI) with (handN 3).
  change (in_hand P c KI) with (handN 4). change (in_hand P c KA) with (handN 5). change (in_hand P c HI) with (handN 6). lia.
Qed.
End two.

Lemma nyugyoku_exact z b : okZob z -> reachable z b -> (nyugyoku (bpos b) = true <-> may_declare (abs (bpos b))).
Proof.
  intros Z R. pose proof (check_status z b Z R) as [CS _]. destruct (reachable_ok z b Z R) as [G C]. pose proof (good_agree z _ G C) as A. pose proof (g_views _ G) as V. pose proof (good_proper _ G) as Pr.
  set (p := bpos b) in *. clearbody p. clear R. unfold may_declare, nyugyoku. destruct (inCheck p).
  { split; [discriminate|]. intros [N _]. exfalso. apply N. now apply CS. }
  assert (NC : ~ in_check (abs p) (side (abs p))) by (intros X; apply CS in X; discriminate).
  assert (T : turn p = ncolor (side (abs p))) by (cbn [abs side]; rewrite color_inv by apply V; reflexivity).
  set (c := side (abs p)) in *. clearbody c. rewrite T. clear CS T.
  pose proof (king_bit_ex p c V A) as K. pose proof (own_count p c V A Pr) as O. pose proof (points_eq p c V A Pr) as Q. unfold ownN, bigN, handN, inField in O, Q.
  destruct (andIsAny (bbTC p King (ncolor c)) (opponentsField (ncolor c))); cbn [negb].
  2:{ split; [discriminate|]. intros (_ & X & _). apply K in X. discriminate. }
  rewrite O in Q |- *. rewrite Q. assert (E : (if (ncolor c =? Black)%N then 28 else 27) = points_needed c) by (destruct c; reflexivity). rewrite E.
  destruct (Z.ltb_spec (camp_count (abs p) c) 10); [split; [discriminate|intros (_ & _ & X & _); lia]|].
  destruct (Z.ltb_spec (points (abs p) c) (points_needed c)); [split; [discriminate|intros (_ & _ & _ & X); lia]|].
  split; [|reflexivity]. intros _. repeat split; auto. now apply K.
Qed.
