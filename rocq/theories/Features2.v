(* Proofs about the second feature buffer. *)
From Verif Require Export Features1.
Local Open Scope N_scope.
Local Opaque N.mul N.add N.sub N.div N.modulo.

Definition fillList (l : list (N * N)) : list N := flat_map (fun x => map (fun i => fst x * 81 + i) (seqN 0 (N.to_nat (snd x * 81)))) l.
Lemma fillPlanes_eq : forall l m, fillPlanes m l = setOnes m (fillList l).
Proof.
  induction l as [|x l IH]; intros m; [reflexivity|]. unfold fillPlanes, fillList. cbn [fold_left flat_map]. fold (fillPlanes (fillOnes m (fst x * 81) (snd x * 81)) l). rewrite IH. unfold setOnes at 1 2.
  rewrite fold_left_app. reflexivity.
Qed.
Lemma fill_iff l q r : r < 81 -> (In (q * 81 + r) (fillList l) <-> exists x, In x l /\ fst x <= q < fst x + snd x).
Proof.
  intros R. unfold fillList. rewrite in_flat_map. split; intros (x & I & H); exists x; (split; [exact I|]).
  - apply in_map_iff in H as (i & E & J). apply in_seqN in J. lia.
  - apply in_map_iff. exists ((q - fst x) * 81 + r). split; [|apply in_seqN]; lia.
Qed.
Lemma fill_bound l n : (forall x, In x l -> fst x + snd x <= n \/ snd x = 0) -> forall i, In i (fillList l) -> i < n * 81.
Proof.
  intros H i I. unfold fillList in I. apply in_flat_map in I as (x & I & J). apply in_map_iff in J as (k & E & J). apply in_seqN in J. specialize (H x I). destruct H as [H|H]; [|rewrite H in J]; lia.
Qed.
Local Open Scope Z_scope.
Lemma or_iff2 (A B C D : Prop) : (A <-> B) -> (C <-> D) -> (A \/ C <-> B \/ D). Proof. tauto. Qed.
Lemma in_hand_le P c k : proper P -> In k hand_kinds -> 0 <= in_hand P c k <= full_set k.
Proof.
  intros Pr I. pose proof (pr_count _ Pr k I) as T. unfold total, on_board_count in T. pose proof (pr_hand _ Pr Sente k). pose proof (pr_hand _ Pr Gote k). destruct c; lia.
Qed.
Lemma filter_le {A} (f : A -> bool) l : (length (filter f l) <= length l)%nat.
Proof. induction l as [|a l IH]; cbn [filter]; [auto|]. destruct (f a); cbn [length]; lia. Qed.
Lemma squares81 : length all_squares = 81%nat. Proof. vm_compute. reflexivity. Qed.
Lemma camp_range P c : 0 <= camp_count P c <= 81.
Proof. unfold camp_count. pose proof (filter_le (fun s => match at_square P s with Some (c', k) => color_eqb c' c && negb (kind_eqb k OU) && in_zoneb c s | None => false end) all_squares) as H. rewrite squares81 in H. lia. Qed.
Lemma points_range P c : proper P -> 0 <= points P c <= 1000.
Proof.
  intros Pr. unfold points. rewrite worth_split. fold (camp_count P c). pose proof (camp_range P c). pose proof (filter_le (ownBig P c) all_squares) as B. rewrite squares81 in B.
  assert (H8 : forall k, In k hand_kinds -> 0 <= in_hand P c k <= full_set k) by (intros; now apply in_hand_le). cbn [add_up fold_right hand_kinds worth].
  pose proof (H8 FU ltac:(cbn; tauto)). pose proof (H8 KY ltac:(cbn; tauto)). pose proof (H8 KE ltac:(cbn; tauto)). pose proof (H8 GI ltac:(cbn; tauto)). pose proof (H8 KI ltac:(cbn; tauto)). pose proof (H8 KA ltac:(cbn; tauto)). pose proof (H8 HI ltac:(cbn; tauto)).
  cbn [full_set] in *. lia.
Qed.
Lemma below_iff x n : -5000 <= x <= 5000 -> 0 <= n <= 100 -> (below x n = true <-> 0 <= x < n).
Proof.
  intros H Hn. unfold below. rewrite Z.ltb_lt. destruct (Z_lt_le_dec x 0).
  - rewrite <- (Z.mod_unique x (2 ^ 32) (-1) (x + 2 ^ 32)) by lia. lia.
  - rewrite Z.mod_small by lia. lia.
Qed.
(* which planes are full *)
Definition full_plane (P : position) (nyu : bool) (q : Z) : Prop :=
  (exists c k, In k hand_kinds /\ 28 * whose (side P) c + hand_first k <= q < 28 * whose (side P) c + hand_first k + Z.min (hand_room k) (in_hand P c k)) \/
  (in_check P (side P) /\ q = 56) \/
  (nyu = true /\ exists c, let base := 57 + 31 * whose (side P) c in
     (king_entered P c /\ q = base) \/ (0 <= 10 - camp_count P c < 10 /\ q = base + 1 + (10 - camp_count P c)) \/
     (0 <= points_needed c - points P c < 20 /\ q = base + 11 + (points_needed c - points P c))).
Section one.
Variable p : Position.
Hypothesis V : views p.
Hypothesis A : agree p.
Hypothesis Pr : proper (abs p).
Hypothesis CS : inCheck p = true <-> in_check (abs p) (side (abs p)).
Let P := abs p.
Let v := side P.
Lemma hand_planes c q : (exists x, In x (handPlanes p (ncolor c)) /\ (fst x <= q < fst x + snd x)%N) <->
  exists k, In k hand_kinds /\ 28 * whose v c + hand_first k <= Z.of_N q < 28 * whose v c + hand_first k + Z.min (hand_room k) (in_hand P c k).
Proof.
  pose proof (viewColor_N p V c) as W. fold P v in W. unfold handPlanes. cbv zeta.
  assert (H8 : forall k, In k hand_kinds -> 0 <= in_hand P c k <= full_set k) by (intros; now apply in_hand_le).
  assert (E0 : Z.of_N (numOf (handOf p (ncolor c)) 0) = in_hand P c FU) by reflexivity. assert (E1 : Z.of_N (numOf (handOf p (ncolor c)) 1) = in_hand P c KY) by reflexivity.
  assert (E2 : Z.of_N (numOf (handOf p (ncolor c)) 2) = in_hand P c KE) by reflexivity. assert (E3 : Z.of_N (numOf (handOf p (ncolor c)) 3) = in_hand P c GI) by reflexivity.
  assert (E4 : Z.of_N (numOf (handOf p (ncolor c)) 4) = in_hand P c KI) by reflexivity. assert (E5 : Z.of_N (numOf (handOf p (ncolor c)) 5) = in_hand P c KA) by reflexivity.
  assert (E6 : Z.of_N (numOf (handOf p (ncolor c)) 6) = in_hand P c HI) by reflexivity.
  pose proof (H8 FU ltac:(cbn; tauto)). pose proof (H8 KY ltac:(cbn; tauto)). pose proof (H8 KE ltac:(cbn; tauto)). pose proof (H8 GI ltac:(cbn; tauto)). pose proof (H8 KI ltac:(cbn; tauto)). pose proof (H8 KA ltac:(cbn; tauto)). pose proof (H8 HI ltac:(cbn; tauto)).
  rewrite <- !Exists_exists. unfold hand_kinds. rewrite !Exists_cons, !Exists_nil. cbn [fst snd hand_first hand_room full_set] in *. clear H8.
  generalize dependent (in_hand P c FU). generalize dependent (in_hand P c KY). generalize dependent (in_hand P c KE). generalize dependent (in_hand P c GI). generalize dependent (in_hand P c KI). generalize dependent (in_hand P c KA). generalize dependent (in_hand P c HI).
  generalize dependent (whose v c). clear. intros w W. intros.
  apply or_iff2; [lia|]. do 6 (apply or_iff2; [lia|]). reflexivity.
Qed.
Lemma nyu_planes c q : (exists x, In x (nyugyokuPlanes p (ncolor c)) /\ (fst x <= q < fst x + snd x)%N) <->
  (let base := 57 + 31 * whose v c in
     (king_entered P c /\ Z.of_N q = base) \/ (0 <= 10 - camp_count P c < 10 /\ Z.of_N q = base + 1 + (10 - camp_count P c)) \/
     (0 <= points_needed c - points P c < 20 /\ Z.of_N q = base + 11 + (points_needed c - points P c))).
Proof.
  pose proof (viewColor_N p V c) as W. fold P v in W. pose proof (king_bit_ex p c V A) as K. pose proof (own_count p c V A Pr) as O. pose proof (points_eq p c V A Pr) as Q.
  unfold nyugyokuPlanes. cbv zeta. assert (E : (if (ncolor c =? Black)%N then 28 else 27) = points_needed c) by (destruct c; reflexivity). rewrite E. clear E.
  unfold ownN, bigN, handN, inField in O, Q. fold P in K, O, Q. rewrite O in Q |- *.
  replace (Z.of_N (popCount (bbAnd (bbAnd (bigPieces p) (opponentsField (ncolor c))) (bbC p (ncolor c)))) + Z.of_N (numOf (handOf p (ncolor c)) 5) + Z.of_N (numOf (handOf p (ncolor c)) 6)) with
    (Z.of_N (popCount (bbAnd (bbAnd (bigPieces p) (opponentsField (ncolor c))) (bbC p (ncolor c)))) + Z.of_N (numOf (handOf p (ncolor c)) 6) + Z.of_N (numOf (handOf p (ncolor c)) 5)) by lia.
  rewrite Q. clear Q O. pose proof (camp_range P c) as CR. pose proof (points_range P c Pr) as PR. assert (NR : 27 <= points_needed c <= 28) by (destruct c; cbn; lia).
  pose proof (below_iff (10 - camp_count P c) 10 ltac:(lia) ltac:(lia)) as B1. pose proof (below_iff (points_needed c - points P c) 20 ltac:(lia) ltac:(lia)) as B2.
  rewrite <- K, <- B1, <- B2. revert W CR PR NR B1 B2. clear. generalize (viewColor p (ncolor c)) (whose v c) (camp_count P c) (points_needed c) (points P c) (andIsAny (bbTC p King (ncolor c)) (opponentsField (ncolor c))).
  intros vc w cc pn pt kk W CR PR NR B1 B2. rewrite <- Exists_exists, !Exists_app.
  assert (XX : forall (b : bool) y (R : Prop), (b = true -> ((fst y <= q < fst y + snd y)%N <-> R)) -> (Exists (fun x => (fst x <= q < fst x + snd x)%N) (if b then [y] else []) <-> b = true /\ R)).
  { intros b y R H. destruct b; [rewrite Exists_cons, Exists_nil, (H eq_refl); tauto|rewrite Exists_nil; split; [tauto|intros [X _]; discriminate]]. }
  repeat apply or_iff2.
  - apply XX. intros _. cbn [fst snd]. lia.
  - apply XX. intros X. apply B1 in X. cbn [fst snd]. lia.
  - apply XX. intros X. apply B2 in X. cbn [fst snd]. lia.
Qed.
Lemma planes2_iff nyu q : (exists x, In x (features2Planes nyu p) /\ (fst x <= q < fst x + snd x)%N) <-> full_plane P nyu (Z.of_N q).
Proof.
  unfold features2Planes, full_plane. fold v. rewrite <- Exists_exists, Exists_app. cbn [flat_map]. rewrite app_nil_r, !Exists_app.
  assert (H1 : forall c, Exists (fun x => (fst x <= q < fst x + snd x)%N) (handPlanes p (ncolor c)) <-> exists k, In k hand_kinds /\ 28 * whose v c + hand_first k <= Z.of_N q < 28 * whose v c + hand_first k + Z.min (hand_room k) (in_hand P c k)) by (intros c; rewrite Exists_exists; apply hand_planes).
  assert (H2 : forall c, Exists (fun x => (fst x <= q < fst x + snd x)%N) (if nyu then nyugyokuPlanes p (ncolor c) else []) <-> nyu = true /\ (let base := 57 + 31 * whose v c in
     (king_entered P c /\ Z.of_N q = base) \/ (0 <= 10 - camp_count P c < 10 /\ Z.of_N q = base + 1 + (10 - camp_count P c)) \/
     (0 <= points_needed c - points P c < 20 /\ Z.of_N q = base + 11 + (points_needed c - points P c)))).
  { intros c. destruct nyu; [rewrite Exists_exists, nyu_planes; tauto|rewrite Exists_nil; split; [tauto|intros [X _]; discriminate]]. }
  assert (H3 : Exists (fun x => (fst x <= q < fst x + snd x)%N) (if inCheck p then [(56, 1)%N] else []) <-> in_check P v /\ Z.of_N q = 56).
  { fold P in CS. fold v in CS. rewrite <- CS. destruct (inCheck p); [rewrite Exists_cons, Exists_nil; cbn [fst snd]; split; [intros [X|[]]; split; auto; lia|intros [_ X]; left; lia]|rewrite Exists_nil; split; [tauto|intros [X _]; discriminate]]. }
  pose proof (H1 Sente) as HS. pose proof (H1 Gote) as HG. pose proof (H2 Sente) as NS. pose proof (H2 Gote) as NG. cbn [ncolor] in HS, HG, NS, NG. change Black with 0%N. change White with 1%N. rewrite HS, HG, NS, NG, H3. clear.
  split.
  - intros [[[(k & H)|[X H]]|[(k & H)|[X H]]]|H]; [left; exists Sente, k; exact H|right; right; split; [exact X|exists Sente; exact H]|left; exists Gote, k; exact H|right; right; split; [exact X|exists Gote; exact H]|right; left; exact H].
  - intros [([|] & k & H)|[H|(X & [|] & H)]]; [left; left; left; exists k; exact H|left; right; left; exists k; exact H|right; exact H|left; left; right; auto|left; right; right; auto].
Qed.
Lemma planes2_bound nyu q : full_plane P nyu q -> 0 <= q < (if nyu then 119 else 57).
Proof.
  unfold full_plane. fold v. intros [(c & k & I & H)|[[_ ->]|(-> & c & H)]].
  - pose proof (whose_range v c). assert (K : 0 <= hand_first k /\ hand_first k + hand_room k <= 28 /\ 0 <= hand_room k) by (destruct k; cbn; lia). destruct nyu; lia.
  - destruct nyu; lia.
  - pose proof (whose_range v c). cbv zeta in H. lia.
Qed.
Lemma features2_all (nyu : bool) m : (if nyu then 9639 else 4617) <= Z.of_nat (length m) -> exists m', makeFeatures2 nyu p m = Some m' /\ length m' = length m /\
  forall q r, 0 <= q -> 0 <= r < 81 -> (full_plane P nyu q /\ entry m' (q * 81 + r) = 1) \/ (~ full_plane P nyu q /\ entry m' (q * 81 + r) = if q <? 57 then 0 else entry m (q * 81 + r)).
Proof.
  intros L. unfold makeFeatures2. destruct (clear_ok m 4617) as (m0 & E0 & L0 & H0); [unfold memLen; destruct nyu; lia|]. change (57 * 81)%N with 4617%N. rewrite E0, fillPlanes_eq.
  assert (RG : forall i, In i (fillList (features2Planes nyu p)) <-> full_plane P nyu (Z.of_N (i / 81))).
  { intros i. rewrite <- planes2_iff. rewrite <- (fill_iff _ (i / 81) (i mod 81)) by (apply N.mod_lt; lia). rewrite N.mul_comm, <- N.div_mod by lia. reflexivity. }
  destruct (setOnes_ok (fillList (features2Planes nyu p)) m0) as (m' & E & L' & H).
  { intros i I. apply RG, planes2_bound in I. pose proof (N.div_mod i 81 ltac:(lia)) as D. pose proof (N.mod_lt i 81 ltac:(lia)). set (d := (i / 81)%N) in *. set (r := (i mod 81)%N) in *. clearbody d r. unfold memLen. rewrite L0. destruct nyu; lia. }
  exists m'. split; [exact E|]. split; [congruence|]. intros q r Hq Hr. set (i := Z.to_N (q * 81 + r)).
  assert (Di : (i / 81)%N = Z.to_N q) by (symmetry; apply (N.div_unique i 81 _ (Z.to_N r)); lia).
  assert (Ei : q * 81 + r = Z.of_N i) by lia. rewrite Ei, !entry_nth. pose proof (RG i) as X. rewrite Di, Z2N.id in X by lia. rewrite <- X.
  destruct (H i) as [Y|[I Y]]; [now left|]. right. split; [exact I|]. rewrite Y, H0. destruct (N.ltb_spec i 4617), (Z.ltb_spec q 57); (reflexivity || lia).
Qed.
End one.
Lemma hand_full P nyu c k j : In k hand_kinds -> 0 <= j < hand_room k -> (full_plane P nyu (28 * whose (side P) c + hand_first k + j) <-> j < in_hand P c k).
Proof.
  intros I Hj. unfold full_plane. pose proof (whose_range (side P) c) as W. split.
  - intros [(c' & k' & I' & H)|[[_ H]|(_ & c' & H)]].
    + pose proof (whose_range (side P) c') as W'. assert (R : 0 <= hand_first k /\ hand_first k + hand_room k <= 28) by (destruct k; cbn; lia). assert (R' : 0 <= hand_first k' /\ hand_first k' + hand_room k' <= 28) by (destruct k'; cbn; lia).
      assert (whose (side P) c = whose (side P) c') as E by lia. apply whose_inj in E. subst c'.
      assert (k = k'); [|subst; lia]. assert (X : hand_first k + j < hand_first k' + hand_room k' /\ hand_first k' <= hand_first k + j) by lia. clear - X Hj I I'.
      cbn [hand_kinds In] in I, I'. destruct k, k'; cbn [hand_first hand_room] in *; try reflexivity; lia.
    + assert (R : 0 <= hand_first k /\ hand_first k + hand_room k <= 28) by (destruct k; cbn; lia). lia.
    + cbv zeta in H. pose proof (whose_range (side P) c'). assert (R : 0 <= hand_first k /\ hand_first k + hand_room k <= 28) by (destruct k; cbn; lia). lia.
  - intros H. left. exists c, k. split; [exact I|]. lia.
Qed.
Lemma check_full P nyu : full_plane P nyu 56 <-> in_check P (side P).
Proof.
  unfold full_plane. split; [|auto]. intros [(c' & k' & I' & H)|[[H _]|(_ & c' & H)]]; [|exact H|].
  - pose proof (whose_range (side P) c'). assert (R : 0 <= hand_first k' /\ hand_first k' + hand_room k' <= 28) by (destruct k'; cbn; lia). lia.
  - cbv zeta in H. pose proof (whose_range (side P) c'). lia.
Qed.
Lemma declared_full P c j : 0 <= j < 31 -> (full_plane P true (57 + 31 * whose (side P) c + j) <->
  (king_entered P c /\ j = 0) \/ (0 <= 10 - camp_count P c < 10 /\ j = 1 + (10 - camp_count P c)) \/ (0 <= points_needed c - points P c < 20 /\ j = 11 + (points_needed c - points P c))).
Proof.
  intros Hj. unfold full_plane. pose proof (whose_range (side P) c) as W. split.
  - intros [(c' & k' & I' & H)|[[_ H]|(_ & c' & H)]].
    + pose proof (whose_range (side P) c') as W'. assert (R' : 0 <= hand_first k' /\ hand_first k' + hand_room k' <= 28) by (destruct k'; cbn; lia). lia.
    + lia.
    + cbv zeta in H. pose proof (whose_range (side P) c') as W'. assert (whose (side P) c = whose (side P) c') as E by lia. apply whose_inj in E. subst c'.
      destruct H as [[K H]|[H|H]]; [left; split; auto; lia|right; left; lia|right; right; lia].
  - intros H. right. right. split; [reflexivity|]. exists c. cbv zeta. destruct H as [[K H]|[H|H]]; [left; split; auto; lia|right; left; lia|right; right; lia].
Qed.
Lemma features2_exact z b m : okZob z -> reachable z b -> 4617 <= Z.of_nat (length m) -> exists m', makeFeatures2 false (bpos b) m = Some m' /\ buffer2 (abs (bpos b)) m m'.
Proof.
  intros Z R L. pose proof (check_status z b Z R) as [CS _]. destruct (reachable_ok z b Z R) as [G C]. pose proof (good_proper _ G) as Pr.
  destruct (features2_all (bpos b) (g_views _ G) (good_agree z _ G C) Pr CS false m L) as (m' & E & Lm & H). exists m'. split; [exact E|]. clear E. set (P := abs (bpos b)) in *. clearbody P. clear CS G C R.
  split; [exact Lm|]. split.
  - intros i Hi. pose proof (Z.div_mod i 81 ltac:(lia)) as D. pose proof (Z.mod_pos_bound i 81 ltac:(lia)) as M. rewrite D, Z.mul_comm.
    destruct (H (i / 81) (i mod 81)) as [[F _]|[_ X]]; [lia|lia| |].
    + exfalso. revert F. clear - Hi D M Pr. set (q := i / 81) in *. clearbody q. unfold full_plane. intros [(c' & k' & I' & F)|[[_ F]|(F & _)]]; [|lia|discriminate].
      pose proof (whose_range (side P) c'). assert (R' : 0 <= hand_first k' /\ hand_first k' + hand_room k' <= 28) by (destruct k'; cbn; lia). lia.
    + rewrite X. destruct (Z.ltb_spec (i / 81) 57); [lia|reflexivity].
  - intros s B. pose proof (cell_range s B) as Cs. split.
    + intros c k j I Hj. unfold flag. rewrite <- (hand_full P false c k j I Hj). pose proof (whose_range (side P) c). assert (R' : 0 <= hand_first k /\ hand_first k + hand_room k <= 28) by (destruct k; cbn; lia).
      destruct (H (28 * whose (side P) c + hand_first k + j) (cell s)) as [X|[X Y]]; [lia|lia|left; exact X|right]. split; [exact X|]. rewrite Y. destruct (Z.ltb_spec (28 * whose (side P) c + hand_first k + j) 57); [reflexivity|lia].
    + unfold flag. rewrite <- (check_full P false). destruct (H 56 (cell s)) as [X|X]; [lia|lia|left; exact X|right; exact X].
Qed.
Lemma features2_more z b m : okZob z -> reachable z b -> 9639 <= Z.of_nat (length m) -> exists m', makeFeatures2 true (bpos b) m = Some m' /\ buffer2_more (abs (bpos b)) m m'.
Proof.
  intros Z R L. pose proof (check_status z b Z R) as [CS _]. destruct (reachable_ok z b Z R) as [G C]. pose proof (good_proper _ G) as Pr.
  destruct (features2_all (bpos b) (g_views _ G) (good_agree z _ G C) Pr CS true m L) as (m' & E & Lm & H). exists m'. split; [exact E|]. clear E.
  pose proof (planes2_bound (bpos b) true) as PB. set (P := abs (bpos b)) in *. clearbody P. clear CS G C R.
  split; [exact Lm|]. split; [|split].
  - intros i Hi. pose proof (Z.div_mod i 81 ltac:(lia)) as D. pose proof (Z.mod_pos_bound i 81 ltac:(lia)) as M. rewrite D, Z.mul_comm.
    destruct (H (i / 81) (i mod 81)) as [[F _]|[_ X]]; [lia|lia| |].
    + apply PB in F. lia.
    + rewrite X. destruct (Z.ltb_spec (i / 81) 57); [lia|reflexivity].
  - intros s B. pose proof (cell_range s B) as Cs. split.
    + intros c k j I Hj. unfold flag. rewrite <- (hand_full P true c k j I Hj). pose proof (whose_range (side P) c). assert (R' : 0 <= hand_first k /\ hand_first k + hand_room k <= 28) by (destruct k; cbn; lia).
      destruct (H (28 * whose (side P) c + hand_first k + j) (cell s)) as [X|[X Y]]; [lia|lia|left; exact X|right]. split; [exact X|]. rewrite Y. destruct (Z.ltb_spec (28 * whose (side P) c + hand_first k + j) 57); [reflexivity|lia].
    + unfold flag. rewrite <- (check_full P true). destruct (H 56 (cell s)) as [X|X]; [lia|lia|left; exact X|right; exact X].
  - intros c s B. cbv zeta. pose proof (cell_range s B) as Cs. pose proof (whose_range (side P) c) as W.
    assert (KP : forall j Q, 0 <= j < 31 -> (full_plane P true (57 + 31 * whose (side P) c + j) <-> Q) -> kept (entry m' ((57 + 31 * whose (side P) c + j) * 81 + cell s)) (entry m ((57 + 31 * whose (side P) c + j) * 81 + cell s)) Q).
    { intros j Q Hj HQ. unfold kept. rewrite <- HQ. destruct (H (57 + 31 * whose (side P) c + j) (cell s)) as [X|[X Y]]; [lia|lia|left; exact X|right]. split; [exact X|]. rewrite Y. destruct (Z.ltb_spec (57 + 31 * whose (side P) c + j) 57); [lia|reflexivity]. }
    split; [|split].
    + apply KP; [lia|]. rewrite declared_full by lia. split; [intros [[X _]|[X|X]]; [exact X|lia|lia]|intros X; left; auto].
    + intros j Hj. apply KP; [lia|]. rewrite declared_full by lia. split; [intros [[_ X]|[X|X]]; lia|intros X; right; left; lia].
    + intros j Hj. apply KP; [lia|]. rewrite declared_full by lia. split; [intros [[_ X]|[X|X]]; lia|intros X; right; right; lia].
Qed.
