(* KI2 move texts: the move read is the move written. *)
From Verif Require Import Ki2Spec Ki2Text Rules Bridge PseudoListProofs GenClaims CommandFinal TextProofs.
From Coq Require Import Permutation.
Local Open Scope N_scope.

(* ---- two pieces of a kind that reach a square stand on different sides of it ---- *)
Section Geometry.
Local Open Scope Z_scope.
Definition sgn2 (d : Z * Z) : Z * Z := (Z.sgn (fst d), Z.sgn (snd d)).
Lemma step_signs k d d' : In d (steps k ++ slides k) -> In d' (steps k ++ slides k) -> sgn2 d = sgn2 d' -> d = d'.
Proof.
  intros A B. destruct k; cbn in A, B; repeat (destruct A as [<-|A]; [repeat (destruct B as [<-|B]; [cbn; intros E; (reflexivity || discriminate E)|]); destruct B|]); destruct A.
Qed.
Lemma step_slide k d : In d (steps k) -> In d (slides k) -> False.
Proof. intros A B. destruct k; cbn in A, B; repeat (destruct A as [<-|A]; [repeat (destruct B as [B|B]; [discriminate B|]); destruct B|]); destruct A. Qed.
Lemma attack_from O c k s t : attacks O c k s t -> exists d n, 1 <= n /\ t = displaced c s d n /\ In d (steps k ++ slides k) /\
  ((In d (steps k) /\ n = 1) \/ (In d (slides k) /\ forall i, 1 <= i < n -> ~ O (displaced c s d i))).
Proof.
  intros [(d & I & E)|(d & n & I & N & E & F)]; [exists d, 1|exists d, n]; (split; [lia|]); (split; [exact E|]); (split; [apply in_or_app; auto|auto]).
Qed.
Lemma displaced_sgn c s d n : 1 <= n -> sgn2 (fst (displaced c s d n) - fst s, (forward c) * (snd (displaced c s d n) - snd s)) = sgn2 d.
Proof.
  intros H. destruct s as [f r], d as [x y]. unfold displaced, sgn2. cbn [fst snd].
  replace (f + n * x - f) with (n * x) by lia. replace (forward c * (r + n * (forward c * y) - r)) with (n * y) by (destruct c; cbn [forward]; lia).
  rewrite !Z.sgn_mul. rewrite (Z.sgn_pos n) by lia. f_equal; lia.
Qed.
Lemma class_differs P c k s s' t : at_square P s = Some (c, k) -> at_square P s' = Some (c, k) -> attacks (occupied P) c k s t -> attacks (occupied P) c k s' t ->
  sgn2 (fst t - fst s, snd t - snd s) = sgn2 (fst t - fst s', snd t - snd s') -> s = s'.
Proof.
  intros A A' T T' E. destruct (attack_from _ _ _ _ _ T) as (d & n & N & Et & I & K). destruct (attack_from _ _ _ _ _ T') as (d' & n' & N' & Et' & I' & K').
  assert (D : d = d').
  { apply (step_signs k); auto. rewrite <- (displaced_sgn c s d n N), <- (displaced_sgn c s' d' n' N'), <- Et, <- Et'. unfold sgn2 in *. cbn [fst snd] in *. injection E as E1 E2.
    rewrite !Z.sgn_mul, E1, E2. reflexivity. }
  subst d'. assert (X : n = n' \/ n < n' \/ n' < n) by lia. destruct s as [f r], s' as [f' r'], d as [x y]. unfold displaced in *. cbn [fst snd] in *.
  destruct X as [->|X]; [rewrite Et in Et'; injection Et' as; f_equal; lia|]. exfalso.
  destruct K as [[S ->]|[S C]]; [destruct K' as [[S' ->]|[S' C']]; [lia|eapply step_slide; eauto]|]. destruct K' as [[S' ->]|[S' C']]; [eapply step_slide; eauto|].
  rewrite Et in Et'. injection Et' as E1 E2. destruct X as [X|X].
  - apply (C' (n' - n) ltac:(lia)). unfold occupied. replace (f' + (n' - n) * x, r' + (n' - n) * (forward c * y)) with (f, r) by (f_equal; lia). now rewrite A.
  - apply (C (n - n') ltac:(lia)). unfold occupied. replace (f + (n - n') * x, r + (n - n') * (forward c * y)) with (f', r') by (f_equal; lia). now rewrite A'.
Qed.
End Geometry.

(* ---- squares seen by a side ---- *)
Lemma seen_check : forallb (fun i => ((80 - i) / 9 =? 8 - i / 9) && ((80 - i) mod 9 =? 8 - i mod 9) && (i / 9 <? 9) && (i mod 9 <? 9)) sqs = true.
Proof. vm_compute. reflexivity. Qed.
Lemma seen_parts i : i < 81 -> (80 - i) / 9 = 8 - i / 9 /\ (80 - i) mod 9 = 8 - i mod 9 /\ i / 9 < 9 /\ i mod 9 < 9.
Proof. intros H. pose proof (proj1 (forallb_forall _ _) seen_check i (in_sqs i H)) as E. cbv beta in E. rewrite !andb_true_iff, !N.eqb_eq, !N.ltb_lt in E. tauto. Qed.
Definition pick (us : N) (hi lo : Prop) : Prop := if us =? Black then hi else lo.
Definition relP (us a t : N) (s : relSide) : Prop :=
  match s with SLeft => if us =? Black then t / 9 < a / 9 else a / 9 < t / 9 | SRight => if us =? Black then a / 9 < t / 9 else t / 9 < a / 9 | SSame => a / 9 = t / 9 end.
Definition dirP (us a t : N) (d : relDir) : Prop :=
  match d with DUp => if us =? Black then t mod 9 < a mod 9 else a mod 9 < t mod 9 | DDown => if us =? Black then a mod 9 < t mod 9 else t mod 9 < a mod 9 | DSide => a mod 9 = t mod 9 end.
Lemma rel_of us a t : a < 81 -> t < 81 -> relP us a t (relSeen us a t).
Proof.
  intros A T. destruct (seen_parts a A) as (E1 & _ & L1 & _). destruct (seen_parts t T) as (E2 & _ & L2 & _). unfold relSeen, seen, relP. destruct (us =? Black).
  - destruct (N.ltb_spec (t / 9) (a / 9)); [assumption|]. destruct (N.ltb_spec (a / 9) (t / 9)); [assumption|]. lia.
  - rewrite E1, E2. destruct (N.ltb_spec (8 - t / 9) (8 - a / 9)); [lia|]. destruct (N.ltb_spec (8 - a / 9) (8 - t / 9)); lia.
Qed.
Lemma dir_of us a t : a < 81 -> t < 81 -> dirP us a t (dirSeen us a t).
Proof.
  intros A T. destruct (seen_parts a A) as (_ & E1 & _ & L1). destruct (seen_parts t T) as (_ & E2 & _ & L2). unfold dirSeen, seen, dirP. destruct (us =? Black).
  - destruct (N.ltb_spec (t mod 9) (a mod 9)); [assumption|]. destruct (N.ltb_spec (a mod 9) (t mod 9)); [assumption|]. lia.
  - rewrite E1, E2. destruct (N.ltb_spec (8 - t mod 9) (8 - a mod 9)); [lia|]. destruct (N.ltb_spec (8 - a mod 9) (8 - t mod 9)); lia.
Qed.
Lemma square_parts s : on_board s -> fst s = (Z.of_N (nsquare s / 9) + 1)%Z /\ snd s = (Z.of_N (nsquare s mod 9) + 1)%Z.
Proof. intros H. pose proof (square_inv' s H) as E. unfold squareN in E. split; [exact (f_equal fst (eq_sym E))|exact (f_equal snd (eq_sym E))]. Qed.
Lemma same_class us s s' t : on_board s -> on_board s' -> on_board t -> relSeen us (nsquare s) (nsquare t) = relSeen us (nsquare s') (nsquare t) ->
  dirSeen us (nsquare s) (nsquare t) = dirSeen us (nsquare s') (nsquare t) -> sgn2 (fst t - fst s, snd t - snd s)%Z = sgn2 (fst t - fst s', snd t - snd s')%Z.
Proof.
  intros S S' T ER ED. destruct (square_parts s S) as [F R]. destruct (square_parts s' S') as [F' R']. destruct (square_parts t T) as [Ft Rt].
  pose proof (rel_of us _ _ (nsquare_lt s S) (nsquare_lt t T)) as P1. pose proof (rel_of us _ _ (nsquare_lt s' S') (nsquare_lt t T)) as P2.
  pose proof (dir_of us _ _ (nsquare_lt s S) (nsquare_lt t T)) as P3. pose proof (dir_of us _ _ (nsquare_lt s' S') (nsquare_lt t T)) as P4.
  rewrite ER in P1. rewrite ED in P3. revert P1 P2 P3 P4. generalize (relSeen us (nsquare s') (nsquare t)) (dirSeen us (nsquare s') (nsquare t)). intros x y.
  unfold sgn2. cbn [fst snd]. rewrite F, R, F', R', Ft, Rt. unfold relP, dirP.
  generalize (nsquare s / 9) (nsquare s mod 9) (nsquare s' / 9) (nsquare s' mod 9) (nsquare t / 9) (nsquare t mod 9). intros a1 a2 b1 b2 c1 c2. intros P1 P2 P3 P4.
  f_equal; [destruct x; destruct (us =? Black)|destruct y; destruct (us =? Black)]; lia.
Qed.

(* ---- the entries of the lists ---- *)
Lemma ki2_go_fields p s t pr k : good p -> on_board s -> on_board t -> at_square (abs p) s = Some (side (abs p), k) -> let m := code p (Go s t pr) in
  mvTo m = nsquare t /\ mvFrom m = nsquare s /\ mvPromo m = pr /\ mvPtFrom m = nkind k /\ mvDrop m = false.
Proof.
  intros G S T At m. pose proof (nsquare_lt s S). pose proof (nsquare_lt t T).
  assert (E : pieceAt p (nsquare s) mod 16 = nkind k).
  { rewrite <- (square_inv' s S) in At. cbn [side abs] in At. apply pieceN_kind in At; auto using good_ok, good_turn. rewrite At, <- ptOf_arith. apply pt_mk; auto using good_turn, nkind_lt. }
  destruct (code_fields (nsquare t) (nsquare s) pr (pieceAt p (nsquare s) mod 16) (pieceAt p (nsquare t) mod 16) ltac:(lia) ltac:(lia) ltac:(apply N.mod_lt; lia) ltac:(apply N.mod_lt; lia)) as (E1 & E2 & E3 & E4 & E5).
  change (codeOf (nsquare t) (nsquare s) pr (pieceAt p (nsquare s) mod 16) (pieceAt p (nsquare t) mod 16)) with m in *. rewrite E in E4. unfold mvDrop. rewrite E2.
  split; auto. split; auto. split; auto. split; auto. apply N.leb_gt. lia.
Qed.
Lemma ki2_drop_fields p k t : on_board t -> nkind k < 8 -> let m := code p (Drop k t) in mvTo m = nsquare t /\ mvFrom m = 80 + nkind k /\ mvPromo m = false /\ mvDrop m = true.
Proof.
  intros T K m. pose proof (nsquare_lt t T). destruct (code_fields (nsquare t) (80 + nkind k) false 0 0 ltac:(lia) ltac:(lia) ltac:(lia) ltac:(lia)) as (E1 & E2 & E3 & E4 & E5).
  assert (Em : codeOf (nsquare t) (80 + nkind k) false 0 0 = m) by (unfold codeOf, m; cbn [code]; lia). rewrite Em in *. unfold mvDrop. rewrite E2.
  split; auto. split; auto. split; auto. apply N.leb_le. destruct k; cbn [nkind]; lia.
Qed.
Lemma hand_kind p c k : (0 < in_hand (abs p) c k)%Z -> nkind k < 8.
Proof. cbn [abs in_hand]. destruct k; cbn; lia. Qed.
Lemma kind_pts k : In (nkind k) pts. Proof. destruct k; vm_compute; tauto. Qed.
Lemma nkind_inj' k k' : nkind k = nkind k' -> k = k'. Proof. destruct k, k'; cbn; intros E; (reflexivity || discriminate E). Qed.
Lemma drop_hand m k : nkind k < 8 -> k <> OU -> mvFrom m = 80 + nkind k -> handToPt (moveDropHandPiece m) = nkind k /\ moveDropHandPiece m < 7.
Proof. intros K _ E. unfold moveDropHandPiece. rewrite E. destruct k; cbn in K; try lia; vm_compute; auto. Qed.

(* ---- lists ---- *)
Lemma only_one {A} (m : A) l : NoDup l -> In m l -> (forall x, In x l -> x = m) -> l = [m].
Proof.
  intros N I F. destruct l as [|a [|c l]]; [destruct I|f_equal; apply F; now left|]. exfalso.
  apply NoDup_cons_iff in N as [H _]. apply H. assert (E1 : a = m) by (apply F; cbn; auto). assert (E2 : c = m) by (apply F; cbn; auto). rewrite E1, E2. cbn. auto.
Qed.
Lemma greatest_spec (f : N -> N) (l : list N) : forall a, let g := fold_left (fun a m => if a <? f m then f m else a) l a in a <= g /\ (forall x, In x l -> f x <= g) /\ (g = a \/ exists x, In x l /\ g = f x).
Proof.
  induction l as [|y l IH]; intros a; cbn [fold_left]; [split; [lia|]; split; [intros ? []|now left]|].
  destruct (IH (if a <? f y then f y else a)) as (A & B & C). cbv zeta in *. destruct (N.ltb_spec a (f y)) as [L|L].
  - split; [lia|]. split; [intros x [<-|I]; [lia|now apply B]|]. right. destruct C as [->|(x & I & E)]; [exists y|exists x]; cbn; auto.
  - split; [lia|]. split; [intros x [<-|I]; [lia|now apply B]|]. destruct C as [->|(x & I & E)]; [now left|right; exists x; cbn; auto].
Qed.
Lemma least_spec (f : N -> N) (l : list N) : forall a, let g := fold_left (fun a m => if f m <? a then f m else a) l a in g <= a /\ (forall x, In x l -> g <= f x) /\ (g = a \/ exists x, In x l /\ g = f x).
Proof.
  induction l as [|y l IH]; intros a; cbn [fold_left]; [split; [lia|]; split; [intros ? []|now left]|].
  destruct (IH (if f y <? a then f y else a)) as (A & B & C). cbv zeta in *. destruct (N.ltb_spec (f y) a) as [L|L].
  - split; [lia|]. split; [intros x [<-|I]; [lia|now apply B]|]. right. destruct C as [->|(x & I & E)]; [exists y|exists x]; cbn; auto.
  - split; [lia|]. split; [intros x [<-|I]; [lia|now apply B]|]. destruct C as [->|(x & I & E)]; [now left|right; exists x; cbn; auto].
Qed.
(* the greatest or least is that of m when every other entry of another origin is further back *)
Lemma greatest_is f l m : In m l -> (forall x, In x l -> f x <= f m) -> greatestOf f l = f m.
Proof. intros I F. destruct (greatest_spec f l 0) as (A & B & C). cbv zeta in *. unfold greatestOf. specialize (B m I). destruct C as [C|(x & J & C)]; [lia|]. specialize (F x J). lia. Qed.
Lemma least_is f l m : In m l -> f m <= 9 -> (forall x, In x l -> f m <= f x) -> leastOf f l = f m.
Proof. intros I L F. destruct (least_spec f l 9) as (A & B & C). cbv zeta in *. unfold leastOf. specialize (B m I). destruct C as [C|(x & J & C)]; [lia|]. specialize (F x J). lia. Qed.
Lemma add_first_in acc x y : In y (addFirst acc x) <-> In y acc \/ y = x.
Proof.
  unfold addFirst. destruct (existsb (N.eqb x) acc) eqn:E; [|rewrite in_app_iff; cbn; intuition].
  apply existsb_exists in E as (z & I & E). apply N.eqb_eq in E as <-. split; [auto|intros [H| ->]; auto].
Qed.
Lemma add_first_nodup acc x : NoDup acc -> NoDup (addFirst acc x).
Proof.
  intros N. unfold addFirst. destruct (existsb (N.eqb x) acc) eqn:E; [exact N|].
  apply Permutation_NoDup with (x :: acc); [apply Permutation_cons_append|]. constructor; [|exact N]. intros I. assert (X : existsb (N.eqb x) acc = true) by (apply existsb_exists; exists x; split; [exact I|apply N.eqb_refl]). congruence.
Qed.
Lemma firsts l : forall acc, NoDup acc -> NoDup (fold_left addFirst l acc) /\ forall y, In y (fold_left addFirst l acc) <-> In y acc \/ In y l.
Proof.
  induction l as [|x l IH]; intros acc N; cbn [fold_left]; [split; [exact N|]; cbn; tauto|].
  destruct (IH (addFirst acc x) (add_first_nodup acc x N)) as [A B]. split; [exact A|]. intros y. rewrite B, add_first_in. cbn [In]. intuition.
Qed.
Lemma origins_spec ms : NoDup (origins ms) /\ forall y, In y (origins ms) <-> exists m, In m ms /\ mvFrom m = y.
Proof. unfold origins. destruct (firsts (map mvFrom ms) [] (NoDup_nil _)) as [A B]. split; [exact A|]. intros y. rewrite B, in_map_iff. cbn [In]. split; [intros [[]|(m & E & I)]; eauto|intros (m & I & E); right; eauto]. Qed.

(* ---- two pieces: the words ---- *)
Definition told (s : relSide) (d : relDir) (s2 : relSide) (d2 : relDir) (r : relWord) (w : motionWord) : Prop :=
  (r = NoRel /\ d2 <> d /\ w = match d with DUp => MotionUp | DDown => MotionDown | DSide => MotionSide end) \/
  (w = NoMotion /\ d2 = d /\ s2 <> s /\ match s with
     | SLeft => r = RelLeft | SRight => r = RelRight
     | SSame => r = RelStraight \/ (r = RelLeft /\ s2 = SRight) \/ (r = RelRight /\ s2 = SLeft) end).
Lemma words_two s d s2 d2 big (first : bool) : (s, d) <> (s2, d2) -> (d = DSide -> s <> SSame) ->
  let a := mkCand s d true in let b := mkCand s2 d2 false in
  told s d s2 d2 (fst (words (if first then [a; b] else [b; a]) s d big)) (snd (words (if first then [a; b] else [b; a]) s d big)).
Proof.
  intros N D a b. subst a b. unfold told. destruct s, d, s2, d2; try (exfalso; apply N; reflexivity); try (exfalso; apply (D eq_refl); reflexivity);
    destruct big, first; vm_compute; (left; split; [reflexivity|split; [discriminate|reflexivity]]) || (right; split; [reflexivity|split; [reflexivity|split; [discriminate|]]]; auto 6).
Qed.
