(* dlshogi move labels: range, and no two legal moves share one. *)
From Verif Require Export Turn.
Local Open Scope Z_scope.

(* every board move goes some distance along one of ten displacements *)
Definition ways : list (Z * Z) := orthogonal ++ diagonal ++ [(1, 2); (-1, 2)].
Lemma way_of o c k s t : attacks o c k s t -> exists d n, In d ways /\ 1 <= n /\ (In d [(1, 2); (-1, 2)] -> n = 1) /\ t = displaced c s d n /\ forall i, 1 <= i < n -> ~ o (displaced c s d i).
Proof.
  intros [(d & D & ->)|(d & n & D & N & -> & F)].
  - exists d, 1. split; [destruct k; cbn in D; decompose [or] D; subst; cbn; tauto|]. split; [lia|]. split; [auto|]. split; auto. intros i I. lia.
  - exists d, n. split; [destruct k; cbn in D; decompose [or] D; subst; cbn; tauto|]. split; auto. split; [|auto]. intros J. exfalso. destruct k; cbn in D, J; decompose [or] D; subst; decompose [or] J; (contradiction || discriminate).
Qed.
(* the direction number depends on the displacement only *)
Definition wayNumber (d : Z * Z) : N := moveDirection (fst d) (- snd d).
Lemma direction_way d n : In d ways -> 1 <= n -> (In d [(1, 2); (-1, 2)] -> n = 1) -> moveDirection (n * fst d) (- (n * snd d)) = wayNumber d.
Proof.
  intros D N J. unfold wayNumber. destruct D as [<-|[<-|[<-|[<-|[<-|[<-|[<-|[<-|[<-|[<-|[]]]]]]]]]]]; cbn [fst snd];
  try (rewrite (J ltac:(cbn; tauto)); reflexivity); unfold moveDirection; cbn [Z.opp];
  repeat match goal with |- context [Z.ltb ?a ?b] => destruct (Z.ltb_spec a b); try lia | |- context [Z.eqb ?a ?b] => destruct (Z.eqb_spec a b); try lia end; try reflexivity; cbn [andb]; try reflexivity; lia.
Qed.
Lemma way_inj d d' : In d ways -> In d' ways -> wayNumber d = wayNumber d' -> d = d'.
Proof.
  intros D D' E. destruct D as [<-|[<-|[<-|[<-|[<-|[<-|[<-|[<-|[<-|[<-|[]]]]]]]]]]]; destruct D' as [<-|[<-|[<-|[<-|[<-|[<-|[<-|[<-|[<-|[<-|[]]]]]]]]]]]; try reflexivity; discriminate E.
Qed.
Lemma mirror_way d : In d ways -> In (- fst d, snd d) ways.
Proof. intros D. destruct D as [<-|[<-|[<-|[<-|[<-|[<-|[<-|[<-|[<-|[<-|[]]]]]]]]]]]; cbn; tauto. Qed.
Lemma way_lt d : (wayNumber d < 10)%N.
Proof. unfold wayNumber, moveDirection. repeat match goal with |- context [if ?b then _ else _] => destruct b; try lia end. Qed.
Lemma direction_lt x y : (moveDirection x y < 10)%N.
Proof. unfold moveDirection. repeat match goal with |- context [if ?b then _ else _] => destruct b; try lia end. Qed.
(* two pieces cannot reach the same square along the same displacement *)
Lemma same_way (o : square -> Prop) c s s' t d n n' : o s -> o s' -> 1 <= n -> 1 <= n' -> t = displaced c s d n -> t = displaced c s' d n' ->
  (forall i, 1 <= i < n -> ~ o (displaced c s d i)) -> (forall i, 1 <= i < n' -> ~ o (displaced c s' d i)) -> s = s'.
Proof.
  intros O O' N N' -> E F F'. destruct s as [x y], s' as [x' y']. unfold displaced in *. cbn [fst snd] in *. injection E as E1 E2.
  destruct (Z.lt_trichotomy n n') as [L|[->|L]].
  - exfalso. apply (F' (n' - n)); [lia|]. replace (x' + (n' - n) * fst d, y' + (n' - n) * (forward c * snd d)) with (x, y) by (f_equal; nia). auto.
  - f_equal; lia.
  - exfalso. apply (F (n - n')); [lia|]. replace (x + (n - n') * fst d, y + (n - n') * (forward c * snd d)) with (x', y') by (f_equal; nia). auto.
Qed.
Local Open Scope N_scope.
(* the square as its owner sees it *)
Definition seenBy (c x : N) : N := if c =? 1 then 80 - x else x.
Lemma seen_inj c x y : x < 81 -> y < 81 -> seenBy c x = seenBy c y -> x = y.
Proof. unfold seenBy. destruct (c =? 1); lia. Qed.
Lemma label_go p s t pr : good p -> on_board s -> on_board t -> forall d n, In d ways -> (1 <= n)%Z -> (In d [(1, 2); (-1, 2)]%Z -> n = 1%Z) -> t = displaced (side (abs p)) s d n ->
  exists d', In d' ways /\ d' = (match side (abs p) with Sente => - fst d | Gote => fst d end, snd d)%Z /\ makeMoveLabel (code p (Go s t pr)) (turn p) = 81 * (wayNumber d' + 10 * bitN pr) + seenBy (turn p) (nsquare t).
Proof.
  intros G Bs Bt d n D N J E. pose proof (nsquare_lt s Bs) as Ls. pose proof (nsquare_lt t Bt) as Lt. rewrite code_go.
  pose proof (ptOf_lt (pieceAt p (nsquare s))). pose proof (ptOf_lt (pieceAt p (nsquare t))).
  destruct (move16_code (nsquare t) (nsquare s) pr (ptOf (pieceAt p (nsquare s))) (ptOf (pieceAt p (nsquare t)))) as [E16 EW]; try lia.
  destruct (word4_fields (nsquare t) (nsquare s) pr false) as (F1 & F2 & F3 & _); try lia.
  exists (match side (abs p) with Sente => - fst d | Gote => fst d end, snd d)%Z. split; [destruct (side (abs p)); [now apply mirror_way|now destruct d]|]. split; auto.
  unfold makeMoveLabel. cbv zeta. fold (move16 (codeOf (nsquare t) (nsquare s) pr (ptOf (pieceAt p (nsquare s))) (ptOf (pieceAt p (nsquare t))))). rewrite E16, EW. change 127 with 0x7f. rewrite F1, F2. change SquareNum with 81. rewrite (proj2 (N.ltb_lt _ _)) by auto.
  assert (B : (0 <? N.land (word4 (nsquare t) (nsquare s) pr false) 16384) = pr). { rewrite <- F3 at 2. destruct (N.ltb_spec 0 (N.land (word4 (nsquare t) (nsquare s) pr false) 16384)), (N.eqb_spec (N.land (word4 (nsquare t) (nsquare s) pr false) 16384) 0); try reflexivity; lia. }
  rewrite B. change White with 1. unfold seenBy. pose proof (good_turn p G) as Hu. cbn [side abs] in E |- *.
  set (d' := (match colorN (turn p) with Sente => (- fst d)%Z | Gote => fst d end, snd d)).
  assert (X : moveDirection (Z.of_N ((if turn p =? 1 then 80 - nsquare s else nsquare s) / 9) - Z.of_N ((if turn p =? 1 then 80 - nsquare t else nsquare t) / 9))
                (Z.of_N ((if turn p =? 1 then 80 - nsquare t else nsquare t) mod 9) - Z.of_N ((if turn p =? 1 then 80 - nsquare s else nsquare s) mod 9)) = wayNumber d').
  { rewrite <- (direction_way d' n); [| unfold d'; destruct (colorN (turn p)); [now apply mirror_way|now destruct d] |auto|].
    2:{ intros K. apply J. revert K. unfold d'. destruct d as [x y]. destruct (colorN (turn p)); cbn [fst snd In]; [|tauto]. intros [K|[K|[]]]; injection K as K1 K2; [right; left|left]; f_equal; lia. }
    pose proof Bs as (S1 & S2). pose proof Bt as (T1 & T2). destruct s as [sf sr]. destruct t as [tf tr]. unfold displaced in E. cbn [fst snd] in *. injection E as E1 E2. unfold nsquare. cbn [fst snd].
    assert (U : turn p = 0 \/ turn p = 1) by lia. destruct U as [U|U]; unfold d'; clear d' Ls Lt H H0 E16 EW F1 F2 F3 B Hu; rewrite U in *; cbn [colorN forward fst snd] in *.
    - change (colorN 0) with Sente in *. cbn [forward] in *. change (0 =? 1) with false. cbv iota. rewrite ?Z.mul_opp_r in *. replace (n * (-1 * snd d))%Z with (- (n * snd d))%Z in * by ring. replace (n * (1 * snd d))%Z with (n * snd d)%Z in * by ring. f_equal; lia.
    - change (colorN 1) with Gote in *. cbn [forward] in *. change (1 =? 1) with true. cbv iota. rewrite ?Z.mul_opp_r in *. replace (n * (-1 * snd d))%Z with (- (n * snd d))%Z in * by ring. replace (n * (1 * snd d))%Z with (n * snd d)%Z in * by ring. f_equal; lia. }
  rewrite X. destruct pr; cbn [bitN]; lia.
Qed.
Lemma label_drop p k t : on_board t -> In k hand_kinds -> makeMoveLabel (code p (Drop k t)) (turn p) = 81 * (19 + nkind k) + seenBy (turn p) (nsquare t).
Proof.
  intros B K. pose proof (nsquare_lt t B). pose proof (nkind_lt k). rewrite code_drop. destruct (move16_code (nsquare t) (80 + nkind k) false 0 0) as [E16 EW]; try lia. destruct (word4_fields (nsquare t) (80 + nkind k) false false) as (F1 & F2 & _); try lia.
  unfold makeMoveLabel. cbv zeta. fold (move16 (codeOf (nsquare t) (80 + nkind k) false 0 0)). rewrite E16, EW. change 127 with 0x7f. rewrite F1, F2. change SquareNum with 81. destruct (N.ltb_spec (80 + nkind k) 81); [lia|]. change White with 1. unfold seenBy. lia.
Qed.
Lemma seen_lt c x : x < 81 -> seenBy c x < 81. Proof. unfold seenBy. destruct (c =? 1); lia. Qed.
Lemma hand_kind_le k : In k hand_kinds -> nkind k <= 7.
Proof. intros K. cbn [hand_kinds In] in K. decompose [or] K; subst; try contradiction; cbn; lia. Qed.
Lemma go_way p s t pr : good p -> legal (abs p) (Go s t pr) -> on_board s /\ on_board t /\ occupied (abs p) s /\
  exists d n, In d ways /\ (1 <= n)%Z /\ (In d [(1, 2); (-1, 2)]%Z -> n = 1%Z) /\ t = displaced (side (abs p)) s d n /\ forall i, (1 <= i < n)%Z -> ~ occupied (abs p) (displaced (side (abs p)) s d i).
Proof.
  intros G [[PL _] _]. cbn [pseudo_legal] in PL. cbv zeta in PL. destruct PL as (A & B & k & At & Atk & _). split; auto. split; auto. split; [unfold occupied; rewrite At; discriminate|]. exact (way_of _ _ _ _ _ Atk).
Qed.
Theorem label_range p mv : good p -> legal (abs p) mv -> makeMoveLabel (code p mv) (turn p) < 2187.
Proof.
  intros G L. destruct mv as [k t|s t pr].
  - destruct (legal_drop_kind p k t G L) as [B K]. rewrite label_drop by auto. pose proof (hand_kind_le k K). pose proof (seen_lt (turn p) _ (nsquare_lt t B)). lia.
  - destruct (go_way p s t pr G L) as (A & B & _ & d & n & D & N & J & E & _). destruct (label_go p s t pr G A B d n D N J E) as (d' & _ & _ & ->). pose proof (way_lt d'). pose proof (bitN_lt pr). pose proof (seen_lt (turn p) _ (nsquare_lt t B)). lia.
Qed.
(* any move code at all, with either colour *)
Theorem label_range_any m c : mvTo m <= 80 -> mvFrom m <= 87 -> makeMoveLabel m c < 2187.
Proof.
  intros T F. unfold makeMoveLabel. cbv zeta.
  assert (E1 : N.land (m mod 65536) 127 = mvTo m). { unfold mvTo. change 65536 with (2 ^ 16). rewrite <- N.land_ones, <- N.land_assoc. reflexivity. }
  assert (E2 : N.land (N.shiftr (m mod 65536) 7) 127 = mvFrom m). { unfold mvFrom. change 65536 with (2 ^ 16). rewrite <- N.land_ones, N.shiftr_land, <- N.land_assoc. reflexivity. }
  rewrite E1, E2. change SquareNum with 81. destruct (N.ltb_spec (mvFrom m) 81).
  - set (dir := moveDirection _ _). assert (dir < 10) by apply direction_lt. destruct (0 <? N.land (m mod 65536) 16384), (c =? White); lia.
  - destruct (c =? White); lia.
Qed.
Theorem label_unique p mv mv' : good p -> legal (abs p) mv -> legal (abs p) mv' -> makeMoveLabel (code p mv) (turn p) = makeMoveLabel (code p mv') (turn p) -> mv = mv'.
Proof.
  intros G L L' Q. assert (split : forall a b x y, x < 81 -> y < 81 -> 81 * a + x = 81 * b + y -> a = b /\ x = y) by (intros; lia).
  destruct mv as [k t|s t pr], mv' as [k' t'|s' t' pr'].
  - destruct (legal_drop_kind p k t G L) as [B K]. destruct (legal_drop_kind p k' t' G L') as [B' K']. rewrite !label_drop in Q by auto. pose proof (nsquare_lt t B). pose proof (nsquare_lt t' B').
    apply split in Q as [Q1 Q2]; [|now apply seen_lt|now apply seen_lt]. apply seen_inj in Q2; auto. f_equal; [rewrite <- (kind_inv k), <- (kind_inv k'); f_equal; lia|]. rewrite <- (square_inv' t B), <- (square_inv' t' B'). now rewrite Q2.
  - exfalso. destruct (legal_drop_kind p k t G L) as [B K]. rewrite label_drop in Q by auto. destruct (go_way p s' t' pr' G L') as (A' & B' & _ & d & n & D & N & J & E & _). destruct (label_go p s' t' pr' G A' B' d n D N J E) as (d' & _ & _ & E'). rewrite E' in Q.
    apply split in Q as [Q1 _]; [|apply seen_lt; now apply nsquare_lt|apply seen_lt; now apply nsquare_lt]. pose proof (way_lt d'). pose proof (bitN_lt pr'). pose proof (nkind_lt k). lia.
  - exfalso. destruct (legal_drop_kind p k' t' G L') as [B K]. rewrite label_drop in Q by auto. destruct (go_way p s t pr G L) as (A' & B' & _ & d & n & D & N & J & E & _). destruct (label_go p s t pr G A' B' d n D N J E) as (d' & _ & _ & E'). rewrite E' in Q.
    apply split in Q as [Q1 _]; [|apply seen_lt; now apply nsquare_lt|apply seen_lt; now apply nsquare_lt]. pose proof (way_lt d'). pose proof (bitN_lt pr). pose proof (nkind_lt k'). lia.
  - destruct (go_way p s t pr G L) as (A & B & O & d & n & D & N & J & E & F). destruct (label_go p s t pr G A B d n D N J E) as (e & We & Ee & El).
    destruct (go_way p s' t' pr' G L') as (A' & B' & O' & d' & n' & D' & N' & J' & E' & F'). destruct (label_go p s' t' pr' G A' B' d' n' D' N' J' E') as (e' & We' & Ee' & El').
    rewrite El, El' in Q. apply split in Q as [Q1 Q2]; [|apply seen_lt; now apply nsquare_lt|apply seen_lt; now apply nsquare_lt]. apply seen_inj in Q2; [|now apply nsquare_lt|now apply nsquare_lt].
    assert (t = t') as <- by (rewrite <- (square_inv' t B), <- (square_inv' t' B'); now rewrite Q2). pose proof (way_lt e). pose proof (way_lt e').
    assert (Qp : pr = pr') by (destruct pr, pr'; cbn [bitN] in Q1; auto; lia). subst pr'. assert (Qe : e = e') by (apply way_inj; auto; lia).
    assert (Qd : d = d'). { rewrite Ee, Ee' in Qe. destruct d, d'. cbn [fst snd] in Qe. destruct (side (abs p)); injection Qe as X1 X2; f_equal; lia. } subst d'.
    f_equal. eapply (same_way (occupied (abs p)) (side (abs p)) s s' t d n n'); eauto.
Qed.
