(* SFEN input on arbitrary texts: what an accepted text gives; which texts stay inside the arrays. *)
From Verif Require Export SfenFinal.
Local Open Scope N_scope.

(* ---- an accepted text ---- *)
Lemma putPiece_inv p pc sq p' : putPiece p pc sq = Done p' -> p' = setPiece p pc sq /\ ptOf pc < 15 /\ colorOf pc < 2.
Proof. unfold putPiece. destruct ((ptOf pc <? 15) && (colorOf pc <? 2)) eqn:E; intros H; [|discriminate]. injection H as <-. apply andb_true_iff in E as [A B]. apply N.ltb_lt in A, B. auto. Qed.
Lemma charPiece_pos a pc : charPiece a = Some pc -> 1 <= pc.
Proof.
  unfold charPiece. destruct (find _ charPieces) as [x|] eqn:E; [|discriminate]. intros H. injection H as <-. apply find_some in E as [I _].
  assert (X : forallb (fun x : ascii * N => 1 <=? snd x) charPieces = true) by reflexivity. rewrite forallb_forall in X. now apply N.leb_le, X.
Qed.
(* squares already passed after k slashes and m cells *)
Definition passed (k m : Z) (s : N) : Prop := exists k' m', (0 <= k' <= k /\ 0 <= m' < m /\ Z.of_N s = 72 + 82 * k' - 9 * m')%Z.
Definition slashes (l : list ascii) : Z := Z.of_nat (count_occ ascii_dec l "/"%char).
Lemma slashes_cons c l : (slashes l <= slashes (c :: l))%Z /\ slashes ("/"%char :: l) = (slashes l + 1)%Z /\ (0 <= slashes l)%Z.
Proof.
  unfold slashes. split; [|split; [|lia]].
  - destruct (ascii_dec c "/"); [rewrite count_occ_cons_eq by assumption|rewrite count_occ_cons_neq by assumption]; lia.
  - rewrite count_occ_cons_eq by reflexivity. lia.
Qed.
Lemma passed_not k m s : (k <= 8)%Z -> passed k m s -> Z.of_N s <> (72 + 82 * k - 9 * m)%Z.
Proof. intros H (k' & m' & A & B & C) E. assert (82 * (k - k') = 9 * (m - m'))%Z by lia. lia. Qed.
Lemma passed_more k m k' m' s : (k <= k')%Z -> (m <= m')%Z -> passed k m s -> passed k' m' s.
Proof. intros A B (x & y & C & D & E). exists x, y. lia. Qed.
Lemma passed_here k m s : (0 <= k)%Z -> (0 <= m)%Z -> Z.of_N s = (72 + 82 * k - 9 * m)%Z -> passed k (m + 1) s.
Proof. intros A B C. exists k, m. lia. Qed.
Lemma readBoard_keep l : forall p k m fl q rest, readBoard l p (72 + 82 * k - 9 * m) fl = Done (q, rest) -> (0 <= k)%Z -> (0 <= m)%Z -> (k + slashes l <= 8)%Z -> length (board p) = 81%nat ->
  hands q = hands p /\ turn q = turn p /\ st q = st p /\ prev q = prev p /\ forall s, passed k m s -> pieceAt q s = pieceAt p s.
Proof.
  induction l as [|c l IH]; intros p k m fl q rest E Hk Hm Hs L.
  { cbn [readBoard] in E. assert (p = q) as -> by congruence. auto. }
  destruct (slashes_cons c l) as (S1 & S2 & S3). cbn [readBoard] in E.
  destruct (Ascii.eqb c " "). { assert (p = q) as -> by congruence. auto. }
  destruct (isDigit c).
  { replace (72 + 82 * k - 9 * m - 9 * Z.of_N (digitValue c))%Z with (72 + 82 * k - 9 * (m + Z.of_N (digitValue c)))%Z in E by lia.
    destruct (IH _ _ _ _ _ _ E Hk ltac:(lia) ltac:(lia) L) as (A & B & C & D & F). do 4 (split; [assumption|]). intros s Hp. apply F. eapply passed_more; [| |exact Hp]; lia. }
  destruct (Ascii.eqb_spec c "/") as [->|].
  { replace (72 + 82 * k - 9 * m + 82)%Z with (72 + 82 * (k + 1) - 9 * m)%Z in E by lia.
    destruct (IH _ _ _ _ _ _ E ltac:(lia) Hm ltac:(lia) L) as (A & B & C & D & F). do 4 (split; [assumption|]). intros s Hp. apply F. eapply passed_more; [| |exact Hp]; lia. }
  destruct (Ascii.eqb c "+"). { apply (IH _ _ _ _ _ _ E Hk Hm); [lia|exact L]. }
  destruct (charPiece c) as [pc|]; [|discriminate]. destruct ((0 <=? 72 + 82 * k - 9 * m) && (72 + 82 * k - 9 * m <? 81))%Z eqn:In; [|discriminate]. apply andb_true_iff in In as [I1 I2]. apply Z.leb_le in I1. apply Z.ltb_lt in I2.
  destruct (putPiece p (pc + (if fl then 8 else 0)) (Z.to_N (72 + 82 * k - 9 * m))) as [p1| |] eqn:Ep; cbn [obind] in E; try discriminate. apply putPiece_inv in Ep as (-> & _).
  replace (72 + 82 * k - 9 * m - 9)%Z with (72 + 82 * k - 9 * (m + 1))%Z in E by lia.
  destruct (IH _ _ _ _ _ _ E Hk ltac:(lia) ltac:(lia)) as (A & B & C & D & F); [cbn [setPiece board]; now rewrite length_updN|]. do 4 (split; [assumption|]).
  intros s Hp. rewrite F by (eapply passed_more; [| |exact Hp]; lia). rewrite pieceAt_setPiece by (rewrite L; lia). destruct (N.eqb_spec (Z.to_N (72 + 82 * k - 9 * m)) s) as [<-|]; [|reflexivity].
  exfalso. apply (passed_not k m _ ltac:(lia) Hp). lia.
Qed.
Lemma readBoard_pre l : forall bd p k m fl q rest, readBoard l p (72 + 82 * k - 9 * m) fl = Done (q, rest) -> (0 <= k)%Z -> (0 <= m)%Z -> (k + slashes l <= 8)%Z ->
  pre bd p -> (forall s, s < 81 -> at_ bd s <> 0 -> passed k m s) -> (forall s, s < 81 -> vpc (pieceAt q s) = true) -> exists bd', pre bd' q.
Proof.
  induction l as [|c l IH]; intros bd p k m fl q rest E Hk Hm Hs Pre Occ V.
  { cbn [readBoard] in E. assert (p = q) as -> by congruence. eauto. }
  destruct (slashes_cons c l) as (S1 & S2 & S3). cbn [readBoard] in E.
  destruct (Ascii.eqb c " "). { assert (p = q) as -> by congruence. eauto. }
  destruct (isDigit c).
  { replace (72 + 82 * k - 9 * m - 9 * Z.of_N (digitValue c))%Z with (72 + 82 * k - 9 * (m + Z.of_N (digitValue c)))%Z in E by lia.
    apply (IH _ _ _ _ _ _ _ E Hk ltac:(lia) ltac:(lia) Pre); [|exact V]. intros s A B. eapply passed_more; [| |exact (Occ s A B)]; lia. }
  destruct (Ascii.eqb_spec c "/") as [->|].
  { replace (72 + 82 * k - 9 * m + 82)%Z with (72 + 82 * (k + 1) - 9 * m)%Z in E by lia.
    apply (IH _ _ _ _ _ _ _ E ltac:(lia) Hm ltac:(lia) Pre); [|exact V]. intros s A B. eapply passed_more; [| |exact (Occ s A B)]; lia. }
  destruct (Ascii.eqb c "+"). { apply (IH _ _ _ _ _ _ _ E Hk Hm ltac:(lia) Pre Occ V). }
  destruct (charPiece c) as [pc|] eqn:Ec; [|discriminate]. destruct ((0 <=? 72 + 82 * k - 9 * m) && (72 + 82 * k - 9 * m <? 81))%Z eqn:In; [|discriminate]. apply andb_true_iff in In as [I1 I2]. apply Z.leb_le in I1. apply Z.ltb_lt in I2.
  destruct (putPiece p (pc + (if fl then 8 else 0)) (Z.to_N (72 + 82 * k - 9 * m))) as [p1| |] eqn:Ep; cbn [obind] in E; try discriminate. apply putPiece_inv in Ep as (-> & _).
  apply charPiece_pos in Ec. set (x := pc + (if fl then 8 else 0)) in *. assert (x <> 0) as X0 by lia. set (sq := Z.to_N (72 + 82 * k - 9 * m)) in *. assert (Lsq : sq < 81) by lia.
  pose proof (pre_ok _ _ Pre) as [L _]. assert (Lp : length (board p) = 81%nat) by (rewrite (pre_bd _ _ Pre); exact L).
  replace (72 + 82 * k - 9 * m - 9)%Z with (72 + 82 * k - 9 * (m + 1))%Z in E by lia.
  assert (Hsq : passed k (m + 1) sq) by (apply passed_here; lia).
  destruct (readBoard_keep _ _ _ _ _ _ _ E Hk ltac:(lia) ltac:(lia)) as (_ & _ & _ & _ & F); [cbn [setPiece board]; now rewrite length_updN|].
  assert (Vx : vpc x = true). { specialize (V sq Lsq). rewrite (F sq Hsq), pieceAt_setPiece, N.eqb_refl in V by (rewrite Lp; lia). exact V. }
  destruct (vpc_facts x Vx X0) as (P1 & P2 & P3).
  assert (E0 : at_ bd sq = 0). { destruct (N.eq_dec (at_ bd sq) 0) as [e|e]; [exact e|]. exfalso. apply (passed_not k m sq ltac:(lia) (Occ sq Lsq e)). lia. }
  pose proof (pre_setPiece bd p sq _ _ Pre Lsq P2 P1 E0) as Pre'. rewrite <- P3 in Pre'.
  apply (IH _ _ _ _ _ _ _ E Hk ltac:(lia) ltac:(lia) Pre'); [|exact V]. intros s A B. rewrite at_updN in B by (rewrite L; lia). destruct (N.eqb_spec sq s) as [<-|]; [exact Hsq|]. eapply passed_more; [| |exact (Occ s A B)]; lia.
Qed.
Lemma readTurn_lt l : forall t t' rest, readTurn l t = Done (t', rest) -> t < 2 -> t' < 2.
Proof.
  induction l as [|c l IH]; intros t t' rest E H; cbn [readTurn] in E; [congruence|]. destruct (Ascii.eqb c " "); [congruence|].
  destruct (Ascii.eqb c "b"); [apply (IH _ _ _ E); reflexivity|]. destruct (Ascii.eqb c "w"); [apply (IH _ _ _ E); reflexivity|discriminate].
Qed.
Lemma readHand_same l : forall bd p d q rest, readHand l p d = Done (q, rest) -> pre bd p -> pre bd q /\ turn q = turn p /\ st q = st p /\ prev q = prev p /\ (length (hands p) = 2%nat -> length (hands q) = 2%nat).
Proof.
  induction l as [|c l IH]; intros bd p d q rest E P; cbn [readHand] in E.
  { assert (p = q) as -> by congruence. auto. }
  destruct (Ascii.eqb c " "). { assert (p = q) as -> by congruence. auto. }
  destruct (Ascii.eqb c "-").
  { destruct (IH bd _ _ _ _ E) as (A & B & C & D & F); [destruct P; constructor; assumption|]. do 4 (split; [assumption|]). intros _. apply F. reflexivity. }
  destruct (isDigit c). { cbv zeta in E. destruct (_ <=? _)%Z; [|discriminate]. apply (IH _ _ _ _ _ E P). }
  destruct (charPiece c) as [pc|]; [|discriminate]. destruct (ptOf pc =? King); [discriminate|]. destruct (IH bd _ _ _ _ E) as (A & B & C & D & F); [now apply pre_setHandN|]. do 4 (split; [assumption|]).
  intros H. apply F. cbn [setHandN hands]. now rewrite length_updN.
Qed.
Lemma setSfenPos_inv z l q : setSfenPos z l = Done q -> exists q1 l1 t l2 q3 l3, readBoard l clearPos 72 false = Done (q1, l1) /\ readTurn l1 (turn q1) = Done (t, l2) /\
  readHand l2 (setTurnField q1 t) 0 = Done (q3, l3) /\ q = refreshState z (setGamePly (setKingsGolds q3) (readInt l3)).
Proof.
  rewrite setSfenPos_eq. destruct (readBoard l clearPos 72 false) as [[q1 l1]| |]; cbn [obind fst snd]; try discriminate. destruct (readTurn l1 (turn q1)) as [[t l2]| |] eqn:E; cbn [obind fst snd]; try discriminate.
  destruct (readHand l2 (setTurnField q1 t) 0) as [[q3 l3]| |] eqn:E2; cbn [obind fst snd]; try discriminate. intros H. exists q1, l1, t, l2, q3, l3. do 3 (split; [auto|]). congruence.
Qed.
Lemma readHand_board l : forall p d q rest, readHand l p d = Done (q, rest) -> board q = board p.
Proof.
  induction l as [|c l IH]; intros p d q rest E; cbn [readHand] in E; [congruence|]. destruct (Ascii.eqb c " "); [congruence|]. destruct (Ascii.eqb c "-"); [now apply IH in E|].
  destruct (isDigit c); [cbv zeta in E; destruct (_ <=? _)%Z; [|discriminate]; now apply IH in E|]. destruct (charPiece c); [|discriminate]. destruct (_ =? King); [discriminate|]. now apply IH in E.
Qed.
Theorem sfen_accepted z l q : setSfenPos z l = Done q -> (slashes l <= 8)%Z -> (forall s, s < 81 -> vpc (pieceAt q s) = true) -> proper (abs q) -> hands_fit q -> fresh z q.
Proof.
  intros E S V Pr Hf. apply setSfenPos_inv in E as (q1 & l1 & t & l2 & q3 & l3 & E1 & E2 & E3 & Eq).
  destruct (readBoard_keep l clearPos 0 0 false q1 l1 E1) as (A1 & A2 & A3 & A4 & _); try lia; [reflexivity|].
  (* readHand leaves the board alone *)
  assert (B13 : board q3 = board q1) by (rewrite (readHand_board _ _ _ _ _ E3); reflexivity).
  destruct (readBoard_pre l (repeat 0 81) clearPos 0 0 false q1 l1 E1) as (bd & P1); try lia; [exact pre_clear|intros s _ H; now rewrite at_repeat0 in H| |].
  { intros s H. specialize (V s H). rewrite Eq in V. change (pieceAt (refreshState z (setGamePly (setKingsGolds q3) (readInt l3))) s) with (nthN 0 (board q3) s) in V. rewrite B13 in V. exact V. }
  assert (P2 : pre bd (setTurnField q1 t)) by (destruct P1; constructor; assumption).
  destruct (readHand_same l2 bd _ _ _ _ E3 P2) as (P3 & C2 & C3 & C4 & C5).
  assert (T : turn q3 < 2). { rewrite C2. apply (readTurn_lt _ _ _ _ E2). rewrite A2. reflexivity. }
  assert (O : okHands q3).
  { split; [apply C5; cbn [setTurnField hands]; rewrite A1; reflexivity|]. intros c Hc. destruct (Hf c Hc) as (f & Cf & Ef). rewrite Eq in Ef. change (handOf q3 c = packed f) in Ef. rewrite Ef. now apply packed_ok. }
  assert (Ab : abs q = abs q3) by (rewrite Eq; reflexivity). rewrite Ab in Pr.
  destruct (setup_good z bd q3 (readInt l3) P3 T O Pr) as (Gq & Cq & _ & R1 & R2 & R3 & R4 & R5). cbv zeta in *. rewrite <- Eq in *. constructor; auto.
  - rewrite R2, C4. exact A4.
  - rewrite R4, C3. cbn [setTurnField st]. rewrite A3. reflexivity.
  - rewrite R5, C3. cbn [setTurnField st]. rewrite A3. reflexivity.
Qed.

(* ---- texts that stay inside the arrays ---- *)
Lemma fields_space l n : nth (S n) (fields (" "%char :: l)) [] = nth n (fields l) [] /\ nth 0 (fields (" "%char :: l)) [] = []. Proof. split; reflexivity. Qed.
Lemma fields_cons c l : Ascii.eqb c " " = false -> nth 0 (fields (c :: l)) [] = c :: nth 0 (fields l) [] /\ forall n, nth (S n) (fields (c :: l)) [] = nth (S n) (fields l) [].
Proof.
  intros H. cbn [fields]. rewrite H. destruct (fields l) as [|f fs] eqn:E; [|split; reflexivity]. exfalso. destruct l as [|a l]; cbn [fields] in E; [discriminate|]. destruct (Ascii.eqb a " "); [discriminate|]. now destruct (fields l).
Qed.
Lemma readBoard_field l : forall p sq fl q rest, readBoard l p sq fl = Done (q, rest) -> forall n, nth (S n) (fields l) [] = nth n (fields rest) [].
Proof.
  induction l as [|c l IH]; intros p sq fl q rest E n; cbn [readBoard] in E.
  { assert (rest = []) as -> by congruence. destruct n as [|[]]; reflexivity. }
  destruct (Ascii.eqb_spec c " ") as [->|Nc]. { assert (l = rest) as -> by congruence. reflexivity. }
  rewrite (proj2 (fields_cons c l (proj2 (Ascii.eqb_neq _ _) Nc))).
  destruct (isDigit c); [now apply (IH _ _ _ _ _ E)|]. destruct (Ascii.eqb c "/"); [now apply (IH _ _ _ _ _ E)|]. destruct (Ascii.eqb c "+"); [now apply (IH _ _ _ _ _ E)|].
  destruct (charPiece c); [|discriminate]. destruct (_ && _)%Z; [|discriminate]. destruct (putPiece _ _ _); cbn [obind] in E; try discriminate. now apply (IH _ _ _ _ _ E).
Qed.
Lemma readTurn_field l : forall t t' rest, readTurn l t = Done (t', rest) -> forall n, nth (S n) (fields l) [] = nth n (fields rest) [].
Proof.
  induction l as [|c l IH]; intros t t' rest E n; cbn [readTurn] in E.
  { assert (rest = []) as -> by congruence. destruct n as [|[]]; reflexivity. }
  destruct (Ascii.eqb_spec c " ") as [->|Nc]. { assert (l = rest) as -> by congruence. reflexivity. }
  rewrite (proj2 (fields_cons c l (proj2 (Ascii.eqb_neq _ _) Nc))). destruct (Ascii.eqb c "b"); [now apply (IH _ _ _ E)|]. destruct (Ascii.eqb c "w"); [now apply (IH _ _ _ E)|discriminate].
Qed.
Lemma plus_ok_tail c f : plus_ok (c :: f) -> plus_ok f.
Proof. intros H f1 f2 ->. apply (H (c :: f1) f2). reflexivity. Qed.
Lemma letters_plus : forallb (fun c => match charPiece c with Some pc => (ptOf (pc + 8) <? 15) && (colorOf (pc + 8) <? 2) | None => false end) (la "PLNSBRplnsbr") = true. Proof. reflexivity. Qed.
Lemma letters_plain : forallb (fun x : ascii * N => (ptOf (snd x) <? 15) && (colorOf (snd x) <? 2)) charPieces = true. Proof. reflexivity. Qed.
Lemma promotable_not c : In c (la "PLNSBRplnsbr") -> Ascii.eqb c " " = false /\ isDigit c = false /\ Ascii.eqb c "/" = false /\ Ascii.eqb c "+" = false.
Proof.
  intros H. assert (X : forallb (fun c => negb (Ascii.eqb c " ") && negb (isDigit c) && negb (Ascii.eqb c "/") && negb (Ascii.eqb c "+")) (la "PLNSBRplnsbr") = true) by reflexivity. rewrite forallb_forall in X. apply X in H.
  rewrite !andb_true_iff, !negb_true_iff in H. tauto.
Qed.
Lemma readBoard_safe l : forall p sq fl, plus_ok (nth 0 (fields l) []) -> (fl = true -> exists c f, nth 0 (fields l) [] = c :: f /\ In c (la "PLNSBRplnsbr")) -> readBoard l p sq fl <> Undefined.
Proof.
  induction l as [|c l IH]; intros p sq fl Ok Hf; cbn [readBoard]; [discriminate|].
  destruct (Ascii.eqb c " ") eqn:Ec; [discriminate|]. rewrite (proj1 (fields_cons c l Ec)) in Ok, Hf.
  assert (Fl : fl = true -> In c (la "PLNSBRplnsbr")) by (intros T; destruct (Hf T) as (x & f & E & I); injection E as -> _; exact I). pose proof (plus_ok_tail _ _ Ok) as Ok'.
  assert (Fx : forall b, (In c (la "PLNSBRplnsbr") -> b = true -> False) -> b = true -> fl = true -> False) by (intros b K1 K2 K3; apply K1; auto).
  destruct fl.
  - specialize (Fl eq_refl). destruct (promotable_not c Fl) as (_ & -> & -> & ->). pose proof letters_plus as LP. rewrite forallb_forall in LP. specialize (LP c Fl). cbv beta in LP. destruct (charPiece c) as [pc|]; [|discriminate].
    destruct ((0 <=? sq) && (sq <? 81))%Z; [|discriminate]. unfold putPiece. rewrite LP. cbn [obind]. apply IH; [exact Ok'|discriminate].
  - destruct (isDigit c); [apply IH; [exact Ok'|discriminate]|]. destruct (Ascii.eqb c "/"); [apply IH; [exact Ok'|discriminate]|].
    destruct (Ascii.eqb_spec c "+") as [->|]. { apply IH; [exact Ok'|]. intros _. destruct (Ok [] _ eq_refl) as (c & f & E & I). eauto. }
    destruct (charPiece c) as [pc|] eqn:Ep; [|discriminate]. destruct (_ && _)%Z; [|discriminate]. unfold putPiece. rewrite N.add_0_r.
    assert (X : (ptOf pc <? 15) && (colorOf pc <? 2) = true).
    { unfold charPiece in Ep. destruct (find _ charPieces) as [x|] eqn:F; [|discriminate]. injection Ep as <-. apply find_some in F as [I _]. pose proof letters_plain as LP. rewrite forallb_forall in LP. now apply LP. }
    rewrite X. cbn [obind]. apply IH; [exact Ok'|discriminate].
Qed.
Lemma isDigit_spec c : isDigit c = true -> is_digit c.
Proof.
  intros H. exists (Z.of_N (digitValue c)). unfold isDigit in H. apply andb_true_iff in H as [A B]. apply N.leb_le in A, B. unfold digitValue. split; [lia|].
  unfold digit. rewrite <- (ascii_N_embedding c) at 1. rewrite <- (N2Nat.id (N_of_ascii c)) at 1. unfold ascii_of_nat. f_equal. lia.
Qed.
Lemma valueOf_lt l : Forall (fun c => isDigit c = true) l -> forall a, valueOf l a < (a + 1) * 10 ^ N.of_nat (length l).
Proof.
  induction 1 as [|c l H _ IH]; intros a; [cbn; lia|]. cbn [length]. rewrite Nat2N.inj_succ, N.pow_succ_r'. cbn [valueOf fold_left]. specialize (IH (a * 10 + digitValue c)). unfold valueOf in *.
  unfold isDigit in H. apply andb_true_iff in H as [A B]. apply N.leb_le in A, B. assert (digitValue c <= 9) by (unfold digitValue; lia).
  eapply N.lt_le_trans; [exact IH|]. replace ((a + 1) * (10 * 10 ^ N.of_nat (length l))) with (((a + 1) * 10) * 10 ^ N.of_nat (length l)) by lia. apply N.mul_le_mono_r. lia.
Qed.
Definition dashless (f : list ascii) : list ascii := filter (fun c => negb (Ascii.eqb c "-")) f.
Lemma readHand_safe l : forall p ds, Forall (fun c => isDigit c = true) ds -> ~ In "K"%char (nth 0 (fields l) []) -> ~ In "k"%char (nth 0 (fields l) []) ->
  (forall f1 es f2, ds ++ dashless (nth 0 (fields l) []) = f1 ++ es ++ f2 -> Forall is_digit es -> (List.length es <= 9)%nat) -> readHand l p (valueOf ds 0) <> Undefined.
Proof.
  induction l as [|c l IH]; intros p ds Hd K1 K2 R; cbn [readHand]; [discriminate|].
  destruct (Ascii.eqb c " ") eqn:Ec; [discriminate|]. rewrite (proj1 (fields_cons c l Ec)) in K1, K2, R. cbn [In] in K1, K2.
  destruct (Ascii.eqb c "-") eqn:Em.
  { apply IH; try tauto. cbn [dashless filter] in R. rewrite Em in R. exact R. }
  cbn [dashless filter] in R. rewrite Em in R. cbn [negb] in R. fold (dashless (nth 0 (fields l) [])) in R.
  destruct (isDigit c) eqn:Dc.
  - cbv zeta. change (valueOf ds 0 * 10 + digitValue c) with (valueOf [c] (valueOf ds 0)). rewrite <- valueOf_app.
    assert (F : Forall (fun c => isDigit c = true) (ds ++ [c])) by (apply Forall_app; auto).
    assert (L : (List.length (ds ++ [c]) <= 9)%nat). { apply (R [] (ds ++ [c]) (dashless (nth 0 (fields l) []))); [cbn [app]; now rewrite <- app_assoc|]. eapply Forall_impl; [|exact F]. intros a Ha. now apply isDigit_spec. }
    destruct (Z.leb_spec (Z.of_N (valueOf (ds ++ [c]) 0)) intMax) as [_|X].
    + apply IH; try tauto. rewrite <- app_assoc. exact R.
    + exfalso. pose proof (valueOf_lt _ F 0) as Y. assert (10 ^ N.of_nat (length (ds ++ [c])) <= 10 ^ 9) by (apply N.pow_le_mono_r; lia). change (10 ^ 9) with 1000000000 in H. unfold intMax in X. lia.
  - destruct (charPiece c) as [pc|] eqn:Ep; [|discriminate]. destruct (N.eqb_spec (ptOf pc) King) as [E|E].
    + exfalso. unfold charPiece in Ep. destruct (find _ charPieces) as [x|] eqn:F; [|discriminate]. injection Ep as <-. apply find_some in F as [I Ex]. apply Ascii.eqb_eq in Ex.
      assert (X : forallb (fun x : ascii * N => negb (ptOf (snd x) =? King) || Ascii.eqb (fst x) "K" || Ascii.eqb (fst x) "k") charPieces = true) by reflexivity. rewrite forallb_forall in X. specialize (X x I). rewrite E, N.eqb_refl in X. cbn [negb orb] in X.
      apply orb_true_iff in X as [X|X]; apply Ascii.eqb_eq in X; subst c; tauto.
    + apply (IH _ []); [constructor|tauto|tauto|]. cbn [app]. intros f1 es f2 Eq. apply (R (ds ++ c :: f1) es f2). rewrite Eq, <- !app_assoc. reflexivity.
Qed.
Theorem sfen_safe z s : plus_ok (field 0 s) -> hand_field_ok (field 2 s) -> setSfenPos z (la s) <> Undefined.
Proof.
  intros P (K1 & K2 & R) E. rewrite setSfenPos_eq in E. unfold field in *. fold la in *. destruct (readBoard (la s) clearPos 72 false) as [[q1 l1]| |] eqn:E1; cbn [obind fst snd] in E; try discriminate.
  - destruct (readTurn l1 (turn q1)) as [[t l2]| |] eqn:E2; cbn [obind fst snd] in E; try discriminate.
    + rewrite (readBoard_field _ _ _ _ _ _ E1 1), (readTurn_field _ _ _ _ E2 0) in *. destruct (readHand l2 (setTurnField q1 t) 0) as [[q3 l3]| |] eqn:E3; cbn [obind] in E; try discriminate.
      revert E3. apply (readHand_safe l2 (setTurnField q1 t) []); [constructor|assumption|assumption|exact R].
    + clear - E2. revert E2. generalize (turn q1). induction l1 as [|c l IH]; intros n E; cbn [readTurn] in E; [discriminate|]. destruct (Ascii.eqb c " "); [discriminate|]. destruct (Ascii.eqb c "b"); [now apply IH in E|]. destruct (Ascii.eqb c "w"); [now apply IH in E|discriminate].
  - revert E1. apply readBoard_safe; [exact P|discriminate].
Qed.

(* ---- boards ---- *)
Lemma toSfen_eq b : toSfen b = sa (sfenChars (bpos b)). Proof. reflexivity. Qed.
Lemma setSfen_done z s q : setSfenPos z (la s) = Done q -> setSfen z s = Done (mkBoard q []).
Proof. intros H. unfold setSfen. fold la. now rewrite H. Qed.
Lemma setSfen_inv z s b : setSfen z s = Done b -> setSfenPos z (la s) = Done (bpos b) /\ b = mkBoard (bpos b) [].
Proof. unfold setSfen. fold la. destruct (setSfenPos z (la s)) as [q| |]; cbn [obind]; intros H; try discriminate. assert (mkBoard q [] = b) as <- by congruence. auto. Qed.
Lemma sfen_denoted z s P n : okZob z -> sfen_denotes s P n -> proper P -> (n <= intMax)%Z ->
  exists b, setSfen z s = Done b /\ same_position (abs (bpos b)) P /\ gamePly (bpos b) = n /\ set_up z b /\ agree (bpos b).
Proof.
  intros Z D Pr Hn. destruct (sfen_reads z s P n D Pr Hn) as (q & E & F & S & N). exists (mkBoard q []). split; [now apply setSfen_done|]. split; [exact S|]. split; [exact N|]. split; [now apply fresh_set_up|]. apply (good_agree z); apply F.
Qed.
Lemma sfen_unique (z : Zob) s P n Q m : sfen_denotes s P n -> sfen_denotes s Q m -> proper P -> proper Q -> (n <= intMax)%Z -> (m <= intMax)%Z -> same_position P Q /\ n = m.
Proof.
  intros D D' Pr Pr' Hn Hm. destruct (sfen_reads z s P n D Pr Hn) as (q & E & F & S & N). destruct (sfen_reads z s Q m D' Pr' Hm) as (q' & E' & F' & S' & N').
  assert (q = q') as <- by congruence. split; [eapply same_trans; [apply same_sym; exact S|exact S']|congruence].
Qed.
Lemma sfen_written z b : okZob z -> reachable z b -> (0 <= gamePly (bpos b))%Z -> sfen_denotes (toSfen b) (abs (bpos b)) (gamePly (bpos b)).
Proof. intros Z R H. destruct (reachable_ok z b Z R) as [G C]. rewrite toSfen_eq. now apply sfen_prints. Qed.
Lemma sfen_round_trip z b : okZob z -> reachable z b -> (- intMax - 1 <= gamePly (bpos b) <= intMax)%Z ->
  exists p, setSfen z (toSfen b) = Done (mkBoard p []) /\ same_position (abs p) (abs (bpos b)) /\ gamePly p = gamePly (bpos b) /\ getKey p = getKey (bpos b) /\ set_up z (mkBoard p []) /\ agree p.
Proof.
  intros Z R H. destruct (reachable_ok z b Z R) as [G C]. destruct (sfen_rereads z _ G H) as (q & E & F & S & N). rewrite <- toSfen_eq in E. exists q.
  split; [now apply setSfen_done|]. split; [exact S|]. split; [exact N|]. split; [apply (same_key z); auto; apply F|]. split; [now apply fresh_set_up|]. apply (good_agree z); apply F.
Qed.
Lemma sfen_distinct z b b' : okZob z -> reachable z b -> reachable z b' -> (- intMax - 1 <= gamePly (bpos b) <= intMax)%Z -> (- intMax - 1 <= gamePly (bpos b') <= intMax)%Z -> toSfen b = toSfen b' ->
  same_position (abs (bpos b)) (abs (bpos b')) /\ gamePly (bpos b) = gamePly (bpos b').
Proof.
  intros Z R R' H H' E. destruct (sfen_round_trip z b Z R H) as (p & Ep & Sp & Np & _). destruct (sfen_round_trip z b' Z R' H') as (p' & Ep' & Sp' & Np' & _). assert (p = p') as <- by congruence.
  split; [eapply same_trans; [apply same_sym; exact Sp|exact Sp']|congruence].
Qed.
Lemma sfen_accept z s b : setSfen z s = Done b -> (count_occ ascii_dec (list_ascii_of_string s) "/"%char <= 8)%nat -> (forall x, on_board x -> piece_code (pieceAt (bpos b) (nsquare x))) ->
  proper (abs (bpos b)) -> hands_fit (bpos b) -> bhist b = [] /\ set_up z b /\ agree (bpos b).
Proof.
  intros E S V Pr Hf. apply setSfen_inv in E as [E ->]. cbn [bpos bhist] in *.
  assert (F : fresh z (bpos b)). { apply (sfen_accepted z (la s)); auto; [unfold slashes, la; lia|]. intros i Hi. apply piece_code_vpc. rewrite <- (square_inv i Hi). apply V. now apply on_board_N. }
  split; [reflexivity|]. split; [now apply fresh_set_up|]. apply (good_agree z); apply F.
Qed.
Lemma sfen_memory z s : plus_ok (field 0 s) -> hand_field_ok (field 2 s) -> setSfen z s <> Undefined.
Proof. intros A B E. unfold setSfen in E. fold la in E. pose proof (sfen_safe z s A B) as X. destruct (setSfenPos z (la s)); cbn [obind] in E; try discriminate. now apply X. Qed.
