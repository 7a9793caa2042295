(* SFEN: every text of a proper position is read as that position. *)
From Verif Require Export Sfen SfenSpec Fresh SetProofs.
Local Open Scope N_scope.

Definition la : string -> list ascii := list_ascii_of_string.
Lemma la_app s t : la (s ++ t)%string = la s ++ la t.
Proof. induction s as [|c s IH]; [reflexivity|]. cbn [String.append la list_ascii_of_string app]. f_equal. exact IH. Qed.
Lemma la_cons c s : la (String c s) = c :: la s. Proof. reflexivity. Qed.
(* ---- numbers ---- *)
Definition valueOf (l : list ascii) (acc : N) : N := fold_left (fun a c => a * 10 + digitValue c) l acc.
Lemma digit_facts d : (0 <= d <= 9)%Z -> isDigit (digit d) = true /\ digitValue (digit d) = Z.to_N d.
Proof. intros H. assert (d = 0 \/ d = 1 \/ d = 2 \/ d = 3 \/ d = 4 \/ d = 5 \/ d = 6 \/ d = 7 \/ d = 8 \/ d = 9)%Z as X by lia. decompose [or] X; subst; split; reflexivity. Qed.
Lemma valueOf_app l l' a : valueOf (l ++ l') a = valueOf l' (valueOf l a).
Proof. apply fold_left_app. Qed.
Lemma valueOf_le l : forall a b, a <= b -> valueOf l a <= valueOf l b.
Proof. induction l as [|c l IH]; intros a b H; cbn [valueOf fold_left]; [exact H|]. apply IH. lia. Qed.
Lemma valueOf_ge l : forall a, a <= valueOf l a.
Proof. induction l as [|c l IH]; intros a; cbn [valueOf fold_left]; [lia|]. specialize (IH (a * 10 + digitValue c)). unfold valueOf in IH. lia. Qed.
Lemma numeral_chars s n : numeral s n -> la s <> [] /\ Forall (fun c => isDigit c = true) (la s) /\ Z.of_N (valueOf (la s) 0) = n.
Proof.
  induction 1 as [d H|s n d _ (A & B & C) H].
  - destruct (digit_facts d H) as [D1 D2]. split; [discriminate|]. split; [constructor; [exact D1|constructor]|]. cbn [la list_ascii_of_string valueOf fold_left]. rewrite D2. lia.
  - destruct (digit_facts d H) as [D1 D2]. rewrite la_app. split; [intros X; apply app_eq_nil in X as [X _]; contradiction|]. split; [apply Forall_app; split; [exact B|constructor; [exact D1|constructor]]|].
    rewrite valueOf_app. cbn [la list_ascii_of_string valueOf fold_left]. rewrite D2. lia.
Qed.
Lemma readDigits_all l : forall a, Forall (fun c => isDigit c = true) l -> readDigits l a = valueOf l a.
Proof. induction l as [|c l IH]; intros a F; [reflexivity|]. inversion F; subst. cbn [readDigits]. rewrite H1. now apply IH. Qed.
Lemma digit_char c : isDigit c = true -> isSpace c = false /\ Ascii.eqb c "-" = false /\ Ascii.eqb c "+" = false /\ Ascii.eqb c " " = false.
Proof. destruct c as [[] [] [] [] [] [] [] []]; cbv; intros; try discriminate; auto. Qed.
Lemma readInt_numeral s n : numeral s n -> (n <= intMax)%Z -> readInt (la s) = n.
Proof.
  intros H L. destruct (numeral_chars s n H) as (A & B & C). unfold readInt. destruct (la s) as [|c l] eqn:E; [contradiction|]. inversion B; subst. destruct (digit_char c H2) as (D1 & D2 & D3 & D4).
  cbn [skipSpaces]. rewrite D1.
  assert (X : Z.min intMax (Z.of_N (readDigits (c :: l) 0)) = Z.of_N (valueOf (c :: l) 0)) by (rewrite readDigits_all by exact B; lia).
  clear - X D2 D3. destruct c as [[] [] [] [] [] [] [] []]; try exact X; discriminate.
Qed.
(* ---- the board ---- *)
Definition pieceCode (x : option (color * kind)) : N := match x with Some (c, k) => mkPiece (ncolor c) (nkind k) | None => 0 end.
Fixpoint place (p : Position) (sq : Z) (cells : list (option (color * kind))) : Position :=
  match cells with
  | [] => p
  | x :: cells => place (if pieceCode x =? 0 then p else setPiece p (pieceCode x) (Z.to_N sq)) (sq - 9) cells
  end.
Lemma place_spaces n : forall p sq cells, place p sq (repeat None n ++ cells) = place p (sq - 9 * Z.of_nat n) cells.
Proof. induction n as [|n IH]; intros p sq cells; [cbn [repeat app]; f_equal; lia|]. cbn [repeat app place pieceCode]. change (0 =? 0) with true. cbv iota. rewrite IH. f_equal. lia. Qed.
Lemma letter_facts c k : unpromote k = k -> let a := sfen_letter c k in
  Ascii.eqb a " " = false /\ isDigit a = false /\ Ascii.eqb a "/" = false /\ Ascii.eqb a "+" = false /\ Ascii.eqb a "-" = false /\ charPiece a = Some (mkPiece (ncolor c) (nkind k)).
Proof. destruct c, k; intros E; try discriminate; repeat split. Qed.
Lemma putPiece_ok p c k sq : putPiece p (mkPiece (ncolor c) (nkind k)) sq = Done (setPiece p (mkPiece (ncolor c) (nkind k)) sq).
Proof. destruct c, k; reflexivity. Qed.
Lemma unpromote_idem k : unpromote (unpromote k) = unpromote k. Proof. destruct k; reflexivity. Qed.
Lemma promoted_code c k : kind_eqb (unpromote k) k = false -> mkPiece (ncolor c) (nkind (unpromote k)) + 8 = mkPiece (ncolor c) (nkind k).
Proof. destruct c, k; intros; try discriminate; reflexivity. Qed.
Lemma pieceCode_nz c k : pieceCode (Some (c, k)) =? 0 = false.
Proof. destruct c, k; reflexivity. Qed.
Lemma readBoard_letter a pc l p sq fl : Ascii.eqb a " " = false -> isDigit a = false -> Ascii.eqb a "/" = false -> Ascii.eqb a "+" = false -> charPiece a = Some pc -> (0 <= sq < 81)%Z ->
  readBoard (a :: l) p sq fl = obind (putPiece p (pc + (if fl then 8 else 0)) (Z.to_N sq)) (fun p => readBoard l p (sq - 9) false).
Proof. intros A B C D E H. cbn [readBoard]. rewrite A, B, C, D, E. assert (X : ((0 <=? sq) && (sq <? 81))%Z = true) by (apply andb_true_intro; split; lia). now rewrite X. Qed.
Lemma readBoard_piece c k rest p sq : (0 <= sq < 81)%Z ->
  readBoard (la (sfen_piece c k) ++ rest) p sq false = readBoard rest (setPiece p (mkPiece (ncolor c) (nkind k)) (Z.to_N sq)) (sq - 9) false.
Proof.
  intros H. unfold sfen_piece. destruct (kind_eqb (unpromote k) k) eqn:E.
  - apply kind_eqb_iff in E. destruct (letter_facts c k E) as (A & B & C & D & _ & F). cbn [la list_ascii_of_string app]. rewrite (readBoard_letter _ _ _ _ _ _ A B C D F H). cbv iota. rewrite N.add_0_r, putPiece_ok. reflexivity.
  - destruct (letter_facts c (unpromote k) (unpromote_idem k)) as (A & B & C & D & _ & F). cbn [la list_ascii_of_string app].
    change (readBoard ("+"%char :: sfen_letter c (unpromote k) :: rest) p sq false) with (readBoard (sfen_letter c (unpromote k) :: rest) p sq true).
    rewrite (readBoard_letter _ _ _ _ _ _ A B C D F H). cbv iota. rewrite promoted_code, putPiece_ok by exact E. reflexivity.
Qed.
Lemma readBoard_digit n rest p sq fl : (0 <= n <= 9)%Z -> readBoard (digit n :: rest) p sq fl = readBoard rest p (sq - 9 * n) fl.
Proof.
  intros H. destruct (digit_facts n H) as [A B]. destruct (digit_char _ A) as (_ & _ & _ & D). cbn [readBoard]. rewrite D, A, B. f_equal. lia.
Qed.
Lemma readBoard_row cells s : row_text cells s -> forall p sq rest, (sq < 81 -> 9 * Z.of_nat (length cells) <= sq + 9 ->
  readBoard (la s ++ rest) p sq false = readBoard rest (place p sq cells) (sq - 9 * Z.of_nat (length cells)) false)%Z.
Proof.
  induction 1 as [|c k cells s _ IH|n cells s Hn _ IH]; intros p sq rest L1 L2.
  - cbn [la list_ascii_of_string app length place]. f_equal. lia.
  - cbn [length] in L2. rewrite la_app, <- app_assoc, readBoard_piece by lia. rewrite IH by lia. cbn [place length]. rewrite pieceCode_nz. cbn [pieceCode]. f_equal. lia.
  - rewrite app_length, repeat_length in *. cbn [la list_ascii_of_string app]. fold (la s). rewrite readBoard_digit by lia. rewrite IH by lia. rewrite place_spaces, Z2Nat.id by lia. f_equal. lia.
Qed.
(* squares in reading order *)
Definition codeAt (P : position) (sq : N) : N := pieceCode (at_square P (squareN sq)).
Definition putAt (P : position) (q : Position) (sq : N) : Position := if codeAt P sq =? 0 then q else setPiece q (codeAt P sq) sq.
Lemma place_row P r : r < 9 -> forall p, place p (72 + Z.of_N r) (row_of P (Z.of_N r + 1)) = fold_left (putAt P) (rankSquares r) p.
Proof.
  intros H. unfold row_of, rankSquares. assert (X : forall f q, f < 9 -> (if pieceCode (at_square P (Z.of_N f + 1, Z.of_N r + 1)%Z) =? 0 then q else setPiece q (pieceCode (at_square P (Z.of_N f + 1, Z.of_N r + 1)%Z)) (Z.to_N (9 * Z.of_N f + Z.of_N r))) = putAt P q (makeSquare f r)).
  { intros f q Hf. unfold putAt, codeAt. replace (squareN (makeSquare f r)) with (Z.of_N f + 1, Z.of_N r + 1)%Z.
    - replace (Z.to_N (9 * Z.of_N f + Z.of_N r)) with (makeSquare f r) by (unfold makeSquare; lia). reflexivity.
    - unfold squareN, makeSquare. f_equal; lia. }
  assert (Y : forall n p, (n <= 9)%nat -> place p (9 * (Z.of_nat n - 1) + Z.of_N r) (map (fun file => at_square P (file, Z.of_N r + 1)%Z) (map (fun f => Z.of_nat f + 1)%Z (rev (seq 0 n)))) = fold_left (putAt P) (map (fun f => makeSquare (N.of_nat f) r) (rev (seq 0 n))) p).
  { induction n as [|n IH]; intros p L; [reflexivity|]. rewrite seq_S, rev_app_distr. cbn [rev app map place fold_left plus]. rewrite <- (X (N.of_nat n) p) by lia. rewrite nat_N_Z.
    replace (9 * (Z.of_nat (S n) - 1) + Z.of_N r - 9)%Z with (9 * (Z.of_nat n - 1) + Z.of_N r)%Z by lia. replace (9 * (Z.of_nat (S n) - 1) + Z.of_N r)%Z with (9 * Z.of_nat n + Z.of_N r)%Z by lia. apply IH. lia. }
  intros p. specialize (Y 9%nat p (le_n _)). cbn [rev seq app map] in Y. cbn [map]. exact Y.
Qed.
Lemma readBoard_rows P : forall rs s, rows_text P rs s -> forall r p rest, rs = map (fun i => Z.of_N i + 1)%Z (seqN r (length rs)) -> r + N.of_nat (length rs) <= 9 ->
  exists p' sq', readBoard (la s ++ rest) p (72 + Z.of_N r) false = readBoard rest p' sq' false /\ p' = fold_left (putAt P) (flat_map rankSquares (seqN r (length rs))) p.
Proof.
  induction 1 as [r0 s H|r0 r1 rs s t H _ IH]; intros r p rest E L.
  - cbn [length seqN map] in E. injection E as ->. cbn [length] in L. eexists _, _. split; [apply (readBoard_row _ _ H); cbn [row_of map length]; lia|]. cbn [length seqN flat_map]. rewrite app_nil_r. apply place_row. lia.
  - cbn [length] in *. cbn [seqN map] in E. injection E as -> E1 E2. rewrite la_app, <- app_assoc. rewrite (readBoard_row _ _ H) by (cbn [row_of map length]; lia). rewrite place_row by lia.
    cbn [row_of map length]. cbn [la list_ascii_of_string]. fold (la t). rewrite <- app_comm_cons. cbn [readBoard]. change (Ascii.eqb "/" " ") with false. change (isDigit "/") with false. change (Ascii.eqb "/" "/") with true. cbv iota.
    destruct (IH (r + 1) (fold_left (putAt P) (rankSquares r) p) rest) as (p' & sq' & A & B); [cbn [length seqN map]; f_equal; assumption|lia|].
    exists p', sq'. split; [|rewrite B; cbn [seqN flat_map]; now rewrite fold_left_app].
    rewrite <- A. f_equal. lia.
Qed.
Lemma readBoard_text P s rest : board_text P s -> readBoard (la s ++ " "%char :: rest) clearPos 72 false = Done (fold_left (putAt P) (flat_map rankSquares (seqN 0 9)) clearPos, rest).
Proof.
  intros H. destruct (readBoard_rows P _ _ H 0 clearPos (" "%char :: rest) eq_refl ltac:(cbn; lia)) as (p' & sq' & A & ->). exact A.
Qed.
(* ---- hands ---- *)
Lemma readHand_digits l : forall p a rest, Forall (fun c => isDigit c = true) l -> (Z.of_N (valueOf l a) <= intMax)%Z -> readHand (l ++ rest) p a = readHand rest p (valueOf l a).
Proof.
  induction l as [|c l IH]; intros p a rest F L; [reflexivity|]. inversion F as [|? ? D F']; subst. destruct (digit_char c D) as (_ & M & _ & S). cbn [app readHand]. rewrite S, M, D. cbv zeta.
  cbn [valueOf fold_left] in *. pose proof (valueOf_ge l (a * 10 + digitValue c)) as G. unfold valueOf in G. assert (X : (Z.of_N (a * 10 + digitValue c) <=? intMax)%Z = true) by lia. rewrite X. now apply IH.
Qed.
Definition slotOf (k : kind) : N := ptToHand (nkind k).
Definition putItem (q : Position) (x : color * kind * Z) : Position := setHandN q (slotOf (snd (fst x))) (ncolor (fst (fst x))) (Z.to_N (snd x)).
Lemma hand_kind_facts k : In k hand_kinds -> unpromote k = k /\ handSlot k = Some (slotOf k) /\ slotOf k < 7 /\ nkind k <> 8.
Proof. intros H. cbn in H. decompose [or] H; subst; try contradiction; repeat split; cbn; try discriminate; reflexivity. Qed.
Lemma ptOf_code c k : ptOf (mkPiece (ncolor c) (nkind k)) = nkind k /\ colorOf (mkPiece (ncolor c) (nkind k)) = ncolor c.
Proof. destruct c, k; split; reflexivity. Qed.
Lemma readHand_letter c k l p n : In k hand_kinds -> readHand (sfen_letter c k :: l) p n = readHand l (setHandN p (slotOf k) (ncolor c) (if n =? 0 then 1 else n)) 0.
Proof.
  intros I. destruct (hand_kind_facts k I) as (U & _ & _ & NK). destruct (letter_facts c k U) as (A & B & _ & _ & D & F). destruct (ptOf_code c k) as [P1 P2].
  cbn [readHand]. rewrite A, D, B, F, P1, P2. unfold King. destruct (N.eqb_spec (nkind k) 8); [contradiction|]. reflexivity.
Qed.
Lemma readHand_items l s : items_text l s -> (forall x, In x l -> (snd x <= intMax)%Z) -> forall p rest, readHand (la s ++ rest) p 0 = readHand rest (fold_left putItem l p) 0.
Proof.
  induction 1 as [|c k n l s t I Hn C _ IH]; intros L p rest; [reflexivity|].
  pose proof (L (c, k, n) (or_introl eq_refl)) as Ln. cbn [snd] in Ln. rewrite la_app, <- app_assoc, la_cons, <- app_comm_cons. cbn [fold_left].
  assert (X : readHand (la s ++ sfen_letter c k :: la t ++ rest) p 0 = readHand (la t ++ rest) (putItem p (c, k, n)) 0).
  { unfold putItem. cbn [fst snd]. destruct C as [[-> ->]|C].
    - cbn [la list_ascii_of_string app]. now rewrite readHand_letter.
    - destruct (numeral_chars s n C) as (_ & F & V). rewrite readHand_digits by (auto; rewrite V; exact Ln). rewrite readHand_letter by exact I. do 2 f_equal. destruct (N.eqb_spec (valueOf (la s) 0) 0); lia. }
  rewrite X. apply IH. intros x Hx. apply L. now right.
Qed.
Lemma putItems_spec l : forall bd q, pre bd q -> okHands q -> NoDup (map fst l) -> (forall c k n, In (c, k, n) l -> In k hand_kinds /\ (0 <= n)%Z /\ Z.to_N n < 2 ^ handW (slotOf k) /\ numOf (handOf q (ncolor c)) (slotOf k) = 0) ->
  let q' := fold_left putItem l q in
  pre bd q' /\ okHands q' /\ turn q' = turn q /\ st q' = st q /\ prev q' = prev q /\
  (forall c k n, In (c, k, n) l -> numOf (handOf q' (ncolor c)) (slotOf k) = Z.to_N n) /\
  (forall c hp, hp < 7 -> (forall k n, In (c, k, n) l -> slotOf k <> hp) -> numOf (handOf q' (ncolor c)) hp = numOf (handOf q (ncolor c)) hp).
Proof.
  induction l as [|[[c k] n] l IH]; intros bd q P O ND H; cbv zeta; cbn [fold_left].
  - do 5 (split; [assumption || reflexivity|]). split; [intros c k n []|reflexivity].
  - cbn [map fst] in ND. inversion ND as [|? ? Na ND']; subst. destruct (H c k n (or_introl eq_refl)) as (I & Hn & Lt & Z0). destruct (hand_kind_facts k I) as (_ & Sk & Ls & _).
    destruct (setHandN_spec q (slotOf k) (ncolor c) (Z.to_N n) O (ncolor_lt c) Ls Z0 Lt) as [O1 N1]. change (setHandN q (slotOf k) (ncolor c) (Z.to_N n)) with (putItem q (c, k, n)) in O1, N1.
    assert (K : forall c' k' n', In (c', k', n') l -> (ncolor c =? ncolor c') && (slotOf k =? slotOf k') = false).
    { intros c' k' n' Hx. apply not_true_is_false. intros E. apply andb_prop in E as [E1 E2]. apply N.eqb_eq in E1, E2. destruct (H c' k' n' (or_intror Hx)) as (I' & _). destruct (hand_kind_facts k' I') as (_ & Sk' & _).
      apply Na. assert (X1 : c = c') by (destruct c, c'; cbn in E1; congruence). assert (X2 : k = k') by (apply slotKind_inv in Sk as [_ <-]; apply slotKind_inv in Sk' as [_ <-]; now rewrite E2).
      subst. apply (in_map fst _ (c', k', n') Hx). }
    destruct (IH bd (putItem q (c, k, n))) as (A1 & A2 & A3 & A4 & A5 & A6 & A7).
    + now apply pre_setHandN.
    + exact O1.
    + exact ND'.
    + intros c' k' n' Hx. destruct (H c' k' n' (or_intror Hx)) as (B1 & B2 & B3 & B4). do 3 (split; [assumption|]). destruct (hand_kind_facts k' B1) as (_ & _ & L' & _). rewrite N1 by (auto; apply ncolor_lt). now rewrite (K c' k' n' Hx).
    + cbv zeta in *. do 2 (split; [assumption|]). split; [rewrite A3; reflexivity|]. split; [rewrite A4; reflexivity|]. split; [rewrite A5; reflexivity|]. split.
      * intros c' k' n' [Eq|Hx]; [|now apply A6]. injection Eq as <- <- <-. rewrite A7; [|exact Ls|].
        -- rewrite N1 by (auto; apply ncolor_lt). rewrite !N.eqb_refl. reflexivity.
        -- intros k' n' Hx E. pose proof (K c k' n' Hx) as X. rewrite N.eqb_refl, E, N.eqb_refl in X. discriminate.
      * intros c' hp Hp Hx. rewrite A7; [|exact Hp|].
        -- rewrite N1 by (auto; apply ncolor_lt). destruct ((ncolor c =? ncolor c') && (slotOf k =? hp)) eqn:E; [|reflexivity]. apply andb_prop in E as [E1 E2]. apply N.eqb_eq in E1, E2. exfalso.
           apply (Hx k n); [|exact E2]. left. f_equal. f_equal. destruct c, c'; cbn in E1; congruence.
        -- intros k' n' Hy. apply (Hx k' n'). now right.
Qed.
Lemma readHand_kings l : forall p d, readHand l (setKingsGolds p) d = obind (readHand l p d) (fun x => Done (setKingsGolds (fst x), snd x)).
Proof.
  induction l as [|c l IH]; intros p d; cbn [readHand]; [reflexivity|]. destruct (Ascii.eqb c " "); [reflexivity|]. destruct (Ascii.eqb c "-"); [exact (IH (noHand p) d)|]. destruct (isDigit c); cbv zeta; [destruct (_ <=? _)%Z; [apply IH|reflexivity]|].
  destruct (charPiece c) as [pc|]; [|reflexivity]. destruct (ptOf pc =? King); [reflexivity|]. exact (IH (setHandN p (ptToHand (ptOf pc)) (colorOf pc) (if d =? 0 then 1 else d)) 0).
Qed.
Lemma setSfenPos_eq z l : setSfenPos z l =
  obind (readBoard l clearPos 72 false) (fun x => obind (readTurn (snd x) (turn (fst x))) (fun y => obind (readHand (snd y) (setTurnField (fst x) (fst y)) 0) (fun w => Done (refreshState z (setGamePly (setKingsGolds (fst w)) (readInt (snd w))))))).
Proof.
  unfold setSfenPos. destruct (readBoard l clearPos 72 false) as [[p r]| |]; [|reflexivity|reflexivity]. cbn [obind fst snd]. change (turn (setKingsGolds p)) with (turn p).
  destruct (readTurn r (turn p)) as [[t r']| |]; [|reflexivity|reflexivity]. cbn [obind fst snd]. change (setTurnField (setKingsGolds p) t) with (setKingsGolds (setTurnField p t)). rewrite readHand_kings.
  destruct (readHand r' (setTurnField p t) 0) as [[q r'']| |]; reflexivity.
Qed.
