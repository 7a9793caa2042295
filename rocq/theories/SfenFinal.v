(* SFEN: reading, printing, round trip. *)
From Verif Require Export SfenProofs PackFinal.
Local Open Scope N_scope.

Lemma order_facts : NoDup (flat_map rankSquares (seqN 0 9)) /\ forall s, s < 81 -> existsb (N.eqb s) (flat_map rankSquares (seqN 0 9)) = true.
Proof.
  split.
  - apply (NoDup_map_inv N.to_nat). assert (X : forallb (fun i => Nat.eqb (count_occ Nat.eq_dec (map N.to_nat (flat_map rankSquares (seqN 0 9))) i) 1) (map N.to_nat (flat_map rankSquares (seqN 0 9))) = true) by (vm_compute; reflexivity).
    rewrite forallb_forall in X. apply (NoDup_count_occ Nat.eq_dec). intros x. destruct (in_dec Nat.eq_dec x (map N.to_nat (flat_map rankSquares (seqN 0 9)))) as [I|I].
    + apply X in I. apply Nat.eqb_eq in I. rewrite I. apply le_n.
    + apply (count_occ_not_In Nat.eq_dec) in I. rewrite I. apply Nat.le_0_l.
  - intros s H. assert (X : forallb (fun s => existsb (N.eqb s) (flat_map rankSquares (seqN 0 9))) squares = true) by (vm_compute; reflexivity). rewrite forallb_forall in X. apply X. now apply in_squares.
Qed.
Lemma order_lt s : In s (flat_map rankSquares (seqN 0 9)) -> s < 81.
Proof.
  intros H. assert (X : forallb (fun s => s <? 81) (flat_map rankSquares (seqN 0 9)) = true) by (vm_compute; reflexivity). rewrite forallb_forall in X. now apply N.ltb_lt, X.
Qed.
Lemma vpc_pieceCode x : vpc (pieceCode x) = true. Proof. destruct x as [[[] []]|]; reflexivity. Qed.
Lemma pieceN_pieceCode x : pieceN (pieceCode x) = x. Proof. destruct x as [[[] []]|]; reflexivity. Qed.
Lemma board_placed P : let q := fold_left (putAt P) (flat_map rankSquares (seqN 0 9)) clearPos in
  (exists bd, pre bd q) /\ (forall s, s < 81 -> pieceAt q s = codeAt P s) /\ hands q = [0; 0] /\ turn q = 0 /\ st q = clearSt /\ prev q = [].
Proof.
  destruct order_facts as [ND Ex]. destruct (pre_fold (codeAt P) (fun s _ => vpc_pieceCode _) (flat_map rankSquares (seqN 0 9)) (repeat 0 81) clearPos pre_clear ND) as (bd & Pre & At).
  { intros s Hs. split; [now apply order_lt|apply at_repeat0]. }
  destruct (setPieces_fold_same (codeAt P) (flat_map rankSquares (seqN 0 9)) clearPos) as (A & B & C & D). cbv zeta in *. fold (putAt P) in *.
  split; [exists bd; exact Pre|]. split; [|do 3 (split; [assumption|]); assumption]. intros s Hs. unfold pieceAt. rewrite (pre_bd _ _ Pre). fold (at_ bd s). rewrite At, Ex by exact Hs. reflexivity.
Qed.
Lemma readTurn_side P rest t : readTurn (la (side_text P) ++ " "%char :: rest) t = Done (ncolor (side P), rest).
Proof. unfold side_text. destruct (side P); reflexivity. Qed.
Lemma fullSet_18 hp : hp < 7 -> fullSet hp <= 18.
Proof.
  intros H. assert (hp = 0 \/ hp = 1 \/ hp = 2 \/ hp = 3 \/ hp = 4 \/ hp = 5 \/ hp = 6) as X by lia.
  destruct X as [->|[->|[->|[->|[->|[->| ->]]]]]]; vm_compute; discriminate.
Qed.
(* the position before its caches are filled *)
Lemma hand_placed P bd q s rest : proper P -> pre bd q -> hands q = [0; 0] -> hand_text P s ->
  exists q', readHand (la s ++ " "%char :: rest) q 0 = Done (q', rest) /\ pre bd q' /\ okHands q' /\ turn q' = turn q /\ st q' = st q /\ prev q' = prev q /\
    forall c k, In k hand_kinds -> Z.of_N (numOf (handOf q' (ncolor c)) (slotOf k)) = in_hand P c k.
Proof.
  intros Pr Pre Hq H.
  assert (O0 : forall p, hands p = [0; 0] -> okHands p /\ forall c hp, c < 2 -> hp < 7 -> numOf (handOf p c) hp = 0).
  { intros p E. destruct clearPos_hands as [A B]. split; [apply (okHands_ext clearPos); auto|]. intros c hp Hc Hp. unfold handOf. rewrite E. now apply (B c hp). }
  destruct H as [[-> Hz]|(l & _ & It & ND & Hl)].
  - exists (noHand q). split; [reflexivity|]. split; [destruct Pre as [P1 P2 P3 P4]; constructor; assumption|]. destruct (O0 (noHand q) eq_refl) as [O1 O2]. split; [exact O1|]. do 3 (split; [reflexivity|]).
    intros c k I. destruct (hand_kind_facts k I) as (_ & _ & L & _). rewrite O2, Hz by (auto; apply ncolor_lt). reflexivity.
  - destruct (O0 q Hq) as [O1 O2].
    assert (B : forall c k n, In (c, k, n) l -> In k hand_kinds /\ (1 <= n)%Z /\ in_hand P c k = n /\ (n <= Z.of_N (fullSet (slotOf k)))%Z).
    { intros c k n I. assert (Ik : In k hand_kinds). { clear - It I. induction It as [|c0 k0 n0 l s t I0 Hn C _ IH]; [contradiction|]. destruct I as [E|I]; [injection E as <- <- <-; exact I0|now apply IH]. }
      apply Hl in I as [E L]; [|exact Ik]. do 3 (split; [assumption|]). destruct (hand_kind_facts k Ik) as (_ & Sk & Ls & _). pose proof (proper_hand P c (slotOf k) Pr Ls) as X. apply slotKind_inv in Sk as [_ Sk]. rewrite Sk in X. lia. }
    destruct (putItems_spec l bd q Pre O1 ND) as (A1 & A2 & A3 & A4 & A5 & A6 & A7).
    { intros c k n I. destruct (B c k n I) as (Ik & L & _ & F). destruct (hand_kind_facts k Ik) as (_ & _ & Ls & _). pose proof (fullSet_lt (slotOf k) Ls). split; [exact Ik|]. split; [lia|]. split; [lia|]. apply O2; auto. apply ncolor_lt. }
    cbv zeta in *. exists (fold_left putItem l q). split; [|do 5 (split; [assumption|])].
    + rewrite (readHand_items l s It); [reflexivity|]. intros [[c k] n] I. destruct (B c k n I) as (Ik & L & _ & F). destruct (hand_kind_facts k Ik) as (_ & _ & Ls & _). cbn [snd].
      pose proof (fullSet_18 (slotOf k) Ls).
      unfold intMax. lia.
    + intros c k Ik. destruct (hand_kind_facts k Ik) as (_ & Sk & Ls & _). destruct (Z_lt_le_dec (in_hand P c k) 1) as [Lt|Ge].
      * pose proof (pr_hand _ Pr c k) as G. rewrite A7; [rewrite O2 by (auto; apply ncolor_lt); lia|exact Ls|]. intros k' n' I E. destruct (B c k' n' I) as (Ik' & L' & E' & _).
        destruct (hand_kind_facts k' Ik') as (_ & Sk' & _). apply slotKind_inv in Sk as [_ X1]. apply slotKind_inv in Sk' as [_ X2]. rewrite E in X2. rewrite X1 in X2. subst k'. lia.
      * rewrite (A6 c k (in_hand P c k)); [lia|]. apply Hl; auto.
Qed.
Lemma placed_same P q : proper P -> turn q = ncolor (side P) -> (forall s, s < 81 -> pieceAt q s = codeAt P s) ->
  (forall c k, In k hand_kinds -> Z.of_N (numOf (handOf q (ncolor c)) (slotOf k)) = in_hand P c k) -> same_position (abs q) P.
Proof.
  intros Pr T At N3. split; [|split]; cbn [abs at_square in_hand side].
  - intros x. destruct (on_boardb x) eqn:E.
    + apply on_boardb_iff in E. rewrite At by now apply nsquare_lt. unfold codeAt. rewrite pieceN_pieceCode, square_inv' by exact E. reflexivity.
    + destruct (at_square P x) eqn:F; [|reflexivity]. assert (X : on_board x) by (apply (pr_board _ Pr); congruence). apply on_boardb_iff in X. congruence.
  - intros c k. destruct (handSlot k) as [hp|] eqn:E.
    + assert (I : In k hand_kinds) by (apply hand_kinds_iff; congruence). destruct (hand_kind_facts k I) as (_ & Sk & _). rewrite Sk in E. injection E as <-. now apply N3.
    + symmetry. apply (pr_hand0 _ Pr). intros I. apply hand_kinds_iff in I. contradiction.
  - rewrite T. apply color_inv'.
Qed.
Lemma placed_fresh z bd P q n : proper P -> pre bd q -> okHands q -> turn q = ncolor (side P) -> st q = clearSt -> prev q = [] ->
  (forall s, s < 81 -> pieceAt q s = codeAt P s) -> (forall c k, In k hand_kinds -> Z.of_N (numOf (handOf q (ncolor c)) (slotOf k)) = in_hand P c k) ->
  let r := refreshState z (setGamePly (setKingsGolds q) n) in fresh z r /\ same_position (abs r) P /\ gamePly r = n.
Proof.
  intros Pr Pre O T S0 P0 At N3. pose proof (placed_same P q Pr T At N3) as S. assert (T' : turn q < 2) by (rewrite T; apply ncolor_lt).
  destruct (setup_good z bd q n Pre T' O (proper_same _ _ (same_sym _ _ S) Pr)) as (A1 & A2 & A3 & A4 & A5 & A6 & A7 & A8). cbv zeta.
  rewrite P0 in A5. rewrite S0 in A7, A8. generalize dependent (refreshState z (setGamePly (setKingsGolds q) n)). intros r A1 A2 A3 A4 A5 A6 A7 A8.
  split; [constructor; assumption|]. split; [rewrite A3; exact S|exact A4].
Qed.
Lemma setSfenPos_parts z l q1 l1 t l2 q3 l3 : readBoard l clearPos 72 false = Done (q1, l1) -> readTurn l1 (turn q1) = Done (t, l2) ->
  readHand l2 (setTurnField q1 t) 0 = Done (q3, l3) -> setSfenPos z l = Done (refreshState z (setGamePly (setKingsGolds q3) (readInt l3))).
Proof. intros A B C. rewrite setSfenPos_eq, A. cbn [obind fst snd]. rewrite B. cbn [obind fst snd]. rewrite C. reflexivity. Qed.
Lemma parts_read z b h m P n : board_text P b -> hand_text P h -> readInt (la m) = n -> proper P -> exists q, setSfenPos z (la (b ++ " " ++ side_text P ++ " " ++ h ++ " " ++ m)) = Done q /\ fresh z q /\ same_position (abs q) P /\ gamePly q = n.
Proof.
  intros Hb Hh Hm Pr. rewrite !la_app. change (la " ") with [" "%char]. cbn [app].
  pose proof (readBoard_text P b (la (side_text P) ++ " "%char :: la h ++ " "%char :: la m) Hb) as RB.
  destruct (board_placed P) as ((bd & Pre) & At & H0 & T0 & S0 & P0). 
  generalize dependent (fold_left (putAt P) (flat_map rankSquares (seqN 0 9)) clearPos). intros q1 RB Pre At H0 T0 S0 P0.
  pose proof (readTurn_side P (la h ++ " "%char :: la m) (turn q1)) as RT.
  assert (Pre2 : pre bd (setTurnField q1 (ncolor (side P)))) by (destruct Pre as [X1 X2 X3 X4]; constructor; assumption).
  destruct (hand_placed P bd (setTurnField q1 (ncolor (side P))) h (la m) Pr Pre2 H0 Hh) as (q3 & R & Pre3 & O3 & T3 & S3 & P3 & N3).
  exists (refreshState z (setGamePly (setKingsGolds q3) n)). split.
  - rewrite (setSfenPos_parts z _ _ _ _ _ _ _ RB RT R), Hm. reflexivity.
  - apply (placed_fresh z bd P q3 n); try assumption.
    + rewrite S3. exact S0.
    + rewrite P3. exact P0.
    + intros x Hx. rewrite <- (At x Hx). unfold pieceAt. rewrite (pre_bd _ _ Pre3), (pre_bd _ _ Pre). reflexivity.
Qed.
Theorem sfen_reads z s P n : sfen_denotes s P n -> proper P -> (n <= intMax)%Z -> exists q, setSfenPos z (la s) = Done q /\ fresh z q /\ same_position (abs q) P /\ gamePly q = n.
Proof. intros (b & h & m & Hb & Hh & Hm & ->) Pr Hn. exact (parts_read z b h m P n Hb Hh (readInt_numeral m n Hm Hn) Pr). Qed.
(* ---- printing ---- *)
Definition sa : list ascii -> string := string_of_list_ascii.
Lemma sa_app l l' : sa (l ++ l') = (sa l ++ sa l')%string.
Proof. induction l as [|c l IH]; [reflexivity|]. cbn [app sa string_of_list_ascii String.append]. f_equal. exact IH. Qed.
Lemma sapp_nil s : (s ++ "")%string = s. Proof. induction s as [|c s IH]; [reflexivity|]. cbn [String.append]. now rewrite IH. Qed.
Lemma sa_cons c l : sa (c :: l) = String c (sa l). Proof. reflexivity. Qed.
Lemma digit_N n : n < 10 -> ascii_of_N (48 + n) = digit (Z.of_N n).
Proof. intros H. assert (n = 0 \/ n = 1 \/ n = 2 \/ n = 3 \/ n = 4 \/ n = 5 \/ n = 6 \/ n = 7 \/ n = 8 \/ n = 9) as X by lia. decompose [or] X; subst; reflexivity. Qed.
Lemma digits_numeral fuel : forall n, n < 2 ^ N.of_nat fuel -> numeral (sa (digitsOf (S fuel) n)) (Z.of_N n).
Proof.
  induction fuel as [|fuel IH]; intros n H.
  - change (2 ^ N.of_nat 0) with 1 in H. assert (n = 0) as -> by lia. apply (num_one 0). lia.
  - rewrite Nat2N.inj_succ, N.pow_succ_r' in H. change (digitsOf (S (S fuel)) n) with ((if n <? 10 then [] else digitsOf (S fuel) (n / 10)) ++ [ascii_of_N (48 + n mod 10)]).
    pose proof (N.mod_lt n 10 ltac:(lia)) as M. rewrite digit_N by exact M. destruct (N.ltb_spec n 10) as [L|L].
    + rewrite N.mod_small by exact L. apply num_one. lia.
    + rewrite sa_app. replace (Z.of_N n) with (10 * Z.of_N (n / 10) + Z.of_N (n mod 10))%Z by (pose proof (N.div_mod n 10 ltac:(lia)); lia).
      apply num_more; [|lia]. apply IH. apply N.div_lt_upper_bound; lia.
Qed.
Lemma printN_numeral n : numeral (sa (printN n)) (Z.of_N n).
Proof.
  unfold printN. apply digits_numeral. destruct n as [|q]; [reflexivity|]. cbn [N.size_nat].
  assert (forall q, N.pos q < 2 ^ N.of_nat (Pos.size_nat q)) as X.
  { clear. induction q as [q IH|q IH|]; cbn [Pos.size_nat]; rewrite ?Nat2N.inj_succ, ?N.pow_succ_r'; [lia|lia|reflexivity]. }
  apply X.
Qed.
Lemma printN_digit n : 1 <= n <= 9 -> printN n = [digit (Z.of_N n)].
Proof. intros H. assert (n = 1 \/ n = 2 \/ n = 3 \/ n = 4 \/ n = 5 \/ n = 6 \/ n = 7 \/ n = 8 \/ n = 9) as X by lia. decompose [or] X; subst; reflexivity. Qed.
Lemma printZ_numeral n : (0 <= n)%Z -> numeral (sa (printZ n)) n.
Proof. intros H. unfold printZ. destruct (Z.ltb_spec n 0); [lia|]. rewrite <- (Z2N.id n) at 2 by exact H. apply printN_numeral. Qed.

Lemma pieceChars_text x c k : vpc x = true -> pieceN x = Some (c, k) -> sa (pieceChars x) = sfen_piece c k.
Proof. intros V E. apply (pieceN_iff x c k V) in E. subst x. destruct c, k; reflexivity. Qed.
Lemma spaces_text space cells s : space <= 9 -> row_text cells s -> row_text (repeat None (N.to_nat space) ++ cells) (sa (if space =? 0 then [] else printN space) ++ s).
Proof.
  intros L R. destruct (N.eqb_spec space 0) as [->|N0]; [exact R|]. rewrite printN_digit by lia. replace (N.to_nat space) with (Z.to_nat (Z.of_N space)) by lia. apply (row_space (Z.of_N space) cells s); [lia|exact R].
Qed.
Lemma row_prints p sqs : (forall s, In s sqs -> vpc (pieceAt p s) = true) -> forall space, space + N.of_nat (length sqs) <= 9 ->
  row_text (repeat None (N.to_nat space) ++ map (fun s => pieceN (pieceAt p s)) sqs) (sa (rowChars p space sqs)).
Proof.
  induction sqs as [|sq sqs IH]; intros V space L; cbn [length] in L; rewrite ?Nat2N.inj_succ in L; cbn [rowChars map].
  - rewrite <- (sapp_nil (sa _)). apply spaces_text; [lia|constructor].
  - assert (V' : forall s, In s sqs -> vpc (pieceAt p s) = true) by (intros s Hs; apply V; now right). specialize (V sq (or_introl eq_refl)).
    destruct (N.eqb_spec (pieceAt p sq) Empty) as [E|E].
    + rewrite E. specialize (IH V' (space + 1) ltac:(lia)). replace (N.to_nat (space + 1)) with (N.to_nat space + 1)%nat in IH by lia. rewrite repeat_app, <- app_assoc in IH. exact IH.
    + destruct (pieceN (pieceAt p sq)) as [[c k]|] eqn:F.
      * rewrite sa_app. apply spaces_text; [lia|]. rewrite sa_app, (pieceChars_text _ c k V F). apply row_piece. apply (IH V' 0). lia.
      * exfalso. rewrite pieceN_some in F by assumption. discriminate.
Qed.
Lemma row_of_abs p r : r < 9 -> row_of (abs p) (Z.of_N r + 1) = map (fun s => pieceN (pieceAt p s)) (rankSquares r).
Proof.
  intros H. unfold row_of, rankSquares. rewrite map_map.
  assert (X : forall f, f < 9 -> at_square (abs p) (Z.of_N f + 1, Z.of_N r + 1)%Z = pieceN (pieceAt p (makeSquare f r))).
  { intros f Hf. rewrite <- abs_at by (unfold makeSquare; lia). f_equal. unfold squareN, makeSquare. rewrite (N.mul_comm f 9) , N.add_comm, N.mul_comm, N.div_add, N.div_small, N.mod_add, N.mod_small by lia. reflexivity. }
  cbn [map]. rewrite <- !X by reflexivity. reflexivity.
Qed.
Lemma rows_print p : okBoard (board p) -> board_text (abs p) (sa (boardChars p)).
Proof.
  intros B. assert (R : forall r, r < 9 -> row_text (row_of (abs p) (Z.of_N r + 1)) (sa (rowChars p 0 (rankSquares r)))).
  { intros r H. rewrite row_of_abs by exact H. assert (V : forall s, In s (rankSquares r) -> vpc (pieceAt p s) = true).
    { intros s Hs. apply B. apply order_lt. apply in_flat_map. exists r. split; [|exact Hs]. apply in_seqN. lia. }
    exact (row_prints p (rankSquares r) V 0 (N.le_refl 9)). }
  unfold boardChars, board_text. change (seqN 0 9) with [0; 1; 2; 3; 4; 5; 6; 7; 8]. cbn [flat_map].
  repeat match goal with |- context [?a =? 8] => let b := eval vm_compute in (a =? 8) in change (a =? 8) with b end. cbv iota. rewrite <- !app_assoc. cbn [app]. rewrite !app_nil_r.
  repeat (rewrite sa_app, sa_cons; apply rows_more; [match goal with |- row_text _ (sa (rowChars p 0 (rankSquares ?r))) => exact (R r eq_refl) end|]).
  apply rows_last. exact (R 8 eq_refl).
Qed.
(* hands *)
Definition handPairs : list (color * kind) := list_prod [Sente; Gote] (map slotKind handOrder).
Definition handNum (p : Position) (x : color * kind) : Z := Z.of_N (numOf (handOf p (ncolor (fst x))) (slotOf (snd x))).
Definition handItems (p : Position) : list (color * kind * Z) := map (fun x => (x, handNum p x)) (filter (fun x => negb (handNum p x =? 0)%Z) handPairs).
Lemma handPairs_facts : NoDup handPairs /\ forall c k, In (c, k) handPairs <-> In k hand_kinds.
Proof.
  split.
  - repeat constructor; cbn; intuition discriminate.
  - intros c k. destruct c, k; cbn; intuition discriminate.
Qed.
Lemma item_chars p c k : In k hand_kinds -> handItem p (ncolor c) (slotOf k) =
  if (handNum p (c, k) =? 0)%Z then [] else (if (handNum p (c, k) =? 1)%Z then [] else printN (Z.to_N (handNum p (c, k)))) ++ [sfen_letter c k].
Proof.
  intros I. unfold handItem, handNum. cbn [fst snd]. set (n := numOf (handOf p (ncolor c)) (slotOf k)).
  rewrite N2Z.id. destruct (N.eqb_spec n 0) as [->|N0]; [reflexivity|]. destruct (Z.eqb_spec (Z.of_N n) 0); [lia|]. f_equal.
  - destruct (N.eqb_spec n 1), (Z.eqb_spec (Z.of_N n) 1); auto; lia.
  - clear - I. cbn in I. decompose [or] I; subst; try contradiction; destruct c; reflexivity.
Qed.
Lemma items_print p l : (forall x, In x l -> In (snd x) hand_kinds) ->
  items_text (map (fun x => (x, handNum p x)) (filter (fun x => negb (handNum p x =? 0)%Z) l)) (sa (flat_map (fun x => handItem p (ncolor (fst x)) (slotOf (snd x))) l)).
Proof.
  induction l as [|[c k] l IH]; intros H; [constructor|]. cbn [flat_map fst snd filter]. rewrite item_chars by (apply (H (c, k)); now left).
  assert (IH' := IH (fun x Hx => H x (or_intror Hx))). destruct (Z.eqb_spec (handNum p (c, k)) 0) as [E|E]; cbn [negb]; [exact IH'|]. cbn [map].
  rewrite <- app_assoc, sa_app. cbn [app]. rewrite sa_cons.
  assert (0 <= handNum p (c, k))%Z by apply N2Z.is_nonneg. apply items_next; [apply (H (c, k)); now left|lia| |exact IH'].
  destruct (Z.eqb_spec (handNum p (c, k)) 1) as [E1|E1]; [left; auto|right]. rewrite <- (Z2N.id (handNum p (c, k))) at 2 by assumption. apply printN_numeral.
Qed.
Lemma hand_zero h : handOk h -> (forall hp, hp < 7 -> numOf h hp = 0) -> h = 0.
Proof. intros O H. apply handOk_ext; auto; [reflexivity|]. intros hp Hh. rewrite H by exact Hh. hpcases Hh; reflexivity. Qed.
Lemma handPairs_chars p : flat_map (fun c => flat_map (handItem p c) handOrder) [Black; White] = flat_map (fun x => handItem p (ncolor (fst x)) (slotOf (snd x))) handPairs.
Proof. unfold handPairs, handOrder. cbn [flat_map map list_prod app fst snd]. rewrite <- !app_assoc, !app_nil_r. cbn [app]. rewrite ?app_nil_r. reflexivity. Qed.
Lemma in_hand_num p c k : In k hand_kinds -> in_hand (abs p) c k = handNum p (c, k).
Proof. intros I. cbn [abs in_hand]. destruct (hand_kind_facts k I) as (_ & -> & _). reflexivity. Qed.
Lemma handItems_facts p : NoDup (map fst (handItems p)) /\ forall c k, In k hand_kinds -> forall n, In (c, k, n) (handItems p) <-> in_hand (abs p) c k = n /\ (1 <= n)%Z.
Proof.
  destruct handPairs_facts as [ND HP]. split; [unfold handItems; rewrite map_map; cbn [fst]; rewrite map_id; now apply NoDup_filter|].
  intros c k I n. rewrite in_hand_num by exact I. unfold handItems. rewrite in_map_iff. assert (0 <= handNum p (c, k))%Z by apply N2Z.is_nonneg. split.
  - intros ([c' k'] & E & F). apply filter_In in F as [_ F]. apply negb_true_iff, Z.eqb_neq in F. injection E as -> -> <-. split; [reflexivity|lia].
  - intros [E G]. exists (c, k). rewrite E. split; [reflexivity|]. apply filter_In. split; [now apply HP|]. apply negb_true_iff, Z.eqb_neq. lia.
Qed.
Lemma handItems_some p c : okHands p -> c < 2 -> handOf p c <> 0 -> handItems p <> [].
Proof.
  intros [L O] Hc H E. apply H. apply hand_zero; [now apply O|]. intros hp Hh. destruct (slotKind_ok hp Hh) as (A & B & _). destruct (hand_kind_facts _ B) as (_ & D & _). rewrite A in D. injection D as D.
  destruct (handItems_facts p) as [_ X]. specialize (X (colorN c) _ B (Z.of_N (numOf (handOf p c) hp))). rewrite E in X. rewrite in_hand_num in X by exact B. unfold handNum in X. cbn [fst snd In] in X. rewrite color_inv, <- D in X by exact Hc. lia.
Qed.
Lemma hand_prints p : okHands p -> hand_text (abs p) (sa (handChars p)).
Proof.
  intros O. unfold handChars. destruct ((handOf p Black =? 0) && (handOf p White =? 0)) eqn:E.
  - left. split; [reflexivity|]. apply andb_true_iff in E as [E0 E1]. apply N.eqb_eq in E0, E1. intros c k. cbn [abs in_hand]. destruct (handSlot k) as [hp|] eqn:E; [|reflexivity]. apply slotKind_inv in E as [Lh _].
    assert (Z : forall hp, hp < 7 -> Z.of_N (numOf 0 hp) = 0%Z) by (clear; intros hp H; hpcases H; reflexivity).
    destruct c; cbn [ncolor]; [unfold Black in E0; rewrite E0|unfold White in E1; rewrite E1]; now apply Z.
  - right. exists (handItems p). destruct (handItems_facts p) as [A B]. split; [|split; [|split; assumption]].
    + apply andb_false_iff in E as [E|E]; apply N.eqb_neq in E; [apply (handItems_some p Black O eq_refl E)|apply (handItems_some p White O eq_refl E)].
    + rewrite handPairs_chars. apply items_print. intros [c k] I. now apply handPairs_facts in I.
Qed.
Lemma sfen_parts p : good p -> sa (sfenChars p) = (sa (boardChars p) ++ " " ++ side_text (abs p) ++ " " ++ sa (handChars p) ++ " " ++ sa (printZ (gamePly p)))%string.
Proof.
  intros G. unfold sfenChars, side_text. rewrite sa_app. f_equal. cbn [app]. rewrite !sa_cons, sa_app, sa_cons. change (side (abs p)) with (colorN (turn p)). 
  assert (turn p < 2) by apply G. assert (turn p = 0 \/ turn p = 1) as [->| ->] by lia; reflexivity.
Qed.
Theorem sfen_prints p : good p -> (0 <= gamePly p)%Z -> sfen_denotes (sa (sfenChars p)) (abs p) (gamePly p).
Proof.
  intros G H. exists (sa (boardChars p)), (sa (handChars p)), (sa (printZ (gamePly p))). split; [apply rows_print; apply G|]. split; [apply hand_prints; apply G|]. split; [now apply printZ_numeral|]. now apply sfen_parts.
Qed.
(* also with a negative move number *)
Lemma readInt_printZ n : (- intMax - 1 <= n <= intMax)%Z -> readInt (la (sa (printZ n))) = n.
Proof.
  intros H. destruct (Z.ltb_spec n 0) as [L|L]; [|apply readInt_numeral; [now apply printZ_numeral|lia]]. unfold printZ. destruct (Z.ltb_spec n 0); [|lia]. rewrite sa_cons, la_cons. unfold readInt. cbn [skipSpaces]. change (isSpace "-") with false. cbv iota.
  destruct (numeral_chars _ _ (printN_numeral (Z.to_N (- n)))) as (_ & F & V). rewrite (readDigits_all _ 0 F). lia.
Qed.
Theorem sfen_rereads z p : good p -> (- intMax - 1 <= gamePly p <= intMax)%Z -> exists q, setSfenPos z (la (sa (sfenChars p))) = Done q /\ fresh z q /\ same_position (abs q) (abs p) /\ gamePly q = gamePly p.
Proof.
  intros G H. rewrite sfen_parts by exact G. apply parts_read; [apply rows_print; apply G|apply hand_prints; apply G|now apply readInt_printZ|now apply good_proper].
Qed.
