(* Move texts: what is printed, and that it is read back. *)
From Verif Require Export MoveText TextSpec GenClaims EnumN.
Local Open Scope N_scope.

Lemma digit_N n : (1 <= n <= 9)%Z -> N_of_ascii (digit_char n) = 48 + Z.to_N n.
Proof. intros H. unfold digit_char. rewrite N_ascii_embedding; lia. Qed.
Lemma letter_N n : (1 <= n <= 9)%Z -> N_of_ascii (letter_char n) = 96 + Z.to_N n.
Proof. intros H. unfold letter_char. rewrite N_ascii_embedding; lia. Qed.
Lemma file_digit n : (1 <= n <= 9)%Z -> fileOfChar (digit_char n) = Some (Z.to_N n - 1).
Proof. intros H. unfold fileOfChar. rewrite digit_N by auto. cbv zeta. assert (E : (49 <=? 48 + Z.to_N n) && (48 + Z.to_N n <=? 57) = true) by lia. rewrite E. f_equal. lia. Qed.
Lemma rank_letter n : (1 <= n <= 9)%Z -> rankOfCharUSI (letter_char n) = Some (Z.to_N n - 1).
Proof. intros H. unfold rankOfCharUSI. rewrite letter_N by auto. cbv zeta. assert (E : (97 <=? 96 + Z.to_N n) && (96 + Z.to_N n <=? 105) = true) by lia. rewrite E. f_equal. lia. Qed.
Lemma digit_inj a b : (1 <= a <= 9)%Z -> (1 <= b <= 9)%Z -> digit_char a = digit_char b -> a = b.
Proof. intros A B E. apply (f_equal N_of_ascii) in E. rewrite !digit_N in E by auto. lia. Qed.
Lemma letter_inj a b : (1 <= a <= 9)%Z -> (1 <= b <= 9)%Z -> letter_char a = letter_char b -> a = b.
Proof. intros A B E. apply (f_equal N_of_ascii) in E. rewrite !letter_N in E by auto. lia. Qed.
Ltac nine n := assert (n = 1 \/ n = 2 \/ n = 3 \/ n = 4 \/ n = 5 \/ n = 6 \/ n = 7 \/ n = 8 \/ n = 9)%Z as [->|[->|[->|[->|[->|[->|[->|[->| ->]]]]]]]] by lia.
Lemma digit_no_piece n : (1 <= n <= 9)%Z -> ptOfCharUSI (digit_char n) = None.
Proof. intros H. nine n; reflexivity. Qed.
Lemma digit_no_zero n : (1 <= n <= 9)%Z -> Ascii.eqb (digit_char n) "0"%char = false.
Proof. intros H. nine n; reflexivity. Qed.
Lemma square_number s : on_board s -> (Z.to_N (fst s) - 1) * 9 + (Z.to_N (snd s) - 1) = nsquare s.
Proof. intros (A & B). unfold nsquare. lia. Qed.

(* printing *)
Lemma squareUSI_spec s : on_board s -> squareUSI (nsquare s) = usi_square s.
Proof.
  intros B. pose proof B as (A1 & A2). unfold squareUSI, usi_square, fileChar, rankCharUSI, digit_char, letter_char, makeFile, makeRank. rewrite <- square_number by auto.
  replace (((Z.to_N (fst s) - 1) * 9 + (Z.to_N (snd s) - 1)) / 9) with (Z.to_N (fst s) - 1) by lia. replace (((Z.to_N (fst s) - 1) * 9 + (Z.to_N (snd s) - 1)) mod 9) with (Z.to_N (snd s) - 1) by lia.
  replace (49 + (Z.to_N (fst s) - 1)) with (Z.to_N (48 + fst s)) by lia. replace (97 + (Z.to_N (snd s) - 1)) with (Z.to_N (96 + snd s)) by lia. reflexivity.
Qed.
Lemma squareCSA_spec s : on_board s -> squareCSA (nsquare s) = csa_square s.
Proof.
  intros B. pose proof B as (A1 & A2). unfold squareCSA, csa_square, fileChar, rankCharCSA, digit_char, makeFile, makeRank. rewrite <- square_number by auto.
  replace (((Z.to_N (fst s) - 1) * 9 + (Z.to_N (snd s) - 1)) / 9) with (Z.to_N (fst s) - 1) by lia. replace (((Z.to_N (fst s) - 1) * 9 + (Z.to_N (snd s) - 1)) mod 9) with (Z.to_N (snd s) - 1) by lia.
  replace (49 + (Z.to_N (fst s) - 1)) with (Z.to_N (48 + fst s)) by lia. replace (49 + (Z.to_N (snd s) - 1)) with (Z.to_N (48 + snd s)) by lia. reflexivity.
Qed.
Lemma drop_nonzero k t : codeOf (nsquare t) (80 + nkind k) false 0 0 =? 0 = false.
Proof. apply N.eqb_neq. unfold codeOf. lia. Qed.
Lemma toUSI_drop p k t : on_board t -> In k hand_kinds -> toUSI (code p (Drop k t)) = usi_text (Drop k t).
Proof.
  intros Bt K. destruct (drop_fields p k t Bt) as (D & Et & F & _). unfold toUSI. rewrite D, Et. rewrite code_drop at 1. rewrite drop_nonzero, F, squareUSI_spec by auto.
  cbn [usi_text]. destruct k; cbn [hand_kinds In] in K; try (exfalso; decompose [or] K; discriminate || assumption); reflexivity.
Qed.
Lemma toUSI_go p s t pr : on_board s -> on_board t -> pieceAt p (nsquare s) mod 16 <> 0 -> toUSI (code p (Go s t pr)) = usi_text (Go s t pr).
Proof.
  intros Bs Bt NZ. pose proof (nsquare_lt s Bs). pose proof (nsquare_lt t Bt). rewrite code_go. pose proof (ptOf_lt (pieceAt p (nsquare s))). pose proof (ptOf_lt (pieceAt p (nsquare t))).
  destruct (code_fields (nsquare t) (nsquare s) pr (ptOf (pieceAt p (nsquare s))) (ptOf (pieceAt p (nsquare t)))) as (A & B & C & _); try lia. rewrite <- ptOf_arith in NZ. set (m := codeOf _ _ _ _ _) in *.
  assert (Z : (m =? 0) = false) by (apply N.eqb_neq; unfold m, codeOf; lia). unfold toUSI. rewrite Z. unfold mvDrop. rewrite A, B, C. destruct (N.leb_spec 81 (nsquare s)); [lia|]. rewrite !squareUSI_spec by auto. reflexivity.
Qed.
(* reading *)
Lemma file_of_char c f : fileOfChar c = Some f -> f < 9 /\ c = digit_char (Z.of_N f + 1).
Proof.
  unfold fileOfChar. cbv zeta. destruct ((49 <=? N_of_ascii c) && (N_of_ascii c <=? 57)) eqn:E; [|discriminate]. intros H. injection H as <-. split; [lia|].
  unfold digit_char. replace (Z.to_N (48 + (Z.of_N (N_of_ascii c - 49) + 1))) with (N_of_ascii c) by lia. symmetry. apply ascii_N_embedding.
Qed.
Lemma rank_of_char c r : rankOfCharUSI c = Some r -> r < 9 /\ c = letter_char (Z.of_N r + 1).
Proof.
  unfold rankOfCharUSI. cbv zeta. destruct ((97 <=? N_of_ascii c) && (N_of_ascii c <=? 105)) eqn:E; [|discriminate]. intros H. injection H as <-. split; [lia|].
  unfold letter_char. replace (Z.to_N (96 + (Z.of_N (N_of_ascii c - 97) + 1))) with (N_of_ascii c) by lia. symmetry. apply ascii_N_embedding.
Qed.
Definition sq (f r : N) : square := (Z.of_N f + 1, Z.of_N r + 1)%Z.
Lemma sq_on f r : f < 9 -> r < 9 -> on_board (sq f r) /\ nsquare (sq f r) = f * 9 + r.
Proof. intros A B. unfold on_board, nsquare, sq. cbn [fst snd]. lia. Qed.
Lemma code_nonpromote p s t : on_board s -> on_board t -> makeNonPromoteMove p (ptOf (pieceAt p (nsquare s))) (nsquare s) (nsquare t) = code p (Go s t false).
Proof.
  intros A B. pose proof (nsquare_lt s A). pose proof (nsquare_lt t B). rewrite nonpromote_code by auto. unfold enc. rewrite (proj2 (N.ltb_lt _ _)) by auto. now rewrite code_go.
Qed.
Lemma code_promote p s t : on_board s -> on_board t -> makePromoteMove p (ptOf (pieceAt p (nsquare s))) (nsquare s) (nsquare t) = code p (Go s t true).
Proof.
  intros A B. pose proof (nsquare_lt s A). pose proof (nsquare_lt t B). rewrite promote_code by auto. unfold enc. rewrite (proj2 (N.ltb_lt _ _)) by auto. now rewrite code_go.
Qed.
Lemma code_dropping p k t : on_board t -> makeDropMove (nkind k) (nsquare t) = code p (Drop k t).
Proof.
  intros B. pose proof (nsquare_lt t B). pose proof (nkind_lt k). rewrite (drop_code p) by auto. unfold enc. rewrite (proj2 (N.ltb_ge _ _)) by lia. now rewrite code_drop.
Qed.
Lemma accept_go p s t pr : on_board s -> on_board t -> accept p (code p (Go s t pr)) = Some (if boardMoveIsLegal p (code p (Go s t pr)) then code p (Go s t pr) else 0).
Proof. intros A B. unfold accept. destruct (go_fields p s t pr A B) as (_ & _ & D & _). now rewrite D. Qed.
Lemma accept_drop p k t : on_board t -> In k hand_kinds -> accept p (code p (Drop k t)) = Some (if boardMoveIsLegal p (code p (Drop k t)) then code p (Drop k t) else 0).
Proof.
  intros B K. unfold accept. destruct (drop_fields p k t B) as (_ & D & E & _). rewrite D, E. assert (X : (ptToHand (nkind k) =? 7) = false) by (cbn [hand_kinds In] in K; decompose [or] K; subst; try reflexivity; contradiction). now rewrite X.
Qed.
Lemma charAt_0 c s : charAt (String c s) 0 = Some c. Proof. reflexivity. Qed.
Lemma charAt_S c s i : charAt (String c s) (S i) = charAt s i. Proof. reflexivity. Qed.
Lemma charAt_end : charAt EmptyString 0 = Some Ascii.zero. Proof. reflexivity. Qed.
Lemma charAt_out i : charAt EmptyString (S i) = None. Proof. reflexivity. Qed.
Lemma read_usi_go p s t pr : on_board s -> on_board t -> usiToMove p (usi_text (Go s t pr)) = accept p (code p (Go s t pr)).
Proof.
  intros A B. pose proof A as (A1 & A2). pose proof B as (B1 & B2). unfold usiToMove, readSquare. cbn [usi_text]. unfold usi_square. cbn [append]. rewrite !charAt_S, !charAt_0.
  rewrite digit_no_piece, !file_digit, !rank_letter, !square_number by auto. destruct pr.
  - rewrite ?charAt_S, ?charAt_0, ?charAt_end. change (Ascii.eqb "+" Ascii.zero) with false. change (Ascii.eqb "+" "+") with true. change (negb (Ascii.eqb Ascii.zero Ascii.zero)) with false. cbv iota. now rewrite code_promote.
  - rewrite ?charAt_S, ?charAt_0, ?charAt_end. change (Ascii.eqb Ascii.zero Ascii.zero) with true. cbv iota. now rewrite code_nonpromote.
Qed.
Lemma letter_piece k : In k hand_kinds -> exists c, usi_letter k = String c EmptyString /\ ptOfCharUSI c = Some (nkind k).
Proof. intros K. cbn [hand_kinds In] in K. decompose [or] K; subst; try contradiction; eexists; split; reflexivity. Qed.
Lemma read_usi_drop p k t : on_board t -> In k hand_kinds -> usiToMove p (usi_text (Drop k t)) = accept p (code p (Drop k t)).
Proof.
  intros B K. pose proof B as (B1 & B2). destruct (letter_piece k K) as (c & E & P). unfold usiToMove, readSquare. cbn [usi_text]. unfold usi_square. rewrite E. cbn [append]. rewrite !charAt_S, !charAt_0.
  rewrite P. change (negb (Ascii.eqb "*" "*")) with false. cbv iota. rewrite !file_digit, !rank_letter, !square_number by auto. now rewrite (code_dropping p).
Qed.
Lemma accept_some p m r : accept p m = Some r -> r <> 0 -> r = m /\ boardMoveIsLegal p m = true /\ (mvDrop m = true -> ptToHand (mvPtDropped m) <> 7).
Proof.
  unfold accept. destruct (mvDrop m && (ptToHand (mvPtDropped m) =? 7)) eqn:E; [discriminate|]. intros H N. injection H as <-. destruct (boardMoveIsLegal p m); [|congruence]. split; auto. split; auto.
  intros D. rewrite D, andb_true_l in E. now apply N.eqb_neq.
Qed.
Lemma accept_none p m : accept p m = None -> mvDrop m = true /\ ptToHand (mvPtDropped m) = 7.
Proof. unfold accept. destruct (mvDrop m && (ptToHand (mvPtDropped m) =? 7)) eqn:E; [|discriminate]. intros _. apply andb_prop in E as [A B]. split; auto. now apply N.eqb_eq. Qed.
Lemma read_square_ok rank s i v : readSquare rank s i = Some (Some v) -> exists a b f r, charAt s i = Some a /\ charAt s (S i) = Some b /\ fileOfChar a = Some f /\ rank b = Some r /\ v = f * 9 + r.
Proof.
  unfold readSquare. destruct (charAt s i) as [a|]; [|discriminate]. destruct (charAt s (S i)) as [b|]; [|discriminate]. destruct (fileOfChar a) as [f|] eqn:F; [|discriminate]. destruct (rank b) as [r|] eqn:R; [|discriminate].
  intros H. injection H as <-. exists a, b, f, r. auto.
Qed.
Lemma file_not_zero f : fileOfChar Ascii.zero = Some f -> False. Proof. discriminate. Qed.
Lemma rank_not_zero f : rankOfCharUSI Ascii.zero = Some f -> False. Proof. discriminate. Qed.
Lemma piece_letter c pt : ptOfCharUSI c = Some pt -> pt <> 8 -> exists k, In k hand_kinds /\ pt = nkind k /\ (String c EmptyString = usi_letter k \/ String c EmptyString = small_letter k).
Proof.
  intros H N. destruct c as [b0 b1 b2 b3 b4 b5 b6 b7]; destruct b0, b1, b2, b3, b4, b5, b6, b7; cbn in H; try discriminate H; injection H as <-; try (exfalso; apply N; reflexivity);
    first [exists FU; split; [cbn; tauto|]; split; [reflexivity|]; (left; reflexivity) || (right; reflexivity)
          |exists KY; split; [cbn; tauto|]; split; [reflexivity|]; (left; reflexivity) || (right; reflexivity)
          |exists KE; split; [cbn; tauto|]; split; [reflexivity|]; (left; reflexivity) || (right; reflexivity)
          |exists GI; split; [cbn; tauto|]; split; [reflexivity|]; (left; reflexivity) || (right; reflexivity)
          |exists KI; split; [cbn; tauto|]; split; [reflexivity|]; (left; reflexivity) || (right; reflexivity)
          |exists KA; split; [cbn; tauto|]; split; [reflexivity|]; (left; reflexivity) || (right; reflexivity)
          |exists HI; split; [cbn; tauto|]; split; [reflexivity|]; (left; reflexivity) || (right; reflexivity)].
Qed.
(* every character that is read lies in the string *)
Lemma charAt_nonzero s i c : charAt s i = Some c -> c <> Ascii.zero -> exists a rest, s = (a ++ String c rest)%string /\ String.length a = i.
Proof.
  revert i. induction s as [|x s IH]; intros [|i] H N; try discriminate.
  - cbn in H. congruence.
  - cbn in H. injection H as ->. exists EmptyString, s. auto.
  - rewrite charAt_S in H. destruct (IH i H N) as (a & rest & -> & L). exists (String x a), rest. cbn. auto.
Qed.
Theorem usi_accepted p s m : usiToMove p s = Some m -> m <> 0 -> exists mv, usi_reads s mv /\ m = code p mv /\ boardMoveIsLegal p m = true.
Proof.
  intros H N. unfold usiToMove in H. destruct s as [|c0 s]; [discriminate H||(cbn in H; congruence)|]. rewrite charAt_0 in H. destruct (ptOfCharUSI c0) as [pt|] eqn:P.
  - rewrite charAt_S in H. destruct (charAt s 0) as [c1|] eqn:C1; [|discriminate]. destruct (Ascii.eqb_spec c1 "*"%char) as [->|]; cbn [negb] in H; [|congruence].
    destruct s as [|x s]; [discriminate C1|]. rewrite charAt_0 in C1. injection C1 as ->.
    destruct (readSquare rankOfCharUSI (String c0 (String "*" s)) 2) as [[to|]|] eqn:R; try congruence. apply read_square_ok in R as (a & b & f & r & A & B & F & Rk & ->). rewrite !charAt_S in A, B.
    destruct s as [|a' s]; [cbn in A; injection A as <-; discriminate F|]. rewrite charAt_0 in A. injection A as ->. rewrite charAt_S in B. destruct s as [|b' s]; [cbn in B; injection B as <-; discriminate Rk|]. rewrite charAt_0 in B. injection B as ->.
    apply file_of_char in F as [Hf ->]. apply rank_of_char in Rk as [Hr ->]. destruct (sq_on f r Hf Hr) as [On Nq]. rewrite <- Nq in H.
    assert (N8 : pt <> 8). { intros ->. change 8 with (nkind OU) in H. rewrite (code_dropping p) in H by auto. unfold accept in H. destruct (drop_fields p OU (sq f r) On) as (_ & D & E & _). rewrite D, E in H. discriminate H. }
    destruct (piece_letter c0 pt P N8) as (k & K & -> & L). rewrite (code_dropping p) in H by auto. apply accept_some in H as (-> & L1 & _); auto. exists (Drop k (sq f r)). split; [|auto].
    split; auto. split; auto. exists s. destruct L as [L|L]; [left|right]; cbn [usi_text]; rewrite <- L; reflexivity.
  - destruct (readSquare rankOfCharUSI (String c0 s) 0) as [[from|]|] eqn:R; try congruence. apply read_square_ok in R as (a & b & f & r & A & B & F & Rk & ->). rewrite charAt_0 in A. injection A as ->. rewrite charAt_S in B.
    destruct s as [|b' s]; [cbn in B; injection B as <-; discriminate Rk|]. rewrite charAt_0 in B. injection B as ->.
    destruct (readSquare rankOfCharUSI _ 2) as [[to|]|] eqn:R2 in H; try congruence. apply read_square_ok in R2 as (a2 & b2 & f2 & r2 & A2 & B2 & F2 & Rk2 & ->). rewrite !charAt_S in A2, B2.
    destruct s as [|a' s]; [cbn in A2; injection A2 as <-; discriminate F2|]. rewrite charAt_0 in A2. injection A2 as ->. rewrite charAt_S in B2. destruct s as [|b' s]; [cbn in B2; injection B2 as <-; discriminate Rk2|]. rewrite charAt_0 in B2. injection B2 as ->.
    apply file_of_char in F as [Hf ->]. apply rank_of_char in Rk as [Hr ->]. apply file_of_char in F2 as [Hf2 ->]. apply rank_of_char in Rk2 as [Hr2 ->].
    destruct (sq_on f r Hf Hr) as [On Nq]. destruct (sq_on f2 r2 Hf2 Hr2) as [On2 Nq2]. rewrite <- Nq, <- Nq2 in H. rewrite !charAt_S in H.
    destruct (charAt s 0) as [c4|] eqn:C4; [|discriminate]. destruct (Ascii.eqb_spec c4 Ascii.zero) as [->|N0].
    + rewrite code_nonpromote in H by auto. apply accept_some in H as (-> & L1 & _); auto. exists (Go (sq f r) (sq f2 r2) false). split; [|auto]. split; auto. split; auto. cbn [usi_text usi_square append].
      destruct s as [|c s]; [left; reflexivity|]. rewrite charAt_0 in C4. injection C4 as ->. right. exists s. reflexivity.
    + destruct (Ascii.eqb_spec c4 "+"%char) as [->|]; [|congruence]. destruct s as [|c s]; [cbn in C4; congruence|]. rewrite charAt_0 in C4. injection C4 as ->. rewrite charAt_S in H.
      destruct (charAt s 0) as [c5|] eqn:C5; [|discriminate]. destruct (Ascii.eqb_spec c5 Ascii.zero) as [->|]; cbn [negb] in H; [|congruence].
      rewrite code_promote in H by auto. apply accept_some in H as (-> & L1 & _); auto. exists (Go (sq f r) (sq f2 r2) true). split; [|auto]. split; auto. split; auto. cbn [usi_text usi_square append].
      destruct s as [|c s]; [left; reflexivity|]. rewrite charAt_0 in C5. injection C5 as ->. right. exists s. reflexivity.
Qed.
(* where the C++ code reads outside its objects *)
Theorem usi_unsafe p s : usiToMove p s = None -> s = EmptyString \/ String.length s = 2%nat \/ exists rest, s = String "K" rest \/ s = String "k" rest.
Proof.
  intros H. unfold usiToMove in H. destruct s as [|c0 s]; [left; reflexivity|]. right. rewrite charAt_0 in H. destruct (ptOfCharUSI c0) as [pt|] eqn:P.
  - destruct s as [|c1 s]; [discriminate H|]. rewrite charAt_S, charAt_0 in H. destruct (negb (Ascii.eqb c1 "*")); [discriminate|].
    unfold readSquare in H. rewrite !charAt_S in H. destruct s as [|c2 s]; [left; reflexivity|]. rewrite charAt_0, charAt_S in H.
    destruct s as [|c3 s]; [rewrite charAt_end in H; destruct (fileOfChar c2); discriminate H|]. rewrite charAt_0 in H. destruct (fileOfChar c2) as [f|] eqn:F; [|discriminate]. destruct (rankOfCharUSI c3) as [r|] eqn:Rk; [|discriminate].
    right. destruct (N.eq_dec pt 8) as [->|N8].
    { exists (String c1 (String c2 (String c3 s))). clear - P. destruct c0 as [b0 b1 b2 b3 b4 b5 b6 b7]; destruct b0, b1, b2, b3, b4, b5, b6, b7; cbn in P; try discriminate P; (left; reflexivity) || (right; reflexivity). }
    exfalso. destruct (piece_letter c0 pt P N8) as (k & K & -> & _). apply file_of_char in F as [Hf _]. apply rank_of_char in Rk as [Hr _]. destruct (sq_on f r Hf Hr) as [On Nq]. rewrite <- Nq in H.
    rewrite (code_dropping p), accept_drop in H by auto. discriminate.
  - destruct s as [|c1 s]; [cbn in H; destruct (fileOfChar c0); discriminate H|]. unfold readSquare in H. rewrite !charAt_S, !charAt_0 in H. destruct (fileOfChar c0) as [f|] eqn:F; [|discriminate]. destruct (rankOfCharUSI c1) as [r|] eqn:Rk; [|discriminate].
    destruct s as [|c2 s]; [left; reflexivity|]. exfalso. rewrite charAt_0, charAt_S in H. destruct s as [|c3 s]; [rewrite charAt_end in H; destruct (fileOfChar c2); discriminate H|]. rewrite charAt_0 in H.
    destruct (fileOfChar c2) as [f2|] eqn:F2; [|discriminate]. destruct (rankOfCharUSI c3) as [r2|] eqn:Rk2; [|discriminate].
    apply file_of_char in F as [Hf _]. apply rank_of_char in Rk as [Hr _]. apply file_of_char in F2 as [Hf2 _]. apply rank_of_char in Rk2 as [Hr2 _].
    destruct (sq_on f r Hf Hr) as [On Nq]. destruct (sq_on f2 r2 Hf2 Hr2) as [On2 Nq2]. rewrite <- Nq, <- Nq2 in H. rewrite !charAt_S in H.
    destruct s as [|c4 s].
    + rewrite charAt_end in H. change (Ascii.eqb Ascii.zero Ascii.zero) with true in H. cbv iota in H. rewrite code_nonpromote, accept_go in H by auto. discriminate.
    + rewrite charAt_0 in H. destruct (Ascii.eqb c4 Ascii.zero); [rewrite code_nonpromote, accept_go in H by auto; discriminate|]. destruct (Ascii.eqb c4 "+"); [|discriminate]. rewrite charAt_S in H.
      destruct s as [|c5 s]; [rewrite charAt_end in H; change (negb (Ascii.eqb Ascii.zero Ascii.zero)) with false in H; cbv iota in H|rewrite charAt_0 in H; destruct (negb (Ascii.eqb c5 Ascii.zero)); [discriminate|]];
        rewrite code_promote, accept_go in H by auto; discriminate.
Qed.
Lemma accepted_piece p s t pr : good p -> on_board s -> on_board t -> boardMoveIsLegal p (code p (Go s t pr)) = true -> exists k, at_square (abs p) s = Some (side (abs p), k) /\ ptOf (pieceAt p (nsquare s)) = nkind k.
Proof.
  intros G A B H. destruct (go_fields p s t pr A B) as (Et & Ef & Ed & _ & Ep & _). unfold boardMoveIsLegal in H. apply andb_prop in H as [H _]. unfold moveIsPseudoLegal in H. cbv zeta in H. rewrite Ed, Et, Ef, Ep in H.
  destruct (N.eqb_spec (pieceAt p (nsquare s)) (mkPiece (turn p) (ptOf (pieceAt p (nsquare s))))) as [E|]; [|discriminate]. cbn [negb orb] in H. destruct (isSet (bbC p (turn p)) (nsquare t)); [discriminate|].
  pose proof (nsquare_lt s A) as H0.
  destruct (N.eq_dec (pieceAt p (nsquare s)) 0) as [Z|NZ].
  { exfalso. rewrite Z in H. change (attacksFrom (ptOf 0) (turn p) (nsquare s) (occBB p)) with allZeroBB in H. rewrite isSet_zero in H. discriminate. }
  destruct (vpc_facts (pieceAt p (nsquare s)) (okB_at _ _ (good_ok p G) H0) NZ) as (R & _ & _).
  exists (kindN (ptOf (pieceAt p (nsquare s)))). rewrite kind_inv' by auto. split; auto. rewrite <- (square_inv' s A). cbn [side abs]. apply pieceN_kind; auto using good_ok, good_turn.
  rewrite square_inv' by auto. rewrite kind_inv' by auto. exact E.
Qed.
(* CSA *)
Lemma csa_name_kind s k : ptOfCSA s = Some k -> exists k', k = nkind k' /\ s = csa_name k'.
Proof.
  unfold ptOfCSA. destruct (find _ csaNames) as [[x y]|] eqn:F; [|discriminate]. intros H. injection H as <-. apply find_some in F as [I E]. apply String.eqb_eq in E. cbn [fst] in E. subst x. cbn [csaNames In] in I.
  repeat (destruct I as [I|I]; [injection I as <- <-;
    first [exists FU; split; reflexivity|exists KY; split; reflexivity|exists KE; split; reflexivity|exists GI; split; reflexivity|exists KA; split; reflexivity|exists HI; split; reflexivity|exists KI; split; reflexivity
          |exists OU; split; reflexivity|exists TO; split; reflexivity|exists NY; split; reflexivity|exists NK; split; reflexivity|exists NG; split; reflexivity|exists UM; split; reflexivity|exists RY; split; reflexivity]|]). contradiction.
Qed.
Lemma csa_kind_name k : ptOfCSA (csa_name k) = Some (nkind k). Proof. destruct k; reflexivity. Qed.
Lemma csa_name_text k : exists a b, csa_name k = String a (String b EmptyString). Proof. destruct k; eexists; eexists; reflexivity. Qed.
Lemma csa_name_inj k k' : csa_name k = csa_name k' -> k = k'. Proof. destruct k, k'; intros H; try reflexivity; discriminate. Qed.
Lemma pieceTypeString_kind k : pieceTypeString (nkind k) = csa_name k. Proof. destruct k; reflexivity. Qed.
Lemma promote_number k k' : promote k = Some k' <-> nkind k + 8 = nkind k'.
Proof. destruct k, k'; cbn; split; intros H; try discriminate H; try reflexivity; try (exfalso; lia). Qed.
Lemma read_csa_go p s t pr c k : good p -> on_board s -> on_board t -> ptOf (pieceAt p (nsquare s)) = nkind k -> at_square (abs p) s = Some (c, k) -> (pr = true -> promote k <> None) ->
  csaToMove p (csa_text (abs p) (Go s t pr)) = accept p (code p (Go s t pr)).
Proof.
  intros G A B K E PR. pose proof A as (A1 & A2). pose proof B as (B1 & B2). cbn [csa_text kind_after]. rewrite E.
  destruct pr.
  - destruct (promote k) as [k'|] eqn:Q; [|now destruct (PR eq_refl)]. apply promote_number in Q. destruct (csa_name_text k') as (a & b & N). unfold csaToMove, readSquare. unfold csa_square. rewrite N. cbn [append]. cbn [String.length].
    change (negb (Nat.eqb 6 6)) with false. cbv iota. rewrite !charAt_S, !charAt_0. change (rankOfCharCSA (digit_char (snd t))) with (fileOfChar (digit_char (snd t))). change (rankOfCharCSA (digit_char (snd s))) with (fileOfChar (digit_char (snd s))). rewrite !file_digit, !square_number by auto.
    change (substring 4 2 _) with (String a (String b EmptyString)). rewrite <- N, csa_kind_name. rewrite digit_no_zero by auto. cbn [andb]. cbv zeta. rewrite K. destruct (N.eqb_spec (nkind k) (nkind k')); [lia|]. rewrite <- Q, N.eqb_refl. rewrite <- K. now rewrite code_promote.
  - destruct (csa_name_text k) as (a & b & N). unfold csaToMove, readSquare. unfold csa_square. rewrite N. cbn [append]. cbn [String.length].
    change (negb (Nat.eqb 6 6)) with false. cbv iota. rewrite !charAt_S, !charAt_0. change (rankOfCharCSA (digit_char (snd t))) with (fileOfChar (digit_char (snd t))). change (rankOfCharCSA (digit_char (snd s))) with (fileOfChar (digit_char (snd s))). rewrite !file_digit, !square_number by auto.
    change (substring 4 2 _) with (String a (String b EmptyString)). rewrite <- N, csa_kind_name. rewrite digit_no_zero by auto. cbn [andb]. cbv zeta. rewrite K, N.eqb_refl. rewrite <- K. now rewrite code_nonpromote.
Qed.
Lemma read_csa_drop p k t : on_board t -> csaToMove p (csa_text (abs p) (Drop k t)) = accept p (code p (Drop k t)).
Proof.
  intros B. pose proof B as (B1 & B2). cbn [csa_text kind_after]. destruct (csa_name_text k) as (a & b & N). unfold csaToMove, readSquare. unfold csa_square. rewrite N. cbn [append]. cbn [String.length].
  change (negb (Nat.eqb 6 6)) with false. cbv iota. rewrite !charAt_S, !charAt_0. change (rankOfCharCSA (digit_char (snd t))) with (fileOfChar (digit_char (snd t))). rewrite !file_digit, !square_number by auto.
  change (substring 4 2 _) with (String a (String b EmptyString)). rewrite <- N, csa_kind_name. change (Ascii.eqb "0" "0" && Ascii.eqb "0" "0") with true. cbv iota. now rewrite (code_dropping p).
Qed.
Lemma toCSA_drop p k t : on_board t -> toCSA (code p (Drop k t)) = csa_text (abs p) (Drop k t).
Proof.
  intros Bt. destruct (drop_fields p k t Bt) as (D & Et & F & _). unfold toCSA, mvPtTo. rewrite D, Et. rewrite code_drop at 1. rewrite drop_nonzero, F, squareCSA_spec by auto. rewrite pieceTypeString_kind. reflexivity.
Qed.
Lemma toCSA_go p s t pr k : on_board s -> on_board t -> ptOf (pieceAt p (nsquare s)) = nkind k -> at_square (abs p) s = Some (side (abs p), k) -> (pr = true -> promote k <> None) -> toCSA (code p (Go s t pr)) = csa_text (abs p) (Go s t pr).
Proof.
  intros Bs Bt K E PR. destruct (go_fields p s t pr Bs Bt) as (Et & Ef & Ed & Epr & Ep & _). pose proof (nkind_lt k).
  assert (Z : (code p (Go s t pr) =? 0) = false). { apply N.eqb_neq. rewrite code_go, K. unfold codeOf. lia. }
  unfold toCSA. rewrite Z. unfold mvPtTo. rewrite Ed, mvPtToOf_eq, Et, Ef, Ep, Epr, K. rewrite !squareCSA_spec by auto. cbn [csa_text kind_after]. rewrite E.
  destruct pr.
  - destruct (promote k) as [k'|] eqn:Q; [|now destruct (PR eq_refl)]. apply promote_number in Q. rewrite Q, pieceTypeString_kind. reflexivity.
  - rewrite N.add_0_r, pieceTypeString_kind. reflexivity.
Qed.
Lemma six_chars s : String.length s = 6%nat -> exists a b c d e f, s = String a (String b (String c (String d (String e (String f EmptyString))))).
Proof. destruct s as [|a [|b [|c [|d [|e [|f [|g s]]]]]]]; try discriminate. intros _. exists a, b, c, d, e, f. reflexivity. Qed.
Theorem csa_accepted p s m : good p -> csaToMove p s = Some m -> m <> 0 ->
  exists mv, s = csa_text (abs p) mv /\ m = code p mv /\ boardMoveIsLegal p m = true /\ match mv with Drop k t => on_board t /\ k <> OU | Go a t _ => on_board a /\ on_board t end.
Proof.
  intros G H N. unfold csaToMove in H. destruct (Nat.eqb_spec (String.length s) 6) as [L|]; cbn [negb] in H; [|congruence]. destruct (six_chars s L) as (c0 & c1 & c2 & c3 & c4 & c5 & ->). clear L.
  destruct (readSquare rankOfCharCSA _ 2) as [[to|]|] eqn:R in H; try congruence. apply read_square_ok in R as (a & b & f & r & A & B & F & Rk & ->). cbn in A, B. injection A as <-. injection B as <-.
  change (substring 4 2 _) with (String c4 (String c5 EmptyString)) in H. destruct (ptOfCSA _) as [pt|] eqn:P in H; [|congruence]. apply csa_name_kind in P as (k & -> & NK). rewrite charAt_0, charAt_S, charAt_0 in H.
  change (rankOfCharCSA c3) with (fileOfChar c3) in Rk. apply file_of_char in F as [Hf ->]. apply file_of_char in Rk as [Hr ->]. destruct (sq_on f r Hf Hr) as [On Nq]. rewrite <- Nq in H.
  destruct (Ascii.eqb c0 "0" && Ascii.eqb c1 "0") eqn:Z.
  - apply andb_prop in Z as [Z0 Z1]. apply Ascii.eqb_eq in Z0, Z1. subst c0 c1. rewrite (code_dropping p) in H by auto. apply accept_some in H as (-> & L1 & L2); auto. exists (Drop k (sq f r)).
    cbn [csa_text kind_after]. rewrite <- NK. split; [reflexivity|]. split; auto. split; auto. split; auto. intros ->. destruct (drop_fields p OU (sq f r) On) as (_ & D & E & _). rewrite E in L2. now apply (L2 D).
  - destruct (readSquare rankOfCharCSA _ 0) as [[from|]|] eqn:R in H; try congruence. apply read_square_ok in R as (a & b & f2 & r2 & A & B & F & Rk & ->). rewrite charAt_0 in A. rewrite charAt_S, charAt_0 in B. injection A as <-. injection B as <-.
    change (rankOfCharCSA c1) with (fileOfChar c1) in Rk. apply file_of_char in F as [Hf2 ->]. apply file_of_char in Rk as [Hr2 ->]. destruct (sq_on f2 r2 Hf2 Hr2) as [On2 Nq2]. rewrite <- Nq2 in H. cbv zeta in H.
    destruct (N.eqb_spec (ptOf (pieceAt p (nsquare (sq f2 r2)))) (nkind k)) as [E|].
    + rewrite code_nonpromote in H by auto. apply accept_some in H as (-> & L1 & _); auto. exists (Go (sq f2 r2) (sq f r) false). destruct (accepted_piece p _ _ _ G On2 On L1) as (k0 & At & K0). assert (k0 = k) by (rewrite <- (kind_inv k0), <- (kind_inv k); congruence). subst k0.
      cbn [csa_text kind_after]. rewrite At, <- NK. auto.
    + destruct (N.eqb_spec (ptOf (pieceAt p (nsquare (sq f2 r2))) + 8) (nkind k)) as [E|]; [|congruence].
      rewrite code_promote in H by auto. apply accept_some in H as (-> & L1 & _); auto. exists (Go (sq f2 r2) (sq f r) true). destruct (accepted_piece p _ _ _ G On2 On L1) as (k0 & At & K0). rewrite K0 in E. apply promote_number in E.
      cbn [csa_text kind_after]. rewrite At, E, <- NK. auto.
Qed.
Theorem csa_unsafe p s : csaToMove p s = None <-> exists t, on_board t /\ s = ("00" ++ csa_square t ++ "OU")%string.
Proof.
  split.
  - intros H. unfold csaToMove in H. destruct (Nat.eqb_spec (String.length s) 6) as [L|]; cbn [negb] in H; [|congruence]. destruct (six_chars s L) as (c0 & c1 & c2 & c3 & c4 & c5 & ->). clear L.
    destruct (readSquare rankOfCharCSA _ 2) as [[to|]|] eqn:R in H; [|discriminate|discriminate R]. apply read_square_ok in R as (a & b & f & r & A & B & F & Rk & ->). cbn in A, B. injection A as <-. injection B as <-.
    change (substring 4 2 _) with (String c4 (String c5 EmptyString)) in H. destruct (ptOfCSA _) as [pt|] eqn:P in H; [|congruence]. apply csa_name_kind in P as (k & -> & NK). rewrite charAt_0, charAt_S, charAt_0 in H.
    change (rankOfCharCSA c3) with (fileOfChar c3) in Rk. apply file_of_char in F as [Hf ->]. apply file_of_char in Rk as [Hr ->]. destruct (sq_on f r Hf Hr) as [On Nq]. rewrite <- Nq in H.
    destruct (Ascii.eqb c0 "0" && Ascii.eqb c1 "0") eqn:Z.
    + apply andb_prop in Z as [Z0 Z1]. apply Ascii.eqb_eq in Z0, Z1. subst c0 c1. rewrite (code_dropping p) in H by auto. apply accept_none in H as [_ H]. destruct (drop_fields p k (sq f r) On) as (_ & _ & E & _). rewrite E in H.
      assert (k = OU) as -> by (destruct k; try reflexivity; discriminate H). exists (sq f r). split; auto. rewrite NK. reflexivity.
    + destruct (readSquare rankOfCharCSA _ 0) as [[from|]|] eqn:R in H; [|discriminate|discriminate R]. apply read_square_ok in R as (a & b & f2 & r2 & A & B & F & Rk & ->). rewrite charAt_0 in A. rewrite charAt_S, charAt_0 in B. injection A as <-. injection B as <-.
      change (rankOfCharCSA c1) with (fileOfChar c1) in Rk. apply file_of_char in F as [Hf2 ->]. apply file_of_char in Rk as [Hr2 ->]. destruct (sq_on f2 r2 Hf2 Hr2) as [On2 Nq2]. rewrite <- Nq2 in H. cbv zeta in H.
      destruct (_ =? nkind k); [rewrite code_nonpromote, accept_go in H by auto; discriminate|]. destruct (_ =? nkind k); [|discriminate]. rewrite code_promote, accept_go in H by auto. discriminate.
  - intros (t & On & ->). change ("00" ++ csa_square t ++ "OU")%string with (csa_text (abs p) (Drop OU t)). rewrite read_csa_drop by auto. unfold accept. destruct (drop_fields p OU t On) as (_ & D & E & _). now rewrite D, E.
Qed.

(* round trips for legal moves *)
Lemma legal_piece p s t pr : good p -> legal (abs p) (Go s t pr) -> exists k, at_square (abs p) s = Some (side (abs p), k) /\ ptOf (pieceAt p (nsquare s)) = nkind k /\ (pr = true -> promote k <> None) /\ on_board s /\ on_board t.
Proof.
  intros G [[PL _] _]. cbn [pseudo_legal] in PL. cbv zeta in PL. destruct PL as (Bs & Bt & k & At & _ & _ & H1 & _). exists k. split; auto. split.
  - pose proof (nsquare_lt s Bs). rewrite <- (square_inv' s Bs) in At. cbn [side abs] in At. apply pieceN_kind in At; auto using good_ok, good_turn. rewrite At. apply pt_mk; auto using good_turn, nkind_lt.
  - split; auto. intros E. now apply H1.
Qed.
Lemma legal_drop_kind p k t : good p -> legal (abs p) (Drop k t) -> on_board t /\ In k hand_kinds.
Proof. intros G L. apply (legal_fits p) in L; auto. cbn [fits] in L. tauto. Qed.
Section RT.
Variables (z : Zob) (b : Board) (mv : move).
Hypothesis (Z : okZob z) (R : reachable z b) (K : playable (abs (bpos b))) (L : legal (abs (bpos b)) mv).
Lemma accept_legal : accept (bpos b) (code (bpos b) mv) = Some (code (bpos b) mv).
Proof.
  destruct (reachable_ok z b Z R) as [G C]. pose proof (proj2 (proj1 (legal_test z b mv Z R K (legal_fits _ _ G L))) L) as T. destruct mv as [k t|s t pr].
  - destruct (legal_drop_kind _ _ _ G L). rewrite accept_drop, T; auto.
  - destruct (legal_piece _ _ _ _ G L) as (k & _ & _ & _ & A & B). rewrite accept_go, T; auto.
Qed.
Theorem usi_round_trip : toUSI (code (bpos b) mv) = usi_text mv /\ usiToMove (bpos b) (usi_text mv) = Some (code (bpos b) mv).
Proof.
  destruct (reachable_ok z b Z R) as [G C]. rewrite <- accept_legal. clear K. destruct mv as [k t|s t pr].
  - destruct (legal_drop_kind _ _ _ G L). split; [now apply toUSI_drop|now apply read_usi_drop].
  - destruct (legal_piece _ _ _ _ G L) as (k & _ & E & _ & A & B). split; [|now apply read_usi_go]. apply toUSI_go; auto. rewrite <- ptOf_arith, E. pose proof (nkind_lt k). lia.
Qed.
Theorem csa_round_trip : toCSA (code (bpos b) mv) = csa_text (abs (bpos b)) mv /\ csaToMove (bpos b) (csa_text (abs (bpos b)) mv) = Some (code (bpos b) mv).
Proof.
  destruct (reachable_ok z b Z R) as [G C]. rewrite <- accept_legal. clear K. destruct mv as [k t|s t pr].
  - destruct (legal_drop_kind _ _ _ G L). split; [now apply toCSA_drop|now apply read_csa_drop].
  - destruct (legal_piece _ _ _ _ G L) as (k & At & E & P & A & B). split; [eapply toCSA_go; eauto|eapply read_csa_go; eauto].
Qed.
End RT.
Lemma usi_distinct z b m m' : okZob z -> reachable z b -> playable (abs (bpos b)) -> In m (legalMoves (bpos b)) -> In m' (legalMoves (bpos b)) -> toUSI m = toUSI m' -> m = m'.
Proof.
  intros Z R K I I' E. destruct (moves_sound z b Z R K m I) as (mv & L & ->). destruct (moves_sound z b Z R K m' I') as (mv' & L' & ->). destruct (usi_round_trip z b mv Z R K L) as [A B]. destruct (usi_round_trip z b mv' Z R K L') as [A' B']. congruence.
Qed.
Lemma csa_distinct z b m m' : okZob z -> reachable z b -> playable (abs (bpos b)) -> In m (legalMoves (bpos b)) -> In m' (legalMoves (bpos b)) -> toCSA m = toCSA m' -> m = m'.
Proof.
  intros Z R K I I' E. destruct (moves_sound z b Z R K m I) as (mv & L & ->). destruct (moves_sound z b Z R K m' I') as (mv' & L' & ->). destruct (csa_round_trip z b mv Z R K L) as [A B]. destruct (csa_round_trip z b mv' Z R K L') as [A' B']. congruence.
Qed.

Lemma abs_kind p s c k : good p -> on_board s -> at_square (abs p) s = Some (c, k) -> ptOf (pieceAt p (nsquare s)) = nkind k.
Proof.
  intros G B E. pose proof (nsquare_lt s B) as L. rewrite <- (square_inv' s B) in E. rewrite abs_at in E by auto. pose proof (okB_at p _ (good_ok p G) L) as V. unfold pieceN in E. destruct (N.eqb_spec (pieceAt p (nsquare s)) 0) as [|NZ]; [discriminate|].
  injection E as _ <-. destruct (vpc_facts _ V NZ) as (R & _). rewrite ptOf_arith in *. now rewrite kind_inv'.
Qed.
(* what the readers do with the text of any move written as the rules want it *)
Definition decides (p : Position) (mv : move) (r : option N) : Prop := (legal (abs p) mv /\ r = Some (code p mv)) \/ (~ legal (abs p) mv /\ r = Some 0).
Lemma accept_decides z b mv : okZob z -> reachable z b -> playable (abs (bpos b)) -> fits (abs (bpos b)) mv -> decides (bpos b) mv (accept (bpos b) (code (bpos b) mv)).
Proof.
  intros Z R K F. destruct (reachable_ok z b Z R) as [G _]. destruct (legal_test z b mv Z R K F) as [T _].
  assert (E : accept (bpos b) (code (bpos b) mv) = Some (if boardMoveIsLegal (bpos b) (code (bpos b) mv) then code (bpos b) mv else 0)) by (destruct mv as [k t|s t pr]; cbn [fits] in F; cbv zeta in F; [apply accept_drop|apply accept_go]; tauto).
  rewrite E. destruct (boardMoveIsLegal (bpos b) (code (bpos b) mv)); [left; split; tauto|right]. split; [|reflexivity]. intros L. apply T in L. discriminate.
Qed.
Theorem usi_decides z b mv : okZob z -> reachable z b -> playable (abs (bpos b)) -> fits (abs (bpos b)) mv -> decides (bpos b) mv (usiToMove (bpos b) (usi_text mv)).
Proof.
  intros Z R K F. pose proof (accept_decides z b mv Z R K F) as D. destruct mv as [k t|s t pr]; cbn [fits] in F; cbv zeta in F; [rewrite read_usi_drop|rewrite read_usi_go]; try tauto; exact D.
Qed.
Theorem csa_decides z b mv : okZob z -> reachable z b -> playable (abs (bpos b)) -> fits (abs (bpos b)) mv -> decides (bpos b) mv (csaToMove (bpos b) (csa_text (abs (bpos b)) mv)).
Proof.
  intros Z R K F. destruct (reachable_ok z b Z R) as [G _]. pose proof (accept_decides z b mv Z R K F) as D. destruct mv as [k t|s t pr]; cbn [fits] in F; cbv zeta in F; [rewrite read_csa_drop; [exact D|tauto]|].
  destruct F as (Bs & Bt & F). destruct (at_square (abs (bpos b)) s) as [[c k]|] eqn:E.
  - destruct (kind_after (abs (bpos b)) (Go s t pr)) as [k'|] eqn:KA.
    + rewrite (read_csa_go (bpos b) s t pr c k); auto; [eapply abs_kind; eauto|]. intros ->. cbn [kind_after] in KA. rewrite E in KA. congruence.
    + right. split; [|cbn [csa_text]; rewrite KA; reflexivity]. intros L. destruct (legal_piece _ _ _ _ G L) as (k0 & A0 & _ & P0 & _). rewrite A0 in E. injection E as <- <-. cbn [kind_after] in KA. rewrite A0 in KA. destruct pr; [|discriminate]. now apply P0.
  - right. split; [|cbn [csa_text kind_after]; rewrite E; reflexivity]. intros L. destruct (legal_piece _ _ _ _ G L) as (k0 & A0 & _). congruence.
Qed.
Theorem usi_partial z b s m : okZob z -> reachable z b -> playable (abs (bpos b)) -> usiToMove (bpos b) s = Some m -> m <> 0 ->
  exists mv, usi_reads s mv /\ m = code (bpos b) mv /\ boardMoveIsLegal (bpos b) m = true /\ (fits (abs (bpos b)) mv -> legal (abs (bpos b)) mv).
Proof.
  intros Z R K H N. destruct (usi_accepted _ _ _ H N) as (mv & A & -> & L). exists mv. split; auto. split; auto. split; auto. intros F. now apply (legal_test z b mv Z R K F).
Qed.
Theorem csa_partial z b s m : okZob z -> reachable z b -> playable (abs (bpos b)) -> csaToMove (bpos b) s = Some m -> m <> 0 ->
  exists mv, s = csa_text (abs (bpos b)) mv /\ m = code (bpos b) mv /\ boardMoveIsLegal (bpos b) m = true /\ (fits (abs (bpos b)) mv -> legal (abs (bpos b)) mv).
Proof.
  intros Z R K H N. destruct (reachable_ok z b Z R) as [G _]. destruct (csa_accepted _ _ _ G H N) as (mv & A & -> & L & _). exists mv. split; auto. split; auto. split; auto. intros F. now apply (legal_test z b mv Z R K F).
Qed.
