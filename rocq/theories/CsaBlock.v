(* Proofs about CSA positions: the text csa_pos writes, and what the reader makes of a block of position lines. *)
From Verif Require Import SfenInput Turn SfenFinal CommandFinal RotateProofs.
From Verif Require Export Csa CsaSpec.
Local Open Scope N_scope.

Lemma upd_mid {A} (pre : list A) v w tl : updN (pre ++ v :: tl) (N.of_nat (List.length pre)) w = pre ++ w :: tl.
Proof.
  induction pre as [|x pre IH]; [reflexivity|]. unfold updN in *. cbn [List.length app]. rewrite Nat2N.id in *. cbn [upd_nat]. f_equal. exact IH.
Qed.
Lemma la_concat ss : la (String.concat "" ss) = flat_map la ss.
Proof.
  induction ss as [|s ss IH]; [reflexivity|]. destruct ss as [|s' ss]; [cbn [String.concat flat_map]; now rewrite app_nil_r|].
  change (String.concat "" (s :: s' :: ss)) with (s ++ "" ++ String.concat "" (s' :: ss))%string. rewrite !la_app, IH. reflexivity.
Qed.
Lemma feed_newline : line_feed = newline. Proof. reflexivity. Qed.

(* ---- what csa_pos writes ---- *)
Lemma cell_chars x : vpc x = true -> pieceCSA x = la (csa_cell (pieceN x)).
Proof. intros V. destruct (pieceN x) as [[c k]|] eqn:E.
  - apply (pieceN_iff x c k V) in E. subst x. destruct c, k; reflexivity.
  - unfold pieceN in E. destruct (N.eqb_spec x 0) as [->|]; [reflexivity|discriminate].
Qed.
Lemma rank_chars p r : okBoard (board p) -> r < 9 ->
  "P"%char :: printN (r + 1) ++ flat_map (fun sq => pieceCSA (pieceAt p sq)) (rankSquares r) = la (csa_rank (abs p) (Z.of_N r + 1)).
Proof.
  intros B H. unfold csa_rank. rewrite printN_digit by lia. change (la ("P" ++ ?s)) with ("P"%char :: la s). rewrite la_cons, la_concat. cbn [app]. rewrite row_of_abs by exact H.
  replace (Z.of_N (r + 1)) with (Z.of_N r + 1)%Z by lia. do 2 f_equal. rewrite map_map.
  assert (V : forall s, In s (rankSquares r) -> vpc (pieceAt p s) = true). { intros s Hs. apply B. apply order_lt. apply in_flat_map. exists r. split; [|exact Hs]. apply in_seqN. lia. }
  induction (rankSquares r) as [|s l IH]; [reflexivity|]. cbn [flat_map map]. rewrite cell_chars by (apply V; now left). f_equal. apply IH. intros x Hx. apply V. now right.
Qed.
Lemma hand_chars p c k : In k hand_kinds -> printHandPiece p (ncolor c) (slotOf k) (csa_name k) =
  flat_map (fun l => la l ++ [newline]) (map csa_hand (if (in_hand (abs p) c k =? 0)%Z then [] else [(c, repeat k (Z.to_nat (in_hand (abs p) c k)))])).
Proof.
  intros I. rewrite in_hand_num by exact I. unfold handNum, printHandPiece. cbn [fst snd]. set (n := numOf _ _). clearbody n. cbv zeta. destruct (N.eqb_spec n 0) as [->|N0]; [reflexivity|].
  replace (Z.of_N n =? 0)%Z with false by lia. cbn [map flat_map]. rewrite app_nil_r. unfold csa_hand. cbn [fst snd]. replace (Z.to_nat (Z.of_N n)) with (N.to_nat n) by lia.
  rewrite map_repeat'. change (la ("P" ++ ?s)) with ("P"%char :: la s). rewrite la_app, la_concat.
  assert (E : forall m, flat_map la (repeat ("00" ++ csa_name k)%string m) = List.concat (repeat ("0"%char :: "0"%char :: list_ascii_of_string (csa_name k)) m)).
  { induction m as [|m IH]; [reflexivity|]. cbn [repeat flat_map List.concat]. rewrite IH. reflexivity. }
  rewrite E. destruct c; reflexivity.
Qed.
Lemma ended_chars ls : la (ended ls) = flat_map (fun l => la l ++ [newline]) ls.
Proof. unfold ended. rewrite la_concat. induction ls as [|l ls IH]; [reflexivity|]. cbn [map flat_map]. rewrite IH, la_app. reflexivity. Qed.
Lemma printHand_chars p c : printHand p (ncolor c) = flat_map (fun l => la l ++ [newline])
  (map csa_hand (flat_map (fun k => if (in_hand (abs p) c k =? 0)%Z then [] else [(c, repeat k (Z.to_nat (in_hand (abs p) c k)))]) csa_hand_order)).
Proof.
  unfold printHand, csa_hand_order. cbn [flat_map]. rewrite !map_app, !flat_map_app.
  rewrite <- !hand_chars by (cbn; tauto). cbn [map flat_map]. rewrite app_nil_r. reflexivity.
Qed.
Theorem csa_pos_text b : good (bpos b) -> csaPos b = ended (csa_position (abs (bpos b))).
Proof.
  intros G. set (p := bpos b) in *. unfold csaPos. fold p. rewrite <- (sa_la (ended _)). unfold sa. f_equal. rewrite ended_chars. unfold csaPosChars, csa_position. rewrite !flat_map_app.
  apply (f_equal2 (@app ascii)).
  - change (seqN 0 9) with [0; 1; 2; 3; 4; 5; 6; 7; 8]. cbn [map flat_map].
    assert (R : forall r, r < 9 -> "P"%char :: printN (r + 1) ++ flat_map (fun sq => pieceCSA (pieceAt p sq)) (rankSquares r) ++ [newline] = la (csa_rank (abs p) (Z.of_N r + 1)) ++ [newline]).
    { intros r Hr. rewrite <- (rank_chars p r (good_ok p G) Hr). cbn [app]. now rewrite <- app_assoc. }
    rewrite (R 0), (R 1), (R 2), (R 3), (R 4), (R 5), (R 6), (R 7), (R 8) by lia. reflexivity.
  - rewrite (printHand_chars p Sente : printHand p Black = _), (printHand_chars p Gote : printHand p White = _). unfold csa_hands. cbn [flat_map]. rewrite app_nil_r, map_app, flat_map_app, <- app_assoc.
    do 2 f_equal. rewrite app_nil_r. cbn [abs side]. unfold colorN. destruct (turn p =? Black) eqn:E; [apply N.eqb_eq in E; rewrite E|]; cbn; [reflexivity|].
    rewrite N.eqb_neq in E. unfold Black in E. destruct (N.eqb_spec (turn p) 0); [contradiction|reflexivity].
Qed.

(* ---- what the reader makes of rank lines ---- *)
Lemma substr_mid (pre mid post : list ascii) : substr (pre ++ mid ++ post) (List.length pre) (List.length mid) = Done mid.
Proof.
  unfold substr. rewrite !app_length. replace (Nat.ltb _ _) with false by (symmetry; apply Nat.ltb_ge; lia). f_equal. rewrite skipn_app, skipn_all, Nat.sub_diag. cbn [app skipn].
  rewrite firstn_app, Nat.sub_diag, firstn_all. cbn [firstn]. now rewrite app_nil_r.
Qed.
Lemma piece_text x : pieceOfText (la (csa_cell x)) = Done (pieceCode x). Proof. destruct x as [[[] []]|]; reflexivity. Qed.
Lemma cell_length x : List.length (la (csa_cell x)) = 3%nat. Proof. destruct x as [[[] []]|]; reflexivity. Qed.
Fixpoint putRow (k : Block) (rank file : N) (cs : list (option (color * kind))) : Block :=
  match cs with [] => k | x :: cs => putRow (setCell k rank file (pieceCode x)) rank (file + 1) cs end.
Lemma readRank_cells cs : forall pre file rank k post, readRank (List.length cs) (List.length pre) file rank (pre ++ flat_map (fun x => la (csa_cell x)) cs ++ post) k = Done (putRow k rank file cs).
Proof.
  induction cs as [|x cs IH]; intros pre file rank k post; [reflexivity|]. cbn [List.length readRank flat_map putRow]. rewrite <- app_assoc. rewrite <- (cell_length x) at 1. rewrite substr_mid. cbn [obind]. rewrite piece_text. cbn [obind].
  specialize (IH (pre ++ la (csa_cell x))). rewrite app_length, cell_length in IH. rewrite <- IH with (post := post). now rewrite <- app_assoc.
Qed.
Lemma putRow_cells cs : forall k rank file done n, cells k = done ++ repeat None (List.length cs + n) -> N.of_nat (List.length done) = rank * 9 + file ->
  cells (putRow k rank file cs) = done ++ map (fun x => Some (pieceCode x)) cs ++ repeat None n /\ inHand (putRow k rank file cs) = inHand k /\ turnRead (putRow k rank file cs) = turnRead k.
Proof.
  induction cs as [|x cs IH]; intros k rank file done n C L; [cbn [putRow map app]; now rewrite C|]. cbn [putRow List.length repeat Nat.add map app] in *.
  destruct (IH (setCell k rank file (pieceCode x)) rank (file + 1) (done ++ [Some (pieceCode x)]) n) as (A & B & D).
  - cbn [setCell cells]. rewrite C, <- L, upd_mid, <- app_assoc. reflexivity.
  - rewrite app_length. cbn [List.length]. lia.
  - rewrite A, B, D, <- app_assoc. auto.
Qed.
Lemma digit19 r : (1 <= r <= 9)%Z -> isSign (digit r) = false /\ inRange19 (digit r) = true /\ N_of_ascii (digit r) - 49 = Z.to_N r - 1.
Proof. intros H. assert (C : (r = 1 \/ r = 2 \/ r = 3 \/ r = 4 \/ r = 5 \/ r = 6 \/ r = 7 \/ r = 8 \/ r = 9)%Z) by lia. repeat destruct C as [->|C]; try (repeat split; reflexivity). rewrite C. repeat split; reflexivity. Qed.
Lemma rank_line P r k : (1 <= r <= 9)%Z -> positionLine (la (csa_rank P r)) k = Done (putRow k (Z.to_N r - 1) 0 (row_of P r)).
Proof.
  intros H. destruct (digit19 r H) as (A & B & C). unfold csa_rank. change (la ("P" ++ ?s)) with ("P"%char :: la s). rewrite la_cons, la_concat. unfold positionLine, charOf. cbn [nth]. change (Ascii.eqb "P" "P") with true. cbn [negb]. rewrite A, B, C.
  pose proof (readRank_cells (row_of P r) ["P"%char; digit r] 0 (Z.to_N r - 1) k []) as X. cbn [List.length app] in X. rewrite app_nil_r in X. rewrite flat_map_concat_map, map_map, <- flat_map_concat_map. exact X.
Qed.
Lemma positionLines_app a b k : positionLines (a ++ b) k = obind (positionLines a k) (positionLines b).
Proof. revert k. induction a as [|l a IH]; intros k; [reflexivity|]. cbn [app positionLines]. destruct (positionLine l k) as [k'| |]; [cbn [obind]; apply IH|reflexivity|reflexivity]. Qed.
Lemma rank_lines P rs : forall r k done n, rs = map (fun i => Z.of_N i + 1)%Z (seqN r (List.length rs)) -> r + N.of_nat (List.length rs) <= 9 ->
  cells k = done ++ repeat None (9 * List.length rs + n) -> N.of_nat (List.length done) = r * 9 ->
  exists k', positionLines (map la (map (csa_rank P) rs)) k = Done k' /\ cells k' = done ++ map (fun x => Some (pieceCode x)) (flat_map (row_of P) rs) ++ repeat None n /\ inHand k' = inHand k /\ turnRead k' = turnRead k.
Proof.
  induction rs as [|x rs IH]; intros r k done n E L C D.
  - exists k. cbn [map positionLines flat_map app]. now rewrite C.
  - cbn [List.length map seqN] in E, L, C. injection E as -> E. cbn [map positionLines flat_map]. rewrite rank_line by lia. cbn [obind]. replace (Z.to_N (Z.of_N r + 1) - 1) with r by lia.
    destruct (putRow_cells (row_of P (Z.of_N r + 1)) k r 0 done (9 * List.length rs + n)) as (A1 & A2 & A3); [rewrite C; do 2 f_equal; cbn [row_of map List.length]; lia|lia|].
    destruct (IH (r + 1) (putRow k r 0 (row_of P (Z.of_N r + 1))) (done ++ map (fun x => Some (pieceCode x)) (row_of P (Z.of_N r + 1))) n E) as (k' & B1 & B2 & B3 & B4); [lia|rewrite A1, <- app_assoc; reflexivity|rewrite app_length, map_length; cbn [row_of map List.length]; lia|].
    exists k'. split; [exact B1|]. split; [rewrite B2, map_app, <- !app_assoc; reflexivity|]. split; congruence.
Qed.
(* ---- hand lines ---- *)
Definition addAll (k : Block) (c : color) (ks : list kind) : Block := fold_left (fun k x => addHand k (pieceCode (Some (c, x)))) ks k.
Lemma signed_name c k : pieceOfText (la (csa_sign c) ++ la (csa_name k)) = Done (pieceCode (Some (c, k))). Proof. destruct c, k; reflexivity. Qed.
Lemma name_chars k : exists x y, la (csa_name k) = [x; y]. Proof. destruct k; eexists; eexists; reflexivity. Qed.
Lemma readPieces_hand c ks : forall fuel k, (4 * List.length ks <= fuel)%nat ->
  readPieces fuel (match c with Sente => "+" | Gote => "-" end)%char (flat_map (fun x => la ("00" ++ csa_name x)) ks) k = Done (addAll k c ks).
Proof.
  induction ks as [|x ks IH]; intros fuel k F; [destruct fuel; reflexivity|]. cbn [List.length] in F. destruct fuel as [|fuel]; [lia|]. cbn [flat_map]. destruct (name_chars x) as (a & b & E).
  change (la ("00" ++ csa_name x)) with ("0"%char :: "0"%char :: la (csa_name x)). rewrite E. cbn [app]. cbn [readPieces]. unfold substr. cbn [List.length Nat.ltb Nat.leb skipn firstn obind].
  change (stoiThrow ["0"%char]) with (Done 0%Z). cbn [obind]. pose proof (signed_name c x) as S. rewrite E in S.
  replace (pieceOfText (_ :: [a; b])) with (Done (pieceCode (Some (c, x)))) by (destruct c; exact (eq_sym S)). cbn [obind Z.eqb andb]. rewrite IH by lia. reflexivity.
Qed.
Lemma hand_line c ks k : positionLine (la (csa_hand (c, ks))) k = Done (addAll k c ks).
Proof.
  unfold csa_hand. cbn [fst snd]. change (la ("P" ++ ?s)) with ("P"%char :: la s). rewrite la_app, la_concat, flat_map_concat_map, map_map, <- flat_map_concat_map.
  assert (X : forall fuel, (4 * List.length ks <= fuel)%nat -> _) by (intros fuel F; exact (readPieces_hand c ks fuel k F)).
  assert (L : (4 * List.length ks <= List.length (flat_map (fun x => la ("00" ++ csa_name x)) ks))%nat).
  { clear. induction ks as [|x ks IH]; [apply le_n|]. cbn [flat_map]. rewrite app_length. destruct (name_chars x) as (a & b & E). change (la ("00" ++ csa_name x)) with ("0"%char :: "0"%char :: la (csa_name x)). rewrite E. cbn [List.length]. lia. }
  destruct c; (unfold positionLine, charOf; cbn [csa_sign la list_ascii_of_string app nth]; change (Ascii.eqb "P" "P") with true; cbn [negb isSign Ascii.eqb Bool.eqb orb skipn]; apply X; cbn [List.length]; lia).
Qed.
Fixpoint addLines (k : Block) (hs : list (color * list kind)) : Block := match hs with [] => k | h :: hs => addLines (addAll k (fst h) (snd h)) hs end.
Lemma hand_lines hs : forall k, positionLines (map la (map csa_hand hs)) k = Done (addLines k hs).
Proof. induction hs as [|[c ks] hs IH]; intros k; [reflexivity|]. cbn [map positionLines]. rewrite hand_line. cbn [obind]. apply IH. Qed.
Lemma code_lt c k : pieceCode (Some (c, k)) < 31. Proof. destruct c, k; reflexivity. Qed.
Lemma code_inj x y : pieceCode x = pieceCode y -> x = y. Proof. intros E. apply (f_equal pieceN) in E. now rewrite !pieceN_pieceCode in E. Qed.
Lemma addAll_facts c ks : forall k, List.length (inHand k) = 31%nat -> cells (addAll k c ks) = cells k /\ turnRead (addAll k c ks) = turnRead k /\ List.length (inHand (addAll k c ks)) = 31%nat /\
  forall c' k', Z.of_N (nthN 0%N (inHand (addAll k c ks)) (pieceCode (Some (c', k')))) =
    (Z.of_N (nthN 0%N (inHand k) (pieceCode (Some (c', k')))) + Z.of_nat (List.length (filter (fun y => color_eqb (fst y) c' && kind_eqb (snd y) k') (map (pair c) ks))))%Z.
Proof.
  induction ks as [|x ks IH]; intros k L; [cbn; repeat split; auto; intros; lia|]. unfold addAll in *. cbn [fold_left map filter]. destruct (IH (addHand k (pieceCode (Some (c, x))))) as (A & B & C & D).
  - cbn [addHand inHand]. now rewrite length_updN.
  - split; [exact A|]. split; [exact B|]. split; [exact C|]. intros c' k'. rewrite D. cbn [addHand inHand]. rewrite nthN_updN by (rewrite L; apply code_lt).
    destruct (N.eqb_spec (pieceCode (Some (c, x))) (pieceCode (Some (c', k')))) as [E|E].
    + apply code_inj in E. injection E as <- <-. cbn [fst snd]. replace (color_eqb c c && kind_eqb x x) with true by (destruct c, x; reflexivity). cbn [List.length]. lia.
    + cbn [fst snd]. destruct (color_eqb c c' && kind_eqb x k') eqn:Q; [|lia]. apply andb_true_iff in Q as [Q1 Q2]. apply kind_eqb_iff in Q2. apply color_eqb_eq in Q1. subst. contradiction.
Qed.
Lemma addLines_facts hs : forall k, List.length (inHand k) = 31%nat -> cells (addLines k hs) = cells k /\ turnRead (addLines k hs) = turnRead k /\ List.length (inHand (addLines k hs)) = 31%nat /\
  forall c' k', Z.of_N (nthN 0%N (inHand (addLines k hs)) (pieceCode (Some (c', k')))) = (Z.of_N (nthN 0%N (inHand k) (pieceCode (Some (c', k')))) + hand_count hs c' k')%Z.
Proof.
  induction hs as [|[c ks] hs IH]; intros k L; [cbn; repeat split; auto; intros; lia|]. cbn [addLines fst snd]. destruct (addAll_facts c ks k L) as (A & B & C & D). destruct (IH _ C) as (A' & B' & C' & D').
  split; [congruence|]. split; [congruence|]. split; [exact C'|]. intros c' k'. rewrite D', D. unfold hand_count. cbn [flat_map fst snd]. rewrite filter_app, app_length. lia.
Qed.
(* ---- the SFEN text made from a block ---- *)
Lemma empties e : (if 0 <? e then printN e else []) = (if e =? 0 then [] else printN e).
Proof. destruct (N.ltb_spec 0 e), (N.eqb_spec e 0); try reflexivity; lia. Qed.
Lemma code_chars c k : sa (pieceChars (pieceCode (Some (c, k)))) = sfen_piece c k. Proof. destruct c, k; reflexivity. Qed.
Lemma row_written cs : forall e, e + N.of_nat (List.length cs) <= 9 -> exists l, rowText (map (fun x => Some (pieceCode x)) cs) e = Done l /\ row_text (repeat None (N.to_nat e) ++ cs) (sa l).
Proof.
  induction cs as [|x cs IH]; intros e L; cbn [List.length] in L; cbn [map rowText].
  - eexists. split; [reflexivity|]. rewrite empties, <- (sapp_nil (sa _)). apply spaces_text; [lia|constructor].
  - destruct x as [[c k]|].
    + change Empty with 0. rewrite pieceCode_nz. destruct (IH 0 ltac:(lia)) as (l & E & R). rewrite E. cbn [obind]. eexists. split; [reflexivity|]. rewrite empties, sa_app. apply spaces_text; [lia|]. rewrite sa_app, code_chars. apply row_piece. exact R.
    + cbn [pieceCode]. change (0 =? Empty) with true. cbv iota. destruct (IH (e + 1) ltac:(lia)) as (l & E & R). exists l. split; [exact E|]. replace (N.to_nat (e + 1)) with (N.to_nat e + 1)%nat in R by lia. rewrite repeat_app, <- app_assoc in R. exact R.
Qed.
Lemma rows_written P rs : forall r rs', rs = r :: rs' -> forall rank, rank + N.of_nat (List.length rs) = 9 ->
  exists l, rowsText (List.length rs) rank (map (fun x => Some (pieceCode x)) (flat_map (row_of P) rs)) = Done l /\ rows_text P rs (sa l).
Proof.
  induction rs as [|x rs IH]; intros r rs' E rank L; [discriminate|]. clear r rs' E. cbn [List.length] in *. cbn [rowsText flat_map]. rewrite map_app.
  assert (N9 : List.length (map (fun x => Some (pieceCode x)) (row_of P x)) = 9%nat) by reflexivity.
  assert (F : forall X : list (option N), firstn 9 (map (fun x => Some (pieceCode x)) (row_of P x) ++ X) = map (fun x => Some (pieceCode x)) (row_of P x)) by reflexivity.
  assert (G : forall X : list (option N), skipn 9 (map (fun x => Some (pieceCode x)) (row_of P x) ++ X) = X) by reflexivity. rewrite F, G.
  destruct (row_written (row_of P x) 0 ltac:(cbn [row_of map List.length]; lia)) as (l & E & R). rewrite E. cbn [obind]. destruct rs as [|x' rs].
  - cbn [List.length rowsText obind]. eexists. split; [reflexivity|]. replace rank with 8 by (cbn [List.length] in L; lia). change (8 =? 8) with true. cbv iota. rewrite !app_nil_r. now apply rows_last.
  - destruct (IH x' rs eq_refl (rank + 1)) as (l' & E' & R'); [lia|]. rewrite E'. cbn [obind]. eexists. split; [reflexivity|].
    destruct (N.eqb_spec rank 8) as [->|_]; [cbn [List.length] in L; lia|]. rewrite sa_app. cbn [app]. rewrite sa_cons. now apply rows_more.
Qed.
(* hands *)
Definition codePairs : list (color * kind) := list_prod [Sente; Gote] [FU; KY; KE; GI; KA; HI; KI].
Definition held (h : list N) (x : color * kind) : Z := Z.of_N (nthN 0 h (pieceCode (Some x))).
Lemma codePairs_facts : NoDup codePairs /\ forall c k, In (c, k) codePairs <-> In k hand_kinds.
Proof.
  split.
  - unfold codePairs. cbn [list_prod map app]. repeat (constructor; [cbn [In]; intuition discriminate|]). constructor.
  - intros c k. unfold codePairs. rewrite in_prod_iff. split; [intros [_ H]|intros H; split; [destruct c; cbn; tauto|]]; cbn [In hand_kinds] in *; tauto.
Qed.
Definition itemText (h : list N) (pc : N) : list ascii := let n := nthN 0 h pc in if 1 <=? n then (if 1 <? n then printN n else []) ++ pieceChars pc else [].
Lemma filter_flat {A B} (f : A -> list B) (t : A -> bool) l : (forall x, In x l -> t x = false -> f x = []) -> flat_map f l = flat_map f (filter t l).
Proof. induction l as [|x l IH]; intros H; [reflexivity|]. cbn [flat_map filter]. rewrite IH by (intros; apply H; [now right|assumption]). destruct (t x) eqn:E; [reflexivity|]. now rewrite H by (auto; now left). Qed.
Definition handCode (pc : N) : bool := (ptOf pc <? 8).
Lemma hand_order : filter handCode handPieces = map (fun x => pieceCode (Some x)) codePairs. Proof. reflexivity. Qed.
Lemma part_items h : (forall c k, ~ In k hand_kinds -> nthN 0 h (pieceCode (Some (c, k))) = 0) -> handPart h = flat_map (fun x => itemText h (pieceCode (Some x))) codePairs.
Proof.
  intros Z. change (handPart h) with (flat_map (itemText h) handPieces). rewrite (filter_flat _ handCode).
  - rewrite hand_order, !flat_map_concat_map, map_map. reflexivity.
  - intros x I F. assert (exists c k, x = pieceCode (Some (c, k)) /\ ~ In k hand_kinds) as (c & k & -> & N).
    { clear - I F. unfold handPieces in I. apply in_app_iff in I as [I|I]; cbn [seqN In] in I; repeat (destruct I as [<-|I]; [try discriminate F|]); try destruct I.
      all: match goal with |- exists c k, ?n = _ /\ _ => let v := eval vm_compute in (pieceN n) in match v with Some (?c, ?k) => exists c, k; split; [reflexivity|cbn [In hand_kinds]; intuition discriminate] end end. }
    unfold itemText. rewrite Z by exact N. reflexivity.
Qed.
Lemma item_text h c k : In k hand_kinds -> itemText h (pieceCode (Some (c, k))) = if (held h (c, k) =? 0)%Z then [] else (if (held h (c, k) =? 1)%Z then [] else printN (nthN 0 h (pieceCode (Some (c, k))))) ++ [sfen_letter c k].
Proof.
  intros I. unfold itemText, held. set (n := nthN 0 h _). clearbody n. cbv zeta. destruct (N.leb_spec 1 n); [|replace (Z.of_N n =? 0)%Z with true by lia; reflexivity]. replace (Z.of_N n =? 0)%Z with false by lia.
  replace (1 <? n) with (negb (Z.of_N n =? 1)%Z) by (destruct (N.ltb_spec 1 n), (Z.eqb_spec (Z.of_N n) 1); try reflexivity; lia). replace (pieceChars _) with [sfen_letter c k] by (cbn [In hand_kinds] in I; destruct c; repeat destruct I as [<-|I]; try reflexivity; destruct I).
  destruct (_ =? 1)%Z; reflexivity.
Qed.
Lemma items_written h l : (forall x, In x l -> In (snd x) hand_kinds) ->
  items_text (map (fun x => (x, held h x)) (filter (fun x => negb (held h x =? 0)%Z) l)) (sa (flat_map (fun x => itemText h (pieceCode (Some x))) l)).
Proof.
  induction l as [|[c k] l IH]; intros K; [constructor|]. cbn [filter flat_map]. assert (I : In k hand_kinds) by (apply (K (c, k)); now left). rewrite item_text by exact I. specialize (IH (fun x H => K x (or_intror H))).
  destruct (Z.eqb_spec (held h (c, k)) 0) as [E|E]; [exact IH|]. cbn [negb map]. rewrite <- app_assoc, sa_app. cbn [app]. rewrite sa_cons. assert (0 <= held h (c, k))%Z by apply N2Z.is_nonneg. apply items_next; [exact I|lia| |exact IH].
  destruct (Z.eqb_spec (held h (c, k)) 1) as [E1|E1]; [left; split; [exact E1|reflexivity]|]. right. apply printN_numeral.
Qed.
Lemma hand_written P h : (forall c k, held h (c, k) = in_hand P c k) -> (forall c k, ~ In k hand_kinds -> in_hand P c k = 0%Z) -> hand_text P (sa (handText h)).
Proof.
  intros H Z. destruct codePairs_facts as [ND CP].
  assert (Z' : forall c k, ~ In k hand_kinds -> nthN 0 h (pieceCode (Some (c, k))) = 0). { intros c k N. pose proof (H c k) as X. unfold held in X. rewrite (Z c k N) in X. lia. }
  assert (Items : forall c k, In k hand_kinds -> forall n, In (c, k, n) (map (fun x => (x, held h x)) (filter (fun x => negb (held h x =? 0)%Z) codePairs)) <-> in_hand P c k = n /\ (1 <= n)%Z).
  { intros c k I n. rewrite <- H. rewrite in_map_iff. assert (0 <= held h (c, k))%Z by apply N2Z.is_nonneg. split.
    - intros ([c' k'] & E & F). apply filter_In in F as [_ F]. apply negb_true_iff, Z.eqb_neq in F. injection E as -> -> <-. split; [reflexivity|lia].
    - intros [E G]. exists (c, k). rewrite E. split; [reflexivity|]. apply filter_In. split; [now apply CP|]. apply negb_true_iff, Z.eqb_neq. lia. }
  unfold handText. destruct (forallb _ handPieces) eqn:F.
  - left. split; [reflexivity|]. intros c k. rewrite <- H. unfold held. rewrite forallb_forall in F. assert (In (pieceCode (Some (c, k))) handPieces) as I by (destruct c, k; vm_compute; tauto). apply F in I. apply N.ltb_lt in I. lia.
  - right. rewrite part_items by exact Z'. eexists. split; [|split; [apply items_written; intros [c k]; apply CP|split; [|exact Items]]].
    + intros E. rewrite E in Items. assert (forallb (fun pc => nthN 0 h pc <? 1) handPieces = true); [|congruence]. apply forallb_forall. intros x I. apply N.ltb_lt.
      assert (exists c k, x = pieceCode (Some (c, k))) as (c & k & ->). { clear - I. unfold handPieces in I. apply in_app_iff in I as [I|I]; cbn [seqN In] in I; repeat (destruct I as [<-|I]; [|]); try destruct I.
        all: match goal with |- exists c k, ?n = _ => let v := eval vm_compute in (pieceN n) in match v with Some (?c, ?k) => exists c, k; reflexivity end end. }
      destruct (in_dec (fun a b : kind => ltac:(decide equality) : {a = b} + {a <> b}) k hand_kinds) as [I'|N]; [|rewrite Z' by exact N; lia].
      destruct (N.lt_ge_cases (nthN 0 h (pieceCode (Some (c, k)))) 1) as [|G]; [assumption|]. destruct (Items c k I' (in_hand P c k)) as [_ X]. destruct X. split; [reflexivity|]. rewrite <- H. unfold held. lia.
    + rewrite map_map. cbn [fst]. rewrite map_id. now apply NoDup_filter.
Qed.
Lemma block_written P k : cells k = map (fun x => Some (pieceCode x)) (flat_map (row_of P) [1; 2; 3; 4; 5; 6; 7; 8; 9]%Z) -> turnRead k = Some (ncolor (side P)) ->
  (forall c x, held (inHand k) (c, x) = in_hand P c x) -> (forall c x, ~ In x hand_kinds -> in_hand P c x = 0%Z) -> exists s, blockSfen k = Done s /\ sfen_denotes s P 1.
Proof.
  intros C T H Z. unfold blockSfen. rewrite C, T. destruct (rows_written P [1; 2; 3; 4; 5; 6; 7; 8; 9]%Z 1%Z _ eq_refl 0 eq_refl) as (l & E & R). cbn [List.length] in E. rewrite E. cbn [obind].
  eexists. split; [reflexivity|]. exists (sa l), (sa (handText (inHand k))), "1"%string. split; [exact R|]. split; [now apply hand_written|]. split; [exact (num_one 1 ltac:(lia))|].
  fold sa. rewrite sa_app. cbn [app]. rewrite !sa_cons, sa_app. unfold side_text. destruct (side P); reflexivity.
Qed.
(* ---- the initial array ---- *)
Definition cellSquares : list square := flat_map (fun r => map (fun f => (f, r)) [9; 8; 7; 6; 5; 4; 3; 2; 1]%Z) [1; 2; 3; 4; 5; 6; 7; 8; 9]%Z.
Definition cellSq (i : N) : square := (9 - Z.of_N (i mod 9), Z.of_N (i / 9) + 1)%Z.
Definition cellIx (s : square) : N := (Z.to_N (snd s) - 1) * 9 + Z.to_N (9 - fst s).
Lemma rows_squares P : flat_map (row_of P) [1; 2; 3; 4; 5; 6; 7; 8; 9]%Z = map (at_square P) cellSquares. Proof. reflexivity. Qed.
Lemma cellSquares_eq : cellSquares = map cellSq (seqN 0 81). Proof. vm_compute. reflexivity. Qed.
Lemma cellIx_sq i : i < 81 -> cellIx (cellSq i) = i /\ on_board (cellSq i).
Proof.
  intros H. unfold cellIx, cellSq, on_board. cbn [fst snd]. pose proof (N.div_mod i 9 ltac:(lia)) as D. pose proof (N.mod_lt i 9 ltac:(lia)) as M. assert (i / 9 < 9) by (apply N.div_lt_upper_bound; lia). split; [|lia]. lia.
Qed.
Lemma cellIx_lt s : on_board s -> cellIx s < 81. Proof. destruct s as [f r]. unfold on_board, cellIx. cbn [fst snd]. lia. Qed.
Lemma cellIx_inj s t : on_board s -> on_board t -> cellIx s = cellIx t -> s = t.
Proof. destruct s as [f r], t as [f' r']. unfold on_board, cellIx. cbn [fst snd]. intros H H' E. f_equal; lia. Qed.
Lemma initial_board s x : initial_at s = Some x -> on_board s.
Proof.
  destruct s as [f r]. unfold initial_at, on_board. cbn [fst snd]. destruct (Z.leb_spec 1 f), (Z.leb_spec f 9); cbn [andb]; try discriminate.
  destruct (Z.eqb_spec r 1); [intros _; lia|]. destruct (Z.eqb_spec r 2); [intros _; lia|]. destruct (Z.eqb_spec r 3); [intros _; lia|]. destruct (Z.eqb_spec r 7); [intros _; lia|]. destruct (Z.eqb_spec r 8); [intros _; lia|]. destruct (Z.eqb_spec r 9); [intros _; lia|discriminate].
Qed.
Lemma initial_cells : forallb (fun i => match nthN None (map Some initialCells) i with Some pc => pc =? pieceCode (initial_at (cellSq i)) | None => false end) (seqN 0 81) = true. Proof. vm_compute. reflexivity. Qed.
Lemma initial_cell s : on_board s -> nthN None (map Some initialCells) (cellIx s) = Some (pieceCode (initial_at s)).
Proof.
  intros B. pose proof initial_cells as F. rewrite forallb_forall in F. specialize (F (cellIx s)). pose proof (cellIx_lt s B) as L. assert (Is : In (cellIx s) (seqN 0 81)) by (apply in_seqN; cbn; lia). specialize (F Is). destruct (cellIx_sq _ L) as [E B']. apply cellIx_inj in E; auto. rewrite E in F.
  destruct (nthN None _ _) as [pc|]; [|discriminate]. apply N.eqb_eq in F. now rewrite F.
Qed.
Lemma square_chars s : on_board s -> exists a b, la (csa_square s) = [a; b] /\ (57 - Z.of_N (N_of_ascii a) = 9 - fst s)%Z /\ (Z.of_N (N_of_ascii b) - 49 = snd s - 1)%Z /\ Ascii.eqb b "0" = false.
Proof.
  destruct s as [f r]. unfold on_board. cbn [fst snd]. intros [F R]. exists (digit_char f), (digit_char r). split; [reflexivity|].
  assert (D : forall d, (1 <= d <= 9)%Z -> Z.of_N (N_of_ascii (digit_char d)) = (48 + d)%Z /\ Ascii.eqb (digit_char d) "0" = false).
  { clear. intros d H. assert (C : (d = 1 \/ d = 2 \/ d = 3 \/ d = 4 \/ d = 5 \/ d = 6 \/ d = 7 \/ d = 8 \/ d = 9)%Z) by lia. repeat destruct C as [->|C]; try (split; reflexivity). rewrite C. split; reflexivity. }
  destruct (D f F) as [D1 _], (D r R) as [D2 D3]. rewrite D1, D2. repeat split; [lia|lia|exact D3].
Qed.
Lemma name_type k : pieceTypeOfText (la (csa_name k)) = Done (nkind k). Proof. destruct k; reflexivity. Qed.
Definition goneInv (k : Block) (done : list square) : Prop := List.length (cells k) = 81%nat /\ forall s, on_board s ->
  (In s done -> nthN None (cells k) (cellIx s) = Some 0) /\ (~ In s done -> nthN None (cells k) (cellIx s) = Some (pieceCode (initial_at s))).
Lemma remove_pieces gone : forall done fuel k, NoDup (done ++ map fst gone) -> Forall (fun x => exists c, initial_at (fst x) = Some (c, snd x)) gone -> goneInv k done -> (List.length gone <= fuel)%nat ->
  exists k', removePieces fuel (flat_map (fun x => la (csa_square (fst x) ++ csa_name (snd x))) gone) k = Done k' /\ goneInv k' (done ++ map fst gone) /\ inHand k' = inHand k /\ turnRead k' = turnRead k.
Proof.
  induction gone as [|[s x] gone IH]; intros done fuel k ND F I L.
  - exists k. cbn [map flat_map]. rewrite app_nil_r. destruct fuel; auto.
  - cbn [List.length] in L. destruct fuel as [|fuel]; [lia|]. inversion F as [|y ys [c A] F']; subst y ys. cbn [fst snd] in A. pose proof (initial_board _ _ A) as B. cbn [map flat_map fst snd] in *.
    assert (Ns : ~ In s done). { intros X. apply NoDup_remove_2 in ND. apply ND. apply in_app_iff. now left. }
    destruct (square_chars s B) as (a & b & Es & Ea & Eb & E0). destruct (name_chars x) as (u & v & En). rewrite la_app, Es, En. cbn [app removePieces]. unfold charOf, substr. cbn [nth List.length Nat.ltb Nat.leb skipn firstn obind].
    pose proof (name_type x) as T. rewrite En in T. rewrite T. cbn [obind]. rewrite E0. cbn [andb]. rewrite Ea, Eb. unfold on_board in B. replace ((0 <=? snd s - 1) && (snd s - 1 <? 9) && (0 <=? 9 - fst s) && (9 - fst s <? 9))%Z with true by (symmetry; lia).
    destruct I as [I1 I2]. destruct (I2 s B) as [_ I3]. specialize (I3 Ns). unfold cellIx in I3. replace (Z.to_N (snd s - 1)) with (Z.to_N (snd s) - 1) by lia. rewrite I3, A. cbn [pieceCode]. change (mkPiece (ncolor c) (nkind x)) with (pieceCode (Some (c, x))). change Empty with 0. rewrite pieceCode_nz. cbn [pieceCode orb].
    rewrite (proj1 (ptOf_code c x)), N.eqb_refl. cbn [negb].
    destruct (IH (done ++ [s]) fuel (setCell k (Z.to_N (snd s) - 1) (Z.to_N (9 - fst s)) 0)) as (k' & K1 & K2 & K3 & K4).
    + rewrite <- app_assoc. exact ND.
    + exact F'.
    + split; [cbn [setCell cells]; now rewrite length_updN|]. intros t Bt. cbn [setCell cells]. fold (cellIx s). rewrite nthN_updN by (rewrite I1; now apply cellIx_lt). rewrite in_app_iff. cbn [In]. destruct (N.eqb_spec (cellIx s) (cellIx t)) as [E|E].
      * apply cellIx_inj in E; auto. subst t. split; [reflexivity|]. intros X. exfalso. apply X. auto.
      * destruct (I2 t Bt) as [J1 J2]. split; [intros [X|[X|[]]]; [auto|subst; contradiction]|]. intros X. apply J2. intros Y. apply X. now left.
    + lia.
    + exists k'. split; [exact K1|]. rewrite <- app_assoc in K2. auto.
Qed.
Lemma side_line c k : positionLine (la (csa_sign c)) k = Done (setTurnRead k (ncolor c)). Proof. destruct c; reflexivity. Qed.

Theorem block_sfen P ls : csa_block P ls -> (forall c x, ~ In x hand_kinds -> in_hand P c x = 0%Z) -> exists s, parsePosition (map la ls) = Done s /\ sfen_denotes s P 1.
Proof.
  intros B Z. unfold parsePosition. destruct B as [hs K C|gone ND F G1 G2 H0].
  - destruct (rank_lines P [1; 2; 3; 4; 5; 6; 7; 8; 9]%Z 0 emptyBlock [] 0 eq_refl) as (k & E & C1 & C2 & C3); [vm_compute; discriminate|reflexivity|reflexivity|]. cbn [app repeat] in C1. rewrite app_nil_r in C1.
    rewrite !map_app, positionLines_app, E. cbn [obind]. rewrite positionLines_app, hand_lines. cbn [obind map positionLines]. rewrite side_line. cbn [obind].
    destruct (addLines_facts hs k) as (A1 & A2 & A3 & A4); [rewrite C2; reflexivity|]. apply block_written; auto.
    + cbn [setTurnRead cells]. now rewrite A1.
    + intros c x. cbn [setTurnRead inHand]. unfold held. rewrite A4, C2. replace (nthN 0 (inHand emptyBlock) _) with 0 by (destruct c, x; reflexivity).
      destruct (in_dec (fun a b : kind => ltac:(decide equality) : {a = b} + {a <> b}) x hand_kinds) as [I|N]; [now rewrite (C c x I)|]. rewrite (Z c x N). unfold hand_count.
      replace (filter _ _) with (@nil (color * kind)); [reflexivity|]. symmetry. clear - K N. induction K as [|[c' ks] hs Hk K IH]; [reflexivity|]. cbn [flat_map fst snd] in *. rewrite filter_app, IH, app_nil_r. clear - Hk N.
      induction Hk as [|k ks Ik _ IH]; [reflexivity|]. cbn [map filter fst snd]. destruct (kind_eqb k x) eqn:E; [apply kind_eqb_iff in E; subst; contradiction|]. rewrite andb_false_r. exact IH.
  - cbn [map positionLines]. unfold csa_initial. change (la ("PI" ++ ?s)) with ("P"%char :: "I"%char :: la s). rewrite la_concat, flat_map_concat_map, map_map, <- flat_map_concat_map.
    set (l := flat_map _ gone). unfold positionLine at 1. unfold charOf. cbn [nth skipn]. change (Ascii.eqb "P" "P") with true. change (isSign "I") with false. change (inRange19 "I") with false. change (Ascii.eqb "I" "I") with true. cbn [negb].
    destruct (remove_pieces gone [] (List.length ("P"%char :: "I"%char :: l)) (mkBlock (map Some initialCells) (inHand emptyBlock) (turnRead emptyBlock)) ND F) as (k & E & [I1 I2] & C2 & C3).
    + split; [reflexivity|]. intros s B. split; [intros []|]. intros _. now apply initial_cell.
    + cbn [List.length]. unfold l. clear. induction gone as [|x gone IH]; [cbn; lia|]. cbn [flat_map List.length]. rewrite app_length. destruct (name_chars (snd x)) as (u & v & En). rewrite la_app, app_length, En. cbn [List.length]. lia.
    + fold l in E. rewrite E. cbn [obind]. rewrite side_line. cbn [obind]. cbn [app] in I2. apply block_written; auto.
      * cbn [setTurnRead cells]. rewrite rows_squares, cellSquares_eq, !map_map. apply (nthN_ext None); [rewrite I1, map_length; vm_compute; reflexivity|]. intros i Hi. rewrite I1 in Hi. rewrite nthN_map_seqN by exact Hi. destruct (cellIx_sq i Hi) as [Ei Bi]. rewrite <- Ei at 1.
        destruct (I2 _ Bi) as [J1 J2]. destruct (in_dec (fun a b : square => ltac:(decide equality; apply Z.eq_dec) : {a = b} + {a <> b}) (cellSq i) (map fst gone)) as [X|X]; [rewrite (J1 X), (G1 _ X); reflexivity|]. now rewrite (J2 X), (G2 _ X).
      * intros c x. cbn [setTurnRead inHand]. rewrite C2, H0. unfold held. destruct c, x; reflexivity.
Qed.
