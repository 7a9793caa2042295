(* The claims about csa_pos, pieces placed by "P+" lines and texts with several records. *)
From Verif Require Import SfenInput Turn SfenFinal CommandFinal RotateProofs RotateFinal HistProofs.
From Verif Require Export CsaRecord.
Local Open Scope N_scope.

(* ---- csa_pos is a block for the position ---- *)
Lemma count_app a b c k : hand_count (a ++ b) c k = (hand_count a c k + hand_count b c k)%Z.
Proof. unfold hand_count. rewrite flat_map_app, filter_app, app_length. lia. Qed.
Lemma count_one d j n c k : hand_count (if (n =? 0)%Z then [] else [(d, repeat j (Z.to_nat n))]) c k = (if color_eqb d c && kind_eqb j k then Z.of_nat (Z.to_nat n) else 0)%Z.
Proof.
  destruct (Z.eqb_spec n 0) as [->|N]; [destruct (_ && _)%bool; reflexivity|]. unfold hand_count. cbn [flat_map fst snd]. rewrite app_nil_r. generalize (Z.to_nat n) as m. intros m.
  assert (H : List.length (filter (fun y : color * kind => (color_eqb (fst y) c && kind_eqb (snd y) k)%bool) (map (pair d) (repeat j m))) = if (color_eqb d c && kind_eqb j k)%bool then m else O).
  { induction m as [|m IH]; [now destruct (_ && _)%bool|]. cbn [repeat map filter fst snd]. destruct (_ && _)%bool; cbn [List.length]; now rewrite IH. }
  rewrite H. now destruct (_ && _)%bool.
Qed.
Lemma hands_block P : proper P -> Forall (fun x => Forall (fun k => In k hand_kinds) (snd x)) (csa_hands P) /\ forall c k, In k hand_kinds -> in_hand P c k = hand_count (csa_hands P) c k.
Proof.
  intros Pr. split.
  - apply Forall_forall. intros x I. unfold csa_hands in I. apply in_flat_map in I as (c & _ & I). apply in_flat_map in I as (k & Ik & I). destruct (_ =? _)%Z; [destruct I|]. destruct I as [<-|[]]. cbn [snd]. apply Forall_forall. intros j J. apply repeat_spec in J. subst j.
    cbn [csa_hand_order In] in Ik. cbn [hand_kinds In]. tauto.
  - intros c k Ik. pose proof (pr_hand P Pr c k) as Nn. unfold csa_hands, csa_hand_order. cbn [flat_map]. rewrite !count_app, !count_one. change (hand_count [] c k) with 0%Z.
    cbn [hand_kinds In] in Ik. destruct c; repeat destruct Ik as [<-|Ik]; try contradiction; cbn [color_eqb kind_eqb andb]; lia.
Qed.
Lemma position_block P : proper P -> csa_block P (csa_position P).
Proof. intros Pr. destruct (hands_block P Pr) as [A B]. exact (block_ranks P _ A B). Qed.
Lemma ended_joined ls : ended ls = joined (ls ++ [""%string]).
Proof.
  induction ls as [|l ls IH]; [reflexivity|]. change (ended (l :: ls)) with (feed (l :: ls)). rewrite feed_cons. change (feed ls) with (ended ls). rewrite IH. cbn [app]. destruct (ls ++ [""%string]) as [|x xs] eqn:E; [destruct ls; discriminate|].
  change (joined (l :: x :: xs)) with (l ++ String newline "" ++ joined (x :: xs))%string. now rewrite sapp_assoc.
Qed.
(* no line feed inside a line *)
Lemma one_app a b : one_line a -> one_line b -> one_line (a ++ b).
Proof. unfold one_line. fold la. rewrite la_app, in_app_iff. tauto. Qed.
Lemma one_concat l : Forall one_line l -> one_line (String.concat "" l).
Proof. unfold one_line. fold la. intros F. rewrite la_concat, in_flat_map. intros (x & I & J). rewrite Forall_forall in F. exact (F x I J). Qed.
Lemma one_small s : existsb (Ascii.eqb line_feed) (la s) = false -> one_line s.
Proof. intros H I. assert (X : existsb (Ascii.eqb line_feed) (la s) = true); [|congruence]. apply existsb_exists. exists line_feed. split; [exact I|apply Ascii.eqb_refl]. Qed.
Lemma one_cell x : one_line (csa_cell x). Proof. apply one_small. destruct x as [[[] []]|]; reflexivity. Qed.
Lemma one_name k : one_line (csa_name k). Proof. apply one_small. destruct k; reflexivity. Qed.
Lemma one_sign c : one_line (csa_sign c). Proof. apply one_small. destruct c; reflexivity. Qed.
Lemma one_digit r s : (1 <= r <= 9)%Z -> one_line s -> one_line (String (digit r) s).
Proof.
  intros H S I. unfold one_line in *. fold la in *. rewrite la_cons in I. destruct I as [I|I]; [|exact (S I)]. destruct (digit19 r H) as (_ & X & _). rewrite I in X. discriminate.
Qed.
Lemma one_digit_char r s : (1 <= r <= 9)%Z -> one_line s -> one_line (String (digit_char r) s).
Proof. intros H. replace (digit_char r) with (digit r); [now apply one_digit|]. unfold digit, digit_char. assert (C : (r = 1 \/ r = 2 \/ r = 3 \/ r = 4 \/ r = 5 \/ r = 6 \/ r = 7 \/ r = 8 \/ r = 9)%Z) by lia. repeat destruct C as [->|C]; try reflexivity. now rewrite C. Qed.
Lemma one_rank P r : (1 <= r <= 9)%Z -> one_line (csa_rank P r).
Proof.
  intros H. unfold csa_rank. apply one_app; [apply one_small; reflexivity|]. apply one_digit; [exact H|]. apply one_concat. apply Forall_forall. intros x I. apply in_map_iff in I as (y & <- & _). apply one_cell.
Qed.
Lemma one_hand x : one_line (csa_hand x).
Proof.
  unfold csa_hand. apply one_app; [apply one_small; reflexivity|]. apply one_app; [apply one_sign|]. apply one_concat. apply Forall_forall. intros s I. apply in_map_iff in I as (k & <- & _). apply one_app; [apply one_small; reflexivity|apply one_name].
Qed.
Lemma one_ranks P : Forall one_line (map (csa_rank P) [1; 2; 3; 4; 5; 6; 7; 8; 9]%Z).
Proof. apply Forall_forall. intros s I. apply in_map_iff in I as (r & <- & I). apply one_rank. cbn [In] in I. lia. Qed.
Lemma one_position P : Forall one_line (csa_position P).
Proof.
  unfold csa_position. apply Forall_app. split; [apply one_ranks|]. apply Forall_app. split; [|constructor; [apply one_sign|constructor]]. apply Forall_forall. intros s I. apply in_map_iff in I as (x & <- & _). apply one_hand.
Qed.
Theorem csa_pos_read z stof b : okZob z -> reachable z b -> csaPos b = ended (csa_position (abs (bpos b))) /\
  exists g b', parseCsa z stof (csaPos b) = Done g /\ sfen_denotes (gSfen g) (abs (bpos b)) 1 /\ gMoves g = [] /\ setSfen z (gSfen g) = Done b' /\ same_position (abs (bpos b')) (abs (bpos b)) /\ getKey (bpos b') = getKey (bpos b).
Proof.
  intros Z R. destruct (reachable_ok z b Z R) as [G C]. pose proof (good_proper _ G) as Pr. pose proof (csa_pos_text b G) as T. split; [exact T|]. rewrite T, ended_joined. unfold parseCsa. fold la.
  rewrite joined_lines; [|intros E; apply app_eq_nil in E as [_ E]; discriminate|apply Forall_app; split; [apply one_position|constructor; [intros []|constructor]]].
  rewrite map_app, allLines_app. destruct (block_lines z stof _ _ (position_block _ Pr) Pr emptyRecord eq_refl eq_refl eq_refl) as (sfen & p & -> & D & Rd & F & S & Gp). cbn [obind map allLines]. rewrite blank_one. cbn [obind].
  rewrite (init_some z _ p) by reflexivity. cbn [obind allLines]. destruct (sfen_denoted z sfen _ 1 Z D Pr) as (b' & E' & S' & N' & U' & _); [vm_compute; discriminate|].
  eexists. exists b'. split; [reflexivity|]. cbn [gSfen gMoves emptyRecord]. split; [exact D|]. split; [reflexivity|]. split; [exact E'|]. split; [exact S'|]. destruct (reachable_ok z b' Z (set_up_reachable z b' U')) as [G' C']. exact (same_key z (bpos b) (bpos b') G G' C C' S').
Qed.

(* ---- pieces on the board by "P+" lines: file and rank are exchanged ---- *)
Definition swapped (s : square) : square := (10 - snd s, fst s)%Z.
Lemma swapped_board s : on_board s -> on_board (swapped s). Proof. destruct s as [f r]. unfold on_board, swapped. cbn [fst snd]. lia. Qed.
Lemma digit_stoi d : (1 <= d <= 9)%Z -> stoiThrow [digit_char d] = Done d.
Proof. intros H. assert (C : (d = 1 \/ d = 2 \/ d = 3 \/ d = 4 \/ d = 5 \/ d = 6 \/ d = 7 \/ d = 8 \/ d = 9)%Z) by lia. repeat destruct C as [->|C]; try reflexivity. rewrite C. reflexivity. Qed.
Lemma cells_put f s x : on_board s -> updN (map (fun t => Some (pieceCode (f t))) cellSquares) (cellIx s) (Some (pieceCode x)) = map (fun t => Some (pieceCode (put f s x t))) cellSquares.
Proof.
  intros B. assert (L : N.of_nat (List.length (map (fun t => Some (pieceCode (f t))) cellSquares)) = 81) by (rewrite map_length; reflexivity). apply (nthN_ext None); [now rewrite length_updN, !map_length|]. intros i Hi. rewrite length_updN, L in Hi. rewrite nthN_updN by (rewrite L; now apply cellIx_lt).
  rewrite cellSquares_eq, !map_map, !nthN_map_seqN by exact Hi. destruct (cellIx_sq i Hi) as [Ei Bi]. unfold put. destruct (N.eqb_spec (cellIx s) i) as [E|E].
  - replace (cellSq i) with s; [now rewrite sq_eqb_refl|]. apply cellIx_inj; auto. now rewrite Ei.
  - rewrite sq_eqb_neq; [reflexivity|]. intros X. apply E. now rewrite <- X, Ei.
Qed.
Lemma readPieces_placed c l : forall fuel k f, (4 * List.length l <= fuel)%nat -> Forall (fun x => on_board (fst x)) l -> cells k = map (fun t => Some (pieceCode (f t))) cellSquares ->
  exists k', readPieces fuel (match c with Sente => "+" | Gote => "-" end)%char (flat_map (fun x => la (csa_square (fst x) ++ csa_name (snd x))) l) k = Done k' /\
    cells k' = map (fun t => Some (pieceCode (fold_left (fun f x => put f (swapped (fst x)) (Some (c, snd x))) l f t))) cellSquares /\ inHand k' = inHand k /\ turnRead k' = turnRead k.
Proof.
  induction l as [|[[x y] j] l IH]; intros fuel k f L F C; [exists k; destruct fuel; auto|]. cbn [List.length] in L. destruct fuel as [|fuel]; [lia|]. inversion F as [|? ? B F']; subst. cbn [fst snd] in *. cbn [flat_map fst snd]. destruct (name_chars j) as (a & b & E).
  unfold on_board in B. cbn [fst snd] in B. destruct B as [Bx By]. change (la (csa_square (x, y) ++ csa_name j)) with (digit_char x :: digit_char y :: la (csa_name j)). rewrite E. cbn [app readPieces]. unfold substr. cbn [List.length Nat.ltb Nat.leb skipn firstn obind].
  rewrite !digit_stoi by assumption. cbn [obind]. pose proof (signed_name c j) as S. rewrite E in S. replace (pieceOfText (_ :: [a; b])) with (Done (pieceCode (Some (c, j)))) by (destruct c; exact (eq_sym S)). cbn [obind].
  destruct (Z.eqb_spec x 0) as [|_]; [lia|]. destruct (Z.eqb_spec y 0) as [|_]; [lia|]. cbn [andb orb].
  destruct (IH fuel (setCell k (Z.to_N x - 1) (Z.to_N y - 1) (pieceCode (Some (c, j)))) (put f (swapped (x, y)) (Some (c, j)))) as (k' & K1 & K2 & K3 & K4); [lia|exact F'| |].
  - cbn [setCell cells]. rewrite C. replace ((Z.to_N x - 1) * 9 + (Z.to_N y - 1)) with (cellIx (swapped (x, y))) by (unfold cellIx, swapped; cbn [fst snd]; lia). apply cells_put. unfold on_board, swapped. cbn [fst snd]. lia.
  - exists k'. cbn [fold_left fst snd]. auto.
Qed.
Lemma placed_line c l k f : Forall (fun x => on_board (fst x)) l -> cells k = map (fun t => Some (pieceCode (f t))) cellSquares ->
  exists k', positionLine (la (csa_placed c l)) k = Done k' /\ cells k' = map (fun t => Some (pieceCode (fold_left (fun f x => put f (swapped (fst x)) (Some (c, snd x))) l f t))) cellSquares /\ inHand k' = inHand k /\ turnRead k' = turnRead k.
Proof.
  intros F C. unfold csa_placed. change (la ("P" ++ ?s)) with ("P"%char :: la s). rewrite la_app, la_concat, flat_map_concat_map, map_map, <- flat_map_concat_map.
  set (t := flat_map (fun x => la (csa_square (fst x) ++ csa_name (snd x))) l).
  assert (L : (4 * List.length l <= List.length t)%nat). { unfold t. clear. induction l as [|[s j] l IH]; [apply le_n|]. cbn [flat_map fst snd]. rewrite app_length. destruct (name_chars j) as (a & b & E). destruct s as [x y]. change (la (csa_square (x, y) ++ csa_name j)) with (digit_char x :: digit_char y :: la (csa_name j)). rewrite E. cbn [List.length]. lia. }
  destruct (readPieces_placed c l (S (S (List.length t))) k f) as (k' & K); [lia|exact F|exact C|]. exists k'. fold t in K.
  destruct c; (unfold positionLine, charOf; cbn [csa_sign la list_ascii_of_string app nth]; change (Ascii.eqb "P" "P") with true; cbn [negb isSign Ascii.eqb Bool.eqb orb skipn]; exact K).
Qed.
Lemma placed_block P c l : (forall d k, in_hand P d k = 0%Z) -> Forall (fun x => on_board (fst x)) l ->
  exists s, parsePosition (map la (map (csa_rank P) [1; 2; 3; 4; 5; 6; 7; 8; 9]%Z ++ [csa_placed c l; csa_sign (side P)])) = Done s /\ sfen_denotes s (with_pieces swapped P c l) 1.
Proof.
  intros H F. unfold parsePosition. destruct (rank_lines P [1; 2; 3; 4; 5; 6; 7; 8; 9]%Z 0 emptyBlock [] 0 eq_refl) as (k & E & C1 & C2 & C3); [vm_compute; discriminate|reflexivity|reflexivity|]. cbn [app repeat] in C1. rewrite app_nil_r in C1.
  rewrite map_app, positionLines_app, E. cbn [obind map positionLines]. rewrite rows_squares, map_map in C1. destruct (placed_line c l k (at_square P) F C1) as (k' & K1 & K2 & K3 & K4). rewrite K1. cbn [obind]. rewrite side_line. cbn [obind].
  apply block_written.
  - cbn [setTurnRead cells]. rewrite K2, rows_squares, map_map. reflexivity.
  - reflexivity.
  - intros d x. cbn [setTurnRead inHand]. rewrite K3, C2. unfold held, with_pieces. cbn [in_hand]. rewrite H. destruct d, x; reflexivity.
  - intros d x _. apply H.
Qed.
Theorem placed_read z stof P c l : okZob z -> (forall d k, in_hand P d k = 0%Z) -> Forall (fun x => on_board (fst x)) l -> proper (with_pieces swapped P c l) ->
  exists g, parseCsa z stof (ended (map (csa_rank P) [1; 2; 3; 4; 5; 6; 7; 8; 9]%Z ++ [csa_placed c l; csa_sign (side P)])) = Done g /\ sfen_denotes (gSfen g) (with_pieces swapped P c l) 1 /\ gMoves g = [].
Proof.
  intros Z H F Pr. set (ls := _ ++ _).
  assert (O : Forall one_line ls).
  { unfold ls. apply Forall_app. split; [apply one_ranks|]. constructor; [|constructor; [apply one_sign|constructor]]. unfold csa_placed. apply one_app; [apply one_small; reflexivity|]. apply one_app; [apply one_sign|]. apply one_concat. rewrite Forall_forall in F |- *. intros s I. apply in_map_iff in I as ([[x y] j] & <- & I). specialize (F _ I). unfold on_board in F. cbn [fst snd] in *.
    apply one_app; [|apply one_name]. change (csa_square (x, y)) with (String (digit_char x) (String (digit_char y) "")). apply one_digit_char; [apply F|]. apply one_digit_char; [apply F|]. apply one_small; reflexivity. }
  rewrite ended_joined. unfold parseCsa. fold la. rewrite joined_lines; [|intros E; apply app_eq_nil in E as [_ E]; discriminate|apply Forall_app; split; [exact O|constructor; [intros []|constructor]]].
  destruct (placed_block P c l H F) as (s & Es & D). destruct (sfen_reads z s _ 1 D Pr) as (p & Rd & Fr & S & G); [vm_compute; discriminate|].
  rewrite map_app, allLines_app. unfold ls. change [csa_placed c l; csa_sign (side P)] with ([csa_placed c l] ++ [csa_sign (side P)]). rewrite app_assoc, map_app, allLines_app, p_lines; [|apply Forall_app; split; [apply Forall_forall; intros t I; apply in_map_iff in I as (x & <- & _); eexists; reflexivity|constructor; [eexists; reflexivity|constructor]]|reflexivity|reflexivity].
  cbn [obind]. cbn [map allLines]. rewrite sign_one. cbn [obind]. unfold initialise at 1. cbn [withLine withTurnStr gPos gTurnStr gLines emptyRecord app]. replace (String.eqb (csa_sign (side P)) "") with false by (destruct (side P); reflexivity).
  cbn [map app] in Es |- *. rewrite Es. cbn [obind]. change list_ascii_of_string with la. rewrite Rd. cbn [obind]. change (allLines z stof [[]]) with (allLines z stof [la ""]). cbn [allLines]. rewrite blank_one. cbn [obind]. rewrite (init_some z _ p) by reflexivity. cbn [obind].
  eexists. split; [reflexivity|]. split; [exact D|reflexivity].
Qed.

(* ---- several records ---- *)
Lemma matches_line l rest : ~ In newline l -> forall x xs, splitMatches rest = x :: xs -> splitMatches (l ++ rest) = (l ++ x) :: xs.
Proof.
  induction l as [|c l IH]; intros N x xs E; [exact E|]. cbn [app]. assert (Nc : Ascii.eqb c newline = false) by (destruct (Ascii.eqb_spec c newline) as [->|]; [destruct N; now left|reflexivity]). specialize (IH (fun X => N (or_intror X)) x xs E).
  cbn [splitMatches]. rewrite Nc. cbn [andb]. destruct (l ++ rest) as [|c1 [|c2 r]] eqn:Er; rewrite IH; reflexivity.
Qed.
Lemma matches_feed l rest : ~ In newline l -> l <> ["/"%char] -> (rest = [] \/ exists r, rest = newline :: r) -> forall x xs, splitMatches (l ++ rest) = x :: xs -> splitMatches (newline :: l ++ rest) = (newline :: x) :: xs.
Proof.
  intros N S Rr x xs E. assert (H : forall c1 c2 r, l ++ rest = c1 :: c2 :: r -> (Ascii.eqb c1 "/" && Ascii.eqb c2 newline)%bool = false).
  { intros c1 c2 r Q. destruct (Ascii.eqb_spec c1 "/") as [->|]; [|reflexivity]. destruct (Ascii.eqb_spec c2 newline) as [->|]; [|reflexivity]. exfalso. destruct l as [|a [|b l]]; cbn [app] in Q.
    - destruct Rr as [->|(r' & ->)]; discriminate.
    - injection Q as -> _. now apply S.
    - injection Q as -> -> _. apply N. right. now left. }
  cbn [splitMatches]. rewrite Ascii.eqb_refl. cbn [andb]. destruct (l ++ rest) as [|c1 [|c2 r]] eqn:Er; rewrite E; try reflexivity. now rewrite (H c1 c2 r eq_refl).
Qed.
Lemma matches_text ls : ls <> [] -> Forall one_line ls -> ~ In "/"%string ls -> forall rest x xs, (rest = [] \/ exists r, rest = newline :: r) -> splitMatches rest = x :: xs -> splitMatches (la (joined ls) ++ rest) = (la (joined ls) ++ x) :: xs.
Proof.
  intros Ne F. induction F as [|l ls H F IH]; [now destruct Ne|]. intros N rest x xs Rr E. destruct ls as [|l' ls]; [exact (matches_line _ _ H x xs E)|].
  change (joined (l :: l' :: ls)) with (l ++ String newline "" ++ joined (l' :: ls))%string. rewrite !la_app. change (la (String newline "")) with [newline]. rewrite <- !app_assoc. cbn [app].
  specialize (IH ltac:(discriminate) (fun X => N (or_intror X)) rest x xs Rr E). inversion F as [|? ? H' F']; subst.
  assert (Sh : exists rest', la (joined (l' :: ls)) ++ rest = la l' ++ rest' /\ (rest' = [] \/ exists r, rest' = newline :: r)).
  { destruct ls as [|l2 ls]; [exists rest; auto|]. change (joined (l' :: l2 :: ls)) with (l' ++ String newline "" ++ joined (l2 :: ls))%string. rewrite !la_app. change (la (String newline "")) with [newline]. rewrite <- !app_assoc. cbn [app]. eexists. split; [reflexivity|]. right. eauto. }
  destruct Sh as (rest' & Q & Rr').
  assert (X : splitMatches (newline :: la (joined (l' :: ls)) ++ rest) = (newline :: la (joined (l' :: ls)) ++ x) :: xs).
  { rewrite Q. apply matches_feed; [exact H'| |exact Rr'|now rewrite <- Q]. intros X. apply N. right. left. rewrite <- (sa_la l'), X. reflexivity. }
  rewrite (matches_line (la l) _ H _ _ X). reflexivity.
Qed.
Lemma matches_all ts : ts <> [] -> Forall match_text ts -> splitMatches (la (String.concat match_mark ts)) = map la ts.
Proof.
  intros Ne F. induction F as [|t ts (ls & Nl & Fl & Ns & ->) F IH]; [now destruct Ne|]. destruct ts as [|t' ts].
  - cbn [String.concat map]. rewrite <- (app_nil_r (la (joined ls))). rewrite (matches_text ls Nl Fl Ns [] [] []); [now rewrite app_nil_r|now left|reflexivity].
  - change (String.concat match_mark (joined ls :: t' :: ts)) with (joined ls ++ match_mark ++ String.concat match_mark (t' :: ts))%string. rewrite !la_app. specialize (IH ltac:(discriminate)).
    change (la match_mark) with [newline; "/"%char; newline]. cbn [app]. rewrite (matches_text ls Nl Fl Ns _ [] (map la (t' :: ts))); [now rewrite app_nil_r|right; eauto|]. cbn [splitMatches]. change (Ascii.eqb newline newline && Ascii.eqb "/" "/" && Ascii.eqb newline newline)%bool with true. cbv iota. f_equal. exact IH.
Qed.
Theorem matches_read z stof ts gs : ts <> [] -> Forall match_text ts -> Forall2 (fun t g => parseCsa z stof t = Done g) ts gs -> parseStr z stof (String.concat match_mark ts) = Done gs.
Proof.
  intros Ne M F. unfold parseStr. fold la. rewrite matches_all by assumption. clear Ne M. induction F as [|t g ts gs H F IH]; [reflexivity|]. cbn [map parseAll]. unfold textOf. fold sa. rewrite sa_la, H. cbn [obind]. rewrite IH. reflexivity.
Qed.
