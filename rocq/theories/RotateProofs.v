(* Proofs about rotate_sfen. *)
From Verif Require Import SfenInput Turn SfenFinal CommandFinal.
From Verif Require Export Rotate SfenSpec TextSpec.
From Coq Require Import Permutation FinFun.
Local Open Scope N_scope.

(* ---- one rank ---- *)
Definition cellCode (x : option (color * kind)) : N :=
  match x with Some (c, k) => N_of_ascii (sfen_letter c (unpromote k)) + (if kind_eqb (unpromote k) k then 0 else 128) | None => 0 end.
Lemma updN_mid (pre : list N) v w tl : updN (pre ++ v :: tl) (N.of_nat (List.length pre)) w = pre ++ w :: tl.
Proof.
  induction pre as [|x pre IH]; [reflexivity|]. unfold updN in *. cbn [List.length app]. rewrite Nat2N.id in *. cbn [upd_nat]. f_equal. exact IH.
Qed.
Lemma letter_chars c k : let a := sfen_letter c (unpromote k) in inRange "1" "9" a = false /\ Ascii.eqb a "+" = false /\ Ascii.eqb a "/" = false /\ N_of_ascii a <> 0 /\ N_of_ascii a < 128.
Proof. destruct c, k; repeat split; discriminate. Qed.
Lemma digit_chars d : (0 <= d <= 9)%Z -> inRange "1" "9" (digit d) = negb (d =? 0)%Z /\ inRange "2" "9" (digit d) = (2 <=? d)%Z /\ N_of_ascii (digit d) = 48 + Z.to_N d /\ Ascii.eqb (digit d) "/" = false /\
  inRange "A" "Z" (digit d) = false /\ inRange "a" "z" (digit d) = false /\ flipChar (digit d) = digit d.
Proof. intros H. assert (C : (d = 0 \/ d = 1 \/ d = 2 \/ d = 3 \/ d = 4 \/ d = 5 \/ d = 6 \/ d = 7 \/ d = 8 \/ d = 9)%Z) by lia. repeat destruct C as [->|C]; try (repeat split; reflexivity). rewrite C. repeat split; reflexivity. Qed.
Lemma map_repeat' {A B} (f : A -> B) x n : map f (repeat x n) = repeat (f x) n.
Proof. induction n as [|n IH]; [reflexivity|]. cbn [repeat map]. now rewrite IH. Qed.
Lemma expand_row cells s : row_text cells s -> forall pre n, (List.length pre + List.length cells <= 9)%nat ->
  expandRank (la s) (pre ++ repeat 0 (List.length cells + n)) (N.of_nat (List.length pre)) = pre ++ map cellCode cells ++ repeat 0 n.
Proof.
  induction 1 as [|c k cells s H IH|d cells s Hd H IH]; intros pre n L.
  - reflexivity.
  - cbn [List.length Nat.add repeat map app] in *. destruct (letter_chars c k) as (A1 & A2 & _ & _ & A5). cbv zeta in *. assert (P9 : 9 <=? N.of_nat (List.length pre) = false) by (apply N.leb_gt; lia).
    pose proof (IH (pre ++ [cellCode (Some (c, k))]) n) as IH'. rewrite app_length in IH'. cbn [List.length] in IH'. specialize (IH' ltac:(lia)).
    replace (N.of_nat (List.length pre + 1)) with (N.of_nat (List.length pre) + 1) in IH' by lia. rewrite <- !app_assoc in IH'. cbn [app] in IH'.
    set (v := cellCode (Some (c, k))) in *. assert (Ev : v = N_of_ascii (sfen_letter c (unpromote k)) + (if kind_eqb (unpromote k) k then 0 else 128)) by reflexivity. clearbody v.
    unfold sfen_piece. destruct (kind_eqb (unpromote k) k) eqn:E.
    + apply kind_eqb_iff in E. rewrite E in *. cbn [String.append]. rewrite la_cons. cbn [expandRank]. rewrite P9, A1, A2. rewrite updN_mid. rewrite N.add_0_r in Ev. rewrite <- Ev. exact IH'.
    + cbn [String.append]. rewrite !la_cons. cbn [expandRank]. rewrite P9. change (inRange "1" "9" "+") with false. change (Ascii.eqb "+" "+") with true. cbv iota. rewrite updN_mid.
      rewrite N.mod_small by lia. rewrite <- Ev. exact IH'.
  - rewrite app_length, repeat_length in *. rewrite la_cons. cbn [expandRank]. destruct (digit_chars d ltac:(lia)) as (A1 & _ & A3 & _). rewrite A1, A3.
    assert (P9 : 9 <=? N.of_nat (List.length pre) = false) by (apply N.leb_gt; lia). rewrite P9. replace (d =? 0)%Z with false by lia. cbn [negb].
    pose proof (IH (pre ++ repeat 0 (Z.to_nat d)) n) as IH'. rewrite app_length, repeat_length in IH'. specialize (IH' ltac:(lia)).
    rewrite map_app, map_repeat'. cbn [cellCode]. rewrite <- !app_assoc in *. rewrite <- repeat_app in IH'.
    replace (Z.to_nat d + List.length cells + n)%nat with (Z.to_nat d + (List.length cells + n))%nat by lia.
    replace (N.of_nat (List.length pre) + (48 + Z.to_N d - 48)) with (N.of_nat (List.length pre + Z.to_nat d)) by lia. exact IH'.
Qed.
Lemma flip_letter c k : flipChar (sfen_letter c (unpromote k)) = sfen_letter (other c) (unpromote k). Proof. destruct c, k; reflexivity. Qed.
Lemma compress_row cells : forall e, e + N.of_nat (List.length cells) <= 9 -> row_text (repeat None (N.to_nat e) ++ map turn_piece cells) (sa (compressRank (map cellCode cells) e)).
Proof.
  induction cells as [|x cells IH]; intros e L; cbn [List.length] in L; cbn [map compressRank].
  - rewrite <- (sapp_nil (sa _)). apply spaces_text; [lia|constructor].
  - destruct x as [[c k]|].
    + destruct (letter_chars c k) as (_ & _ & _ & A4 & A5). cbv zeta in *. cbn [cellCode turn_piece].
      replace (N_of_ascii (sfen_letter c (unpromote k)) + (if kind_eqb (unpromote k) k then 0 else 128) =? 0) with false by (symmetry; apply N.eqb_neq; lia).
      rewrite sa_app. apply spaces_text; [lia|]. rewrite sa_app. specialize (IH 0 ltac:(lia)). cbn [N.to_nat repeat app] in IH.
      replace (sa (if 128 <=? _ then _ else _)) with (sfen_piece (other c) k); [now apply row_piece|].
      unfold sfen_piece. pose proof (flip_letter c k) as F. unfold flipChar in F. destruct (kind_eqb (unpromote k) k) eqn:E.
      * replace (128 <=? _) with false by (symmetry; apply N.leb_gt; lia). rewrite N.add_0_r, F. apply kind_eqb_iff in E. now rewrite E.
      * replace (128 <=? _) with true by (symmetry; apply N.leb_le; lia). rewrite N.add_sub, F. reflexivity.
    + cbn [cellCode turn_piece]. change (0 =? 0) with true. cbv iota. specialize (IH (e + 1) ltac:(lia)). replace (N.to_nat (e + 1)) with (N.to_nat e + 1)%nat in IH by lia. rewrite repeat_app, <- app_assoc in IH. exact IH.
Qed.
Lemma reverse_row cells s : row_text cells s -> List.length cells = 9%nat -> row_text (map turn_piece (rev cells)) (sa (reverseRank (la s))).
Proof.
  intros R L. unfold reverseRank. pose proof (expand_row cells s R [] 0 ltac:(cbn [List.length]; lia)) as E. rewrite L in E. cbn [List.length app Nat.add repeat N.of_nat] in E. rewrite app_nil_r in E. cbn [repeat].
  rewrite E, <- map_rev. apply (compress_row (rev cells) 0). rewrite rev_length, L. reflexivity.
Qed.
(* ---- the board ---- *)
Lemma row_no_slash cells s : row_text cells s -> ~ In "/"%char (la s).
Proof.
  induction 1 as [|c k cells s _ IH|d cells s Hd _ IH]; [intros []| |].
  - rewrite la_app, in_app_iff. intros [X|X]; [|now apply IH]. destruct (letter_chars c k) as (_ & _ & A & _). cbv zeta in A. unfold sfen_piece in X. destruct (kind_eqb (unpromote k) k) eqn:E.
    + apply kind_eqb_iff in E. rewrite E in A. destruct X as [X|[]]. rewrite X in A. discriminate.
    + destruct X as [X|[X|[]]]; [discriminate|]. rewrite X in A. discriminate.
  - intros [X|X]; [|now apply IH]. destruct (digit_chars d ltac:(lia)) as (_ & _ & _ & A & _). rewrite X in A. discriminate.
Qed.
Lemma split_plain l : ~ In "/"%char l -> splitRanks l = [l].
Proof. induction l as [|c l IH]; intros N; [reflexivity|]. cbn [splitRanks]. destruct (Ascii.eqb_spec c "/") as [->|_]; [destruct N; now left|]. rewrite IH; [reflexivity|]. intros X. apply N. now right. Qed.
Lemma split_slash l r : ~ In "/"%char l -> splitRanks (l ++ "/"%char :: r) = l :: splitRanks r.
Proof. induction l as [|c l IH]; intros N; [reflexivity|]. cbn [app splitRanks]. destruct (Ascii.eqb_spec c "/") as [->|_]; [destruct N; now left|]. rewrite IH; [reflexivity|]. intros X. apply N. now right. Qed.
Lemma split_rows P rs s : rows_text P rs s -> exists ts, splitRanks (la s) = map la ts /\ Forall2 (fun r t => row_text (row_of P r) t) rs ts.
Proof.
  induction 1 as [r s H|r r' rs s t H _ (ts & E & F)].
  - exists [s]. split; [apply split_plain; eapply row_no_slash; eauto|]. repeat constructor; assumption.
  - exists (s :: ts). rewrite la_app, la_cons, split_slash by (eapply row_no_slash; eauto). split; [cbn [map]; now rewrite E|]. now constructor.
Qed.
Lemma join_rows Q rs ts : rs <> [] -> Forall2 (fun r t => row_text (row_of Q r) (sa t)) rs ts -> rows_text Q rs (sa (joinRanks ts)).
Proof.
  intros N F. revert N. induction F as [|r t rs ts H F IH]; intros N; [now destruct N|]. destruct F as [|r' t' rs ts H' F].
  - now apply rows_last.
  - change (joinRanks (t :: t' :: ts)) with (t ++ "/"%char :: joinRanks (t' :: ts)). rewrite sa_app, sa_cons. apply rows_more; [exact H|]. apply IH. discriminate.
Qed.
Lemma row_turned P r : row_of (turn_position P) (10 - r) = map turn_piece (rev (row_of P r)).
Proof.
  unfold row_of. cbn [map rev app]. rewrite !turn_at. unfold turn_square. cbn [fst snd]. replace (10 - (10 - r))%Z with r by lia. reflexivity.
Qed.
Lemma Forall2_rev' {A B} (R : A -> B -> Prop) l l' : Forall2 R l l' -> Forall2 R (rev l) (rev l').
Proof. induction 1; [constructor|]. cbn [rev]. apply Forall2_app; [assumption|]. repeat constructor; assumption. Qed.
Lemma board_turned P s : board_text P s -> board_text (turn_position P) (sa (joinRanks (map reverseRank (rev (splitRanks (la s)))))).
Proof.
  intros H. destruct (split_rows _ _ _ H) as (ts & E & F). rewrite E. apply join_rows; [discriminate|]. rewrite <- map_rev, map_map. apply Forall2_rev' in F. cbn [rev app] in F.
  set (us := rev ts) in *. clearbody us.
  assert (K : forall rs us, Forall2 (fun r t => row_text (row_of P r) t) rs us -> Forall2 (fun r t => row_text (row_of (turn_position P) r) (sa t)) (map (fun r => 10 - r)%Z rs) (map (fun x => reverseRank (la x)) us)).
  { clear. induction 1 as [|r t rs us H F IH]; [constructor|]. cbn [map]. constructor; [|exact IH]. rewrite row_turned. now apply reverse_row. }
  exact (K _ _ F).
Qed.
(* ---- hands ---- *)
Definition flipItem (x : color * kind * Z) : color * kind * Z := (other (fst (fst x)), snd (fst x), snd x).
Definition sente (x : color * kind * Z) : bool := color_eqb (fst (fst x)) Sente.
Lemma small_numeral s n : numeral s n -> (0 <= n)%Z /\ ((n <= 9)%Z -> exists m, la s = repeat "0"%char m ++ [digit n]).
Proof.
  induction 1 as [d H|s n d _ [P IH] H].
  - split; [lia|]. intros _. exists O. reflexivity.
  - split; [lia|]. intros L. assert (n = 0)%Z as -> by lia. destruct (IH ltac:(lia)) as (m & E). exists (m + 1)%nat. rewrite la_app, E, repeat_app, <- !app_assoc. cbn [repeat app]. reflexivity.
Qed.
Lemma split_zeros m l : splitHand (repeat "0"%char m ++ l) = splitHand l.
Proof. induction m as [|m IH]; [reflexivity|]. cbn [repeat app splitHand]. change (inRange "2" "9" "0") with false. change (inRange "A" "Z" "0") with false. change (inRange "a" "z" "0") with false. cbv iota. exact IH. Qed.
Lemma hand_letter c k : In k hand_kinds -> unpromote k = k /\ inRange "2" "9" (sfen_letter c k) = false /\ inRange "A" "Z" (sfen_letter c k) = color_eqb c Sente /\ inRange "a" "z" (sfen_letter c k) = color_eqb c Gote /\
  flipChar (sfen_letter c k) = sfen_letter (other c) k.
Proof. intros H. repeat destruct H as [<-|H]; try (destruct c; repeat split; reflexivity). destruct H. Qed.
Lemma split_item c k n s t : In k hand_kinds -> (1 <= n <= 9)%Z -> count_text n s -> exists u, count_text n u /\ la u = map flipChar (la u) /\
  splitHand (la (s ++ String (sfen_letter c k) t)) = if color_eqb c Sente then (la (u ++ String (sfen_letter c k) "") ++ fst (splitHand (la t)), snd (splitHand (la t)))
    else (fst (splitHand (la t)), la (u ++ String (sfen_letter c k) "") ++ snd (splitHand (la t))).
Proof.
  intros Hk Hn C. destruct (hand_letter c k Hk) as (_ & B1 & B2 & B3 & _).
  assert (One : splitHand (sfen_letter c k :: la t) = if color_eqb c Sente then (sfen_letter c k :: fst (splitHand (la t)), snd (splitHand (la t))) else (fst (splitHand (la t)), sfen_letter c k :: snd (splitHand (la t)))).
  { cbn [splitHand]. rewrite B1, B2, B3. destruct c; reflexivity. }
  destruct C as [[-> ->]|C].
  - exists ""%string. split; [now left|]. split; [reflexivity|]. cbn [String.append]. rewrite !la_cons. exact One.
  - destruct (small_numeral s n C) as [_ E]. destruct (E ltac:(lia)) as (m & Es). destruct (digit_chars n ltac:(lia)) as (_ & D2 & _ & _ & D5 & D6 & D7).
    destruct (Z.leb_spec 2 n) as [G|G].
    + exists (String (digit n) ""). split; [right; apply num_one; lia|]. split; [cbn [la list_ascii_of_string map]; now rewrite D7|]. rewrite la_app, Es, <- app_assoc, split_zeros. cbn [app]. cbn [splitHand la list_ascii_of_string]. rewrite D2.
      rewrite B2. destruct c; reflexivity.
    + assert (n = 1)%Z as -> by lia. exists ""%string. split; [now left|]. split; [reflexivity|]. rewrite la_app, Es, <- app_assoc, split_zeros. cbn [app String.append]. rewrite !la_cons.
      change (splitHand (digit 1 :: ?l)) with (splitHand l). exact One.
Qed.
Lemma split_items l s : items_text l s -> (forall x, In x l -> (snd x <= 9)%Z) ->
  items_text (map flipItem (filter sente l)) (sa (map flipChar (fst (splitHand (la s))))) /\ items_text (map flipItem (filter (fun x => negb (sente x)) l)) (sa (map flipChar (snd (splitHand (la s))))).
Proof.
  induction 1 as [|c k n l s t Hk Hn C H IH]; intros N; [split; constructor|].
  destruct (split_item c k n s t Hk ltac:(split; [exact Hn|exact (N _ (or_introl eq_refl))]) C) as (u & Cu & Fu & ->).
  specialize (IH (fun x Hx => N x (or_intror Hx))). destruct IH as [I1 I2]. destruct (hand_letter c k Hk) as (_ & _ & _ & _ & Fl).
  assert (Item : forall l' r, items_text l' (sa (map flipChar r)) -> items_text ((other c, k, n) :: l') (sa (map flipChar (la (u ++ String (sfen_letter c k) "") ++ r)))).
  { intros l' r I'. rewrite la_app. cbn [la list_ascii_of_string]. rewrite !map_app. cbn [map]. fold la. rewrite <- Fu, Fl, <- app_assoc. cbn [app]. rewrite sa_app, sa_cons. unfold sa at 1. rewrite sa_la. now apply items_next. }
  cbn [filter]. unfold sente at 1 3. cbn [fst snd]. destruct c; cbn [color_eqb negb map fst snd]; (split; [|try exact I2]); try exact I1; now apply Item.
Qed.
Lemma filter_perm {A} (f : A -> bool) l : Permutation (filter (fun x => negb (f x)) l ++ filter f l) l.
Proof.
  induction l as [|x l IH]; [constructor|]. cbn [filter]. destruct (f x); cbn [negb app]; [|now constructor]. eapply perm_trans; [apply Permutation_sym, Permutation_middle|now constructor].
Qed.
Lemma items_app l s l' s' : items_text l s -> items_text l' s' -> items_text (l ++ l') (s ++ s').
Proof. induction 1 as [|c k n l s t Hk Hn C H IH]; intros H'; [exact H'|]. rewrite sapp_assoc. cbn [app String.append]. apply items_next; auto. Qed.
Lemma hand_turned P h : hand_text P h -> (forall c k, (in_hand P c k <= 9)%Z) -> hand_text (turn_position P) (sa (flipHand (la h))).
Proof.
  intros H M. destruct H as [[-> H]|(l & N & I & D & X)]; [left; split; [reflexivity|intros c k; apply H]|]. right.
  assert (K : forall c k n, In (c, k, n) l -> In k hand_kinds).
  { clear - I. induction I as [|c k n l s t Hk Hn C H IH]; [intros ? ? ? []|]. intros c' k' n' [E|E]; [now injection E as <- <- <-|eauto]. }
  assert (M9 : forall x, In x l -> (snd x <= 9)%Z). { intros [[c k] n] Hx. cbn [snd]. apply X in Hx as [<- _]; [apply M|eauto]. }
  destruct (split_items l h I M9) as [I1 I2]. set (l' := map flipItem (filter (fun x => negb (sente x)) l) ++ map flipItem (filter sente l)).
  assert (Pm : Permutation l' (map flipItem l)) by (unfold l'; rewrite <- map_app; apply Permutation_map, filter_perm).
  assert (I' : items_text l' (sa (map flipChar (snd (splitHand (la h))) ++ map flipChar (fst (splitHand (la h)))))) by (rewrite sa_app; now apply items_app).
  assert (N' : l' <> []). { intros E. rewrite E in Pm. apply Permutation_nil in Pm. destruct l; [now destruct N|discriminate]. }
  exists l'. split; [exact N'|]. split; [|split].
  - unfold flipHand. change (string_of_list_ascii (la h)) with (sa (la h)). unfold sa at 2. rewrite sa_la. destruct (String.eqb_spec h "-") as [->|_].
    { exfalso. inversion I as [E|c k n l0 s t Hk Hn C It El E]. destruct C as [[_ ->]|C]; [|destruct (plain_numeral _ _ C) as [_ Ns]]; cbn [String.append] in E.
      - injection E as E _. destruct (hand_letter c k Hk) as (_ & _ & A & B & _). rewrite E in A, B. destruct c; discriminate.
      - destruct s as [|a s]; [now destruct Ns|]. injection E as -> E. destruct (numeral_chars _ _ C) as (_ & Fd & _). inversion Fd as [|? ? Q]. discriminate Q. }
    cbv zeta. destruct (map flipChar (snd (splitHand (la h))) ++ map flipChar (fst (splitHand (la h)))) as [|a r]; [|exact I']. inversion I' as [E|c k n l0 s t Hk Hn C It El E]; [now destruct N'|]. destruct s; discriminate.
  - eapply Permutation_NoDup; [apply Permutation_map, Permutation_sym, Pm|]. replace (map fst (map flipItem l)) with (map (fun y : color * kind => (other (fst y), snd y)) (map fst l)) by (rewrite !map_map; reflexivity).
    apply Injective_map_NoDup; [|exact D]. intros [a b] [a' b'] E. cbn [fst snd] in E. injection E as E ->. f_equal. destruct a, a'; cbn [other] in E; congruence.
  - intros c k Hk n. cbn [turn_position in_hand]. rewrite <- (X (other c) k Hk n). split; intros H.
    + apply (Permutation_in _ Pm) in H. apply in_map_iff in H as ([[c' k'] n'] & E & H). unfold flipItem in E. cbn [fst snd] in E. injection E as <- -> ->. rewrite other_other. exact H.
    + apply (Permutation_in _ (Permutation_sym Pm)). apply in_map_iff. exists (other c, k, n). split; [|exact H]. unfold flipItem. cbn [fst snd]. now rewrite other_other.
Qed.
(* ---- the whole text ---- *)
Lemma token_next w l : word w -> tokenOf (la w ++ " "%char :: l) = (la w, " "%char :: l).
Proof. intros W. unfold tokenOf. rewrite nextToken_word; [reflexivity|exact W|]. intros c r E. injection E as <- _. exact white_blank. Qed.
Lemma token_blank l : tokenOf (" "%char :: l) = tokenOf l. Proof. unfold tokenOf. rewrite nextToken_white by exact white_blank. reflexivity. Qed.
Lemma token_last w : word w -> tokenOf (la w) = (la w, []).
Proof. intros W. unfold tokenOf. rewrite <- (app_nil_r (la w)), nextToken_word; [now rewrite app_nil_r|exact W|discriminate]. Qed.
Lemma side_turned P : (if String.eqb (string_of_list_ascii (la (side_text P))) "b" then "w"%char else "b"%char) :: [] = la (side_text (turn_position P)).
Proof. unfold side_text. cbn [turn_position side]. destruct (side P); reflexivity. Qed.
Theorem rotate_text s P n : sfen_denotes s P n -> (forall c k, (in_hand P c k <= 9)%Z) -> sfen_denotes (rotateSfen s) (turn_position P) n.
Proof.
  intros (b & h & m & Hb & Hh & Hm & ->) M. destruct (plain_word _ (plain_rows _ _ _ Hb)) as [B1 _]. destruct (plain_word _ (plain_side P)) as [S1 _].
  destruct (plain_word _ (plain_hand _ _ Hh)) as [H1 _]. destruct (plain_word _ (plain_numeral _ _ Hm)) as [M1 _].
  exists (sa (joinRanks (map reverseRank (rev (splitRanks (la b)))))), (sa (flipHand (la h))), m.
  split; [now apply board_turned|]. split; [now apply hand_turned|]. split; [exact Hm|].
  unfold rotateSfen. change list_ascii_of_string with la. cbv zeta. rewrite !la_app. change (la " ") with [" "%char]. cbn [app].
  rewrite (token_next b) by exact B1. cbn [fst snd]. rewrite token_blank, (token_next (side_text P)) by exact S1. cbn [fst snd]. rewrite token_blank, (token_next h) by exact H1. cbn [fst snd].
  rewrite token_blank, token_last by exact M1. cbn [fst snd]. fold sa. rewrite sa_app, sa_cons. 
  change ((if String.eqb (sa (la (side_text P))) "b" then "w"%char else "b"%char) :: ?l) with ([if String.eqb (sa (la (side_text P))) "b" then "w"%char else "b"%char] ++ l). unfold sa at 2. rewrite side_turned. rewrite sa_app. unfold sa at 2. rewrite sa_la.
  rewrite sa_cons, sa_app, sa_cons. unfold sa at 3. rewrite sa_la. reflexivity.
Qed.
