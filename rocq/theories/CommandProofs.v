(* Proofs about set_position. *)
From Verif Require Import SfenInput TextProofs BoardFinal GenClaims.
From Verif Require Export CommandSpec.
Local Open Scope N_scope.

Lemma white_iff c : white c <-> isSpace c = true.
Proof.
  unfold white, isSpace. cbn [In]. generalize (N_of_ascii c). intros n. rewrite orb_true_iff, andb_true_iff, N.eqb_eq, !N.leb_le. lia.
Qed.
Lemma not_white c : ~ white c -> isSpace c = false. Proof. rewrite white_iff. now destruct (isSpace c). Qed.
Lemma sa_la s : string_of_list_ascii (la s) = s. Proof. apply string_of_list_ascii_of_string. Qed.

(* ---- words ---- *)
Lemma takeWord_word l rest : (forall c, In c l -> ~ white c) -> (forall c r, rest = c :: r -> white c) -> takeWord (l ++ rest) = (l, rest).
Proof.
  intros H R. induction l as [|c l IH]; cbn [app takeWord].
  - destruct rest as [|c r]; [reflexivity|]. cbn [takeWord]. now rewrite (proj1 (white_iff c) (R c r eq_refl)).
  - rewrite (not_white c (H c (or_introl eq_refl))), IH; [reflexivity|]. intros x Hx. apply H. now right.
Qed.
Lemma word_cons w : word w -> exists c l, la w = c :: l /\ isSpace c = false.
Proof. intros [N H]. destruct w as [|c w]; [now destruct N|]. exists c, (la w). split; [reflexivity|]. apply not_white, H. now left. Qed.
Lemma nextToken_word w rest : word w -> (forall c r, rest = c :: r -> white c) -> nextToken (la w ++ rest) = Some (w, rest).
Proof.
  intros W R. destruct (word_cons w W) as (c & l & E & Hc). unfold nextToken. replace (skipSpaces (la w ++ rest)) with (la w ++ rest) by (rewrite E; cbn [app skipSpaces]; now rewrite Hc).
  pose proof (takeWord_word (la w) rest (proj2 W) R) as T. rewrite E in *. cbn [app] in *. rewrite T. cbn [fst snd]. rewrite <- E, sa_la. reflexivity.
Qed.
Lemma nextToken_white c l : white c -> nextToken (c :: l) = nextToken l.
Proof. intros W. unfold nextToken. cbn [skipSpaces]. now rewrite (proj1 (white_iff c) W). Qed.
Lemma next_words s ws : words_of s ws ->
  match ws with
  | [] => nextToken (la s) = None
  | w :: ws => word w /\ exists r, nextToken (la s) = Some (w, la r) /\ words_of r ws /\ (List.length (la r) < List.length (la s))%nat
  end.
Proof.
  induction 1 as [|c s ws W H IH|w W|w c s ws W Wc H IH].
  - reflexivity.
  - rewrite la_cons, (nextToken_white c) by exact W. destruct ws as [|w ws]; [exact IH|]. destruct IH as (A & r & B & C & D). split; [exact A|]. exists r. cbn [List.length]. auto.
  - split; [exact W|]. exists ""%string. rewrite <- (app_nil_r (la w)), nextToken_word; [|exact W|discriminate]. split; [reflexivity|]. split; [constructor|].
    rewrite app_nil_r. destruct (word_cons w W) as (c & l & E & _). rewrite E. cbn [List.length]. apply Nat.lt_0_succ.
  - split; [exact W|]. exists (String c s). rewrite la_app, nextToken_word; [|exact W|].
    + split; [reflexivity|]. split; [now apply words_white|]. destruct (word_cons w W) as (c0 & l & E & _). rewrite E, app_length. cbn [List.length]. lia.
    + rewrite la_cons. intros x r E. now injection E as <- <-.
Qed.
(* every text has exactly one list of words *)
Lemma words_exist s : exists ws, words_of s ws.
Proof.
  assert (H : exists ws, words_of s ws /\ (forall c r, s = String c r -> ~ white c -> ws <> [] /\ forall w ws', ws = w :: ws' -> words_of (String c r) (w :: ws')));
    [|destruct H as (ws & A & _); now exists ws].
  induction s as [|c s IH].
  - exists []. split; [constructor|]. discriminate.
  - destruct IH as (ws & A & B). destruct (isSpace c) eqn:Ec.
    + exists ws. apply white_iff in Ec. split; [now apply words_white|]. intros x r E. injection E as <- <-. tauto.
    + assert (Nc : ~ white c) by (rewrite white_iff, Ec; discriminate).
      assert (K : exists w ws', words_of (String c s) (w :: ws')).
      { clear B. induction A as [|d s ws Wd H IH|w W|w d s ws W Wd H IH].
        - exists (String c ""), []. apply words_last. split; [discriminate|]. intros x [<-|[]]. exact Nc.
        - exists (String c ""), ws. apply (words_more (String c "") d s ws); auto. split; [discriminate|]. intros x [<-|[]]. exact Nc.
        - exists (String c w), []. apply words_last. split; [discriminate|]. intros x [<-|Hx]; [exact Nc|]. now apply W.
        - exists (String c w), ws. apply (words_more (String c w) d s ws); auto. split; [discriminate|]. intros x [<-|Hx]; [exact Nc|]. now apply W. }
      destruct K as (w & ws' & K). exists (w :: ws'). split; [exact K|]. intros x r E _. injection E as <- <-. split; [discriminate|]. intros w0 ws0 E. injection E as <- <-. exact K.
Qed.
Lemma words_unique s ws : words_of s ws -> forall ws', words_of s ws' -> ws = ws'.
Proof.
  revert s. induction ws as [|w ws IH]; intros s H ws' H'; pose proof (next_words _ _ H) as N; pose proof (next_words _ _ H') as N'.
  - destruct ws' as [|w' ws']; [reflexivity|]. destruct N' as (_ & r & E & _). congruence.
  - destruct N as (_ & r & E & R & _). destruct ws' as [|w' ws']; [congruence|]. destruct N' as (_ & r' & E' & R' & _). rewrite E in E'. injection E' as -> E2.
    assert (r = r') as <- by (rewrite <- (sa_la r), <- (sa_la r'), E2; reflexivity). f_equal. exact (IH r R ws' R').
Qed.

(* ---- the three loops ---- *)
Definition spaced (acc : string) (ws : list string) : string := fold_left (fun a w => (a ++ w ++ " ")%string) ws acc.
Lemma collect_words ws : forall fuel s acc rest, words_of s (ws ++ "moves"%string :: rest) -> ~ In "moves"%string ws -> (List.length (la s) <= fuel)%nat ->
  exists r, collect fuel (la s) acc = (spaced acc ws, la r) /\ words_of r rest.
Proof.
  induction ws as [|w ws IH]; intros fuel s acc rest H N L; cbn [app] in H; pose proof (next_words _ _ H) as (W & r & E & R & Lr).
  - destruct fuel as [|fuel]; [lia|]. cbn [collect]. rewrite E. change (String.eqb "moves" "moves") with true. cbv iota. now exists r.
  - destruct fuel as [|fuel]; [lia|]. cbn [collect]. rewrite E. destruct (String.eqb_spec w "moves") as [->|_]; [destruct N; now left|].
    destruct (IH fuel r (acc ++ w ++ " ")%string rest R) as (r' & E' & R'); [intros X; apply N; now right|lia|]. exists r'. split; [exact E'|exact R'].
Qed.
Lemma collect_all ws : forall fuel s acc, words_of s ws -> ~ In "moves"%string ws -> (List.length (la s) <= fuel)%nat -> collect fuel (la s) acc = (spaced acc ws, []).
Proof.
  induction ws as [|w ws IH]; intros fuel s acc H N L; pose proof (next_words _ _ H) as X.
  - destruct fuel as [|fuel]; cbn [collect]; [|now rewrite X]. destruct (la s); [reflexivity|cbn [List.length] in L; lia].
  - destruct X as (W & r & E & R & Lr). destruct fuel as [|fuel]; [lia|]. cbn [collect]. rewrite E. destruct (String.eqb_spec w "moves") as [->|_]; [destruct N; now left|].
    apply IH; auto; [intros X; apply N; now right|lia].
Qed.
Lemma pushTokens_words z ms : forall fuel b s, words_of s ms -> (List.length (la s) <= fuel)%nat -> pushTokens fuel z b (la s) = push_each z b ms.
Proof.
  induction ms as [|m ms IH]; intros fuel b s H L; pose proof (next_words _ _ H) as X.
  - destruct fuel as [|fuel]; cbn [pushTokens push_each]; [reflexivity|now rewrite X].
  - destruct X as (W & r & E & R & Lr). destruct fuel as [|fuel]; [lia|]. cbn [pushTokens push_each]. rewrite E. unfold pushUsi.
    destruct (usiToMove (bpos b) m) as [x|]; [|reflexivity]. destruct (x =? 0) eqn:E0; [reflexivity|]. destruct (inTables x); [|reflexivity]. cbn [obind fst snd]. rewrite E0. apply IH; auto. lia.
Qed.

(* ---- the blank at the end of the SFEN text ---- *)
Definition more (l l' : list ascii) : Prop := l' = l ++ [" "%char] \/ (l = [] /\ l' = []).
Definition moreOut {A} (x y : outcome (A * list ascii)) : Prop :=
  match x, y with Done (a, l), Done (a', l') => a = a' /\ more l l' | Thrown, Thrown => True | Undefined, Undefined => True | _, _ => False end.
Lemma blank_board l : forall p sq f, moreOut (readBoard l p sq f) (readBoard (l ++ [" "%char]) p sq f).
Proof.
  induction l as [|c l IH]; intros p sq f; cbn [app readBoard]; [split; [reflexivity|now right]|].
  destruct (Ascii.eqb c " "); [split; [reflexivity|now left]|]. destruct (isDigit c); [apply IH|]. destruct (Ascii.eqb c "/"); [apply IH|]. destruct (Ascii.eqb c "+"); [apply IH|].
  destruct (charPiece c) as [pc|]; [|exact I]. destruct (_ && _)%Z; [|exact I]. destruct (putPiece p _ _); cbn [obind]; [apply IH|exact I|exact I].
Qed.
Lemma blank_turn l : forall t, moreOut (readTurn l t) (readTurn (l ++ [" "%char]) t).
Proof.
  induction l as [|c l IH]; intros t; cbn [app readTurn]; [split; [reflexivity|now right]|].
  destruct (Ascii.eqb c " "); [split; [reflexivity|now left]|]. destruct (Ascii.eqb c "b"); [apply IH|]. destruct (Ascii.eqb c "w"); [apply IH|exact I].
Qed.
Lemma blank_hand l : forall p n, moreOut (readHand l p n) (readHand (l ++ [" "%char]) p n).
Proof.
  induction l as [|c l IH]; intros p n; cbn [app readHand]; [split; [reflexivity|now right]|].
  destruct (Ascii.eqb c " "); [split; [reflexivity|now left]|]. destruct (Ascii.eqb c "-"); [apply IH|]. destruct (isDigit c); [destruct (_ <=? _)%Z; [apply IH|exact I]|].
  destruct (charPiece c) as [pc|]; [|exact I]. destruct (_ =? King); [exact I|apply IH].
Qed.
Lemma blank_digits l : forall a, readDigits (l ++ [" "%char]) a = readDigits l a.
Proof. induction l as [|c l IH]; intros a; [reflexivity|]. cbn [app readDigits]. destruct (isDigit c); [apply IH|reflexivity]. Qed.
Lemma blank_skip l : skipSpaces (l ++ [" "%char]) = match skipSpaces l with [] => [] | r => r ++ [" "%char] end.
Proof. induction l as [|c l IH]; [reflexivity|]. cbn [app skipSpaces]. destruct (isSpace c); [exact IH|reflexivity]. Qed.
Lemma readInt_eq l : readInt l = match skipSpaces l with
  | c :: r => if Ascii.eqb c "-" then Z.max (- intMax - 1) (- Z.of_N (readDigits r 0)) else if Ascii.eqb c "+" then Z.min intMax (Z.of_N (readDigits r 0)) else Z.min intMax (Z.of_N (readDigits (c :: r) 0))
  | [] => Z.min intMax (Z.of_N (readDigits [] 0)) end.
Proof.
  unfold readInt. destruct (skipSpaces l) as [|c r]; [reflexivity|]. destruct (Ascii.eqb_spec c "-") as [->|N1]; [reflexivity|]. destruct (Ascii.eqb_spec c "+") as [->|N2]; [reflexivity|].
  destruct c as [[] [] [] [] [] [] [] []]; try reflexivity; try (now destruct N1); now destruct N2.
Qed.
Lemma blank_int l l' : more l l' -> readInt l' = readInt l.
Proof.
  intros [->|[-> ->]]; [|reflexivity]. rewrite !readInt_eq, blank_skip. destruct (skipSpaces l) as [|c r]; [reflexivity|]. cbn [app].
  change (c :: r ++ [" "%char]) with ((c :: r) ++ [" "%char]). now rewrite !blank_digits.
Qed.
Lemma blank_end z l : setSfenPos z (l ++ [" "%char]) = setSfenPos z l.
Proof.
  unfold setSfenPos. pose proof (blank_board l clearPos 72 false) as B. destruct (readBoard l clearPos 72 false) as [[p1 l1]| |], (readBoard (l ++ [" "%char]) clearPos 72 false) as [[p1' l1']| |]; cbn [moreOut] in B; try tauto.
  destruct B as [<- M]. cbn [obind fst snd]. set (p := setKingsGolds p1). clearbody p.
  assert (T : moreOut (readTurn l1 (turn p)) (readTurn l1' (turn p))) by (destruct M as [->|[-> ->]]; [apply blank_turn|split; [reflexivity|now right]]).
  destruct (readTurn l1 (turn p)) as [[t l2]| |], (readTurn l1' (turn p)) as [[t' l2']| |]; cbn [moreOut] in T; try tauto. destruct T as [<- M2]. cbn [obind fst snd].
  assert (H : moreOut (readHand l2 (setTurnField p t) 0) (readHand l2' (setTurnField p t) 0)) by (destruct M2 as [->|[-> ->]]; [apply blank_hand|split; [reflexivity|now right]]).
  destruct (readHand l2 (setTurnField p t) 0) as [[h l3]| |], (readHand l2' (setTurnField p t) 0) as [[h' l3']| |]; cbn [moreOut] in H; try tauto. destruct H as [<- M3]. cbn [obind fst snd]. now rewrite (blank_int _ _ M3).
Qed.
Lemma sfen_blank z s : setSfen z (s ++ " ")%string = setSfen z s.
Proof. unfold setSfen. change list_ascii_of_string with la. rewrite la_app. change (la " ") with [" "%char]. now rewrite blank_end. Qed.
Lemma sapp_assoc (a b c : string) : ((a ++ b) ++ c = a ++ b ++ c)%string.
Proof. induction a as [|x a IH]; [reflexivity|]. cbn [String.append]. now rewrite IH. Qed.
Lemma concat_next w w' ws : (String.concat " " (w :: w' :: ws) = w ++ " " ++ String.concat " " (w' :: ws))%string. Proof. reflexivity. Qed.
Lemma spaced_concat ws : forall acc, ws <> [] -> spaced acc ws = (acc ++ String.concat " " ws ++ " ")%string.
Proof.
  induction ws as [|w ws IH]; intros acc H; [now destruct H|]. unfold spaced. cbn [fold_left]. fold (spaced (acc ++ w ++ " ")%string ws). destruct ws as [|w' ws].
  - reflexivity.
  - rewrite IH by discriminate. rewrite concat_next, !sapp_assoc. reflexivity.
Qed.
Lemma sfen_spaced z ws : setSfen z (spaced "" ws) = setSfen z (String.concat " " ws).
Proof. destruct ws as [|w ws]; [reflexivity|]. rewrite spaced_concat by discriminate. cbn [String.append]. apply sfen_blank. Qed.
Lemma obind_ext {A B} (x : outcome A) (f g : A -> outcome B) : (forall a, f a = g a) -> obind x f = obind x g.
Proof. intros H. destruct x; cbn [obind]; auto. Qed.

(* ---- set_position on every text ---- *)
Theorem position_sfen z s ws ms : words_of s ("sfen"%string :: ws ++ "moves"%string :: ms) -> ~ In "moves"%string ws ->
  setPosition z s = obind (setSfen z (String.concat " " ws)) (fun b => push_each z b ms).
Proof.
  intros H N. pose proof (next_words _ _ H) as (_ & r & E & R & _). unfold setPosition. change (list_ascii_of_string s) with (la s). cbv zeta. rewrite E. change (String.eqb "sfen" "startpos") with false. change (String.eqb "sfen" "sfen") with true. cbv iota.
  destruct (collect_words ws (List.length (la r)) r "" ms R N (le_n _)) as (r' & C & R'). rewrite C. cbn [fst snd]. rewrite sfen_spaced. apply obind_ext. intros b. now apply pushTokens_words.
Qed.
Theorem position_sfen_only z s ws : words_of s ("sfen"%string :: ws) -> ~ In "moves"%string ws -> setPosition z s = setSfen z (String.concat " " ws).
Proof.
  intros H N. pose proof (next_words _ _ H) as (_ & r & E & R & _). unfold setPosition. change (list_ascii_of_string s) with (la s). cbv zeta. rewrite E. change (String.eqb "sfen" "startpos") with false. change (String.eqb "sfen" "sfen") with true. cbv iota.
  rewrite (collect_all ws (List.length (la r)) r "" R N (le_n _)). cbn [fst snd List.length pushTokens]. rewrite sfen_spaced. destruct (setSfen z _); reflexivity.
Qed.
Theorem position_start z s w ms : words_of s ("startpos"%string :: w :: ms) -> setPosition z s = obind (resetBoard z) (fun b => push_each z b ms).
Proof.
  intros H. pose proof (next_words _ _ H) as (_ & r & E & R & _). pose proof (next_words _ _ R) as (_ & r' & E' & R' & _). unfold setPosition. change (list_ascii_of_string s) with (la s). cbv zeta. rewrite E. change (String.eqb "startpos" "startpos") with true. cbv iota.
  apply obind_ext. intros b. rewrite E'. now apply pushTokens_words.
Qed.
Theorem position_start_only z s : words_of s ["startpos"%string] -> setPosition z s = resetBoard z.
Proof.
  intros H. pose proof (next_words _ _ H) as (_ & r & E & R & _). pose proof (next_words _ _ R) as E'. cbv iota in E'. unfold setPosition. change (list_ascii_of_string s) with (la s). cbv zeta. rewrite E. change (String.eqb "startpos" "startpos") with true. cbv iota.
  unfold resetBoard. rewrite E'. destruct (setSfen z startSfen); reflexivity.
Qed.
Theorem position_other z s ws : words_of s ws -> hd ""%string ws <> "startpos"%string -> hd ""%string ws <> "sfen"%string -> setPosition z s = Thrown.
Proof.
  intros H N1 N2. pose proof (next_words _ _ H) as X. unfold setPosition. change (list_ascii_of_string s) with (la s). cbv zeta. destruct ws as [|w ws]; [now rewrite X|]. destruct X as (_ & r & E & _). rewrite E. cbn [hd] in *.
  destruct (String.eqb_spec w "startpos"); [congruence|]. destruct (String.eqb_spec w "sfen"); [congruence|reflexivity].
Qed.
