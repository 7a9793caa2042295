(* set_position on the texts programs send, and exact replay of a game. *)
From Verif Require Import SfenInput TextProofs BoardFinal GenClaims SfenExamples MoveExamples.
From Verif Require Export CommandProofs.
Local Open Scope N_scope.

(* ---- the parts of an SFEN text are words ---- *)
Definition plain (c : ascii) : bool := negb (isSpace c) && negb (Ascii.eqb c "m").
Definition plainW (s : string) : Prop := Forall (fun c => plain c = true) (la s).
Lemma plain_app s t : plainW s -> plainW t -> plainW (s ++ t)%string.
Proof. unfold plainW. rewrite la_app. intros A B. now apply Forall_app. Qed.
Lemma plain_cons c s : plain c = true -> plainW s -> plainW (String c s). Proof. intros A B. now constructor. Qed.
Lemma plain_nil : plainW "". Proof. constructor. Qed.
Lemma plain_digit d : (0 <= d <= 9)%Z -> plain (digit d) = true.
Proof. intros H. assert (C : (d = 0 \/ d = 1 \/ d = 2 \/ d = 3 \/ d = 4 \/ d = 5 \/ d = 6 \/ d = 7 \/ d = 8 \/ d = 9)%Z) by lia. repeat destruct C as [->|C]; try reflexivity. now rewrite C. Qed.
Lemma plain_letter c k : plain (sfen_letter c k) = true. Proof. destruct c, k; reflexivity. Qed.
Lemma plain_piece c k : plainW (sfen_piece c k).
Proof. unfold sfen_piece. destruct (kind_eqb _ _); repeat (apply plain_cons; [apply plain_letter || reflexivity|]); apply plain_nil. Qed.
Lemma plain_numeral s n : numeral s n -> plainW s /\ s <> ""%string.
Proof.
  induction 1 as [d H|s n d _ [A B] H].
  - split; [apply plain_cons; [now apply plain_digit|apply plain_nil]|discriminate].
  - split; [apply plain_app; auto; apply plain_cons; [now apply plain_digit|apply plain_nil]|]. destruct s; [now destruct B|discriminate].
Qed.
Lemma plain_row cells s : row_text cells s -> plainW s.
Proof. induction 1; [apply plain_nil|apply plain_app; auto; apply plain_piece|apply plain_cons; auto; apply plain_digit; lia]. Qed.
Lemma row_some cells s : row_text cells s -> cells <> [] -> s <> ""%string.
Proof. destruct 1 as [|c k cells s|]; [now intros []| |discriminate]. intros _. unfold sfen_piece. destruct (kind_eqb _ _); discriminate. Qed.
Lemma plain_rows P rs s : rows_text P rs s -> plainW s /\ s <> ""%string.
Proof.
  induction 1 as [r s H|r r' rs s t H _ [IH _]].
  - split; [exact (plain_row _ _ H)|]. apply (row_some _ _ H). discriminate.
  - pose proof (plain_row _ _ H) as A. split; [apply plain_app; auto; apply plain_cons; auto|]. destruct s; discriminate.
Qed.
Lemma plain_items l s : items_text l s -> plainW s.
Proof.
  induction 1 as [|c k n l s t _ _ C _ IH]; [apply plain_nil|]. apply plain_app; [|apply plain_cons; auto; apply plain_letter].
  destruct C as [[_ ->]|C]; [apply plain_nil|exact (proj1 (plain_numeral _ _ C))].
Qed.
Lemma plain_hand P s : hand_text P s -> plainW s /\ s <> ""%string.
Proof.
  intros [[-> _]|(l & N & H & _)]; [split; [apply plain_cons; [reflexivity|apply plain_nil]|discriminate]|]. split; [exact (plain_items _ _ H)|].
  destruct H as [|c k n l s t _ _ _ _]; [now destruct N|]. destruct s; discriminate.
Qed.
Lemma plain_side P : plainW (side_text P) /\ side_text P <> ""%string.
Proof. unfold side_text. destruct (side P); (split; [apply plain_cons; [reflexivity|apply plain_nil]|discriminate]). Qed.
Lemma plain_word s : plainW s /\ s <> ""%string -> word s /\ s <> "moves"%string.
Proof.
  intros [A B]. unfold plainW in A. rewrite Forall_forall in A. split.
  - split; [exact B|]. intros c Hc. rewrite white_iff. specialize (A c Hc). unfold plain in A. destruct (isSpace c); [discriminate|discriminate].
  - intros ->. specialize (A "m"%char (or_introl eq_refl)). discriminate.
Qed.
Lemma sfen_words s P n : sfen_denotes s P n -> exists ws, s = String.concat " " ws /\ ws <> [] /\ Forall word ws /\ ~ In "moves"%string ws.
Proof.
  intros (b & h & m & Hb & Hh & Hm & ->). destruct (plain_word _ (plain_rows _ _ _ Hb)) as [B1 B2]. destruct (plain_word _ (plain_side P)) as [S1 S2].
  destruct (plain_word _ (plain_hand _ _ Hh)) as [H1 H2]. destruct (plain_word _ (plain_numeral _ _ Hm)) as [M1 M2].
  exists [b; side_text P; h; m]. split; [reflexivity|]. split; [discriminate|]. split; [repeat (constructor; auto)|]. intros [X|[X|[X|[X|[]]]]]; auto.
Qed.

(* ---- the words of a command ---- *)
Lemma white_blank : white " ". Proof. left. reflexivity. Qed.
Definition tail (ms : list string) : string := String.concat "" (map (fun m => " " ++ m)%string ms).
Lemma tail_cons m ms : tail (m :: ms) = String " " (m ++ tail ms).
Proof. unfold tail. destruct ms as [|m' ms]; [cbn [map String.concat String.append]; now rewrite sapp_nil|reflexivity]. Qed.
Lemma words_tail ms : Forall word ms -> forall w, word w -> words_of (w ++ tail ms)%string (w :: ms).
Proof.
  induction 1 as [|m ms W _ IH]; intros w Hw.
  - unfold tail. cbn [map String.concat]. rewrite sapp_nil. now apply words_last.
  - rewrite tail_cons. apply words_more; auto. exact white_blank.
Qed.
Lemma words_joined ws : forall c s rest, Forall word ws -> ws <> [] -> white c -> words_of s rest -> words_of (String.concat " " ws ++ String c s) (ws ++ rest).
Proof.
  induction ws as [|w ws IH]; intros c s rest F N W H; [now destruct N|]. inversion F as [|x y Fw Fs E]; subst. destruct ws as [|w' ws].
  - cbn [String.concat app]. now apply words_more.
  - rewrite concat_next, !sapp_assoc. cbn [app]. apply (words_more w " "); auto; [exact white_blank|]. apply IH; auto. discriminate.
Qed.
Lemma word_sfen : word "sfen". Proof. split; [discriminate|]. intros c Hc. rewrite white_iff. repeat destruct Hc as [<-|Hc]; try discriminate. destruct Hc. Qed.
Lemma word_moves : word "moves". Proof. split; [discriminate|]. intros c Hc. rewrite white_iff. repeat destruct Hc as [<-|Hc]; try discriminate. destruct Hc. Qed.
Lemma command_words ws ms : Forall word ws -> ws <> [] -> Forall word ms -> words_of (command (String.concat " " ws) ms) ("sfen"%string :: ws ++ "moves"%string :: ms).
Proof.
  intros F N M. unfold command. fold (tail ms). apply (words_more "sfen" " "); [exact word_sfen|exact white_blank|]. cbn [String.append]. apply words_joined; auto; [exact white_blank|].
  exact (words_tail ms M "moves" word_moves).
Qed.
Theorem position_command z s P n ms : sfen_denotes s P n -> Forall word ms -> setPosition z (command s ms) = obind (setSfen z s) (fun b => push_each z b ms).
Proof. intros D M. destruct (sfen_words s P n D) as (ws & -> & N & F & X). apply position_sfen; auto. now apply command_words. Qed.

(* ---- legal moves ---- *)
Lemma usi_word m : match m with Drop k t => In k hand_kinds /\ on_board t | Go s t _ => on_board s /\ on_board t end -> word (usi_text m).
Proof.
  assert (D : forall n, (1 <= n <= 9)%Z -> isSpace (digit_char n) = false /\ isSpace (letter_char n) = false).
  { intros n H. assert (C : (n = 1 \/ n = 2 \/ n = 3 \/ n = 4 \/ n = 5 \/ n = 6 \/ n = 7 \/ n = 8 \/ n = 9)%Z) by lia. repeat destruct C as [->|C]; try (split; reflexivity). now rewrite C. }
  assert (K : forall s, Forall (fun c => isSpace c = false) (la s) -> s <> ""%string -> word s).
  { intros s H N. split; [exact N|]. intros c Hc. rewrite Forall_forall in H. rewrite white_iff, (H c Hc). discriminate. }
  assert (Q : forall s, on_board s -> Forall (fun c => isSpace c = false) (la (usi_square s))).
  { intros [f r] B. unfold on_board in B. cbn [fst snd] in B. unfold usi_square. cbn [fst snd]. destruct (D f) as [D1 _]; [lia|]. destruct (D r) as [_ D2]; [lia|]. repeat constructor; auto. }
  destruct m as [k t|s t pr]; intros [A B]; apply K; cbn [usi_text]; try (rewrite !la_app, !Forall_app; repeat split; auto).
  - repeat destruct A as [<-|A]; try (repeat constructor). destruct A.
  - repeat constructor.
  - repeat destruct A as [<-|A]; try discriminate. destruct A.
  - destruct pr; repeat constructor.
  - discriminate.
Qed.
Lemma legal_word p m : good p -> legal (abs p) m -> word (usi_text m).
Proof.
  intros G L. apply usi_word. destruct m as [k t|s t pr]; [destruct (legal_drop_kind p k t G L); auto|]. destruct (legal_piece p s t pr G L) as (k & _ & _ & _ & A & B). auto.
Qed.
Lemma legal_tables p m : good p -> legal (abs p) m -> inTables (code p m) = true /\ code p m <> 0.
Proof.
  intros G [[PL _] _]. destruct (wf_code p m G PL) as (W & _). unfold inTables. destruct W as [W|W].
  - destruct W as (D & _). rewrite D. split; [reflexivity|]. intros E. rewrite E in D. discriminate.
  - pose proof (wfGo_ptTo _ _ W) as (A & _). destruct W as (D & _ & _ & B & _ & C & _). rewrite D. split.
    + rewrite andb_true_iff. split; [apply N.ltb_lt; lia|]. apply negb_true_iff, N.eqb_neq. change King with 8. lia.
    + intros E. rewrite E in B. change (mvPtFrom 0) with 0 in B. lia.
Qed.
Lemma same_play_all ms : forall P Q, same_position P Q -> same_position (play_all P ms) (play_all Q ms).
Proof. induction ms as [|m ms IH]; intros P Q S; [exact S|]. apply IH. now apply play_same. Qed.
Lemma legal_moves_same ms : forall P Q, same_position P Q -> legal_moves P ms -> legal_moves Q ms.
Proof. induction ms as [|m ms IH]; intros P Q S H; [exact I|]. destruct H as [L H]. split; [eapply legal_same; eauto|]. eapply IH; [|exact H]. now apply play_same. Qed.
Lemma push_text z b m : okZob z -> reachable z b -> well_formed (abs (bpos b)) -> legal (abs (bpos b)) m -> pushUsi z b (usi_text m) = Done (push z b (code (bpos b) m), code (bpos b) m) /\ code (bpos b) m <> 0.
Proof.
  intros Z R W L. destruct (reachable_ok z b Z R) as [G _]. destruct (legal_tables _ _ G L) as [T N]. destruct (usi_round_trip z b m Z R (wf_playable _ W) L) as [_ U]. split; [|exact N].
  unfold pushUsi. rewrite U, T. destruct (N.eqb_spec (code (bpos b) m) 0); [congruence|reflexivity].
Qed.
Lemma push_same z b m : okZob z -> reachable z b -> legal (abs (bpos b)) m -> same_position (abs (bpos (push z b (code (bpos b) m)))) (play (abs (bpos b)) m).
Proof. intros Z R L. destruct (reachable_ok z b Z R) as [G _]. cbn [push bpos]. unfold doMove. cbv zeta. apply abs_doMoveCI; auto. apply L. Qed.
Lemma push_wf z b m : okZob z -> reachable z b -> well_formed (abs (bpos b)) -> legal (abs (bpos b)) m -> let b1 := push z b (code (bpos b) m) in reachable z b1 /\ well_formed (abs (bpos b1)).
Proof.
  intros Z R W L. split; [apply reachable_push; auto; apply L|]. eapply well_formed_same; [apply same_sym, push_same; eauto|]. apply play_well_formed; auto. apply L.
Qed.
Lemma push_history z b m : map toUSI (getHistory (push z b m)) = map toUSI (getHistory b) ++ [toUSI m].
Proof. unfold getHistory. cbn [push bhist map rev]. now rewrite !map_app. Qed.
Lemma push_ply z b m : gamePly (bpos (push z b m)) = (gamePly (bpos b) + 1)%Z.
Proof. cbn [push bpos]. unfold doMove, doMoveCI. cbv zeta. destruct (mvDrop m); reflexivity. Qed.
Lemma push_legal_moves z ms : okZob z -> forall b, reachable z b -> well_formed (abs (bpos b)) -> legal_moves (abs (bpos b)) ms ->
  exists b', (forall rest, push_each z b (map usi_text ms ++ rest) = push_each z b' rest) /\ calls z b (map Play ms) = Some b' /\ reachable z b' /\ well_formed (abs (bpos b')) /\
    same_position (abs (bpos b')) (play_all (abs (bpos b)) ms) /\ gamePly (bpos b') = (gamePly (bpos b) + Z.of_nat (List.length ms))%Z /\
    map toUSI (getHistory b') = map toUSI (getHistory b) ++ map usi_text ms /\ Forall word (map usi_text ms).
Proof.
  intros Z. induction ms as [|m ms IH]; intros b R W H.
  - exists b. split; [reflexivity|]. split; [reflexivity|]. split; [exact R|]. split; [exact W|]. split; [apply same_refl|]. split; [cbn [List.length]; lia|]. split; [cbn [map]; now rewrite app_nil_r|apply Forall_nil].
  - destruct H as [L H]. destruct (push_text z b m Z R W L) as [T N]. destruct (push_wf z b m Z R W L) as [R1 W1]. pose proof (push_same z b m Z R L) as S1. set (b1 := push z b (code (bpos b) m)) in *.
    destruct (IH b1 R1 W1 (legal_moves_same ms _ _ (same_sym _ _ S1) H)) as (b' & A & B & C & D & E & F & G & K). exists b'. split; [|split; [|split; [exact C|split; [exact D|split; [|split; [|split]]]]]].
    + intros rest. cbn [map app push_each]. rewrite T. cbn [obind fst snd]. destruct (N.eqb_spec (code (bpos b) m) 0); [congruence|]. apply A.
    + cbn [map calls callOf step]. exact B.
    + eapply same_trans; [exact E|]. now apply (same_play_all ms).
    + rewrite F. unfold b1. rewrite push_ply. cbn [List.length]. lia.
    + rewrite G. unfold b1. rewrite push_history, <- app_assoc. cbn [map app]. do 2 f_equal. apply (usi_round_trip z b m Z R (wf_playable _ W) L).
    + constructor; [|exact K]. destruct (reachable_ok z b Z R) as [Gb _]. exact (legal_word _ _ Gb L).
Qed.

Lemma fits_same P Q m : same_position P Q -> fits P m -> fits Q m.
Proof. intros (A & _ & C) H. destruct m as [k t|s t pr]; cbn [fits] in *; cbv zeta in *; rewrite <- C; [exact H|]. rewrite <- A. exact H. Qed.
Theorem position_legal z s P n ms : okZob z -> sfen_denotes s P n -> well_formed P -> (n <= intMax)%Z -> legal_moves P ms ->
  exists b b', setSfen z s = Done b /\ calls z b (map Play ms) = Some b' /\ setPosition z (command s (map usi_text ms)) = Done b' /\
    same_position (abs (bpos b')) (play_all P ms) /\ gamePly (bpos b') = (n + Z.of_nat (List.length ms))%Z /\ map toUSI (getHistory b') = map usi_text ms /\ reachable z b'.
Proof.
  intros Z D W Hn L. destruct (sfen_denoted z s P n Z D (wf_proper P W) Hn) as (b & E & S & N & U & _). pose proof (set_up_reachable z b U) as R.
  assert (Wb : well_formed (abs (bpos b))) by (eapply well_formed_same; [apply same_sym; exact S|exact W]).
  destruct (push_legal_moves z ms Z b R Wb (legal_moves_same ms _ _ (same_sym _ _ S) L)) as (b' & A & B & C & _ & F & G & H & K). exists b, b'. split; [exact E|]. split; [exact B|]. split.
  - rewrite (position_command z s P n) by auto. rewrite E. cbn [obind]. rewrite <- (app_nil_r (map usi_text ms)). rewrite A. reflexivity.
  - split; [eapply same_trans; [exact F|now apply same_play_all]|]. split; [rewrite G, N; reflexivity|]. split; [|exact C]. rewrite H. destruct (set_up_fresh z b U) as [_ Eb]. rewrite Eb. reflexivity.
Qed.
Theorem position_illegal z s P n ms m rest : okZob z -> sfen_denotes s P n -> well_formed P -> (n <= intMax)%Z -> legal_moves P ms ->
  fits (play_all P ms) m -> ~ legal (play_all P ms) m -> Forall word rest -> setPosition z (command s (map usi_text ms ++ usi_text m :: rest)) = Thrown.
Proof.
  intros Z D W Hn L Fm Nm Fr. destruct (sfen_denoted z s P n Z D (wf_proper P W) Hn) as (b & E & S & N & U & _). pose proof (set_up_reachable z b U) as R.
  assert (Wb : well_formed (abs (bpos b))) by (eapply well_formed_same; [apply same_sym; exact S|exact W]).
  destruct (push_legal_moves z ms Z b R Wb (legal_moves_same ms _ _ (same_sym _ _ S) L)) as (b' & A & B & C & Wb' & F & _ & _ & K).
  assert (S' : same_position (abs (bpos b')) (play_all P ms)) by (eapply same_trans; [exact F|now apply same_play_all]).
  rewrite (position_command z s P n); [|exact D|].
  - rewrite E. cbn [obind]. rewrite A. cbn [push_each]. unfold pushUsi.
    destruct (usi_decides z b' m Z C (wf_playable _ Wb')) as [[X _]|[_ X]].
    + eapply fits_same; [apply same_sym; exact S'|exact Fm].
    + destruct Nm. eapply legal_same; eauto.
    + rewrite X. reflexivity.
  - apply Forall_app. split; [exact K|]. constructor; [|exact Fr]. apply usi_word. destruct m as [k t|a t pr]; cbn [fits] in Fm; cbv zeta in Fm; tauto.
Qed.
(* the text of a game gives back the board object itself *)
Theorem position_replay z b0 ms b : okZob z -> set_up z b0 -> well_formed (abs (bpos b0)) -> (0 <= gamePly (bpos b0) <= intMax)%Z -> legal_moves (abs (bpos b0)) ms ->
  calls z b0 (map Play ms) = Some b -> setPosition z (command (toSfen b0) (map toUSI (getHistory b))) = Done b.
Proof.
  intros Z U W Hn L C. pose proof (set_up_reachable z b0 U) as R. pose proof (sfen_written z b0 Z R (proj1 Hn)) as D.
  destruct (push_legal_moves z ms Z b0 R W L) as (b' & A & B & _ & _ & _ & _ & H & K). assert (b' = b) as -> by congruence.
  destruct (set_up_fresh z b0 U) as [F0 Eb]. replace (map toUSI (getHistory b)) with (map usi_text ms) by (rewrite H, Eb; reflexivity).
  rewrite (position_command z _ _ _ _ D) by auto. destruct (sfen_reads z _ _ _ D (wf_proper _ W) (proj2 Hn)) as (q & E & F & S & N).
  assert (q = bpos b0) by (apply (fresh_eq z); auto). subst q. rewrite (setSfen_done z _ _ E). cbn [obind]. rewrite <- Eb, <- (app_nil_r (map usi_text ms)), A. reflexivity.
Qed.
