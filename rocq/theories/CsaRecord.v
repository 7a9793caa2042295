(* Proofs about CSA game records: moves, times, scores, the end, and the whole record. *)
From Verif Require Import SfenInput Turn SfenFinal CommandFinal RotateProofs HistProofs GenClaims.
From Verif Require Export CsaGame.
Local Open Scope N_scope.

(* ---- numbers ---- *)
Lemma stoi_numeral u t : numeral u t -> (t <= int_max)%Z -> stoi (la u) = Int t.
Proof.
  intros N L. destruct (numeral_chars _ _ N) as (Ne & F & V). destruct (la u) as [|c r] eqn:E; [contradiction|]. inversion F as [|? ? D F']; subst. destruct (SfenProofs.digit_char c D) as (A1 & A2 & A3 & _).
  unfold stoi. cbn [skipSpaces]. rewrite A1, A2, A3. unfold stoiDigits. rewrite D. rewrite (readDigits_all (c :: r) 0 F). cbv zeta. unfold int_max, intMax in *.
  replace ((_ <=? Z.of_N (valueOf (c :: r) 0)) && _)%Z with true; [reflexivity|]. symmetry. apply andb_true_iff. split; apply Z.leb_le; lia.
Qed.
Lemma stoi_integer u n : integer u n -> (- int_max <= n <= int_max)%Z -> stoi (la u) = Int n.
Proof.
  intros I L. destruct I as [s n N|s n N]; [apply stoi_numeral; [exact N|lia]|]. destruct (numeral_chars _ _ N) as (Ne & F & V). change (la ("-" ++ s)) with ("-"%char :: la s). destruct (la s) as [|c r] eqn:E; [contradiction|]. inversion F as [|? ? D F']; subst.
  unfold stoi. cbn [skipSpaces]. change (isSpace "-") with false. cbv iota. change (Ascii.eqb "-" "-") with true. cbv iota. unfold stoiDigits. rewrite D. rewrite (readDigits_all (c :: r) 0 F). cbv zeta. unfold int_max, intMax in *.
  replace ((_ <=? - Z.of_N (valueOf (c :: r) 0)) && _)%Z with true; [reflexivity|]. symmetry. apply andb_true_iff. split; apply Z.leb_le; lia.
Qed.
Lemma integer_chars u n : integer u n -> ~ In " "%char (la u).
Proof.
  intros I X. destruct I as [s n N|s n N]; [|change (la ("-" ++ s)) with ("-"%char :: la s) in X; destruct X as [X|X]; [discriminate|]];
    destruct (numeral_chars _ _ N) as (_ & F & _); rewrite Forall_forall in F; specialize (F _ X); discriminate.
Qed.
Lemma find_not c a i : ~ In c a -> findFrom c a i = None.
Proof. revert i. induction a as [|x a IH]; intros i N; [reflexivity|]. cbn [findFrom]. destruct (Ascii.eqb_spec x c) as [->|_]; [destruct N; now left|]. apply IH. intros X. apply N. now right. Qed.
Lemma find_at c a r : forall i, ~ In c a -> findFrom c (a ++ c :: r) i = Some (i + List.length a)%nat.
Proof.
  induction a as [|x a IH]; intros i N; cbn [app findFrom List.length].
  - rewrite Ascii.eqb_refl. f_equal. lia.
  - destruct (Ascii.eqb_spec x c) as [->|_]; [destruct N; now left|]. rewrite IH; [f_equal; lia|]. intros X. apply N. now right.
Qed.
Lemma setLast_app {A} (l : list A) x y : setLast (l ++ [x]) y = l ++ [y].
Proof. unfold setLast. destruct (l ++ [x]) eqn:E; [destruct l; discriminate|]. rewrite <- E, removelast_last. reflexivity. Qed.

Ltac fields := cbn [gVersion gInfos gSfen gEndgame gNames gRatings gMoves gTimes gScores gComments gComment gPos gLines gTurnStr gLose fst snd].
Section Lines.
Context (z : Zob) (stof : string -> outcome N).
Notation allLines := (Csa.allLines z stof). Notation oneLine := (Csa.oneLine z stof).
(* ---- lines after a move ---- *)
Lemma score_one n t s g ts : gMoves g <> [] -> gScores g = ts -> extra_text (Score n t) s -> oneLine (la s) g = Done (withNotes g (setLast (gScores g) n) (setLast (gComments g) t)).
Proof.
  intros M _ (-> & u & rest & -> & R & I & B). set (l := la ("'** " ++ u ++ rest)).
  assert (E : l = ["'"; "*"; "*"; " "]%char ++ la u ++ la rest) by (unfold l; rewrite !la_app; reflexivity).
  unfold Csa.oneLine. assert (C : charOf l 0 = "'"%char) by (rewrite E; reflexivity). rewrite C. change (Ascii.eqb "'" Ascii.zero) with false. change (Ascii.eqb "'" "'") with true. cbv iota.
  replace (starts "'black_rate:" l) with false by (symmetry; rewrite E; destruct (la u ++ la rest); reflexivity). replace (starts "'white_rate:" l) with false by (symmetry; rewrite E; destruct (la u ++ la rest); reflexivity).
  replace (starts "'** " l) with true by (symmetry; rewrite E; reflexivity). unfold scoreLine. pose proof (integer_chars _ _ I) as NB. pose proof (stoi_integer _ _ I B) as S.
  assert (F : findFirst " " l 4 = if String.eqb rest "" then None else Some (4 + List.length (la u))%nat).
  { unfold findFirst. rewrite E. cbn [app skipn]. destruct R as [->|[t ->]]; [cbn [la list_ascii_of_string String.eqb]; rewrite app_nil_r; now apply find_not|]. change (la (" " ++ t)) with (" "%char :: la t). rewrite find_at by exact NB. reflexivity. }
  assert (K : firstn (match findFirst " " l 4 with Some i => i | None => List.length l end - 4) (skipn 4 l) = la u).
  { rewrite F, E. cbn [app skipn List.length]. destruct R as [->|[t ->]].
    - cbn [String.eqb la list_ascii_of_string]. rewrite app_nil_r. replace (_ - 4)%nat with (List.length (la u)) by lia. apply firstn_all.
    - change (String.eqb (" " ++ t) "") with false. replace (_ - 4)%nat with (List.length (la u)) by lia. rewrite firstn_app, firstn_all, Nat.sub_diag. cbn [firstn]. apply app_nil_r. }
  cbv zeta. rewrite K, S. destruct (gMoves g); [contradiction|]. do 3 f_equal. unfold textOf. rewrite E. cbn [app skipn]. rewrite <- la_app. apply sa_la.
Qed.
Lemma extra_one x s g p ts t ss n cs c : extra_text x s -> gPos g = Some p -> gEndgame g = ""%string -> gMoves g <> [] -> gTimes g = ts ++ [t] -> gScores g = ss ++ [n] -> gComments g = cs ++ [c] ->
  oneLine (la s) g = Done (mkRecord (gVersion g) (gInfos g) (gSfen g) "" (gNames g) (gRatings g) (gMoves g) (ts ++ [last (spent x) t]) (ss ++ [last (scored x) n]) (cs ++ [last (noted x) c])
    (gComment g ++ feed (remarks x)) (Some p) (gLines g) (gTurnStr g) (gLose g)).
Proof.
  intros X Hp He Hm Ht Hs Hc. destruct x as [u|u w|w|].
  - destruct X as (v & -> & N & B). change (la ("T" ++ v)) with ("T"%char :: la v). unfold Csa.oneLine, charOf. cbn [nth]. repeat (change (Ascii.eqb "T" "T") with true || change (Ascii.eqb "T" ?c) with false || change (isSign "T") with false). cbv iota.
    unfold timeLine. rewrite He. cbn [String.eqb]. rewrite Ht. destruct (ts ++ [t]) eqn:E; [destruct ts; discriminate|]. rewrite <- E. unfold stoiThrow. cbn [skipn]. rewrite (stoi_numeral _ _ N B). cbn [obind]. rewrite setLast_app. unfold withTimes. cbn [spent scored noted remarks last]. rewrite He, Hs, Hc, Hp, feed_nil, sapp_nil. reflexivity.
  - rewrite (score_one u w s g _ Hm eq_refl X). unfold withNotes. rewrite Hs, Hc, !setLast_app, Hp, He, Ht. cbn [spent scored noted remarks last]. rewrite feed_nil, sapp_nil. reflexivity.
  - destruct X as [-> C]. rewrite comment_one by exact C. unfold withComment. cbn [spent scored noted remarks last]. rewrite feed_cons, feed_nil, sapp_nil, Hs, Hc, Hp, He, Ht. reflexivity.
  - rewrite (X : s = ""%string), blank_one. cbn [spent scored noted remarks last]. rewrite feed_nil, sapp_nil, <- Hs, <- Hc, <- Hp, <- He, <- Ht. now destruct g.
Qed.
Lemma extra_lines xs ls : Forall2 extra_text xs ls -> forall g p ts t ss n cs c, gPos g = Some p -> gEndgame g = ""%string -> gMoves g <> [] -> gTimes g = ts ++ [t] -> gScores g = ss ++ [n] -> gComments g = cs ++ [c] ->
  allLines (map la ls) g = Done (mkRecord (gVersion g) (gInfos g) (gSfen g) "" (gNames g) (gRatings g) (gMoves g) (ts ++ [last (flat_map spent xs) t]) (ss ++ [last (flat_map scored xs) n]) (cs ++ [last (flat_map noted xs) c])
    (gComment g ++ feed (flat_map remarks xs)) (Some p) (gLines g) (gTurnStr g) (gLose g)).
Proof.
  induction 1 as [|x s xs ls X F IH]; intros g p ts t ss n cs c Hp He Hm Ht Hs Hc.
  - cbn [map Csa.allLines flat_map last]. rewrite feed_nil, sapp_nil, <- Hs, <- Hc, <- Hp, <- He, <- Ht. now destruct g.
  - cbn [map Csa.allLines flat_map]. rewrite (extra_one x s g p ts t ss n cs c) by assumption. cbn [obind]. erewrite init_some by reflexivity. cbn [obind]. erewrite IH; [|reflexivity|reflexivity|exact Hm|reflexivity|reflexivity|reflexivity].
    fields. rewrite !last_app, feed_app, sapp_assoc. reflexivity.
Qed.
(* ---- moves ---- *)
Lemma csa_text_same P Q m : same_position P Q -> csa_text P m = csa_text Q m.
Proof. intros (A & _). destruct m as [k t|s t pr]; cbn [csa_text kind_after]; [reflexivity|]. now rewrite A. Qed.
Lemma csa_length p m : good p -> legal (abs p) m -> List.length (la (csa_text (abs p) m)) = 6%nat.
Proof.
  intros G L. destruct m as [k t|s t pr].
  - cbn [csa_text kind_after]. rewrite !la_app, !app_length. destruct (name_chars k) as (a & b & ->). reflexivity.
  - destruct (legal_piece p s t pr G L) as (k & At & _ & Pr & _). cbn [csa_text]. unfold kind_after. rewrite At. destruct pr; [destruct (promote k) as [k'|] eqn:E; [|now destruct Pr]|]; rewrite !la_app, !app_length.
    + destruct (name_chars k') as (a & b & ->). reflexivity.
    + destruct (name_chars k) as (a & b & ->). reflexivity.
Qed.
Lemma resize_one {A} (l : list A) n d : List.length l = n -> resize l (n + 1) d = l ++ [d].
Proof. intros E. unfold resize. rewrite E, firstn_all2 by lia. replace (n + 1 - n)%nat with 1%nat by lia. reflexivity. Qed.
Lemma move_one P e b g : okZob z -> reachable z b -> well_formed (abs (bpos b)) -> same_position (abs (bpos b)) P -> legal (abs (bpos b)) (e_move e) -> gPos g = Some (bpos b) ->
  List.length (gTimes g) = List.length (gMoves g) -> List.length (gScores g) = List.length (gMoves g) -> List.length (gComments g) = List.length (gMoves g) ->
  oneLine (la (move_text P e)) g = Done (mkRecord (gVersion g) (gInfos g) (gSfen g) (gEndgame g) (gNames g) (gRatings g) (gMoves g ++ [code (bpos b) (e_move e)]) (gTimes g ++ [0%Z]) (gScores g ++ [0%Z])
    (gComments g ++ [match e_comment e with Some c => c | None => ""%string end]) (gComment g) (Some (bpos (push z b (code (bpos b) (e_move e))))) (gLines g) (gTurnStr g) (gLose g)).
Proof.
  intros Z R W S L Hp H1 H2 H3. destruct (reachable_ok z b Z R) as [G _]. destruct (csa_round_trip z b (e_move e) Z R (wf_playable _ W) L) as [_ Rd]. destruct (legal_tables _ _ G L) as [Tb _].
  pose proof (csa_length _ _ G L) as Len. unfold move_text. rewrite <- (csa_text_same _ _ (e_move e) S). set (m := csa_text (abs (bpos b)) (e_move e)) in *. set (tail := match e_comment e with Some c => (",'" ++ c)%string | None => ""%string end).
  set (sg := match side P with Sente => "+"%char | Gote => "-"%char end).
  assert (E : la (csa_sign (side P) ++ m ++ tail) = [sg] ++ la m ++ la tail) by (rewrite !la_app; unfold sg; destruct (side P); reflexivity). rewrite E.
  unfold Csa.oneLine, charOf. cbn [app nth]. assert (Q : Ascii.eqb sg Ascii.zero = false /\ Ascii.eqb sg "'" = false /\ Ascii.eqb sg "V" = false /\ Ascii.eqb sg "N" = false /\ Ascii.eqb sg "$" = false /\ Ascii.eqb sg "P" = false /\ isSign sg = true) by (unfold sg; destruct (side P); repeat split; reflexivity).
  destruct Q as (-> & -> & -> & -> & -> & -> & ->). replace (Nat.eqb (List.length (sg :: la m ++ la tail)) 1) with false by (cbn [List.length]; rewrite app_length, Len; reflexivity).
  unfold moveLine. rewrite Hp. change (sg :: la m ++ la tail) with ([sg] ++ la m ++ la tail). change 1%nat with (List.length [sg]) at 1. rewrite <- Len at 1. rewrite substr_mid. cbn [obind]. unfold textOf at 1. rewrite sa_la, Rd, Tb. cbv zeta. rewrite (app_length (gMoves g)). cbn [List.length].
  rewrite (resize_one (gTimes g)), (resize_one (gScores g)), (resize_one (gComments g)) by assumption.
  assert (L7 : List.length ([sg] ++ la m) = 7%nat) by (rewrite app_length, Len; reflexivity).
  assert (T7 : forall n, substr ([sg] ++ la m ++ la tail) 7 n = Done (firstn n (la tail))). { intros n. unfold substr. rewrite app_assoc, app_length, L7. cbn [Nat.ltb Nat.leb Nat.add]. f_equal. rewrite skipn_app, L7. rewrite (skipn_all2 ([sg] ++ la m)) by (rewrite L7; lia). reflexivity. }
  rewrite T7. cbn [obind]. unfold withMove, tail. destruct (e_comment e) as [c|].
  - change (la (",'" ++ c)) with (","%char :: "'"%char :: la c). cbn [firstn]. change (String.eqb (textOf [","%char; "'"%char]) ",'") with true. cbv iota.
    assert (T9 : forall n, substr ([sg] ++ la m ++ ","%char :: "'"%char :: la c) 9 n = Done (firstn n (la c))).
    { intros n. unfold substr. replace ([sg] ++ la m ++ ","%char :: "'"%char :: la c) with (([sg] ++ la m ++ [","%char; "'"%char]) ++ la c) by (rewrite <- !app_assoc; reflexivity). assert (L9 : List.length ([sg] ++ la m ++ [","%char; "'"%char]) = 9%nat) by (rewrite !app_length, Len; reflexivity).
      rewrite app_length, L9. cbn [Nat.ltb Nat.leb Nat.add]. f_equal. rewrite skipn_app, L9, skipn_all2 by (rewrite L9; lia). reflexivity. }
    rewrite T9. cbn [obind]. rewrite setLast_app. rewrite firstn_all2 by (rewrite !app_length; cbn [List.length]; lia). unfold textOf. rewrite sa_la. reflexivity.
  - reflexivity.
Qed.
Lemma entry_lines P es ls : entries_text P es ls -> okZob z -> forall b g, reachable z b -> well_formed (abs (bpos b)) -> same_position (abs (bpos b)) P -> legal_moves P (map e_move es) -> gPos g = Some (bpos b) -> gEndgame g = ""%string ->
  List.length (gTimes g) = List.length (gMoves g) -> List.length (gScores g) = List.length (gMoves g) -> List.length (gComments g) = List.length (gMoves g) ->
  exists b' codes, calls z b (map Play (map e_move es)) = Some b' /\ getHistory b' = getHistory b ++ codes /\ same_position (abs (bpos b')) (play_all P (map e_move es)) /\ good (bpos b') /\
    allLines (map la ls) g = Done (mkRecord (gVersion g) (gInfos g) (gSfen g) "" (gNames g) (gRatings g) (gMoves g ++ codes) (gTimes g ++ map time_of es) (gScores g ++ map score_of es) (gComments g ++ map comment_of es)
      (gComment g ++ feed (flat_map (fun e => flat_map remarks (e_extras e)) es)) (Some (bpos b')) (gLines g) (gTurnStr g) (gLose g)).
Proof.
  induction 1 as [P|P e es xs ls X T IH]; intros Z b g R W S L Hp He H1 H2 H3.
  - exists b, []. split; [reflexivity|]. rewrite ?app_nil_r. split; [reflexivity|]. split; [exact S|]. split; [apply (reachable_ok z b Z R)|]. cbn [map flat_map Csa.allLines]. rewrite ?app_nil_r, feed_nil, sapp_nil, <- Hp, <- He. now destruct g.
  - cbn [map legal_moves] in L. destruct L as [L1 L2]. assert (Lb : legal (abs (bpos b)) (e_move e)) by (eapply legal_same; [apply same_sym; exact S|exact L1]).
    destruct (push_wf z b (e_move e) Z R W Lb) as [R1 W1]. pose proof (push_same z b (e_move e) Z R Lb) as S1.
    cbn [map app]. rewrite map_app. cbn [Csa.allLines]. rewrite (move_one P e b g) by assumption. cbn [obind]. erewrite init_some by reflexivity. cbn [obind]. rewrite allLines_app.
    erewrite (extra_lines (e_extras e) xs X); [|reflexivity|exact He|intros Q; apply app_eq_nil in Q as [_ Q]; discriminate|reflexivity|reflexivity|reflexivity]. cbn [obind].
    match goal with |- context [allLines (map la ls) ?g1] => set (g' := g1) end.
    destruct (IH Z (push z b (code (bpos b) (e_move e))) g') as (b' & codes & A & B & C & D & E); auto.
    + eapply same_trans; [exact S1|]. now apply play_same.
    + unfold g'. fields. rewrite !app_length, H1. reflexivity.
    + unfold g'. fields. rewrite !app_length, H2. reflexivity.
    + unfold g'. fields. rewrite !app_length, H3. reflexivity.
    + exists b', (code (bpos b) (e_move e) :: codes). split; [cbn [map calls callOf step]; exact A|]. split.
      { rewrite B. unfold getHistory. cbn [push bhist map rev fst]. now rewrite <- app_assoc. }
      split; [exact C|]. split; [exact D|]. rewrite E. unfold g'. fields. cbn [map flat_map]. rewrite feed_app, <- !app_assoc, !sapp_assoc. reflexivity.
Qed.
(* ---- the end ---- *)
Definition loser (c : option color) (lose : N) : N := match c with Some Sente => White | Some Gote => Black | None => lose end.
Lemma end_one p w tail g : begins "%" w -> no_comma w -> (tail = ""%string \/ begins "," tail) -> gPos g = Some p -> turn p < 2 ->
  oneLine (la (w ++ tail)) g = Done (withEnd g w (loser (winner (side (abs p)) w) (gLose g))).
Proof.
  intros [t Ew] NC Ht Hp T2. unfold Csa.oneLine. assert (C : charOf (la (w ++ tail)) 0 = "%"%char) by (rewrite Ew; reflexivity). rewrite C. repeat (change (Ascii.eqb "%" "%") with true || change (Ascii.eqb "%" ?c) with false || change (isSign "%") with false). cbv iota.
  unfold endLine. rewrite Hp.
  assert (Cut : match findFirst "," (la (w ++ tail)) 0 with Some i => firstn i (la (w ++ tail)) | None => la (w ++ tail) end = la w).
  { unfold findFirst. rewrite la_app. cbn [skipn]. destruct Ht as [->|[r ->]].
    - cbn [la list_ascii_of_string]. rewrite app_nil_r. rewrite find_not by exact NC. reflexivity.
    - change (la ("," ++ r)) with (","%char :: la r). rewrite find_at by exact NC. cbn [Nat.add]. rewrite firstn_app, firstn_all, Nat.sub_diag. cbn [firstn]. apply app_nil_r. }
  cbv zeta. rewrite Cut. unfold textOf. rewrite sa_la. do 2 f_equal. cbn [abs side].
  assert (Tn : turn p = 0 \/ turn p = 1) by lia. unfold winner.
  destruct (String.eqb_spec w "%TORYO"), (String.eqb_spec w "%TIME_UP"), (String.eqb_spec w "%ILLEGAL_MOVE"); cbn [orb]; try (destruct Tn as [-> | ->]; reflexivity).
  destruct (String.eqb_spec w "%+ILLEGAL_ACTION") as [->|]; [reflexivity|]. destruct (String.eqb_spec w "%-ILLEGAL_ACTION") as [->|]; [reflexivity|].
  destruct (String.eqb_spec w "%KACHI"); [destruct Tn as [-> | ->]; reflexivity|reflexivity].
Qed.
Lemma after_lines xs ls : Forall2 extra_text xs ls -> (forall x n s, In x xs -> x <> Score n s) -> forall g p, gPos g = Some p -> gEndgame g <> ""%string ->
  allLines (map la ls) g = Done (mkRecord (gVersion g) (gInfos g) (gSfen g) (gEndgame g) (gNames g) (gRatings g) (gMoves g) (gTimes g ++ flat_map spent xs) (gScores g) (gComments g)
    (gComment g ++ feed (flat_map remarks xs)) (gPos g) (gLines g) (gTurnStr g) (gLose g)).
Proof.
  induction 1 as [|x s xs ls X F IH]; intros NS g p Hp He.
  - cbn [map Csa.allLines flat_map]. rewrite feed_nil, sapp_nil, app_nil_r. now destruct g.
  - cbn [map Csa.allLines flat_map]. assert (NS' : forall x n s, In x xs -> x <> Score n s) by (intros; apply NS; now right).
    assert (One : oneLine (la s) g = Done (withComment (withTimes g (gTimes g ++ spent x)) (gComment g ++ feed (remarks x)))).
    { destruct x as [u|u w|w|]; [|exfalso; exact (NS _ u w (or_introl eq_refl) eq_refl)| |].
      - destruct X as (v & -> & N & B). change (la ("T" ++ v)) with ("T"%char :: la v). unfold Csa.oneLine, charOf. cbn [nth]. repeat (change (Ascii.eqb "T" "T") with true || change (Ascii.eqb "T" ?c) with false || change (isSign "T") with false). cbv iota.
        unfold timeLine. destruct (String.eqb_spec (gEndgame g) "") as [E|_]; [contradiction|]. unfold stoiThrow. cbn [skipn]. rewrite (stoi_numeral _ _ N B). cbn [obind remarks spent]. rewrite feed_nil, sapp_nil. now destruct g.
      - destruct X as [-> C]. rewrite comment_one by exact C. cbn [remarks spent]. rewrite feed_cons, feed_nil, sapp_nil, app_nil_r. now destruct g.
      - rewrite (X : s = ""%string), blank_one. cbn [remarks spent]. rewrite feed_nil, sapp_nil, app_nil_r. now destruct g. }
    rewrite One. cbn [obind]. rewrite (init_some _ _ p) by exact Hp. cbn [obind]. rewrite (IH NS' _ p) by assumption. unfold withComment, withTimes. fields. rewrite feed_app, <- app_assoc, sapp_assoc. reflexivity.
Qed.
Lemma ending_lines en ls p g : ending_text en ls -> gPos g = Some p -> turn p < 2 -> gEndgame g = ""%string ->
  allLines (map la ls) g = Done (mkRecord (gVersion g) (gInfos g) (gSfen g) (end_word en) (gNames g) (gRatings g) (gMoves g) (gTimes g ++ flat_map spent (after_end en)) (gScores g) (gComments g)
    (gComment g ++ feed (flat_map remarks (after_end en))) (gPos g) (gLines g) (gTurnStr g) (loser (end_winner (side (abs p)) en) (gLose g))).
Proof.
  intros E Hp T2 He. destruct en as [e|]; cbn [ending_text end_word after_end end_winner] in *.
  - destruct E as (Bw & NC & NS & xs & F & ->). cbn [map Csa.allLines]. assert (Tl : match after_comma e with Some c => ("," ++ c)%string | None => ""%string end = ""%string \/ begins "," (match after_comma e with Some c => ("," ++ c)%string | None => ""%string end)) by (destruct (after_comma e) as [c|]; [right; now exists c|now left]). rewrite (end_one p) by assumption. cbn [obind]. rewrite (init_some _ _ p) by exact Hp. cbn [obind].
    rewrite (after_lines _ xs F NS _ p); [reflexivity|exact Hp|]. cbn [withEnd gEndgame]. destruct Bw as [t ->]. discriminate.
  - subst ls. cbn [map Csa.allLines flat_map loser]. rewrite feed_nil, sapp_nil, app_nil_r, <- He. now destruct g.
Qed.
End Lines.
Theorem record_read z stof P r ls : okZob z -> record_text P r ls -> well_formed P -> legal_moves P (map e_move (c_entries r)) ->
  exists g b0 b, parseCsa z stof (joined ls) = Done g /\ sfen_denotes (gSfen g) P 1 /\ setSfen z (gSfen g) = Done b0 /\ set_up z b0 /\ calls z b0 (map Play (map e_move (c_entries r))) = Some b /\ gMoves g = getHistory b /\
    gTimes g = map time_of (c_entries r) ++ flat_map spent (after_end (c_ending r)) /\ gScores g = map score_of (c_entries r) /\ gComments g = map comment_of (c_entries r) /\
    gVersion g = last (flat_map versions (c_headers r)) ""%string /\ gNames g = (last (flat_map (names_of Sente) (c_headers r)) ""%string, last (flat_map (names_of Gote) (c_headers r)) ""%string) /\
    gInfos g = flat_map informations (c_headers r) /\ gComment g = ended (all_comments r) /\ gEndgame g = end_word (c_ending r) /\
    gWin g = win_code (end_winner (side (play_all P (map e_move (c_entries r)))) (c_ending r)).
Proof.
  intros Z (hs & block & es & en & H1 & H2 & H3 & H4 & H5 & -> & H6) W L. unfold parseCsa. fold la.
  assert (Ne : hs ++ block ++ c_between r ++ es ++ en <> []). { intros E. apply app_eq_nil in E as [_ E]. apply app_eq_nil in E as [E _]. destruct (block_shape P block H2) as (ps & -> & _). apply app_eq_nil in E as [_ E]. discriminate. }
  rewrite joined_lines by assumption. rewrite !map_app, !allLines_app. rewrite (header_lines z stof _ _ H1) by reflexivity. cbn [obind]. rewrite allLines_app.
  match goal with |- context [obind (allLines z stof (map la block) ?g1) _] => destruct (block_lines z stof P block H2 (wf_proper P W) g1 eq_refl eq_refl eq_refl) as (sfen & p & -> & D & Rd & F & S & G) end. cbn [obind]. rewrite allLines_app. erewrite (between_lines z stof _ H3) by reflexivity. cbn [obind]. rewrite allLines_app. unfold withComment. fields.
  destruct (sfen_denoted z sfen P 1 Z D (wf_proper P W)) as (b0 & E0 & S0 & N0 & U & _); [vm_compute; discriminate|]. pose proof (set_up_reachable z b0 U) as R.
  assert (Eb : b0 = mkBoard p []) by (unfold setSfen in E0; fold la in E0; rewrite Rd in E0; cbn [obind] in E0; congruence).
  assert (Wb : well_formed (abs (bpos b0))) by (eapply well_formed_same; [apply same_sym; exact S0|exact W]).
  match goal with |- context [obind (allLines z stof (map la es) ?g1) _] => set (g' := g1) end.
  destruct (entry_lines z stof P _ _ H4 Z b0 g' R Wb S0 L) as (b & codes & A & B & C & Gd & E); try reflexivity; [now rewrite Eb|].
  rewrite E. cbn [obind]. erewrite (ending_lines z stof _ _ (bpos b) _ H5); [|reflexivity|exact (good_turn _ Gd)|reflexivity].
  exists (mkRecord (last (flat_map versions (c_headers r)) ""%string) (flat_map informations (c_headers r)) sfen (end_word (c_ending r)) (last (flat_map (names_of Sente) (c_headers r)) ""%string, last (flat_map (names_of Gote) (c_headers r)) ""%string) (0, 0)
    codes (map time_of (c_entries r) ++ flat_map spent (after_end (c_ending r))) (map score_of (c_entries r)) (map comment_of (c_entries r)) (ended (all_comments r)) (Some (bpos b)) (map la block) (csa_sign (side P)) (loser (end_winner (side (abs (bpos b))) (c_ending r)) 2)), b0, b.
  split.
  - unfold g'. fields. cbn [emptyRecord gVersion gInfos gSfen gEndgame gNames gRatings gMoves gTimes gScores gComments gComment gPos gLines gTurnStr gLose fst snd app]. unfold all_comments. change ended with feed. rewrite !feed_app. rewrite !sapp_assoc. reflexivity.
  - fields. split; [exact D|]. split; [exact E0|]. split; [exact U|]. split; [exact A|]. split; [rewrite B, Eb; reflexivity|]. do 8 (split; [reflexivity|]).
    unfold gWin. fields. destruct C as (_ & _ & ->). destruct (end_winner _ _) as [[]|]; reflexivity.
Qed.
