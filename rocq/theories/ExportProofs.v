(* The game records CSA.Exporter writes are read back. *)
From Verif Require Export ExportSpec CsaExamples.
Local Open Scope N_scope.

(* the integer of a move depends on the squares alone *)
Lemma code_same p q m : good p -> good q -> same_position (abs p) (abs q) -> code p m = code q m.
Proof. intros G G' S. destruct (good_same_eq p q G G' S) as (E & _). destruct m as [k t|s t pr]; [reflexivity|]. cbn [code]. unfold pieceAt. now rewrite E. Qed.

(* ---- texts ---- *)
Lemma ended_one l : ended [l] = (l ++ nl)%string. Proof. unfold ended. cbn [map String.concat]. reflexivity. Qed.
Lemma ended_app a b : ended (a ++ b) = (ended a ++ ended b)%string. Proof. exact (feed_app a b). Qed.
Lemma ended_cons l ls : ended (l :: ls) = (l ++ nl ++ ended ls)%string. Proof. change (l :: ls) with ([l] ++ ls). rewrite ended_app, ended_one. now rewrite sapp_assoc. Qed.
Lemma ended_nil : ended [] = ""%string. Proof. reflexivity. Qed.
(* a line of a record is never "/" *)
Definition not_slash (s : string) : Prop := exists c r, s = String c r /\ c <> "/"%char.
Lemma slash_free ls : Forall not_slash ls -> ~ In "/"%string ls.
Proof. intros F I. rewrite Forall_forall in F. destruct (F _ I) as (c & r & E & N). injection E as <- _. now apply N. Qed.
Lemma begins_cons c s : begins (String c "") s -> c <> "/"%char -> not_slash s. Proof. intros [t ->] N. exists c, t. now split. Qed.

Lemma one_square s : on_board s -> one_line (csa_square s).
Proof. destruct s as [f r]. intros [A B]. unfold csa_square. cbn [fst snd] in *. apply one_digit_char; [lia|]. apply one_digit_char; [lia|]. intros []. Qed.
Lemma one_text P m : legal P m -> one_line (csa_text P m).
Proof.
  intros [[L _] _]. destruct m as [k t|s t pr]; cbn [pseudo_legal] in L; cbv zeta in L; unfold csa_text.
  - destruct L as [B _]. destruct (kind_after P (Drop k t)) as [k'|]; [|intros []]. apply one_app; [apply one_small; reflexivity|]. apply one_app; [now apply one_square|apply one_name].
  - destruct L as (A & B & _). destruct (kind_after P (Go s t pr)) as [k'|]; [|intros []]. apply one_app; [now apply one_square|]. apply one_app; [now apply one_square|apply one_name].
Qed.
Lemma one_numeral s n : numeral s n -> one_line s.
Proof.
  assert (D : forall d, (0 <= d <= 9)%Z -> one_line (String (digit d) "")).
  { intros d H. apply one_small. assert (C : (d = 0 \/ d = 1 \/ d = 2 \/ d = 3 \/ d = 4 \/ d = 5 \/ d = 6 \/ d = 7 \/ d = 8 \/ d = 9)%Z) by lia. repeat destruct C as [->|C]; try reflexivity. now rewrite C. }
  induction 1; [now apply D|]. apply one_app; auto.
Qed.

(* ---- moves ---- *)
Definition time_extras (t : option Z) : list extra := match t with Some n => [Spent n] | None => [] end.
Definition note_extras (x : note) : list extra := match x with Remarked c => [Remark ("'" ++ c)] | Scored n t => [Score n t] | _ => [] end.
Definition entry_of (x : move * told) : entry :=
  mkEntry (fst x) (match t_note (snd x) with Beside c => Some c | _ => None end) (time_extras (t_time (snd x)) ++ note_extras (t_note (snd x))).
Definition time_lines (t : option Z) : list string := match t with Some n => [("T" ++ sa (printZ n))%string] | None => [] end.
Definition note_lines (x : note) : list string := match x with Remarked c => [("'" ++ c)%string] | Scored n t => [("'** " ++ t)%string] | _ => [] end.
Lemma time_text t : time_ok t -> Forall2 extra_text (time_extras t) (time_lines t) /\ Forall one_line (time_lines t) /\ Forall not_slash (time_lines t).
Proof.
  intros H. destruct t as [n|]; [|repeat constructor]. destruct (H n eq_refl) as [A B]. pose proof (printZ_numeral n A) as N. cbn [time_extras time_lines]. split; [constructor; [|constructor]; exists (sa (printZ n)); auto|].
  split; (constructor; [|constructor]); [apply one_app; [apply one_small; reflexivity|exact (one_numeral _ _ N)]|]. exists "T"%char. eexists. split; [reflexivity|discriminate].
Qed.
Lemma note_text x : note_ok x -> Forall2 extra_text (note_extras x) (note_lines x) /\ Forall one_line (note_lines x) /\ Forall not_slash (note_lines x).
Proof.
  destruct x as [|c|n t|c]; cbn [note_ok note_extras note_lines]; intros H; [repeat constructor| | |repeat constructor].
  - destruct H as (O & _ & C). split; [constructor; [split; [reflexivity|exact C]|constructor]|]. split; (constructor; [|constructor]); [apply one_app; [apply one_small; reflexivity|exact O]|]. exists "'"%char. eexists. split; [reflexivity|discriminate].
  - destruct H as (O & C). split; [constructor; [exact C|constructor]|]. split; (constructor; [|constructor]); [apply one_app; [apply one_small; reflexivity|exact O]|]. exists "'"%char. eexists. split; [reflexivity|discriminate].
Qed.
Lemma move_written P mv t e c : told_ok t -> fTurn e = Some (ncolor c) -> side P = c -> toCSA (t_code t) = csa_text P mv ->
  exportMove (t_code t) (t_time t) (note_comment (t_note t)) (note_sep (t_note t)) e = Done (mkExporter (fText e ++ ended (move_text P (entry_of (mv, t)) :: time_lines (t_time t) ++ note_lines (t_note t))) (Some (opp (ncolor c)))).
Proof.
  intros (_ & N & B) T Sd C. unfold exportMove. rewrite T. f_equal. unfold setTurnOf, write. cbn [fText fTurn]. rewrite C, <- Sd. unfold move_text, entry_of. cbn [e_move e_comment fst snd].
  assert (Es : (if ncolor (side P) =? Black then "+"%string else "-"%string) = csa_sign (side P)) by now destruct (side P).
  rewrite Es. f_equal. rewrite ended_cons. destruct (t_note t) as [|x|n x|x] eqn:En; cbn [note_comment note_sep note_lines]; cbn [note_ok] in N.
  - cbn [String.eqb fText]. rewrite sapp_nil. destruct (t_time t) as [m|]; cbn [time_lines app fText]; rewrite ?ended_one, ?ended_nil, ?sapp_nil, ?sapp_assoc; reflexivity.
  - destruct N as (_ & N & _). destruct (String.eqb_spec x ""); [now destruct N|]. rewrite sapp_nil. destruct (t_time t) as [m|]; cbn [time_lines app fText]; rewrite ?ended_cons, ?ended_nil, ?sapp_nil, ?sapp_assoc; reflexivity.
  - cbn [String.append String.eqb]. rewrite sapp_nil. destruct (t_time t) as [m|]; cbn [time_lines app fText]; rewrite ?ended_cons, ?ended_nil, ?sapp_nil, ?sapp_assoc; reflexivity.
  - destruct N as (_ & N). destruct (String.eqb_spec x ""); [now destruct N|]. rewrite (B x eq_refl). cbn [time_lines app fText]. rewrite ?ended_nil, ?sapp_nil, ?sapp_assoc. reflexivity.
Qed.
Lemma side_play P m : side (play P m) = other (side P). Proof. destruct m; reflexivity. Qed.
Lemma opp_ncolor c : opp (ncolor c) = ncolor (other c). Proof. destruct c; reflexivity. Qed.
Lemma one_move P mv t : legal P mv -> told_ok t -> one_line (move_text P (entry_of (mv, t))).
Proof.
  intros L (_ & N & _). unfold move_text, entry_of. cbn [e_move e_comment fst snd]. apply one_app; [apply one_sign|]. apply one_app; [now apply one_text|]. destruct (t_note t) as [|x|n x|x]; [intros []|intros []|intros []|]. apply one_app; [apply one_small; reflexivity|apply N].
Qed.
Lemma slash_move P mv t : not_slash (move_text P (entry_of (mv, t))).
Proof. unfold move_text. destruct (side P); [exists "+"%char|exists "-"%char]; eexists; split; try reflexivity; discriminate. Qed.
Lemma moves_written z ms : okZob z -> forall b P e, reachable z b -> well_formed (abs (bpos b)) -> same_position (abs (bpos b)) P -> plays z b (map t_code ms) -> Forall told_ok ms -> fTurn e = Some (ncolor (side P)) ->
  exists xs ls c, map snd xs = ms /\ export_moves ms e = Done (mkExporter (fText e ++ ended ls) (Some c)) /\ entries_text P (map entry_of xs) ls /\ legal_moves P (map fst xs) /\ Forall one_line ls /\ Forall not_slash ls /\
    same_position (abs (bpos (pushes z b (map t_code ms)))) (play_all P (map fst xs)) /\
    (forall b1 b2, reachable z b1 -> same_position (abs (bpos b1)) P -> calls z b1 (map Play (map fst xs)) = Some b2 -> getHistory b2 = getHistory b1 ++ map t_code ms).
Proof.
  intros Z. induction ms as [|t ms IH]; intros b P e R W S Pl Ok T.
  - exists [], [], (ncolor (side P)). split; [reflexivity|]. split; [destruct e as [tx tn]; cbn [fText fTurn] in *; rewrite ended_nil, sapp_nil; cbn [export_moves]; congruence|]. split; [constructor|]. split; [exact I|]. split; [constructor|]. split; [constructor|]. split; [exact S|].
    intros b1 b2 _ _ E. cbn [map calls] in E. injection E as <-. symmetry. apply app_nil_r.
  - cbn [map plays] in Pl. destruct Pl as [Hin Pl]. inversion Ok as [|t' ms' Ot Oms]; subst t' ms'. destruct (moves_sound z b Z R (wf_playable _ W) _ Hin) as (mv & L & Em).
    destruct (csa_round_trip z b mv Z R (wf_playable _ W) L) as [Tx _]. rewrite <- Em in Tx. destruct (push_wf z b mv Z R W L) as [R1 W1]. pose proof (push_same z b mv Z R L) as S1. rewrite <- Em in R1, W1, S1.
    assert (S2 : same_position (abs (bpos (push z b (t_code t)))) (play P mv)) by (eapply same_trans; [exact S1|now apply play_same]).
    rewrite (csa_text_same _ P mv S) in Tx. pose proof (legal_same _ _ _ S L) as LP. pose proof (move_written P mv t e (side P) Ot T eq_refl Tx) as Wr.
    set (e1 := mkExporter (fText e ++ ended (move_text P (entry_of (mv, t)) :: time_lines (t_time t) ++ note_lines (t_note t))) (Some (opp (ncolor (side P))))) in Wr.
    destruct (IH (push z b (t_code t)) (play P mv) e1 R1 W1 S2 Pl Oms) as (xs & ls & c & A & B & C & D & E & F & G & H); [cbn [e1 fTurn]; now rewrite side_play, opp_ncolor|].
    pose proof Ot as Ot0. destruct Ot as (Ot1 & Ot2 & Ot3). destruct (time_text _ Ot1) as (T1 & T2 & T3). destruct (note_text _ Ot2) as (N1 & N2 & N3).
    exists ((mv, t) :: xs), (move_text P (entry_of (mv, t)) :: (time_lines (t_time t) ++ note_lines (t_note t)) ++ ls), c. split; [cbn [map snd]; now rewrite A|]. split.
    { cbn [export_moves]. rewrite Wr. cbn [obind]. rewrite B. cbn [e1 fText]. f_equal. f_equal. rewrite sapp_assoc. f_equal. rewrite <- ended_app. reflexivity. }
    split; [cbn [map]; apply entries_next; [apply Forall2_app; assumption|exact C]|]. split; [split; assumption|].
    split; [constructor; [apply one_move; [exact LP|exact Ot0]|]; apply Forall_app; split; [apply Forall_app; now split|exact E]|].
    split; [constructor; [apply slash_move|]; apply Forall_app; split; [apply Forall_app; now split|exact F]|]. split; [exact G|].
    intros b1 b2 Rb1 Sb1 Cb. cbn [map fst calls callOf step] in Cb.
    destruct (reachable_ok z b Z R) as [Gb _]. destruct (reachable_ok z b1 Z Rb1) as [Gb1 _].
    assert (Lb1 : legal (abs (bpos b1)) mv) by (eapply legal_same; [apply same_sym; exact Sb1|exact LP]).
    assert (Ec : code (bpos b1) mv = t_code t) by (rewrite Em; apply code_same; auto; eapply same_trans; [exact Sb1|apply same_sym; exact S]).
    pose proof (push_same z b1 mv Z Rb1 Lb1) as Sp. rewrite Ec in Sp, Cb.
    rewrite (H (push z b1 (t_code t)) b2 ltac:(rewrite <- Ec; apply reachable_push; auto; apply Lb1) ltac:(eapply same_trans; [exact Sp|now apply play_same]) Cb).
    unfold getHistory. cbn [push bhist map rev fst]. now rewrite <- app_assoc.
Qed.

(* ---- the lines before the moves ---- *)
Lemma position_same P Q : same_position P Q -> csa_position P = csa_position Q.
Proof.
  intros (A & B & C). unfold csa_position. rewrite C. f_equal; [|f_equal; f_equal].
  - apply map_ext. intros r. unfold csa_rank. do 2 f_equal. f_equal. f_equal. unfold row_of. apply map_ext. intros f. now rewrite A.
  - unfold csa_hands. apply flat_map_ext. intros c. apply flat_map_ext. intros k. now rewrite B.
Qed.
Lemma initial_text_run : csaPos start1 = initialCsa. Proof. vm_compute. reflexivity. Qed.
Lemma initial_text b : good (bpos b) -> same_position (abs (bpos b)) startArray -> csaPos b = initialCsa.
Proof.
  intros G S. rewrite (csa_pos_text b G), <- initial_text_run. destruct (reachable_ok z0 start1 okZob0 (set_up_reachable _ _ start1_set_up)) as [G1 _]. rewrite (csa_pos_text start1 G1). f_equal.
  apply position_same. eapply same_trans; [exact S|apply same_sym, start1_array].
Qed.
Lemma initial_only z b : okZob z -> reachable z b -> csaPos b = initialCsa -> same_position (abs (bpos b)) startArray.
Proof.
  intros Z R E. destruct (reset_initial z Z) as (s & _ & S & _ & U & _). pose proof (set_up_reachable z s U) as Rs. destruct (reachable_ok z s Z Rs) as [Gs _].
  assert (S' : same_position (abs (bpos s)) startArray) by (eapply same_trans; [exact S|apply start_same]). pose proof (initial_text s Gs S') as Es.
  destruct (csa_pos_read z (fun _ => Thrown) b Z R) as [_ (g & b' & P1 & _ & _ & X1 & Y1 & _)]. destruct (csa_pos_read z (fun _ => Thrown) s Z Rs) as [_ (g2 & b2 & P2 & _ & _ & X2 & Y2 & _)].
  rewrite E in P1. rewrite Es, P1 in P2. injection P2 as <-. rewrite X1 in X2. injection X2 as <-. eapply same_trans; [apply same_sym; exact Y1|]. eapply same_trans; [exact Y2|exact S'].
Qed.
Lemma initial_block P : same_position P startArray -> csa_block P ["PI"; "+"]%string.
Proof.
  intros (A & B & C). assert (Es : csa_sign (side P) = "+"%string) by now rewrite C. rewrite <- Es. change "PI"%string with (csa_initial []).
  apply block_initial; [constructor|constructor|intros s []|intros s _; now rewrite A, start_array_at|intros c k; now rewrite B, start_array_hand].
Qed.
Lemma begins_start z init b : okZob z -> match init with FromBoard _ => False | _ => True end -> begins_on z init b -> same_position (abs (bpos b)) startArray.
Proof.
  intros Z H B. destruct (reset_initial z Z) as (s & E & S & _). assert (b = s) as ->.
  { unfold resetBoard in E. destruct init as [|t|b']; [|destruct B as [-> B]|destruct H]; cbn [begins_on] in B; rewrite E in B; congruence. }
  eapply same_trans; [exact S|apply start_same].
Qed.
Definition pre (e : Exporter) : string := if String.eqb (fText e) "" then ""%string else (fText e ++ "/" ++ nl)%string.
Definition name_headers (l : list string) : list header := match l with [] => [] | [a] => [Name Sente a] | a :: b :: _ => [Name Sente a; Name Gote b] end.
Definition headers (x : exported) : list header :=
  (if String.eqb (x_version x) "" then [] else [Version (x_version x)]) ++ name_headers (x_names x) ++ (if String.eqb (x_comment x) "" then [] else [Said ("'" ++ x_comment x)]) ++
  map (fun kv => Information ("$" ++ fst kv ++ ":" ++ snd kv)) (x_vars x).
Definition header_lines_of (x : exported) : list string :=
  (if String.eqb (x_version x) "" then [] else [x_version x]) ++ match x_names x with [] => [] | [a] => [("N+" ++ a)%string] | a :: b :: _ => [("N+" ++ a)%string; ("N-" ++ b)%string] end ++
  (if String.eqb (x_comment x) "" then [] else [("'" ++ x_comment x)%string]) ++ map (fun kv => ("$" ++ fst kv ++ ":" ++ snd kv)%string) (x_vars x).
Lemma headers_text x : exported_ok x -> Forall2 header_text (headers x) (header_lines_of x) /\ Forall one_line (header_lines_of x) /\ Forall not_slash (header_lines_of x).
Proof.
  intros [[V1 V2] [N1 N2] Va (C1 & C2 & C3) _ _]. unfold headers, header_lines_of. split; [|split].
  - apply Forall2_app; [destruct (String.eqb_spec (x_version x) "") as [E|E]; [constructor|constructor; [|constructor]; cbn [header_text]; split; [reflexivity|now destruct V2]]|].
    apply Forall2_app; [destruct (x_names x) as [|a [|b l]]; repeat constructor|]. apply Forall2_app.
    + destruct (String.eqb_spec (x_comment x) "") as [E|E]; [constructor|constructor; [|constructor]; cbn [header_text]; split; [reflexivity|now destruct C3]].
    + clear. induction (x_vars x) as [|kv l IH]; [constructor|]. constructor; [|exact IH]. cbn [header_text]. split; [reflexivity|eexists; reflexivity].
  - apply Forall_app; split; [destruct (String.eqb_spec (x_version x) ""); repeat constructor; assumption|]. apply Forall_app; split.
    { destruct (x_names x) as [|a [|b l]]; [constructor|inversion N1; subst; constructor; [|constructor]; apply one_app; [apply one_small; reflexivity|assumption]|].
      inversion N1 as [|? ? Ha Nb]; subst. inversion Nb as [|? ? Hb Nl]; subst. constructor; [apply one_app; [apply one_small; reflexivity|exact Ha]|]. constructor; [apply one_app; [apply one_small; reflexivity|exact Hb]|constructor]. }
    apply Forall_app; split; [destruct (String.eqb_spec (x_comment x) ""); [constructor|constructor; [|constructor]; apply one_app; [apply one_small; reflexivity|assumption]]|].
    clear - Va. induction Va as [|kv l [A B] Va IH]; [constructor|]. constructor; [|exact IH]. apply one_app; [apply one_small; reflexivity|]. apply one_app; [exact A|]. apply one_app; [apply one_small; reflexivity|exact B].
  - apply Forall_app; split; [destruct (String.eqb_spec (x_version x) ""); [constructor|constructor; [|constructor]; destruct V2 as [V2|V2]; [easy|]; apply (begins_cons "V" _ V2); discriminate]|]. apply Forall_app; split.
    { destruct (x_names x) as [|a [|b l]]; [constructor|constructor; [|constructor]|constructor; [|constructor; [|constructor]]]; exists "N"%char; eexists; (split; [reflexivity|discriminate]). }
    apply Forall_app; split; [destruct (String.eqb_spec (x_comment x) ""); [constructor|constructor; [|constructor]; exists "'"%char; eexists; (split; [reflexivity|discriminate])]|].
    clear. induction (x_vars x) as [|kv l IH]; [constructor|]. constructor; [|exact IH]. exists "$"%char; eexists; (split; [reflexivity|discriminate]).
Qed.
Lemma infoLines_text vars : forall e, infoLines vars e = mkExporter (fText e ++ ended (map (fun kv => ("$" ++ fst kv ++ ":" ++ snd kv)%string) vars)) (fTurn e).
Proof.
  induction vars as [|[k v] vars IH]; intros e; [destruct e; cbn [infoLines map]; now rewrite ended_nil, sapp_nil|]. cbn [infoLines map]. rewrite IH. unfold write. cbn [Export.fText Export.fTurn fst snd]. f_equal. rewrite ended_cons, !sapp_assoc. reflexivity.
Qed.
Lemma commentLines_text c e : ~ begins "'" c -> commentLines c e = mkExporter (fText e ++ ended (if String.eqb c "" then [] else [("'" ++ c)%string])) (fTurn e).
Proof.
  intros N. unfold commentLines. destruct c as [|a c]; [destruct e; cbn [String.eqb]; now rewrite ended_nil, sapp_nil|]. destruct (Ascii.eqb_spec a "'") as [->|]; [destruct N; exists c; reflexivity|]. cbn [String.eqb]. rewrite ended_one. unfold write. cbn [Export.fText Export.fTurn]. f_equal. now rewrite !sapp_assoc.
Qed.
Lemma nameLines_text ns e : nameLines ns ["+"; "-"]%string e = mkExporter (fText e ++ ended (match ns with [] => [] | [a] => [("N+" ++ a)%string] | a :: b :: _ => [("N+" ++ a)%string; ("N-" ++ b)%string] end)) (fTurn e).
Proof.
  destruct ns as [|a [|b ns]]; cbn [nameLines]; unfold write; cbn [Export.fText Export.fTurn]; [destruct e; cbn [Export.fText Export.fTurn]; now rewrite ended_nil, sapp_nil| |]; f_equal; rewrite ?ended_cons, ?ended_nil, ?sapp_nil, !sapp_assoc; try reflexivity.
  destruct ns; cbn [nameLines]; rewrite ?ended_nil, ?sapp_nil, ?sapp_assoc; reflexivity.
Qed.
Lemma initialLines_ended : initialLines = ended ["PI"; "+"]%string. Proof. reflexivity. Qed.
Lemma info_written z init b x e : okZob z -> reachable z b -> well_formed (abs (bpos b)) -> begins_on z init b -> exported_ok x ->
  exists block, exportInfo z init (x_names x) (x_vars x) (x_comment x) (x_version x) e = Done (mkExporter (pre e ++ ended (header_lines_of x ++ block)) (Some (ncolor (side (abs (bpos b)))))) /\
    csa_block (abs (bpos b)) block /\ Forall one_line block /\ Forall not_slash block.
Proof.
  intros Z R W B Ok. unfold exportInfo.
  set (e1 := if String.eqb (fText e) "" then e else write e ("/" ++ nl)).
  assert (P1 : fText e1 = pre e) by (unfold e1, pre; destruct (String.eqb_spec (fText e) "") as [E|E]; [exact E|reflexivity]).
  set (e2 := if String.eqb (x_version x) "" then e1 else write (write e1 (x_version x)) nl).
  assert (P2 : fText e2 = (pre e ++ ended (if String.eqb (x_version x) "" then [] else [x_version x]))%string).
  { unfold e2. destruct (String.eqb (x_version x) ""); [now rewrite P1, ended_nil, sapp_nil|]. unfold write. cbn [fText]. now rewrite P1, ended_one, sapp_assoc. }
  rewrite nameLines_text. rewrite commentLines_text by apply Ok. rewrite infoLines_text. cbn [fText fTurn]. rewrite P2.
  assert (Wr : forall block, (((((pre e ++ ended (if String.eqb (x_version x) "" then [] else [x_version x])) ++ ended match x_names x with [] => [] | [a] => [("N+" ++ a)%string] | a :: b :: _ => [("N+" ++ a)%string; ("N-" ++ b)%string] end) ++
    ended (if String.eqb (x_comment x) "" then [] else [("'" ++ x_comment x)%string])) ++ ended (map (fun kv => ("$" ++ fst kv ++ ":" ++ snd kv)%string) (x_vars x))) ++ ended block)%string = (pre e ++ ended (header_lines_of x ++ block))%string).
  { intros block. unfold header_lines_of. rewrite !ended_app, !sapp_assoc. reflexivity. }
  assert (Init : Forall one_line ["PI"; "+"]%string /\ Forall not_slash ["PI"; "+"]%string).
  { split; (constructor; [|constructor; [|constructor]]); try (apply one_small; reflexivity); [exists "P"%char|exists "+"%char]; eexists; (split; [reflexivity|discriminate]). }
  destruct init as [|s|b'].
  - pose proof (begins_start z NoBoard b Z I B) as S. exists ["PI"; "+"]%string. split; [|split; [now apply initial_block|exact Init]]. unfold setTurnOf, write. cbn [fText fTurn]. rewrite initialLines_ended, Wr, (proj2 (proj2 S)). reflexivity.
  - pose proof (begins_start z (FromSfen s) b Z I B) as S. destruct B as [-> _]. rewrite String.eqb_refl. exists ["PI"; "+"]%string. split; [|split; [now apply initial_block|exact Init]]. unfold setTurnOf, write. cbn [fText fTurn]. rewrite initialLines_ended, Wr, (proj2 (proj2 S)). reflexivity.
  - cbn [begins_on] in B. subst b'. destruct (reachable_ok z b Z R) as [G _]. assert (Tn : turn (bpos b) = ncolor (side (abs (bpos b)))) by (cbn [abs side]; symmetry; apply color_inv, (good_turn _ G)).
    cbv zeta. destruct (String.eqb_spec (csaPos b) initialCsa) as [E|E].
    + pose proof (initial_only z b Z R E) as S. exists ["PI"; "+"]%string. split; [|split; [now apply initial_block|exact Init]]. unfold setTurnOf, write. cbn [fText fTurn]. rewrite initialLines_ended, Wr, Tn. reflexivity.
    + exists (csa_position (abs (bpos b))). split; [|split; [exact (position_block _ (good_proper _ G))|split; [apply one_position|]]].
      * unfold setTurnOf, write. cbn [fText fTurn]. rewrite (csa_pos_text b G), Wr, Tn. reflexivity.
      * destruct (block_shape _ _ (position_block _ (good_proper _ G))) as (ps & -> & F). apply Forall_app. split; [|constructor; [|constructor]; destruct (side (abs (bpos b))); [exists "+"%char|exists "-"%char]; eexists; (split; [reflexivity|discriminate])].
        eapply Forall_impl; [|exact F]. intros s H. apply (begins_cons "P" _ H). discriminate.
Qed.

(* ---- the whole record ---- *)
Definition end_of (x : exported) : option ending := match x_end x with Some (w, t) => Some (mkEnding w None (time_extras t)) | None => None end.
Definition end_lines (x : exported) : list string := match x_end x with Some (w, t) => w :: time_lines t | None => [] end.
Lemma time_no_score t x n s : In x (time_extras t) -> x <> Score n s. Proof. destruct t as [m|]; cbn [time_extras In]; [intros [<-|[]]; discriminate|intros []]. Qed.
Lemma end_written x : exported_ok x -> ending_text (end_of x) (end_lines x) /\ Forall one_line (end_lines x) /\ Forall not_slash (end_lines x).
Proof.
  intros Ok. unfold end_of, end_lines. destruct (x_end x) as [[w t]|] eqn:E; [|repeat constructor]. destruct (xo_end x Ok w t E) as (A & B & C & D). destruct (time_text t D) as (T1 & T2 & T3).
  split; [cbn [ending_text word_ e_after after_comma]; split; [exact B|]; split; [exact C|]; split; [exact (time_no_score t)|]; exists (time_lines t); split; [exact T1|now rewrite sapp_nil]|].
  split; [now constructor|]. constructor; [|exact T3]. apply (begins_cons "%" _ B). discriminate.
Qed.
Lemma end_exported x e : match x_end x with Some (w, t) => exportEnd w t e | None => e end = mkExporter (fText e ++ ended (end_lines x)) (fTurn e).
Proof.
  unfold end_lines. destruct (x_end x) as [[w t]|]; [|destruct e; cbn [Export.fText]; now rewrite ended_nil, sapp_nil]. unfold exportEnd. destruct t as [n|]; unfold write; cbn [Export.fText Export.fTurn time_lines]; f_equal; rewrite ?ended_cons, ?ended_nil, ?sapp_nil, ?sapp_assoc; reflexivity.
Qed.
Lemma last_one {A} (b : bool) (x : A) d : last (if b then [] else [x]) d = if b then d else x. Proof. now destruct b. Qed.
Lemma flat_map_vars {B} (f : header -> list B) vars : (forall i, f (Information i) = []) -> flat_map f (map (fun kv : string * string => Information ("$" ++ fst kv ++ ":" ++ snd kv)) vars) = [].
Proof. intros H. induction vars as [|kv l IH]; [reflexivity|]. cbn [map flat_map]. now rewrite H, IH. Qed.
Lemma flat_map_info vars : flat_map informations (map (fun kv : string * string => Information ("$" ++ fst kv ++ ":" ++ snd kv)) vars) = map (fun kv => ("$" ++ fst kv ++ ":" ++ snd kv)%string) vars.
Proof. induction vars as [|kv l IH]; [reflexivity|]. cbn [map flat_map informations app]. now rewrite IH. Qed.
Lemma versions_of x : last (flat_map versions (headers x)) ""%string = x_version x.
Proof.
  unfold headers. rewrite !flat_map_app, (flat_map_vars versions) by reflexivity. destruct (String.eqb_spec (x_version x) "") as [E|E]; destruct (x_names x) as [|a [|b l]]; destruct (String.eqb (x_comment x) ""); cbn; congruence.
Qed.
Lemma names_written x : (List.length (x_names x) <= 2)%nat -> (last (flat_map (names_of Sente) (headers x)) ""%string, last (flat_map (names_of Gote) (headers x)) ""%string) = (nth 0 (x_names x) ""%string, nth 1 (x_names x) ""%string).
Proof.
  intros _. unfold headers. rewrite !flat_map_app, !(flat_map_vars (names_of _)) by reflexivity. destruct (String.eqb (x_version x) ""); destruct (x_names x) as [|a [|b l]]; destruct (String.eqb (x_comment x) ""); reflexivity.
Qed.
Lemma infos_written x : flat_map informations (headers x) = map (fun kv => ("$" ++ fst kv ++ ":" ++ snd kv)%string) (x_vars x).
Proof.
  unfold headers. rewrite !flat_map_app, flat_map_info. destruct (String.eqb (x_version x) ""); destruct (x_names x) as [|a [|b l]]; destruct (String.eqb (x_comment x) ""); reflexivity.
Qed.
Lemma said_written x : flat_map header_comments (headers x) = if String.eqb (x_comment x) "" then [] else [("'" ++ x_comment x)%string].
Proof.
  unfold headers. rewrite !flat_map_app, (flat_map_vars header_comments) by reflexivity. destruct (String.eqb (x_version x) ""); destruct (x_names x) as [|a [|b l]]; destruct (String.eqb (x_comment x) ""); reflexivity.
Qed.
Lemma entry_says x : time_of (entry_of x) = told_time (snd x) /\ score_of (entry_of x) = told_score (snd x) /\ comment_of (entry_of x) = told_comment (snd x) /\ flat_map remarks (e_extras (entry_of x)) = told_remark (snd x).
Proof. destruct x as [mv [c t n]]. unfold time_of, score_of, comment_of, told_time, told_score, told_comment, told_remark, entry_of. cbn [fst snd t_time t_note e_extras e_comment]. destruct t as [t|], n; cbn; auto. Qed.
Lemma map_snd {A B C} (f : B -> C) (l : list (A * B)) : map (fun x => f (snd x)) l = map f (map snd l). Proof. now rewrite map_map. Qed.
Lemma no_remark t : flat_map remarks (time_extras t) = []. Proof. now destruct t. Qed.

Lemma parts_all {A} (P : A -> Prop) a b c d : Forall P a -> Forall P b -> Forall P c -> Forall P d -> Forall P (a ++ b ++ [] ++ c ++ d).
Proof. intros. cbn [app]. rewrite !Forall_app. auto. Qed.
Lemma game_written z s e : okZob z -> session_ok z s -> exists ls c, export_game z (s_init s) (s_game s) e = Done (mkExporter (pre e ++ ended ls) (Some c)) /\ ls <> [] /\ Forall one_line ls /\ Forall not_slash ls /\
  forall stof, exists g, parseCsa z stof (joined ls) = Done g /\ reported z (s_board s) (s_game s) g.
Proof.
  intros Z [R W B Pl Ok]. destruct s as [init b x]. cbn [s_init s_board s_game] in *. destruct (info_written z init b x e Z R W B Ok) as (block & I1 & I2 & I3 & I4).
  destruct (headers_text x Ok) as (H1 & H2 & H3). destruct (end_written x Ok) as (E1 & E2 & E3).
  set (e1 := mkExporter (pre e ++ ended (header_lines_of x ++ block)) (Some (ncolor (side (abs (bpos b)))))) in I1.
  destruct (moves_written z (x_moves x) Z b (abs (bpos b)) e1 R W (same_refl _) Pl (xo_moves x Ok) eq_refl) as (xs & ls & c & M1 & M2 & M3 & M4 & M5 & M6 & M7 & M8).
  assert (Ne : header_lines_of x ++ block ++ [] ++ ls ++ end_lines x <> []).
  { intros E. apply app_eq_nil in E as [_ E]. apply app_eq_nil in E as [E _]. destruct (block_shape _ block I2) as (ps & -> & _). apply app_eq_nil in E as [_ E]. discriminate. }
  exists (header_lines_of x ++ block ++ [] ++ ls ++ end_lines x), c. split.
  { unfold export_game. rewrite I1. cbn [obind]. rewrite M2. cbn [obind]. rewrite end_exported. cbn [e1 fText fTurn]. f_equal. f_equal. rewrite !ended_app, !sapp_assoc. reflexivity. }
  split; [exact Ne|]. assert (One : Forall one_line (header_lines_of x ++ block ++ [] ++ ls ++ end_lines x)) by (now apply parts_all). split; [exact One|]. split; [now apply parts_all|]. intros stof.
  set (r := mkCsaRecord (headers x) [] (map entry_of xs) (end_of x)).
  assert (Em : map e_move (c_entries r) = map fst xs) by (cbn [r c_entries]; rewrite map_map; reflexivity).
  destruct (record_read z stof (abs (bpos b)) r (header_lines_of x ++ block ++ [] ++ ls ++ end_lines x) Z) as (g & b0 & b2 & A1 & A2 & A3 & A4 & A5 & A6 & A7 & A8 & A9 & A10 & A11 & A12 & A13 & A14 & A15).
  { exists (header_lines_of x), block, ls, (end_lines x). cbn [r c_headers c_between c_entries c_ending]. split; [exact H1|]. split; [exact I2|]. split; [constructor|]. split; [exact M3|]. split; [exact E1|]. split; [reflexivity|exact One]. }
  { exact W. } { rewrite Em. exact M4. }
  exists g. split; [exact A1|]. rewrite Em in A5, A15. destruct (sfen_denoted z (gSfen g) _ 1 Z A2 (wf_proper _ W) ltac:(vm_compute; discriminate)) as (b1 & X1 & X2 & _).
  assert (b1 = b0) by congruence. subst b1. constructor.
  - exact A2.
  - rewrite A6, (M8 b0 b2 (set_up_reachable z b0 A4) X2 A5). destruct (set_up_fresh z b0 A4) as [_ Eb]. rewrite Eb. reflexivity.
  - rewrite A7. cbn [r c_entries c_ending]. f_equal; [rewrite map_map, <- M1, <- map_snd; apply map_ext; intros y; apply entry_says|]. unfold end_of. destruct (x_end x) as [[w [t|]]|]; reflexivity.
  - rewrite A8. cbn [r c_entries]. rewrite map_map, <- M1, <- map_snd. apply map_ext. intros y; apply entry_says.
  - rewrite A9. cbn [r c_entries]. rewrite map_map, <- M1, <- map_snd. apply map_ext. intros y; apply entry_says.
  - rewrite A10. apply versions_of.
  - rewrite A11. apply names_written, Ok.
  - rewrite A12. apply infos_written.
  - rewrite A13. f_equal. unfold all_comments. cbn [r c_headers c_between c_entries c_ending filter app]. rewrite said_written. f_equal.
    assert (Ea : flat_map remarks (after_end (end_of x)) = []) by (unfold end_of; destruct (x_end x) as [[w t]|]; [apply no_remark|reflexivity]). rewrite Ea, app_nil_r, <- M1. clear. induction xs as [|y xs IH]; [reflexivity|]. cbn [map flat_map]. rewrite IH. f_equal. apply entry_says.
  - rewrite A14. cbn [r c_ending]. unfold end_of. destruct (x_end x) as [[w t]|]; reflexivity.
  - rewrite A15. f_equal. cbn [r c_ending]. rewrite <- (proj2 (proj2 M7)). unfold end_of. destruct (x_end x) as [[w t]|]; reflexivity.
Qed.

(* a line feed at the end changes nothing *)
Lemma init_again z g g' : initialise z g = Done g' -> initialise z g' = Done g'.
Proof.
  unfold initialise at 1. destruct (gPos g) as [p|] eqn:E; [intros X; injection X as <-; now apply (init_some z g p)|]. destruct (String.eqb_spec (gTurnStr g) "") as [F|F]; [intros X; injection X as <-; now apply init_none|].
  destruct (parsePosition (gLines g)) as [sfen| |]; cbn [obind]; try discriminate. destruct (setSfenPos z (list_ascii_of_string sfen)) as [p| |]; cbn [obind]; try discriminate. intros X. injection X as <-. now apply (init_some z _ p).
Qed.
Lemma all_again z stof ls : ls <> [] -> forall g g', allLines z stof ls g = Done g' -> initialise z g' = Done g'.
Proof.
  induction ls as [|l ls IH]; intros N g g' H; [now destruct N|]. cbn [allLines] in H. destruct (oneLine z stof l g) as [g1| |]; cbn [obind] in H; try discriminate. destruct (initialise z g1) as [g2| |] eqn:E; cbn [obind] in H; try discriminate.
  destruct ls as [|l' ls]; [cbn [allLines] in H; injection H as <-; exact (init_again z g1 g2 E)|]. exact (IH ltac:(discriminate) g2 g' H).
Qed.
Lemma feed_read z stof ls g : ls <> [] -> Forall one_line ls -> parseCsa z stof (joined ls) = Done g -> parseCsa z stof (joined (ls ++ [""%string])) = Done g.
Proof.
  intros N F. unfold parseCsa. fold la. rewrite (joined_lines ls N F), joined_lines; [|intros E; apply app_eq_nil in E as [_ E]; discriminate|apply Forall_app; split; [exact F|constructor; [intros []|constructor]]].
  intros H. rewrite map_app, allLines_app, H. cbn [obind map allLines]. rewrite blank_one. cbn [obind]. rewrite (all_again z stof (map la ls) ltac:(destruct ls; [now destruct N|discriminate]) _ _ H). reflexivity.
Qed.

(* ---- games one after the other ---- *)
Lemma ended_end ls : ls <> [] -> ended ls = (joined ls ++ nl)%string.
Proof.
  induction ls as [|l [|l' ls] IH]; intros N; [now destruct N|apply ended_one|]. rewrite ended_cons, IH by discriminate. change (joined (l :: l' :: ls)) with (l ++ String newline "" ++ joined (l' :: ls))%string. now rewrite !sapp_assoc.
Qed.
Definition mark : string := ("/" ++ nl)%string.
Fixpoint texts (lss : list (list string)) : list string :=
  match lss with [] => [] | [ls] => [joined (ls ++ [""%string])] | ls :: lss => joined ls :: texts lss end.
Lemma texts_ne lss : lss <> [] -> texts lss <> []. Proof. destruct lss as [|a [|b l]]; [easy|discriminate|discriminate]. Qed.
Lemma concat_ne sep (x : string) l : l <> [] -> String.concat sep (x :: l) = (x ++ sep ++ String.concat sep l)%string. Proof. destruct l; [easy|reflexivity]. Qed.
Lemma texts_concat lss : lss <> [] -> Forall (fun ls => ls <> []) lss -> String.concat mark (map ended lss) = String.concat match_mark (texts lss).
Proof.
  intros N F. induction F as [|ls lss H F IH]; [now destruct N|]. destruct lss as [|l2 lss]; [cbn [map texts String.concat]; apply ended_joined|].
  change (texts (ls :: l2 :: lss)) with (joined ls :: texts (l2 :: lss)). cbn [map]. rewrite (concat_ne mark (ended ls)) by discriminate. rewrite (concat_ne match_mark (joined ls)) by (apply texts_ne; discriminate). change (ended l2 :: map ended lss) with (map ended (l2 :: lss)). rewrite IH by discriminate. rewrite (ended_end ls H), !sapp_assoc. reflexivity.
Qed.
Lemma texts_match lss : Forall (fun ls => ls <> [] /\ Forall one_line ls /\ Forall not_slash ls) lss -> Forall match_text (texts lss).
Proof.
  induction 1 as [|ls lss (A & B & C) F IH]; [constructor|]. destruct lss as [|l2 lss].
  - constructor; [|constructor]. exists (ls ++ [""%string]). split; [intros E; apply app_eq_nil in E as [_ E]; discriminate|]. split; [apply Forall_app; split; [exact B|constructor; [intros []|constructor]]|]. split; [|reflexivity]. intros I. apply in_app_or in I as [I|[I|[]]]; [exact (slash_free ls C I)|discriminate].
  - change (texts (ls :: l2 :: lss)) with (joined ls :: texts (l2 :: lss)). constructor; [|exact IH]. exists ls. split; [exact A|]. split; [exact B|]. split; [exact (slash_free ls C)|reflexivity].
Qed.
Lemma ended_ne ls : ls <> [] -> ended ls <> ""%string. Proof. destruct ls as [|l ls]; [easy|]. intros _. rewrite ended_cons. destruct l; discriminate. Qed.
Lemma sapp_ne a b : b <> ""%string -> (a ++ b)%string <> ""%string. Proof. destruct a; [auto|discriminate]. Qed.
Lemma games_text z ss : okZob z -> Forall (session_ok z) ss -> ss <> [] -> forall e, exists e' lss, export_games z ss e = Done e' /\ fText e' = (pre e ++ String.concat mark (map ended lss))%string /\
  Forall2 (fun s ls => ls <> [] /\ Forall one_line ls /\ Forall not_slash ls /\ forall stof, exists g, parseCsa z stof (joined ls) = Done g /\ reported z (s_board s) (s_game s) g) ss lss.
Proof.
  intros Z F. induction F as [|s ss H F IH]; intros N e; [now destruct N|]. destruct (game_written z s e Z H) as (ls & c & E & A & B & C & D).
  destruct ss as [|s2 ss].
  - eexists. exists [ls]. split; [cbn [export_games]; rewrite E; reflexivity|]. split; [reflexivity|]. constructor; [auto|constructor].
  - destruct (IH ltac:(discriminate) (mkExporter (pre e ++ ended ls) (Some c))) as (e' & lss & E' & T & G). exists e', (ls :: lss). split; [change (export_games z (s :: s2 :: ss) e) with (obind (export_game z (s_init s) (s_game s) e) (export_games z (s2 :: ss))); rewrite E; exact E'|].
    split; [|constructor; [auto|exact G]]. rewrite T. unfold pre at 1. cbn [fText]. destruct (String.eqb_spec (pre e ++ ended ls) "") as [Q|_]; [now apply (sapp_ne (pre e) (ended ls) (ended_ne ls A)) in Q|].
    cbn [map]. rewrite concat_ne by (inversion G; discriminate). rewrite !sapp_assoc. reflexivity.
Qed.
Lemma texts_read z stof ss lss : Forall2 (fun s ls => ls <> [] /\ Forall one_line ls /\ Forall not_slash ls /\ forall stof, exists g, parseCsa z stof (joined ls) = Done g /\ reported z (s_board s) (s_game s) g) ss lss ->
  exists gs, Forall2 (fun t g => parseCsa z stof t = Done g) (texts lss) gs /\ Forall2 (fun s g => reported z (s_board s) (s_game s) g) ss gs.
Proof.
  induction 1 as [|s ls ss lss (A & B & C & D) G IH]; [exists []; split; constructor|]. destruct IH as (gs & X & Y). destruct (D stof) as (g & P & Rp). exists (g :: gs). split; [|now constructor].
  destruct lss as [|l2 lss]; [|change (texts (ls :: l2 :: lss)) with (joined ls :: texts (l2 :: lss)); now constructor]. cbn [texts] in X |- *. constructor; [now apply feed_read|exact X].
Qed.
Theorem games_read z stof ss : okZob z -> ss <> [] -> Forall (session_ok z) ss ->
  exists e gs, export_games z ss newExporter = Done e /\ parseStr z stof (fText e) = Done gs /\ Forall2 (fun s g => reported z (s_board s) (s_game s) g) ss gs.
Proof.
  intros Z N F. destruct (games_text z ss Z F N newExporter) as (e & lss & E & T & G). destruct (texts_read z stof ss lss G) as (gs & X & Y). exists e, gs. split; [exact E|]. split; [|exact Y].
  assert (Nl : lss <> []) by (intros ->; inversion G; subst; now destruct N). change (pre newExporter) with ""%string in T. cbn [String.append] in T. rewrite T, texts_concat; [|exact Nl|clear - G; induction G as [|? ? ? ? (A & _) G IH]; constructor; auto].
  apply matches_read; [now apply texts_ne|apply texts_match; clear - G; induction G as [|? ? ? ? (A & B & C & _) G IH]; constructor; auto|exact X].
Qed.
Theorem game_read z stof s : okZob z -> session_ok z s ->
  exists e g, export_game z (s_init s) (s_game s) newExporter = Done e /\ parseCsa z stof (fText e) = Done g /\ reported z (s_board s) (s_game s) g.
Proof.
  intros Z H. destruct (game_written z s newExporter Z H) as (ls & c & E & A & B & C & D). destruct (D stof) as (g & P & Rp). eexists. exists g. split; [exact E|]. split; [|exact Rp].
  cbn [fText]. change (pre newExporter) with ""%string. cbn [String.append]. rewrite ended_joined. now apply feed_read.
Qed.
