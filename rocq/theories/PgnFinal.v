(* PGN movetext: its words and its lines. *)
From Verif Require Export PgnProofs.
From Verif Require Import Rules GenClaims SfenProofs SfenFinal ClaimProofs.
Local Open Scope N_scope.

(* ---- words ---- *)
Definition sep (c : ascii) : bool := Ascii.eqb c sp || Ascii.eqb c lf.
Definition solid (w : list ascii) : Prop := w <> [] /\ Forall (fun c => sep c = false) w.
Lemma words_split c t : sep c = true -> forall a w, words_from w (a ++ c :: t) = words_from w a ++ words_of t.
Proof.
  intros S. induction a as [|x a IH]; intros w; cbn [app words_from].
  - unfold sep in S. rewrite S. destruct w; reflexivity.
  - destruct (Ascii.eqb x sp || Ascii.eqb x lf); [destruct w; cbn [app]; now rewrite IH|apply IH].
Qed.
Lemma words_cut a c t : sep c = true -> words_of (a ++ c :: t) = words_of a ++ words_of t.
Proof. intros S. exact (words_split c t S a []). Qed.
Lemma words_solid_from u : Forall (fun c => sep c = false) u -> forall w, words_from w u = match w ++ u with [] => [] | x => [x] end.
Proof.
  induction 1 as [|c u S F IH]; intros w; cbn [words_from]; [rewrite app_nil_r; destruct w; reflexivity|]. unfold sep in S. rewrite S, IH, <- app_assoc. reflexivity.
Qed.
Lemma words_solid u : solid u -> words_of u = [u].
Proof. intros [N F]. unfold words_of. rewrite (words_solid_from u F []). destruct u; [contradiction|reflexivity]. Qed.
Lemma words_end line : words_of (line ++ [lf; lf]) = words_of line.
Proof. rewrite words_cut by reflexivity. cbn. now rewrite app_nil_r. Qed.
Lemma words_join line p : words_of (match line with [] => p | _ => line ++ sp :: p end) = words_of line ++ words_of p.
Proof. destruct line; [reflexivity|]. now rewrite words_cut. Qed.

(* ---- the part written for a move ---- *)
Lemma digit_sep c : isDigit c = true -> sep c = false. Proof. destruct c as [[] [] [] [] [] [] [] []]; intros D; (reflexivity || discriminate D). Qed.
Lemma la_sa l : la (sa l) = l. Proof. apply list_ascii_of_string_of_list_ascii. Qed.
Lemma printN_digits n : printN n <> [] /\ Forall (fun c => isDigit c = true) (printN n).
Proof. destruct (numeral_chars _ _ (printN_numeral n)) as (A & F & _). rewrite la_sa in *. auto. Qed.
Lemma number_solid n : solid (printN n ++ ["."%char]).
Proof.
  destruct (printN_digits n) as [A F]. split; [intros E; apply app_eq_nil in E as [_ E]; discriminate|]. apply Forall_app. split; [|repeat constructor].
  eapply Forall_impl; [|exact F]. intros c. apply digit_sep.
Qed.
Lemma result_solid r : solid (resultText r).
Proof. unfold resultText. destruct (r =? 1), (r =? 2), (r =? 0); (split; [discriminate|repeat constructor]). Qed.
Lemma part_words i san last r : solid san -> solid r ->
  words_of (part i san last r) = (if i mod 2 =? 0 then [printN (i / 2 + 1) ++ ["."%char]] else []) ++ san :: (if last then [r] else []).
Proof.
  intros S R. assert (X : words_of (san ++ (if last then sp :: r else [])) = san :: (if last then [r] else [])).
  { destruct last; [rewrite words_cut by reflexivity; now rewrite !words_solid|rewrite app_nil_r; now apply words_solid]. }
  unfold part. destruct (i mod 2 =? 0); [|exact X].
  assert (J : forall a y : list ascii, (a ++ ["."%char; sp]) ++ y = (a ++ ["."%char]) ++ sp :: y) by (intros; rewrite <- !app_assoc; reflexivity). rewrite J, words_cut by reflexivity.
  rewrite X, (words_solid _ (number_solid _)). reflexivity.
Qed.
Lemma parity i : (i mod 2 =? 0) = true /\ (Z.of_N i mod 2 = 0)%Z \/ (i mod 2 =? 0) = false /\ (Z.of_N i mod 2 = 1)%Z.
Proof. pose proof (N.mod_lt i 2 ltac:(lia)). change 2%Z with (Z.of_N 2). rewrite <- N2Z.inj_mod. destruct (N.eqb_spec (i mod 2) 0); [left|right]; split; auto; lia. Qed.
Lemma words_step i san sans r ws : solid san -> solid r -> game_words r (Z.of_N (i + 1)) sans ws ->
  game_words r (Z.of_N i) (san :: sans) ((if i mod 2 =? 0 then [printN (i / 2 + 1) ++ ["."%char]] else []) ++ san :: ws).
Proof.
  intros S R G. replace (Z.of_N (i + 1)) with (Z.of_N i + 1)%Z in G by lia. destruct (parity i) as [[-> E]|[-> E]].
  - apply gw_first; [exact E| |exact G]. replace (Z.of_N i / 2 + 1)%Z with (Z.of_N (i / 2 + 1)); [apply printN_numeral|]. rewrite N2Z.inj_add, N2Z.inj_div. reflexivity.
  - apply gw_second; [exact E|exact G].
Qed.

(* ---- the whole text ---- *)
Lemma movetext_words r : solid r -> forall ms sans, Forall2 (fun m s => moveToSan m = Done s /\ solid s) ms sans -> ms <> [] -> forall i line,
  exists t ws, movetextFrom i ms line r = Done t /\ words_of t = words_of line ++ ws /\ game_words r (Z.of_N i) sans ws.
Proof.
  intros R ms sans F. induction F as [|m s ms sans [E S] F IH]; intros N i line; [contradiction|].
  cbn [movetextFrom]. rewrite E. cbn [obind].
  assert (X : forall line', exists t ws, movetextFrom (i + 1) ms line' r = Done t /\ words_of t ++ [] = words_of line' ++ ws /\
     exists ws', game_words r (Z.of_N (i + 1)) sans ws' /\ (match ms with [] => [r] | _ => [] end) ++ ws = ws').
  { intros line'. destruct F as [|m2 s2 ms2 sans2 H2 F2].
    - exists (line' ++ [lf; lf]), []. split; [reflexivity|]. split; [now rewrite words_end|]. exists [r]. split; [constructor|reflexivity].
    - destruct (IH ltac:(discriminate) (i + 1) line') as (t & ws & H3 & H4 & H5). exists t, ws. split; [exact H3|]. split; [now rewrite app_nil_r|]. exists ws. split; [exact H5|reflexivity]. }
  set (p := part i s _ r). pose proof (part_words i s (match ms with [] => true | _ => false end) r S R) as P. fold p in P.
  destruct (_ <=? 80)%nat.
  - destruct (X (match line with [] => p | _ => line ++ sp :: p end)) as (t & ws & H1 & H2 & ws' & H3 & H4). rewrite app_nil_r, words_join, P in H2.
    exists t, ((if i mod 2 =? 0 then [printN (i / 2 + 1) ++ ["."%char]] else []) ++ s :: ws'). split; [exact H1|]. split; [|exact (words_step i s sans r ws' S R H3)].
    rewrite H2, <- H4, <- !app_assoc. cbn [app]. destruct ms; reflexivity.
  - destruct (X p) as (t & ws & H1 & H2 & ws' & H3 & H4). rewrite app_nil_r, P in H2. rewrite H1. cbn [obind].
    exists (line ++ lf :: t), ((if i mod 2 =? 0 then [printN (i / 2 + 1) ++ ["."%char]] else []) ++ s :: ws'). split; [reflexivity|]. split; [|exact (words_step i s sans r ws' S R H3)].
    rewrite words_cut, H2, <- H4, <- !app_assoc by reflexivity. cbn [app]. destruct ms; reflexivity.
Qed.
Lemma game_words_nil r i ws : game_words r i [] ws -> ws = [r]. Proof. inversion 1. reflexivity. Qed.
Lemma game_words_ne r i sans ws : game_words r i sans ws -> ws <> []. Proof. inversion 1; discriminate. Qed.
Lemma game_words_inj r r' i sans ws : game_words r i sans ws -> forall sans', game_words r' i sans' ws -> sans = sans' /\ r = r'.
Proof.
  induction 1 as [i|i d s sans ws E D G IH|i s sans ws E G IH]; intros sans' H; inversion H; subst; try lia.
  - auto.
  - exfalso. match goal with K : game_words _ _ _ [] |- _ => exact (game_words_ne _ _ _ _ K eq_refl) end.
  - match goal with K : game_words r' (i + 1) _ ws |- _ => destruct (IH _ K) as [-> ->] end. auto.
  - exfalso. exact (game_words_ne _ _ _ _ G eq_refl).
  - match goal with K : game_words r' (i + 1) _ ws |- _ => destruct (IH _ K) as [-> ->] end. auto.
Qed.

(* ---- games ---- *)
Lemma plain_sep c : plain c = true -> sep c = false. Proof. destruct c as [[] [] [] [] [] [] [] []]; intros D; (reflexivity || discriminate D). Qed.
Lemma sq_sep s : on_board s -> Forall (fun c => sep c = false) (pgn_square s).
Proof. intros B. destruct (sq_two s B) as (a & c & -> & A & C). constructor; [now apply plain_sep|]. constructor; [now apply plain_sep|constructor]. Qed.
Lemma kind_sep k : Forall (fun c => sep c = false) (chars (pgn_kind "+K" k)). Proof. destruct k; repeat constructor. Qed.
Lemma san_solid p mv : good p -> legal (abs p) mv -> solid (san_text "+K" (abs p) mv) /\ (List.length (san_text "+K" (abs p) mv) <= 7)%nat.
Proof.
  intros G L. pose proof (legal_shape p mv G L) as S. destruct mv as [k t|s t pr]; cbn [san_text].
  - destruct S as (T & K & _). split; [split|].
    + intros E. apply app_eq_nil in E as [_ E]. discriminate.
    + apply Forall_app. split; [apply kind_sep|]. constructor; [reflexivity|now apply sq_sep].
    + rewrite app_length. cbn [List.length pgn_square]. destruct k; cbn; lia.
  - destruct S as (S & T & k & A). rewrite A. split; [split|].
    + intros E. apply app_eq_nil in E as [_ E]. discriminate.
    + apply Forall_app. split; [apply kind_sep|]. apply Forall_app. split; [now apply sq_sep|]. apply Forall_app. split; [now apply sq_sep|]. destruct pr; repeat constructor.
    + rewrite !app_length. cbn [List.length pgn_square]. destruct k, pr; cbn; lia.
Qed.
Lemma game_texts z b ms ts : okZob z -> pgn_game z b ms ts -> reachable z b -> Forall2 (fun m s => moveToSan m = Done s /\ solid s /\ (List.length s <= 7)%nat) ms ts.
Proof.
  intros Z H. induction H as [b|b mv ms ts L H IH]; intros R; constructor.
  - destruct (reachable_ok z b Z R) as [G _]. split; [now apply san_written|now apply san_solid].
  - apply IH. apply reachable_push; auto. apply L.
Qed.
Lemma game_texts_inj z b ms ts : okZob z -> pgn_game z b ms ts -> reachable z b -> forall ms', pgn_game z b ms' ts -> ms = ms'.
Proof.
  intros Z H. induction H as [b|b mv ms ts L H IH]; intros R ms' H'; inversion H' as [|b' mv' ms2 ts2 L2 H2 E1 E2 E3]; subst; [reflexivity|].
  destruct (reachable_ok z b Z R) as [G _]. assert (mv' = mv) as -> by (eapply san_inj; eauto). f_equal. apply IH; [|exact H2]. apply reachable_push; auto. apply L.
Qed.
Lemma forall2_weak {A B} (P Q : A -> B -> Prop) l l' : (forall a b, P a b -> Q a b) -> Forall2 P l l' -> Forall2 Q l l'.
Proof. intros H. induction 1; constructor; auto. Qed.
Lemma game_written z b ms ts result : okZob z -> pgn_game z b ms ts -> reachable z b -> ms <> [] ->
  exists t, movetext result ms = Done t /\ game_words (resultText result) 0 ts (words_of t).
Proof.
  intros Z H R N. destruct (movetext_words (resultText result) (result_solid result) ms ts) with (i := 0) (line := @nil ascii) as (t & ws & E & W & G); auto.
  - eapply forall2_weak; [|exact (game_texts z b ms ts Z H R)]. cbn. tauto.
  - exists t. split; [exact E|]. rewrite W. exact G.
Qed.
Lemma game_has_texts z b ms : okZob z -> forall ts, pgn_game z b ms ts -> List.length ms = List.length ts. Proof. intros _ ts H. induction H; cbn; auto. Qed.
Lemma game_told_apart z b ms ts ms' ts' r r' : okZob z -> reachable z b -> pgn_game z b ms ts -> pgn_game z b ms' ts' -> ms <> [] -> ms' <> [] -> movetext r ms = movetext r' ms' -> ms = ms' /\ resultText r = resultText r'.
Proof.
  intros Z R H H' N N' E. destruct (game_written z b ms ts r Z H R N) as (t & E1 & W1). destruct (game_written z b ms' ts' r' Z H' R N') as (t' & E2 & W2).
  rewrite E1, E2 in E. injection E as ->. destruct (game_words_inj _ _ _ _ _ W1 _ W2) as [<- Er]. split; [|exact Er]. eapply game_texts_inj; eauto.
Qed.

(* ---- the lines ---- *)
Lemma lines_split t : forall a n, Forall (fun c => Ascii.eqb c lf = false) a -> line_lengths n (a ++ lf :: t) = (n + List.length a)%nat :: line_lengths 0 t.
Proof.
  induction a as [|c a IH]; intros n F; cbn [app line_lengths List.length]; [now rewrite Nat.add_0_r|]. inversion F; subst. rewrite H1, IH by assumption. f_equal. lia.
Qed.
Lemma digits_length f : forall n, (List.length (digitsOf f n) <= f)%nat.
Proof. induction f as [|f IH]; intros n; [cbn; lia|]. cbn [digitsOf]. rewrite app_length. destruct (n <? 10); cbn [List.length]; [lia|]. specialize (IH (n / 10)). lia. Qed.
Lemma size_le n k : n < 2 ^ N.of_nat k -> (N.size_nat n <= k)%nat.
Proof.
  intros H. destruct n as [|q]; [cbn; lia|]. cbn [N.size_nat]. revert q H. induction k as [|k IH]; intros q H; [cbn in H; lia|].
  rewrite Nat2N.inj_succ, N.pow_succ_r' in H. destruct q as [q|q|]; cbn [Pos.size_nat]; [specialize (IH q ltac:(lia)); lia|specialize (IH q ltac:(lia)); lia|lia].
Qed.
Lemma print_length n : n < 2 ^ 60 -> (List.length (printN n) <= 61)%nat.
Proof. intros H. unfold printN. pose proof (digits_length (S (N.size_nat n)) n). pose proof (size_le n 60 H). lia. Qed.
Lemma result_length r : (List.length (resultText r) <= 7)%nat. Proof. unfold resultText. destruct (r =? 1), (r =? 2), (r =? 0); cbn; lia. Qed.
Definition oneline (l : list ascii) : Prop := Forall (fun c => Ascii.eqb c lf = false) l.
Lemma solid_oneline w : solid w -> oneline w.
Proof. intros [_ F]. eapply Forall_impl; [|exact F]. intros c S. unfold sep in S. now apply orb_false_iff in S. Qed.
Lemma part_line i san last r : solid san -> (List.length san <= 7)%nat -> solid r -> (List.length r <= 7)%nat -> i < 2 ^ 60 -> oneline (part i san last r) /\ (List.length (part i san last r) <= 81)%nat.
Proof.
  intros S SL R RL H. assert (P : i / 2 + 1 < 2 ^ 60) by (pose proof (N.div_lt_upper_bound i 2 (2 ^ 59) ltac:(lia) ltac:(lia)); lia). split.
  - unfold part. apply Forall_app. split; [|apply Forall_app; split; [now apply solid_oneline|destruct last; [constructor; [reflexivity|now apply solid_oneline]|constructor]]].
    destruct (i mod 2 =? 0); [|constructor]. pose proof (solid_oneline _ (number_solid (i / 2 + 1))) as O. apply Forall_app in O as [O _]. apply Forall_app. split; [exact O|repeat constructor].
  - pose proof (print_length _ P). unfold part. rewrite !app_length. destruct (i mod 2 =? 0), last; rewrite ?app_length; cbn [List.length]; lia.
Qed.
Lemma movetext_lines r : solid r -> (List.length r <= 7)%nat -> forall ms sans, Forall2 (fun m s => moveToSan m = Done s /\ solid s /\ (List.length s <= 7)%nat) ms sans ->
  forall i line, i + N.of_nat (List.length ms) < 2 ^ 60 -> oneline line -> (List.length line <= 81)%nat -> forall t, movetextFrom i ms line r = Done t -> Forall (fun n => (n <= 81)%nat) (line_lengths 0 t).
Proof.
  intros R RL ms sans F. induction F as [|m s ms sans (E & S & SL) F IH]; intros i line H O L t T.
  - cbn [movetextFrom] in T. injection T as <-. rewrite lines_split by exact O. constructor; [lia|]. cbn. repeat constructor; lia.
  - cbn [movetextFrom] in T. rewrite E in T. cbn [obind List.length] in *. set (p := part i s _ r) in *.
    destruct (part_line i s (match ms with [] => true | _ => false end) r S SL R RL ltac:(lia)) as [PO PL]. fold p in PO, PL.
    destruct (Nat.leb_spec (List.length line + List.length p) 80) as [Q|Q].
    + apply (IH (i + 1) (match line with [] => p | _ => line ++ sp :: p end)) in T; [exact T|lia| |].
      * destruct line; [exact PO|]. apply Forall_app. split; [exact O|]. constructor; [reflexivity|exact PO].
      * destruct line; [exact PL|]. rewrite app_length. cbn [List.length] in *. lia.
    + destruct (movetextFrom (i + 1) ms p r) as [u| |] eqn:U; try discriminate. cbn [obind] in T. injection T as <-. rewrite lines_split by exact O. constructor; [lia|].
      exact (IH (i + 1) p ltac:(lia) PO PL u U).
Qed.
Lemma game_lines z b ms ts result t : okZob z -> pgn_game z b ms ts -> reachable z b -> N.of_nat (List.length ms) < 2 ^ 60 -> movetext result ms = Done t -> Forall (fun n => (n <= 81)%nat) (line_lengths 0 t).
Proof.
  intros Z H R L E. exact (movetext_lines _ (result_solid result) (result_length result) ms ts (game_texts z b ms ts Z H R) 0 [] L (Forall_nil _) ltac:(cbn; lia) t E).
Qed.

Lemma result_written r : resultText r = result_mark r.
Proof. destruct r as [|[[p|p|]|[p|p|]|]]; reflexivity. Qed.
Lemma result_told_apart r r' : (r <= 2)%N -> (r' <= 2)%N -> resultText r = resultText r' -> r = r'.
Proof.
  intros A B; assert (C : r = 0%N \/ r = 1%N \/ r = 2%N) by lia; assert (D : r' = 0%N \/ r' = 1%N \/ r' = 2%N) by lia.
  destruct C as [->|[->| ->]], D as [->|[->| ->]]; intros E; try reflexivity; discriminate E.
Qed.
Lemma game_marked z b ms ts result : okZob z -> pgn_game z b ms ts -> reachable z b -> ms <> [] -> exists t, movetext result ms = Done t /\ game_words (result_mark result) 0 ts (words_of t).
Proof. intros Z H R M; rewrite <- result_written; exact (game_written z b ms ts result Z H R M). Qed.
Lemma game_marked_apart z b ms ts ms' ts' r r' : okZob z -> reachable z b -> pgn_game z b ms ts -> pgn_game z b ms' ts' -> ms <> [] -> ms' <> [] ->
  (r <= 2)%N -> (r' <= 2)%N -> movetext r ms = movetext r' ms' -> ms = ms' /\ r = r'.
Proof. intros Z R G G' M M' A B E; destruct (game_told_apart z b ms ts ms' ts' r r' Z R G G' M M' E) as [X Y]; exact (conj X (result_told_apart r r' A B Y)). Qed.
