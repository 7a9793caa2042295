(* usi.Engine: reports, answers and the position command. *)
From Verif Require Export EngineProofs.
From Verif Require Import CommandFinal.
Local Open Scope N_scope.

Definition report_words (r : report) : list txt := List.concat (map named (rFirst r)) ++ worth_words (rScore r) ++ List.concat (map named (rThen r)).
Lemma named_tokens xs : Forall (fun x => plain_name (fst x)) xs -> Forall (fun w => token w /\ w <> tx "pv") (List.concat (map named xs)).
Proof.
  intros F. induction F as [|[k n] xs [T N] F IH]; [constructor|]. cbn [map List.concat named fst snd app] in *. constructor; [split; [exact T|intros ->; apply N; left; reflexivity]|]. constructor; [apply number_token|exact IH].
Qed.
Lemma worth_tokens w : Forall (fun w => token w /\ w <> tx "pv") (worth_words w).
Proof.
  assert (X : forall l, match l with [] => false | _ => forallb (fun c => negb (isSpace c)) l && negb (same l (tx "pv")) end = true -> token l /\ l <> tx "pv").
  { intros [|c l] H; [discriminate|]. apply andb_true_iff in H as [A B]. split; [split; [discriminate|]|].
    - apply Forall_forall. rewrite forallb_forall in A. intros x I. apply negb_true_iff. now apply A.
    - intros E. rewrite E in B. discriminate B. }
  destruct w; (constructor; [now apply X|]; constructor; [now apply X|]; constructor; [apply number_token|constructor]).
Qed.
Lemma report_tokens r : proper_report r -> Forall (fun w => token w /\ w <> tx "pv") (report_words r).
Proof. intros (A & B & _). unfold report_words. apply Forall_app. split; [now apply named_tokens|]. apply Forall_app. split; [apply worth_tokens|now apply named_tokens]. Qed.
Lemma report_text r : report_line r = tx "info " ++ flat (report_words r) ++ tx "pv " ++ join (rMove r :: rRest r).
Proof.
  unfold report_line. transitivity (join ((tx "info" :: report_words r ++ [tx "pv"]) ++ rMove r :: rRest r)); [unfold report_words; cbn [app]; now rewrite <- !app_assoc|].
  rewrite join_app by discriminate. rewrite flat_cons. unfold flat. rewrite map_app, concat_app. cbn [map List.concat]. rewrite app_nil_r, <- !app_assoc. reflexivity.
Qed.
Lemma word_taken w l : Forall (fun c => isSpace c = false) w -> fst (takeWord (w ++ gap :: l)) = w.
Proof. intros F. induction F as [|c w C F IH]; [reflexivity|]. cbn [app takeWord]. rewrite C. cbn [fst]. now rewrite IH. Qed.
Lemma word_taken_all w : Forall (fun c => isSpace c = false) w -> fst (takeWord w) = w.
Proof. intros F. induction F as [|c w C F IH]; [reflexivity|]. cbn [takeWord]. rewrite C. cbn [fst]. now rewrite IH. Qed.
Lemma report_match r : proper_report r -> matchInfo (report_line r) = Some (mkInfo (flat (report_words r)) (rMove r) (join (rMove r :: rRest r))).
Proof.
  intros P. pose proof (report_tokens r P) as T. destruct P as (_ & _ & M). unfold matchInfo. rewrite report_text, after_app. rewrite (pv_found _ _ _ T M). f_equal. f_equal.
  inversion M as [|x0 l0 [[_ F] _] _]. destruct (rRest r) as [|v l1]; [exact (word_taken_all _ F)|rewrite join_cons; exact (word_taken _ _ F)].
Qed.
(* ---- the entries of a report ---- *)
Definition numbers (xs : list (txt * Z)) (d : dict) : dict := fold_left (fun d x => (fst x, Number (snd x)) :: d) xs d.
Lemma items_numbers xs : Forall (fun x => plain_name (fst x)) xs -> forall fuel items d, splitItems (List.length xs + fuel) (List.concat (map named xs) ++ items) d = splitItems fuel items (numbers xs d).
Proof.
  intros F. induction F as [|[k n] xs [T N] F IH]; intros fuel items d; [reflexivity|]. cbn [fst] in *. cbn [map List.concat named fst snd app List.length Nat.add]. cbn [splitItems].
  rewrite (same_no k (tx "pv")) by (intros ->; apply N; left; reflexivity). rewrite (same_no k (tx "string")) by (intros ->; apply N; right; left; reflexivity). rewrite (same_no k (tx "score")) by (intros ->; apply N; right; right; left; reflexivity).
  cbn [orb obind]. rewrite int_back, IH. reflexivity.
Qed.
Definition worth_entry (w : worth) : dict := match w with Cp n => [(tx "cp", Number n); (tx "score", Word (tx "cp"))] | Mate n => [(tx "mate", Number n); (tx "score", Word (tx "mate"))] end.
Lemma items_worth w fuel items d : splitItems (S fuel) (worth_words w ++ items) d = splitItems fuel items (worth_entry w ++ d).
Proof. destruct w as [n|n]; cbn [worth_words app splitItems]; change (same (tx "score") (tx "pv")) with false; change (same (tx "score") (tx "string")) with false; change (same (tx "score") (tx "score")) with true; cbn [orb obind]; rewrite int_back; reflexivity. Qed.
Lemma items_all r : proper_report r -> splitItems (List.length (report_words r)) (report_words r) [] = Done (numbers (rThen r) (worth_entry (rScore r) ++ numbers (rFirst r) [])).
Proof.
  intros (A & B & _). assert (L : exists k, List.length (report_words r) = (List.length (rFirst r) + S (List.length (rThen r) + k))%nat).
  { assert (Q : forall xs, List.length (List.concat (map named xs)) = (2 * List.length xs)%nat) by (intros xs; induction xs as [|x xs IH]; [reflexivity|]; cbn [map List.concat]; rewrite app_length, IH; change (List.length (named x)) with 2%nat; change (List.length (x :: xs)) with (S (List.length xs)); lia).
    unfold report_words. rewrite !app_length, !Q. exists (List.length (rFirst r) + 2 + List.length (rThen r))%nat. destruct (rScore r); cbn [worth_words List.length]; lia. }
  destruct L as (k & ->). unfold report_words. rewrite (items_numbers _ A), items_worth, <- (app_nil_r (List.concat (map named (rThen r)))), (items_numbers _ B). destruct k; reflexivity.
Qed.
Lemma get_numbers k xs : Forall (fun x => plain_name (fst x)) xs -> In k [tx "cp"; tx "mate"] -> forall d, dictGet k (numbers xs d) = dictGet k d.
Proof.
  intros F K. induction F as [|[n v] xs [T N] F IH]; intros d; [reflexivity|]. change (numbers ((n, v) :: xs) d) with (numbers xs ((n, Number v) :: d)). rewrite IH. cbn [dictGet fst] in *. rewrite same_no; [reflexivity|].
  intros <-. apply N. destruct K as [<-|[<-|[]]]; [right; right; right; left|right; right; right; right; left]; reflexivity.
Qed.
Definition info_of (r : report) : info := mkInfo (flat (report_words r)) (rMove r) (join (rMove r :: rRest r)).
Lemma report_split r : proper_report r -> splitInfo (info_of r) = Done (numbers (rThen r) (worth_entry (rScore r) ++ numbers (rFirst r) [])).
Proof.
  intros P. pose proof (report_tokens r P) as T. assert (N : report_words r <> []) by (unfold report_words; destruct (rScore r), (List.concat (map named (rFirst r))); discriminate).
  assert (T1 : Forall token (report_words r)) by (eapply Forall_impl; [|exact T]; now intros w [X _]). assert (G : Forall gapless (report_words r)) by (eapply Forall_impl; [|exact T1]; exact token_gapless).
  unfold splitInfo, info_of. cbn [iBefore]. rewrite (flat_join _ N), strip_edged; [|now apply edged_join|repeat constructor]. rewrite (split_join _ N G). now apply items_all.
Qed.
(* ---- the listener ---- *)
Lemma hear_said m xs : Forall proper_said xs -> forall l, entry m (lInfo (fold_left hear (map line_of xs) l)) = match last_report m xs with Some r => Some (info_of r) | None => entry m (lInfo l) end.
Proof.
  intros F. induction F as [|x xs P F IH]; intros l; [reflexivity|]. cbn [map fold_left last_report]. rewrite IH. destruct (last_report m xs) as [r|]; [reflexivity|]. destruct x as [r|t]; cbn [line_of proper_said about] in *; unfold hear; cbn [lInfo].
  - rewrite (report_match r P). cbn [iFirst entry]. destruct (list_eq_dec ascii_dec (rMove r) m) as [D|D]; [rewrite <- D, same_refl; reflexivity|]. rewrite same_no by (intros E; now apply D). reflexivity.
  - unfold matchInfo. destruct (tailOf (tx "info ") t) as [q|] eqn:E; [|reflexivity]. apply after_some in E. now destruct (P q).
Qed.
Lemma last_proper m xs r : Forall proper_said xs -> last_report m xs = Some r -> proper_report r /\ rMove r = m.
Proof.
  intros F. induction F as [|x xs P F IH]; intros E; [discriminate|]. cbn [last_report] in E. destruct (last_report m xs) as [r'|]; [now apply IH|]. destruct x as [r'|]; [|discriminate]. cbn [about] in E.
  destruct (list_eq_dec ascii_dec (rMove r') m) as [D|]; [|discriminate]. injection E as <-. split; [exact P|exact D].
Qed.
Lemma up_all w : gapless w -> upToGap w = w. Proof. intros F. induction F as [|c w C F IH]; [reflexivity|]. cbn [upToGap]. now rewrite C, IH. Qed.
Lemma up_gap w l : gapless w -> upToGap (w ++ gap :: l) = w. Proof. intros F. induction F as [|c w C F IH]; [reflexivity|]. cbn [app upToGap]. now rewrite C, IH. Qed.
Lemma best_text m p : best_line m p = tx "bestmove " ++ join (m :: match p with Some p => [tx "ponder"; p] | None => [] end).
Proof. unfold best_line. destruct p; reflexivity. Qed.
Lemma best_heard m p : token m -> upToGap (join (m :: match p with Some p => [tx "ponder"; p] | None => [] end)) = m.
Proof. intros T. pose proof (token_gapless m T). destruct p; [rewrite join_cons; now apply up_gap|now apply up_all]. Qed.
Lemma search_heard cmd xs m p : (forall r, cmd <> tx "info " ++ r) -> Forall proper_said xs -> token m -> let l := fold_left hear (cmd :: map line_of xs ++ [best_line m p]) listen in
  bestmove l = Done m /\ entry m (lInfo l) = option_map info_of (last_report m xs).
Proof.
  intros C F T l. unfold l. cbn [fold_left]. rewrite fold_left_app. cbn [fold_left]. split.
  - unfold bestmove, hear. cbn [lLast]. rewrite best_text, after_app, (best_heard m p T). destruct T as [N _]. destruct m; [contradiction|reflexivity].
  - unfold hear at 1. cbn [lInfo]. assert (B : matchInfo (best_line m p) = None) by (rewrite best_text; reflexivity). rewrite B, (hear_said m xs F). destruct (last_report m xs); [reflexivity|].
    unfold hear, matchInfo. cbn [lInfo]. destruct (tailOf (tx "info ") cmd) as [q|] eqn:E; [apply after_some in E; now destruct (C q)|reflexivity].
Qed.
Lemma score_heard ms cmd xs m p : (forall r, cmd <> tx "info " ++ r) -> Forall proper_said xs -> token m -> let l := fold_left hear (cmd :: map line_of xs ++ [best_line m p]) listen in
  score ms l = Done (option_map (fun r => points ms (rScore r)) (last_report m xs)) /\ pv l = Done (option_map (fun r => rMove r :: rRest r) (last_report m xs)).
Proof.
  intros C F T l. destruct (search_heard cmd xs m p C F T) as [B E]. fold l in B, E. unfold score, pv. rewrite B. cbn [obind]. rewrite E. destruct (last_report m xs) as [r|] eqn:R; [|split; reflexivity]. destruct (last_proper m xs r F R) as [P _]. cbn [option_map]. split.
  - rewrite (report_split r P). cbn [obind]. destruct P as (A & D & _). rewrite !(get_numbers _ (rThen r) D) by (cbn; tauto). destruct (rScore r) as [n|n]; [reflexivity|]. cbn [worth_entry app dictGet].
    change (same (tx "cp") (tx "mate")) with false. change (same (tx "cp") (tx "score")) with false. change (same (tx "mate") (tx "mate")) with true. cbn [points]. rewrite (get_numbers (tx "cp") (rFirst r) A) by (left; reflexivity). reflexivity.
  - destruct P as (_ & _ & M). cbn [iPv info_of]. rewrite split_join; [reflexivity|discriminate|]. eapply Forall_impl; [|exact M]. intros w [X _]. now apply token_gapless.
Qed.
(* ---- the answer ---- *)
Lemma answer_best m p : token m -> match p with Some p => token p | None => True end -> answer (best_line m p) = (m, p).
Proof.
  intros T P. unfold answer. rewrite best_text. change (skipn 9 (tx "bestmove " ++ ?x)) with x. pose proof (token_gapless m T) as G. destruct p as [p|].
  - rewrite split_join; [reflexivity|discriminate|]. constructor; [exact G|]. constructor; [repeat constructor|]. constructor; [now apply token_gapless|constructor].
  - rewrite split_join; [reflexivity|discriminate|]. constructor; [exact G|constructor].
Qed.
Lemma not_ended line : ~ ends_search line -> tailOf (tx "bestmove") (pyStrip line) = None.
Proof. intros N. destruct (tailOf (tx "bestmove") (pyStrip line)) as [r|] eqn:E; [|reflexivity]. apply after_some in E. destruct N. now exists r. Qed.
Lemma go_answer ls : Forall (fun l => ~ ends_search l) ls -> forall m p sp rest h, token m -> match p with Some p => token p | None => True end -> Forall (fun c => isSpace c = true) sp ->
  forall rounds, goLoop (List.length ls + S rounds) (ls ++ (best_line m p ++ sp) :: rest) h = Some ((m, p), h ++ map pyStrip ls ++ [best_line m p], rest).
Proof.
  intros F m p sp rest h T P S rounds. revert h. induction F as [|l ls N F IH]; intros h.
  - cbn [List.length Nat.add app goLoop hd tl map]. assert (Ed : edged (best_line m p)).
    { unfold best_line. apply edged_join; [discriminate|]. constructor; [split; [discriminate|repeat constructor]|]. constructor; [exact T|]. destruct p; [|constructor]. constructor; [split; [discriminate|repeat constructor]|]. now constructor. }
    rewrite (strip_edged _ _ Ed S). assert (X : tailOf (tx "bestmove") (best_line m p) <> None) by (rewrite best_text; change (tx "bestmove ") with (tx "bestmove" ++ [gap]); rewrite <- app_assoc, after_app; discriminate).
    destruct (tailOf (tx "bestmove") (best_line m p)); [|contradiction]. now rewrite (answer_best m p T P).
  - cbn [List.length Nat.add app goLoop hd tl map]. rewrite (not_ended l N), IH, <- app_assoc. reflexivity.
Qed.
Lemma go_waits ls : Forall (fun l => ~ ends_search l) ls -> forall rounds h, goLoop rounds ls h = None.
Proof.
  intros F rounds. revert ls F. induction rounds as [|n IH]; intros ls F h; [reflexivity|]. cbn [goLoop]. destruct F as [|l ls N F]; cbn [hd tl].
  - change (tailOf (tx "bestmove") (pyStrip [])) with (@None txt). apply IH. constructor.
  - rewrite (not_ended l N). now apply IH.
Qed.
(* ---- the position command ---- *)
Lemma tx_app s t : tx (s ++ t)%string = tx s ++ tx t.
Proof. induction s as [|c s IH]; [reflexivity|]. cbn [String.append tx list_ascii_of_string app]. f_equal. exact IH. Qed.
Lemma join_moves ms : ms <> [] -> tx (String.concat "" (map (fun m => " " ++ m)%string ms)) = gap :: join (map tx ms).
Proof.
  induction ms as [|m ms IH]; [contradiction|]. intros _. destruct ms as [|v ms]; [reflexivity|]. change (map tx (m :: v :: ms)) with (tx m :: tx v :: map tx ms). rewrite join_cons.
  change (String.concat "" (map (fun m => " " ++ m)%string (m :: v :: ms))) with ((" " ++ m) ++ "" ++ String.concat "" (map (fun m => " " ++ m)%string (v :: ms)))%string.
  rewrite !tx_app, IH by discriminate. reflexivity.
Qed.
Lemma position_sent s ms : ms <> [] -> positionCommand (tx ("sfen " ++ s)) (map tx ms) = tx ("position " ++ command s ms).
Proof.
  intros N. unfold positionCommand, command. rewrite !tx_app, (join_moves ms N). rewrite <- !app_assoc. do 3 f_equal. destruct ms; [contradiction|]. reflexivity.
Qed.
From Verif Require Import Rules Bridge ClaimsGen GenClaims ClaimProofs CommandFinal.
Lemma position_agrees z s P n ms : okZob z -> sfen_denotes s P n -> well_formed P -> (n <= intMax)%Z -> legal_moves P ms -> ms <> [] ->
  exists line b, positionCommand (tx ("sfen " ++ s)) (map tx (map usi_text ms)) = tx ("position " ++ line) /\ setPosition z line = Done b /\
    same_position (abs (bpos b)) (play_all P ms) /\ map toUSI (getHistory b) = map usi_text ms.
Proof.
  intros Z D W B L N. destruct (position_legal z s P n ms Z D W B L) as (b & b' & _ & _ & E & S & _ & H & _). exists (command s (map usi_text ms)), b'. split; [|auto]. apply position_sent. destruct ms; [contradiction|discriminate].
Qed.
