(* The other exchanges with a USI engine. *)
From Verif Require Export TalkSpec EngineFinal.
From Verif Require Import EngineProofs.

Lemma word_token (w : string) : tx w <> [] -> forallb (fun c => negb (isSpace c)) (tx w) = true -> token (tx w).
Proof. intros N F. split; [exact N|]. apply Forall_forall. rewrite forallb_forall in F. intros c I. apply negb_true_iff. now apply F. Qed.
Lemma strip_word w sp : token w -> all_space sp -> pyStrip (w ++ sp) = w.
Proof. intros T S. apply strip_edged; [now apply token_edged|exact S]. Qed.
Lemma usiok_token : token (tx "usiok"). Proof. now apply word_token. Qed.
Lemma readyok_token : token (tx "readyok"). Proof. now apply word_token. Qed.
Lemma usi_lines ls : Forall (not_word "usiok") ls -> forall sp rest lines h, all_space sp ->
  forall k, usiLoop (List.length ls + S k) (ls ++ (tx "usiok" ++ sp) :: rest) lines h = Some (lines ++ map pyStrip ls, h ++ map pyStrip ls ++ [tx "usiok"], rest).
Proof.
  intros F sp rest lines h S k. revert lines h. induction F as [|l ls N F IH]; intros lines h; cbn [List.length Nat.add app usiLoop hd tl map].
  - rewrite (strip_word _ sp usiok_token S), same_refl, app_nil_r. reflexivity.
  - rewrite (same_no _ _ N), IH, <- !app_assoc. reflexivity.
Qed.
Lemma ready_heard ls : Forall (not_word "readyok") ls -> forall sp rest h, all_space sp ->
  forall k, readyLoop (List.length ls + S k) (ls ++ (tx "readyok" ++ sp) :: rest) h = Some (h ++ map pyStrip ls ++ [tx "readyok"], rest).
Proof.
  intros F sp rest h S k. revert h. induction F as [|l ls N F IH]; intros h; cbn [List.length Nat.add app readyLoop hd tl map].
  - rewrite (strip_word _ sp readyok_token S), same_refl. reflexivity.
  - rewrite (same_no _ _ N), IH, <- !app_assoc. reflexivity.
Qed.
Lemma not_begun_tail w line : not_begun w line -> tailOf (tx w) (pyStrip line) = None.
Proof. intros N. destruct (tailOf (tx w) (pyStrip line)) as [r|] eqn:E; [|reflexivity]. apply after_some in E. now destruct (N r). Qed.
Lemma mate_text ws : ws <> [] -> join (tx "checkmate" :: ws) = tx "checkmate" ++ gap :: join ws.
Proof. destruct ws as [|w ws]; [contradiction|]. intros _. apply join_cons. Qed.
Lemma mate_answer ls : Forall (not_begun "checkmate") ls -> forall ws sp rest h, ws <> [] -> Forall token ws -> all_space sp ->
  forall k, mateLoop (List.length ls + S k) (ls ++ (join (tx "checkmate" :: ws) ++ sp) :: rest) h = Some (join ws, h ++ map pyStrip ls ++ [join (tx "checkmate" :: ws)], rest).
Proof.
  intros F ws sp rest h N T S k. assert (Ed : edged (join (tx "checkmate" :: ws))) by (apply edged_join; [discriminate|]; constructor; [now apply word_token|exact T]).
  revert h. induction F as [|l ls Nl F IH]; intros h; cbn [List.length Nat.add app mateLoop hd tl map].
  - rewrite (strip_edged _ _ Ed S), (mate_text ws N), after_app. reflexivity.
  - rewrite (not_begun_tail _ l Nl), IH, <- !app_assoc. reflexivity.
Qed.
Lemma name_text ws : ws <> [] -> join (tx "id" :: tx "name" :: ws) = tx "id name" ++ gap :: join ws.
Proof. destruct ws as [|w ws]; [contradiction|]. intros _. reflexivity. Qed.
Lemma connect_name xs : Forall proper_greeting xs -> forall sp rest name, all_space sp ->
  forall k, connectLoop (List.length xs + S k) (map greeting_line xs ++ (tx "usiok" ++ sp) :: rest) name = Some (match last_name xs with Some n => Some n | None => name end, rest).
Proof.
  intros F sp rest name S k. revert name. induction F as [|x xs P F IH]; intros name; cbn [List.length Nat.add map app connectLoop hd tl last_name].
  - rewrite (strip_word _ sp usiok_token S). reflexivity.
  - destruct x as [ws|line]; cbn [greeting_line proper_greeting] in *.
    + destruct P as [N T]. assert (Ed : edged (join (tx "id" :: tx "name" :: ws))) by (apply edged_join; [discriminate|]; constructor; [now apply word_token|]; constructor; [now apply word_token|exact T]).
      pose proof (strip_edged _ [] Ed (Forall_nil _)) as St. rewrite app_nil_r in St. rewrite St, (name_text ws N), after_app, IH. change (skipn 8 (tx "id name" ++ gap :: join ws)) with (join ws). destruct (last_name xs); reflexivity.
    + destruct P as [N1 N2]. rewrite (not_begun_tail _ line N1), (same_no _ _ N2), IH. destruct (last_name xs); reflexivity.
Qed.
Lemma printZ_gapless n : gapless (printZ n).
Proof.
  unfold printZ. assert (X : forall m, gapless (printN m)).
  { intros m. destruct (printN_digits m) as (_ & D & _). eapply Forall_impl; [|exact D]. intros c C. destruct (Ascii.eqb_spec c gap) as [->|]; [discriminate C|reflexivity]. }
  destruct (n <? 0)%Z; [constructor; [reflexivity|]|]; apply X.
Qed.
Definition spaced (ws : list txt) : txt := List.concat (map (fun w => gap :: w) ws).
Lemma spaced_join w ws : join (w :: ws) = w ++ spaced ws.
Proof. revert w. induction ws as [|v ws IH]; intros w; [cbn; now rewrite app_nil_r|]. rewrite join_cons, IH. reflexivity. Qed.
Lemma spaced_app a b : spaced (a ++ b) = spaced a ++ spaced b. Proof. unfold spaced. now rewrite map_app, concat_app. Qed.
Lemma given_text name v : tx (String " " name) ++ [gap] = tx (String " " name ++ " ") -> option_text (String " " name ++ " ") v = spaced (given name v).
Proof. intros E. destruct v as [n|]; [|reflexivity]. unfold option_text, given, spaced. cbn [map List.concat]. rewrite <- E, app_nil_r. cbn. now rewrite <- app_assoc. Qed.
Lemma go_text a : goCommand a = join (go_words a).
Proof.
  unfold go_words. change ([tx "go"] ++ ?x) with (tx "go" :: x). rewrite spaced_join, !spaced_app. unfold goCommand. f_equal.
  f_equal; [destruct (gPonder a); reflexivity|]. f_equal; [exact (given_text "btime" (gBtime a) eq_refl)|]. f_equal; [exact (given_text "wtime" (gWtime a) eq_refl)|].
  rewrite app_assoc. f_equal; [|exact (given_text "nodes" (gNodes a) eq_refl)].
  destruct (gByoyomi a) as [n|]; [cbn [given]; rewrite app_nil_r; exact (given_text "byoyomi" (Some n) eq_refl)|]. cbn [given]. change (spaced []) with (@nil ascii). cbn [app]. rewrite spaced_app. f_equal; [exact (given_text "binc" (gBinc a) eq_refl)|exact (given_text "winc" (gWinc a) eq_refl)].
Qed.
Lemma given_gapless name v : gapless (tx name) -> Forall gapless (given name v).
Proof. intros G. destruct v; [|constructor]. constructor; [exact G|]. constructor; [apply printZ_gapless|constructor]. Qed.
Lemma go_command a : split1 (goCommand a) = go_words a.
Proof.
  rewrite go_text. apply split_join; [discriminate|]. unfold go_words. repeat (apply Forall_app; split).
  - repeat constructor.
  - destruct (gPonder a); repeat constructor.
  - apply given_gapless; repeat constructor.
  - apply given_gapless; repeat constructor.
  - apply given_gapless; repeat constructor.
  - destruct (gByoyomi a); [constructor|]. apply Forall_app; split; apply given_gapless; repeat constructor.
  - apply given_gapless; repeat constructor.
Qed.
(* nothing is raised when the engine ends *)
Lemma usi_waits ls : Forall (not_word "usiok") ls -> forall k lines h, usiLoop k ls lines h = None.
Proof.
  intros F k. revert ls F. induction k as [|k IH]; intros ls F lines h; [reflexivity|]. cbn [usiLoop]. destruct F as [|l ls N F]; cbn [hd tl]; [apply IH; constructor|]. rewrite (same_no _ _ N). now apply IH.
Qed.
Lemma ready_waits ls : Forall (not_word "readyok") ls -> forall k h, readyLoop k ls h = None.
Proof.
  intros F k. revert ls F. induction k as [|k IH]; intros ls F h; [reflexivity|]. cbn [readyLoop]. destruct F as [|l ls N F]; cbn [hd tl]; [apply IH; constructor|]. rewrite (same_no _ _ N). now apply IH.
Qed.
Lemma name_given : forall xs sp rest, Forall proper_greeting xs -> all_space sp -> exists n, forall k, connectLoop (n + S k) (map greeting_line xs ++ (tx "usiok" ++ sp) :: rest) None = Some (last_name xs, rest).
Proof. intros xs sp rest F S. exists (List.length xs). intros k. rewrite (connect_name xs F sp rest None S k). destruct (last_name xs); reflexivity. Qed.
(* an engine that is started *)
Definition greetings : list greeting := [Name [tx "Engine"]; Remark (tx "id author someone"); Name [tx "Strong"; tx "Engine"; tx "3"]; Remark (tx "option name USI_Hash type spin default 256")].
Lemma greetings_meet : Forall proper_greeting greetings /\ last_name greetings = Some (tx "Strong Engine 3") /\ Forall (not_word "usiok") (map greeting_line greetings) /\
  Forall (not_word "readyok") (map greeting_line greetings) /\ Forall (not_begun "checkmate") (map greeting_line greetings) /\ Forall token [tx "7g7f"; tx "nomate"] /\
  goCommand (mkLimits true (Some 60000%Z) (Some 50000%Z) None (Some 1000%Z) None None) = tx "go ponder btime 60000 wtime 50000 binc 1000".
Proof.
  split; [|split; [reflexivity|split; [|split; [|split; [|split]]]]].
  - unfold greetings. constructor; [split; [discriminate|]; repeat (constructor; [now apply word_token|]); constructor|]. constructor; [split; [intros r E; vm_compute in E; discriminate E|intros E; vm_compute in E; discriminate E]|].
    constructor; [split; [discriminate|]; repeat (constructor; [now apply word_token|]); constructor|]. constructor; [split; [intros r E; vm_compute in E; discriminate E|intros E; vm_compute in E; discriminate E]|constructor].
  - unfold greetings. cbn [map greeting_line]. do 4 (constructor; [intros E; vm_compute in E; discriminate E|]). constructor.
  - unfold greetings. cbn [map greeting_line]. do 4 (constructor; [intros E; vm_compute in E; discriminate E|]). constructor.
  - unfold greetings. cbn [map greeting_line]. do 4 (constructor; [intros r E; vm_compute in E; discriminate E|]). constructor.
  - repeat (constructor; [now apply word_token|]). constructor.
  - vm_compute. reflexivity.
Qed.
