(* Proofs about CSA game records. *)
From Verif Require Import SfenInput Turn SfenFinal CommandFinal RotateProofs HistProofs.
From Verif Require Export CsaBlock CommandSpec.
Local Open Scope N_scope.

(* ---- lines of a text ---- *)
Lemma split_one l : ~ In newline l -> splitLines l = [l].
Proof. induction l as [|c l IH]; intros N; [reflexivity|]. cbn [splitLines]. destruct (Ascii.eqb_spec c newline) as [->|_]; [destruct N; now left|]. rewrite IH; [reflexivity|]. intros X. apply N. now right. Qed.
Lemma split_feed l r : ~ In newline l -> splitLines (l ++ newline :: r) = l :: splitLines r.
Proof. induction l as [|c l IH]; intros N; [reflexivity|]. cbn [app splitLines]. destruct (Ascii.eqb_spec c newline) as [->|_]; [destruct N; now left|]. rewrite IH; [reflexivity|]. intros X. apply N. now right. Qed.
Lemma joined_lines ls : ls <> [] -> Forall one_line ls -> splitLines (la (joined ls)) = map la ls.
Proof.
  intros N F. induction F as [|l ls H F IH]; [now destruct N|]. destruct ls as [|l' ls]; [cbn [map]; apply split_one; exact H|].
  change (joined (l :: l' :: ls)) with (l ++ String newline "" ++ joined (l' :: ls))%string. rewrite !la_app. change (la (String newline "")) with [newline]. cbn [app map]. rewrite split_feed by exact H. f_equal. apply IH. discriminate.
Qed.
Section Lines.
Context (z : Zob) (stof : string -> outcome N).
Notation allLines := (allLines z stof). Notation oneLine := (oneLine z stof).
Lemma allLines_app a b g : allLines (a ++ b) g = obind (allLines a g) (allLines b).
Proof. revert g. induction a as [|l a IH]; intros g; [reflexivity|]. cbn [app Csa.allLines]. destruct (oneLine l g) as [g'| |]; [|reflexivity|reflexivity]. cbn [obind]. destruct (initialise z g') as [g2| |]; [cbn [obind]; apply IH|reflexivity|reflexivity]. Qed.
Lemma starts_iff p s : starts p (la s) = true <-> begins p s.
Proof.
  unfold starts, begins. rewrite String.eqb_eq. split.
  - intros E. exists (sa (skipn (String.length p) (la s))). change string_of_list_ascii with sa in E. transitivity (sa (la s)); [symmetry; apply sa_la|]. rewrite <- (firstn_skipn (String.length p) (la s)) at 1. now rewrite sa_app, E.
  - intros [t ->]. rewrite la_app, firstn_app. assert (L : List.length (la p) = String.length p) by (clear; induction p as [|c p IH]; [reflexivity|]; cbn; now rewrite IH). rewrite <- L, firstn_all, Nat.sub_diag. cbn [firstn]. rewrite app_nil_r. apply sa_la.
Qed.
Lemma starts_not p s : ~ begins p s -> starts p (la s) = false. Proof. rewrite <- starts_iff. now destruct (starts p (la s)). Qed.
Lemma comment_one s g : comment_line s -> oneLine (la s) g = Done (withComment g (gComment g ++ s ++ String newline "")).
Proof.
  intros ([t E] & N1 & N2 & N3 & N4). unfold Csa.oneLine. assert (C : charOf (la s) 0 = "'"%char) by (rewrite E; reflexivity). rewrite C. change (Ascii.eqb "'" Ascii.zero) with false. change (Ascii.eqb "'" "'") with true. cbv iota.
  rewrite !starts_not by assumption. unfold commentLine. cbv zeta. rewrite starts_not by assumption. unfold textOf. now rewrite sa_la.
Qed.
Lemma blank_one g : oneLine (la "") g = Done g. Proof. reflexivity. Qed.
Lemma init_some g p : gPos g = Some p -> initialise z g = Done g. Proof. intros E. unfold initialise. now rewrite E. Qed.
Lemma init_none g : gPos g = None -> gTurnStr g = ""%string -> initialise z g = Done g. Proof. intros E F. unfold initialise. now rewrite E, F. Qed.
Lemma last_cons {A} (x : A) l d : last (x :: l) d = last l x.
Proof. revert x d. induction l as [|y l IH]; intros x d; [reflexivity|]. change (last (x :: y :: l) d) with (last (y :: l) d). now rewrite !IH. Qed.
Definition feed (ss : list string) : string := ended ss.
Lemma feed_cons s ss : (feed (s :: ss) = (s ++ String newline "") ++ feed ss)%string.
Proof.
  rewrite <- (sa_la (feed (s :: ss))), <- (sa_la ((s ++ _) ++ _)%string). f_equal. unfold feed. rewrite la_app, !ended_chars, la_app. reflexivity.
Qed.
Lemma feed_nil : feed [] = ""%string. Proof. reflexivity. Qed.
Lemma header_one h s g : header_text h s -> oneLine (la s) g = Done (mkRecord (last (versions h) (gVersion g)) (gInfos g ++ informations h) (gSfen g) (gEndgame g)
  (last (names_of Sente h) (fst (gNames g)), last (names_of Gote h) (snd (gNames g))) (gRatings g) (gMoves g) (gTimes g) (gScores g) (gComments g) (gComment g ++ feed (header_comments h)) (gPos g) (gLines g) (gTurnStr g) (gLose g)).
Proof.
  destruct g as [v i sf en [n0 n1] ra ms ts ss cs cm p ls tu lo]. destruct h as [w|c n|w|w|]; cbn [header_text versions names_of informations header_comments last gVersion gInfos gSfen gEndgame gNames gRatings gMoves gTimes gScores gComments gComment gPos gLines gTurnStr gLose fst snd]; rewrite ?app_nil_r, ?feed_nil, ?sapp_nil.
  - intros [-> [t ->]]. change (la ("V" ++ t)) with ("V"%char :: la t). unfold Csa.oneLine, charOf. cbn [nth]. repeat (change (Ascii.eqb "V" ?c) with false || change (Ascii.eqb "V" "V") with true). cbv iota. unfold withVersion, textOf. cbn [gVersion gInfos gSfen gEndgame gNames gRatings gMoves gTimes gScores gComments gComment gPos gLines gTurnStr gLose]. do 2 f_equal. exact (sa_la ("V" ++ t)).
  - intros ->. destruct c; cbn [color_eqb last].
    + change (la ("N" ++ csa_sign Sente ++ n)) with ("N"%char :: "+"%char :: la n). unfold Csa.oneLine, charOf. cbn [nth skipn]. repeat (change (Ascii.eqb "N" "N") with true || change (Ascii.eqb "+" "+") with true || change (Ascii.eqb "N" ?c) with false). cbv iota. unfold withNames, textOf. rewrite sa_la. reflexivity.
    + change (la ("N" ++ csa_sign Gote ++ n)) with ("N"%char :: "-"%char :: la n). unfold Csa.oneLine, charOf. cbn [nth skipn]. repeat (change (Ascii.eqb "N" "N") with true || change (Ascii.eqb "-" "-") with true || change (Ascii.eqb "N" ?c) with false || change (Ascii.eqb "-" "+") with false). cbv iota. unfold withNames, textOf. rewrite sa_la. reflexivity.
  - intros [-> [t ->]]. change (la ("$" ++ t)) with ("$"%char :: la t). unfold Csa.oneLine, charOf. cbn [nth]. repeat (change (Ascii.eqb "$" "$") with true || change (Ascii.eqb "$" ?c) with false). cbv iota. unfold withInfos, textOf. cbn [gVersion gInfos gSfen gEndgame gNames gRatings gMoves gTimes gScores gComments gComment gPos gLines gTurnStr gLose]. do 4 f_equal. exact (sa_la ("$" ++ t)).
  - intros [-> C]. rewrite comment_one by exact C. unfold withComment. cbn [gVersion gInfos gSfen gEndgame gNames gRatings gMoves gTimes gScores gComments gComment gPos gLines gTurnStr gLose]. rewrite feed_cons, feed_nil, sapp_nil. reflexivity.
  - intros ->. reflexivity.
Qed.
Lemma last_app {A} (a b : list A) d : last (a ++ b) d = last b (last a d).
Proof. revert d. induction a as [|x a IH]; intros d; [reflexivity|]. cbn [app]. rewrite !last_cons. apply IH. Qed.
Lemma feed_app a b : feed (a ++ b) = (feed a ++ feed b)%string.
Proof. induction a as [|x a IH]; [reflexivity|]. cbn [app]. rewrite !feed_cons, IH. now rewrite <- !sapp_assoc. Qed.
Lemma header_lines hs ss : Forall2 header_text hs ss -> forall g, gPos g = None -> gTurnStr g = ""%string ->
  allLines (map la ss) g = Done (mkRecord (last (flat_map versions hs) (gVersion g)) (gInfos g ++ flat_map informations hs) (gSfen g) (gEndgame g)
  (last (flat_map (names_of Sente) hs) (fst (gNames g)), last (flat_map (names_of Gote) hs) (snd (gNames g))) (gRatings g) (gMoves g) (gTimes g) (gScores g) (gComments g) (gComment g ++ feed (flat_map header_comments hs)) (gPos g) (gLines g) (gTurnStr g) (gLose g)).
Proof.
  induction 1 as [|h s hs ss H F IH]; intros g E T.
  - destruct g as [v i sf en [n0 n1] ra ms ts sc cs cm p ls tu lo]. cbn. now rewrite app_nil_r, sapp_nil.
  - cbn [map Csa.allLines flat_map]. rewrite (header_one h s g H). cbn [obind]. rewrite init_none by assumption. cbn [obind]. rewrite IH by assumption. cbn [gVersion gInfos gSfen gEndgame gNames gRatings gMoves gTimes gScores gComments gComment gPos gLines gTurnStr gLose fst snd].
    rewrite !last_app, feed_app, <- !app_assoc, !sapp_assoc. reflexivity.
Qed.
Lemma between_lines ss : Forall between_line ss -> forall g p, gPos g = Some p -> allLines (map la ss) g = Done (withComment g (gComment g ++ feed (filter (fun s => negb (String.eqb s "")) ss))).
Proof.
  induction 1 as [|s ss H F IH]; intros g p E.
  - cbn [map Csa.allLines filter]. rewrite feed_nil, sapp_nil. now destruct g.
  - cbn [map Csa.allLines filter]. destruct H as [->|C].
    + rewrite blank_one. cbn [obind]. rewrite (init_some g p E). cbn [obind]. rewrite (IH g p E). reflexivity.
    + rewrite comment_one by exact C. cbn [obind]. rewrite (init_some _ p) by exact E. cbn [obind]. rewrite (IH _ p) by exact E. destruct (String.eqb_spec s "") as [->|_]; [destruct C as [[t Q] _]; discriminate|]. cbn [negb]. rewrite feed_cons. unfold withComment. cbn [gVersion gInfos gSfen gEndgame gNames gRatings gMoves gTimes gScores gComments gComment gPos gLines gTurnStr gLose]. now rewrite !sapp_assoc.
Qed.
(* ---- the position ---- *)
Lemma p_line s g : begins "P" s -> oneLine (la s) g = Done (withLine g (la s)).
Proof. intros [t ->]. change (la ("P" ++ t)) with ("P"%char :: la t). reflexivity. Qed.
Lemma p_lines ss : Forall (begins "P") ss -> forall g, gPos g = None -> gTurnStr g = ""%string ->
  allLines (map la ss) g = Done (mkRecord (gVersion g) (gInfos g) (gSfen g) (gEndgame g) (gNames g) (gRatings g) (gMoves g) (gTimes g) (gScores g) (gComments g) (gComment g) None (gLines g ++ map la ss) "" (gLose g)).
Proof.
  induction 1 as [|s ss H F IH]; intros g E T.
  - destruct g. cbn in *. subst. now rewrite app_nil_r.
  - cbn [map Csa.allLines]. rewrite p_line by exact H. cbn [obind]. rewrite init_none by assumption. cbn [obind]. rewrite IH by assumption. cbn [withLine gVersion gInfos gSfen gEndgame gNames gRatings gMoves gTimes gScores gComments gComment gPos gLines gTurnStr gLose]. now rewrite <- app_assoc.
Qed.
Lemma block_shape P ls : csa_block P ls -> exists ps, ls = ps ++ [csa_sign (side P)] /\ Forall (begins "P") ps.
Proof.
  intros [hs H1 H2|gone H1 H2 H3 H4 H5].
  - exists (map (csa_rank P) [1; 2; 3; 4; 5; 6; 7; 8; 9]%Z ++ map csa_hand hs). split; [now rewrite <- app_assoc|]. apply Forall_app. split; apply Forall_forall; intros s I; apply in_map_iff in I as (x & <- & _); eexists; reflexivity.
  - exists [csa_initial gone]. split; [reflexivity|]. constructor; [|constructor]. exists ("I" ++ String.concat "" (map (fun x => csa_square (fst x) ++ csa_name (snd x)) gone))%string. reflexivity.
Qed.
Lemma sign_one c g : oneLine (la (csa_sign c)) g = Done (withLine (withTurnStr g (csa_sign c)) (la (csa_sign c))). Proof. destruct c; reflexivity. Qed.
Lemma block_lines P ls : csa_block P ls -> proper P -> forall g, gPos g = None -> gTurnStr g = ""%string -> gLines g = [] ->
  exists sfen p, allLines (map la ls) g = Done (mkRecord (gVersion g) (gInfos g) sfen (gEndgame g) (gNames g) (gRatings g) (gMoves g) (gTimes g) (gScores g) (gComments g) (gComment g) (Some p) (map la ls) (csa_sign (side P)) (gLose g)) /\
    sfen_denotes sfen P 1 /\ setSfenPos z (la sfen) = Done p /\ fresh z p /\ same_position (abs p) P /\ gamePly p = 1%Z.
Proof.
  intros B Pr g E T L. destruct (block_sfen P ls B (pr_hand0 P Pr)) as (s & Es & D). destruct (sfen_reads z s P 1 D Pr) as (p & Rd & F & S & G); [vm_compute; discriminate|].
  exists s, p. split; [|tauto]. destruct (block_shape P ls B) as (ps & -> & Fp). rewrite map_app, allLines_app, p_lines by assumption. cbn [obind map Csa.allLines]. rewrite sign_one. cbn [obind]. rewrite L.
  unfold initialise. cbn [withLine withTurnStr gPos gTurnStr gLines]. replace (String.eqb (csa_sign (side P)) "") with false by (destruct (side P); reflexivity). rewrite map_app in Es. cbn [map app] in *. rewrite Es. cbn [obind]. change list_ascii_of_string with la. rewrite Rd. reflexivity.
Qed.
End Lines.
